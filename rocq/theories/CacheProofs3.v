(** Proofs about caches: results are unique; grants. *)
From Coq Require Import List ZArith Lia Bool Arith Permutation.
From Coq Require Import String.
From Verif Require Import Base PyStr CacheModel CacheSpec CacheProofs CacheProofs2.
Import ListNotations.
Local Open Scope list_scope.

Section P.
Context {rec : Type} `{EqDec rec}.
Variable dir : str.
Variable parse : kind -> str -> str -> option (list N) -> res (option (str * list rec * option exn)).
Variable enc : stamp * coll rec -> list N.
Variable dec : list N -> res (stamp * coll rec).
Notation tick := (tick dir parse enc dec).
Notation step := (step dir parse enc dec).
Notation run := (run dir parse enc dec).
Notation cache_name := (cache_name dir).
Notation no_coll := (no_coll (rec := rec) dir).
Notation collect := (collect parse).
Notation returns := (returns dir parse enc dec).

Definition ostat (fs : files) (todo : list str) (c : coll rec) : res (coll rec) := if forallb (fun f => dhas f fs) todo then Ok c else Raise FileNotFoundError.
Definition oread (a : call) (fs : files) (fl todo : list str) (c : coll rec) : res (coll rec) :=
  match collect a fs todo c with Raise e => Raise e | Ok c' => if a_cached a then ostat fs fl c' else Ok c' end.
Definition oload (a : call) (fs : files) (fl : list str) : res (coll rec) :=
  match dget (cache_name a) fs with
  | None => oread a fs fl fl (no_coll a)
  | Some (_, b) => match load_cache dir dec a fs fl b with
                   | Ok c => Ok c
                   | Raise CacheError | Raise KeyError | Raise FileNotFoundError => oread a (ddel (cache_name a) fs) fl fl (no_coll a)
                   | Raise e => Raise e
                   end
  end.
Definition outcome (a : call) (fs : files) (p : phase rec) : res (coll rec) :=
  match p with
  | Listing => if a_cached a then oload a fs (listing a fs) else oread a fs (listing a fs) (listing a fs) (no_coll a)
  | Loading fl => oload a fs fl
  | Reading fl todo c => oread a fs fl todo c
  | Stating fl todo c _ => ostat fs todo c
  | Opening c _ => Ok c
  | Writing c _ => Ok c
  | Done r => r
  end.
Lemma outcome_tick a n m fs p : let '(fs', p') := tick a n m fs p in outcome a fs' p' = outcome a fs p.
Proof.
  destruct p as [|fl|fl todo c|fl todo c times|c v|c more|r]; cbn [CacheModel.tick outcome].
  - destruct (a_cached a); reflexivity.
  - unfold oload. destruct (dget (cache_name a) fs) as [[m0 b]|]; [|reflexivity]. destruct (load_cache dir dec a fs fl b) as [c|e]; [reflexivity|]. destruct e; reflexivity.
  - destruct todo as [|f todo].
    + unfold oread. cbn [CacheProofs.collect]. destruct (a_cached a); reflexivity.
    + unfold oread. cbn [CacheProofs.collect]. destruct (read_file parse a fs f c); reflexivity.
  - destruct todo as [|f todo]; [reflexivity|]. unfold ostat. cbn [forallb]. rewrite dhas_dget. destruct (dget f fs) as [[t b]|]; reflexivity.
  - reflexivity.
  - destruct more as [|x more]; [reflexivity|]. destruct (dget (cache_name a) fs) as [[m0 b]|]; reflexivity.
  - reflexivity.
Qed.
Lemma outcome_run a : forall ts fs p fs' p', (forall e, In e ts -> exists n m, e = Tick n m) -> run ts (mkWorld fs (Some (a, p))) = mkWorld fs' (Some (a, p')) -> outcome a fs' p' = outcome a fs p.
Proof.
  induction ts as [|e ts IH]; intros fs p fs' p' T R; [injection R as <- <-; reflexivity|]. destruct (T e (or_introl eq_refl)) as (n & m & ->).
  change (run (Tick n m :: ts) (mkWorld fs (Some (a, p)))) with (run ts (step (mkWorld fs (Some (a, p))) (Tick n m))) in R. cbn [CacheModel.step w_run w_files] in R.
  pose proof (outcome_tick a n m fs p) as O. destruct (tick a n m fs p) as [fs1 p1]. rewrite <- O. apply (IH fs1 p1 fs' p'); [intros; apply T; now right|exact R].
Qed.
Lemma returns_outcome a fs r fs' : returns a fs r fs' -> r = outcome a fs Listing.
Proof. intros (ts & T & R). exact (outcome_run a ts fs Listing fs' (Done r) T R). Qed.
Theorem one_result a fs r1 fs1 r2 fs2 : returns a fs r1 fs1 -> returns a fs r2 fs2 -> r1 = r2.
Proof. intros R1 R2. rewrite (returns_outcome _ _ _ _ R1), (returns_outcome _ _ _ _ R2). reflexivity. Qed.

(** ** Grants *)
Lemma dset_new {V} (k : str) (v : V) (d : dict str V) : dhas k d = false -> dset k v d = d ++ [(k, v)].
Proof. rewrite dhas_dget. induction d as [|[k' v'] d IH]; intros E; [reflexivity|]. cbn [dget dset] in *. destruct (eqb k k'); [discriminate|]. cbn [app]. rewrite IH; auto. Qed.
Lemma dset_last {V} (k : str) (v v' : V) (d : dict str V) : dhas k d = false -> dset k v (d ++ [(k, v')]) = d ++ [(k, v)].
Proof. rewrite dhas_dget. induction d as [|[k1 v1] d IH]; intros E; cbn [dget dset app] in *; [rewrite eqb_refl; reflexivity|]. destruct (eqb k k1); [discriminate|]. rewrite IH; auto. Qed.
Lemma ddel_last {V} (k : str) (v' : V) (d : dict str V) : dhas k d = false -> ddel k (d ++ [(k, v')]) = d.
Proof. rewrite dhas_dget. induction d as [|[k1 v1] d IH]; intros E; cbn [dget ddel app] in *; [rewrite eqb_refl; reflexivity|]. destruct (eqb k k1); [discriminate|]. rewrite IH; auto. Qed.
Lemma dget_last_ {V} (k : str) (v' : V) (d : dict str V) : dhas k d = false -> dget k (d ++ [(k, v')]) = Some v'.
Proof. rewrite dhas_dget. induction d as [|[k1 v1] d IH]; intros E; cbn [dget app] in *; [rewrite eqb_refl; reflexivity|]. destruct (eqb k k1); [discriminate|]. rewrite IH; auto. Qed.
Lemma all_listed a (fs : files) : a_kind a = Grants -> a_ext a = [] -> listing a fs = dkeys fs.
Proof. intros K X. unfold listing. induction (dkeys fs) as [|f l IH]; [reflexivity|]. cbn [filter]. unfold wanted at 1. rewrite K, X. cbn. rewrite IH. reflexivity. Qed.
Definition gstamp (a : call) (fs0 : files) (c : coll rec) (v : stamp * coll rec) : Prop :=
  exists times, length times = length fs0 /\ v = (mkStamp (a_ver a) times (call_name dir a) (a_ext a), c) /\ collect a fs0 (dkeys fs0) (no_coll a) = Ok c.
Definition ginv (a : call) (fs0 fs : files) (p : phase rec) : Prop :=
  match p with
  | Listing => fs = fs0
  | Loading fl => fs = fs0 /\ fl = dkeys fs0
  | Reading fl todo c => fs = fs0 /\ fl = dkeys fs0 /\ exists done, fl = done ++ todo /\ collect a fs0 done (no_coll a) = Ok c
  | Stating fl todo c times => fs = fs0 /\ fl = dkeys fs0 /\ collect a fs0 fl (no_coll a) = Ok c /\ exists done, fl = done ++ todo /\ dkeys times = done
  | Opening c v => fs = fs0 /\ gstamp a fs0 c v
  | Writing c more => exists v m b, gstamp a fs0 c v /\ fs = fs0 ++ [(cache_name a, (m, b))] /\ enc v = b ++ more
  | Done (Ok c) => exists v m, gstamp a fs0 c v /\ fs = fs0 ++ [(cache_name a, (m, enc v))]
  | Done (Raise _) => True
  end.
Lemma ginv_tick a n m fs0 fs p : NoDup (dkeys fs0) -> a_kind a = Grants -> a_ext a = [] -> a_cached a = true -> dhas (cache_name a) fs0 = false -> ginv a fs0 fs p -> let '(fs', p') := tick a n m fs p in ginv a fs0 fs' p'.
Proof.
  intros ND K X CA NC I. destruct p as [|fl|fl todo c|fl todo c times|c v|c more|r]; cbn [CacheModel.tick]; cbn [ginv] in I.
  - subst fs. rewrite CA. split; [reflexivity|]. apply all_listed; auto.
  - destruct I as [-> ->]. pose proof NC as NC'. rewrite dhas_dget in NC'. destruct (dget (cache_name a) fs0); [discriminate|]. split; [reflexivity|]. split; [reflexivity|]. exists []. split; reflexivity.
  - destruct I as (-> & -> & done & EL & CO). destruct todo as [|f todo].
    + rewrite CA. rewrite app_nil_r in EL. split; [reflexivity|]. split; [reflexivity|]. split; [rewrite EL; exact CO|]. exists []. split; reflexivity.
    + destruct (read_file parse a fs0 f c) as [c'|e] eqn:R; [|exact Logic.I]. split; [reflexivity|]. split; [reflexivity|]. exists (done ++ [f]). split; [rewrite <- app_assoc; exact EL|]. rewrite collect_app, CO. cbn [CacheProofs.collect]. rewrite R. reflexivity.
  - destruct I as (-> & -> & CO & done & EL & T). destruct todo as [|f todo].
    + split; [reflexivity|]. exists times. split; [|split; [reflexivity|exact CO]]. rewrite app_nil_r in EL. rewrite <- EL in T. unfold dkeys in T. rewrite <- (map_length fst times), T, map_length. reflexivity.
    + destruct (dget f fs0) as [[t b]|]; [|exact Logic.I]. split; [reflexivity|]. split; [reflexivity|]. split; [exact CO|]. exists (done ++ [f]). split; [rewrite <- app_assoc; exact EL|]. rewrite dkeys_dset, T.
      destruct (dhas f times) eqn:DH; [|reflexivity]. exfalso. apply dhas_spec in DH. rewrite T in DH. rewrite EL in ND. apply NoDup_remove_2 in ND. apply ND. apply in_app_iff. left. exact DH.
  - destruct I as (-> & G). exists v, m, []. split; [exact G|]. split; [apply dset_new; exact NC|reflexivity].
  - destruct I as (v & m0 & b & G & -> & E). destruct more as [|x more].
    + exists v, m0. split; [exact G|]. rewrite E, app_nil_r. reflexivity.
    + rewrite (dget_last_ _ _ _ NC). exists v, m, (b ++ firstn (S n) (x :: more)). split; [exact G|]. split; [apply dset_last; exact NC|]. rewrite <- app_assoc, firstn_skipn. exact E.
  - exact I.
Qed.
Lemma ginv_run a fs0 : NoDup (dkeys fs0) -> a_kind a = Grants -> a_ext a = [] -> a_cached a = true -> dhas (cache_name a) fs0 = false -> forall ts fs p fs' p', (forall e, In e ts -> exists n m, e = Tick n m) ->
  run ts (mkWorld fs (Some (a, p))) = mkWorld fs' (Some (a, p')) -> ginv a fs0 fs p -> ginv a fs0 fs' p'.
Proof.
  intros ND K X CA NC. induction ts as [|e ts IH]; intros fs p fs' p' T R I; [injection R as <- <-; exact I|]. destruct (T e (or_introl eq_refl)) as (n & m & ->).
  change (run (Tick n m :: ts) (mkWorld fs (Some (a, p)))) with (run ts (step (mkWorld fs (Some (a, p))) (Tick n m))) in R. cbn [CacheModel.step w_run w_files] in R.
  pose proof (ginv_tick a n m fs0 fs p ND K X CA NC I) as O. destruct (tick a n m fs p) as [fs1 p1]. apply (IH fs1 p1 fs' p'); [intros; apply T; now right|exact R|exact O].
Qed.
Theorem grants_twice a fs c fs' : (forall v, dec (enc v) = Ok v) -> NoDup (dkeys fs) -> a_kind a = Grants -> a_ext a = [] -> a_cached a = true -> dhas (cache_name a) fs = false ->
  parse Grants (a_ver a) (cache_name a) None = Ok None -> returns a fs (Ok c) fs' -> returns a fs' (Raise FileNotFoundError) fs.
Proof.
  intros PK ND K X CA NC PN (ts & T & R). change (run (Call a :: ts) (mkWorld fs None)) with (run ts (mkWorld fs (Some (a, Listing)))) in R.
  pose proof (ginv_run a fs ND K X CA NC ts fs Listing fs' (Done (Ok c)) T R eq_refl) as (v & m & (times & LT & EV & CO) & ->).
  set (fl := dkeys fs ++ [cache_name a]).
  assert (L : listing a (fs ++ [(cache_name a, (m, enc v))]) = fl) by (rewrite all_listed by auto; unfold dkeys, fl; rewrite map_app; reflexivity).
  assert (LC : load_cache dir dec a (fs ++ [(cache_name a, (m, enc v))]) fl (enc v) = Raise CacheError).
  { unfold load_cache. rewrite PK, EV. cbn [s_ver s_name s_ext s_files]. rewrite !eqb_refl. cbn [negb]. unfold fl, dkeys. rewrite app_length, map_length. cbn [length]. destruct (Nat.eqb_spec (length fs + 1) (length times)); [lia|]. reflexivity. }
  assert (ABS : dget (cache_name a) fs = None) by (rewrite dhas_dget in NC; destruct (dget (cache_name a) fs); [discriminate|reflexivity]).
  assert (CO2 : collect a fs fl (no_coll a) = Ok c).
  { unfold fl. rewrite collect_app, CO. cbn [CacheProofs.collect]. unfold read_file. rewrite ABS, K. cbn [option_map]. rewrite PN, X, eqb_refl. reflexivity. }
  destruct (reading_ends dir parse enc dec a fs fl fl (no_coll a)) as [n1 E1]. rewrite CO2 in E1.
  destruct (stating_ends dir parse enc dec a fs fl c fl []) as [n2 E2].
  assert (FD : exists g, find (fun f => negb (dhas f fs)) fl = Some g).
  { destruct (find (fun f => negb (dhas f fs)) fl) eqn:F; [eauto|]. exfalso. pose proof (find_none _ _ F (cache_name a)) as FN. cbn beta in FN. rewrite NC in FN. specialize (FN ltac:(unfold fl; apply in_app_iff; right; now left)). discriminate. }
  destruct FD as [g FD]. rewrite FD in E2.
  exists (ticks (2 + (n1 + (1 + n2)))). split; [apply ticks_are|]. change (run (Call a :: ticks (2 + (n1 + (1 + n2)))) (mkWorld (fs ++ [(cache_name a, (m, enc v))]) None)) with (run (ticks (2 + (n1 + (1 + n2)))) (mkWorld (fs ++ [(cache_name a, (m, enc v))]) (Some (a, Listing)))).
  eapply then_.
  - rewrite run_tick. cbn [CacheModel.tick]. rewrite CA, L. rewrite run_tick. cbn [CacheModel.tick]. rewrite (dget_last_ _ _ _ NC), LC, (ddel_last _ _ _ NC). reflexivity.
  - eapply then_; [exact E1|]. eapply then_; [rewrite run_tick; cbn [CacheModel.tick]; rewrite CA; reflexivity|exact E2].
Qed.
End P.
