(** Proofs about caches: histories. *)
From Coq Require Import List ZArith Lia Bool Arith Permutation.
From Coq Require Import String.
From Verif Require Import Base PyStr CacheModel CacheSpec CacheProofs.
Import ListNotations.
Local Open Scope list_scope.

Section P.
Context {rec : Type} `{EqDec rec}.
Variable dir : str.
Variable parse : kind -> str -> str -> option (list N) -> res (option (str * list rec * option exn)).
Variable enc : stamp * coll rec -> list N.
Variable dec : list N -> res (stamp * coll rec).
Notation tick := (tick dir parse enc dec).
Notation step := (step dir parse enc dec).
Notation run := (run dir parse enc dec).
Notation cache_name := (cache_name dir).
Notation no_coll := (no_coll (rec := rec) dir).
Notation collect := (collect parse).
Notation returns := (returns dir parse enc dec).

Section H.
Variable Vs : str -> Z -> list N -> Prop.
Hypothesis Vs_one : forall f m b b', Vs f m b -> Vs f m b' -> b = b'.
Hypothesis PK : pickle_ok enc dec.
Notation inv := (inv dir parse enc dec Vs).
Definition kills (e : event) : bool := match e with Kill => true | _ => false end.
Lemma caches_kill k k' w r : (k = true -> k' = true) -> (k' = true \/ ~ running w) -> caches dir parse enc Vs k w -> caches dir parse enc Vs k' (mkWorld (w_files w) r).
Proof.
  intros KK NR C f m b G U. destruct (C f m b G U) as (a & v & more & E1 & Hn & E2 & R). exists a, v, more. split; [auto|]. split; [auto|]. split; [auto|]. intros NE. destruct (R NE) as [Kt|W]; [auto|]. left.
  destruct NR as [X|X]; [exact X|]. exfalso. apply X. destruct W as (a' & c & E & _). unfold running. rewrite E. exact Logic.I.
Qed.
Lemma quiet_forget (w : world rec) : ~ running w -> forget (w_run w) = None.
Proof. unfold running, forget. destruct (w_run w) as [[a p]|]; [|reflexivity]. destruct p; intros N; try (exfalso; apply N; exact Logic.I). reflexivity. Qed.
Lemma inv_step k w e h : quiet dir parse enc dec w (e :: h) -> (forall f m b, e = Write f m b -> Vs f m b) -> inv k w -> inv (k || kills e) (step w e).
Proof using PK Vs_one.
  intros [Q _] EV (ND & V & C & I). destruct w as [fs r]. cbn [w_files w_run] in *. destruct e as [a|n m| |f m b|f]; cbn [kills]; rewrite ?orb_false_r, ?orb_true_r.
  - destruct Q as [K NR]. split; [exact ND|]. split; [exact V|]. split; [|split; [exact K|exact Logic.I]]. apply (caches_kill k k (mkWorld fs r)); auto.
  - cbn [CacheModel.step w_run]. destruct r as [[a p]|]; [|split; [exact ND|]; split; [exact V|]; split; [exact C|exact Logic.I]]. exact (inv_tick dir parse enc dec Vs Vs_one PK k a p fs n m (conj ND (conj V (conj C I)))).
  - split; [exact ND|]. split; [exact V|]. split; [|exact Logic.I]. apply (caches_kill k true (mkWorld fs r)); auto.
  - destruct Q as [U NR]. apply user_cachef in U. cbn [CacheModel.step w_files]. rewrite (quiet_forget (mkWorld fs r) NR).
    split; [apply NoDup_dset; exact ND|]. split.
    + intros g m' b' G U'. cbn [w_files] in G. destruct (eq_dec g f) as [->|NE]; [rewrite dget_dset_same in G; injection G as <- <-; apply EV; reflexivity|]. rewrite dget_dset_other in G by exact NE. exact (V g m' b' G U').
    + split; [|exact Logic.I]. intros g m' b' G U'. cbn [w_files] in G. rewrite dget_dset_other in G by congruence.
      exact (caches_kill k k (mkWorld fs r) None (fun x => x) (or_intror NR) C g m' b' G U').
  - destruct Q as [U NR]. apply user_cachef in U. cbn [CacheModel.step w_files]. rewrite (quiet_forget (mkWorld fs r) NR).
    split; [apply NoDup_ddel; exact ND|]. split; [apply versioned_ddel; auto|]. split; [|exact Logic.I]. intros g m' b' G U'. cbn [w_files] in G. rewrite (dget_ddel g f _ ND) in G. destruct (eqb g f); [discriminate|].
    exact (caches_kill k k (mkWorld fs r) None (fun x => x) (or_intror NR) C g m' b' G U').
Qed.
Lemma inv_run : forall h k w, quiet dir parse enc dec w h -> (forall f m b, In (Write f m b) h -> Vs f m b) -> inv k w -> inv (k || existsb kills h) (run h w).
Proof using PK Vs_one.
  induction h as [|e h IH]; intros k w Q EV I.
  - cbn [existsb]. rewrite orb_false_r. exact I.
  - cbn [existsb]. rewrite orb_assoc. change (run (e :: h) w) with (run h (step w e)). apply IH; [apply Q|intros; apply EV; now right|]. apply (inv_step k w e h Q); [|exact I]. intros f m b ->. apply EV. now left.
Qed.
End H.

Lemma run_app h1 h2 w : run (h1 ++ h2) w = run h2 (run h1 w).
Proof. apply fold_left_app. Qed.
Definition ticks (n : nat) : list event := repeat (Tick 0 0) n.
Lemma ticks_are n : forall e, In e (ticks n) -> exists a b, e = Tick a b.
Proof. intros e I1. apply repeat_spec in I1. eauto. Qed.
Lemma run_tick n a p fs : run (ticks (S n)) (mkWorld fs (Some (a, p))) = let '(fs', p') := tick a 0 0 fs p in run (ticks n) (mkWorld fs' (Some (a, p'))).
Proof. unfold ticks. cbn [repeat]. unfold CacheModel.run at 1. cbn [fold_left CacheModel.step w_run w_files]. destruct (tick a 0 0 fs p) as [fs' p']. reflexivity. Qed.
Lemma reading_ends a fs fl : forall todo c, exists n, run (ticks n) (mkWorld fs (Some (a, Reading fl todo c)))
  = mkWorld fs (Some (a, match collect a fs todo c with Ok c' => Reading fl [] c' | Raise e => Done (Raise e) end)).
Proof.
  induction todo as [|f todo IH]; intros c.
  - exists 0. reflexivity.
  - cbn [CacheProofs.collect]. destruct (read_file parse a fs f c) as [c'|e] eqn:R.
    + destruct (IH c') as [n E]. exists (S n). rewrite run_tick. cbn [CacheModel.tick]. rewrite R. exact E.
    + exists 1. rewrite run_tick. cbn [CacheModel.tick]. rewrite R. reflexivity.
Qed.
Lemma uncached_returns a fs : a_cached a = false -> returns a fs (collect a fs (listing a fs) (no_coll a)) fs.
Proof.
  intros CA. destruct (reading_ends a fs (listing a fs) (listing a fs) (no_coll a)) as [n E]. exists (ticks (1 + n + 1)). split; [apply ticks_are|].
  change (run (Call a :: ticks (1 + n + 1)) (mkWorld fs None)) with (run (ticks (S (n + 1))) (mkWorld fs (Some (a, Listing)))). rewrite run_tick. cbn [CacheModel.tick]. rewrite CA.
  unfold ticks in *. rewrite repeat_app, run_app, E. destruct (collect a fs (listing a fs) (no_coll a)) as [c|e]; [|reflexivity].
  change (repeat (Tick 0 0) 1) with (ticks 1). rewrite run_tick. cbn [CacheModel.tick]. rewrite CA. reflexivity.
Qed.
Lemma filter_partition {X} (p : X -> bool) : forall l, Permutation (filter p l ++ filter (fun x => negb (p x)) l) l.
Proof. induction l as [|x l IH]; [constructor|]. cbn [filter]. destruct (p x); cbn [negb app]; [constructor; exact IH|]. etransitivity; [symmetry; apply Permutation_middle|]. constructor. exact IH. Qed.
Lemma reorder a (fs : files) fl : NoDup (dkeys fs) -> Permutation fl (listing a fs) -> exists fs', Permutation fs' fs /\ listing a fs' = fl /\ forall f, dget f fs' = dget f fs.
Proof.
  intros ND P. set (get := fun f => match dget f fs with Some x => x | None => (0%Z, []) end).
  assert (PP : Permutation (map (fun f => (f, get f)) fl ++ filter (fun x => negb (wanted a (fst x))) fs) fs).
  { etransitivity; [|apply (filter_partition (fun x => wanted a (fst x)) fs)]. apply Permutation_app_tail.
    etransitivity; [apply Permutation_map; exact P|].
    assert (GG : forall x, In x fs -> get (fst x) = snd x) by (intros [f x] I1; unfold get; cbn; rewrite (In_dget _ _ _ ND I1); reflexivity).
    clearbody get. clear - GG. unfold listing. revert GG. generalize fs. clear fs. induction fs as [|[f x] fs IH]; intros GG; [constructor|]. cbn [dkeys map filter fst]. destruct (wanted a f).
    - pose proof (GG (f, x) (or_introl eq_refl)) as X. cbn [fst snd] in X. cbn [map]. rewrite X. constructor. apply IH. intros; apply GG; now right.
    - apply IH. intros; apply GG; now right. }
  eexists. split; [exact PP|]. split.
  - unfold listing, dkeys. rewrite map_app, filter_app, map_map. cbn [fst]. rewrite map_id.
    assert (F1 : filter (wanted a) fl = fl).
    { assert (A : forall f, In f fl -> wanted a f = true) by (intros f I1; apply (Permutation_in _ P) in I1; apply In_listing in I1; tauto). clear P PP. induction fl as [|f fl IH]; [reflexivity|]. cbn [filter]. rewrite (A f (or_introl eq_refl)), IH; [reflexivity|]. intros; apply A; now right. }
    rewrite F1. replace (filter (wanted a) (map fst (filter (fun x => negb (wanted a (fst x))) fs))) with (@nil str); [apply app_nil_r|]. symmetry. clear. induction fs as [|[f x] fs IH]; [reflexivity|]. cbn [filter fst]. destruct (wanted a f) eqn:W; cbn [negb]; [exact IH|]. cbn [map fst filter]. rewrite W. exact IH.
  - assert (ND' : NoDup (dkeys (map (fun f => (f, get f)) fl ++ filter (fun x => negb (wanted a (fst x))) fs))) by (eapply Permutation_NoDup; [symmetry; apply Permutation_map; exact PP|exact ND]).
    intros f. destruct (dget f fs) as [x|] eqn:G.
    + apply dget_In in G. apply (Permutation_in _ (Permutation_sym PP)) in G. exact (In_dget _ _ _ ND' G).
    + apply dget_None. apply dget_None in G. intros I1. apply G. eapply Permutation_in; [apply Permutation_map; exact PP|exact I1].
Qed.

Theorem cached_same : forall h fs0 w a r, pickle_ok enc dec -> NoDup (dkeys fs0) -> (forall f, In f (dkeys fs0) -> user_file f) -> times_tell fs0 h -> quiet dir parse enc dec (mkWorld fs0 None) h ->
  run h (mkWorld fs0 None) = w -> w_run w = Some (a, Done r) ->
  (exists fs', Permutation fs' (w_files w) /\ returns (uncached a) fs' r fs') \/
  (In Kill h /\ a_cached a = true /\ exists e, broken enc dec e /\ r = Raise e).
Proof.
  intros h fs0 w a r PK ND UF TT Q R W.
  assert (I0 : CacheProofs.inv dir parse enc dec (fun f m b => In (f, m, b) (versions fs0 h)) false (mkWorld fs0 None)).
  { split; [exact ND|]. split.
    - intros f m b G _. apply dget_In in G. unfold versions. apply in_app_iff. left. apply in_map_iff. exists (f, (m, b)). split; [reflexivity|exact G].
    - split; [|exact Logic.I]. intros f m b G C. cbn [w_files] in G. apply dget_Some_key in G. apply UF in G. apply user_cachef in G. congruence. }
  pose proof (inv_run _ TT PK h false _ Q) as IR. rewrite R in IR. cbn [orb] in IR.
  destruct IR as (ND' & V & C & I); [|exact I0|].
  { intros f m b I1. unfold versions. apply in_app_iff. right. apply in_flat_map. exists (Write f m b). split; [exact I1|now left]. }
  rewrite W in I. destruct I as [K [(fl & P & E)|(KT & CA & B)]].
  - left. destruct (reorder a (w_files w) fl ND' P) as (fs' & P' & L & G). exists fs'. split; [exact P'|].
    rewrite <- E. replace (collect a (w_files w) fl (no_coll a)) with (collect (uncached a) fs' (listing (uncached a) fs') (no_coll (uncached a))); [apply uncached_returns; reflexivity|].
    change (listing (uncached a) fs') with (listing a fs'). rewrite L. change (no_coll (uncached a)) with (no_coll a). apply collect_ext; try reflexivity. intros f _. rewrite G. reflexivity.
  - right. split; [|split; [exact CA|exact B]]. apply existsb_exists in KT as (e & I1 & KE). destruct e; try discriminate. exact I1.
Qed.

(** ** Loading again *)
Definition loads (a : call) (fs : files) (c : coll rec) : Prop := exists m b, dget (cache_name a) fs = Some (m, b) /\ load_cache dir dec a fs (listing a fs) b = Ok c.
Definition sinv (a : call) (fs : files) (p : phase rec) : Prop :=
  NoDup (dkeys fs) /\
  match p with
  | Loading fl => fl = listing a fs
  | Reading fl todo c => fl = listing a fs
  | Stating fl todo c times => fl = listing a fs /\ exists done, fl = done ++ todo /\ stamped a fs done times
  | Opening c v => exists times, stamped a fs (listing a fs) times /\ v = (mkStamp (a_ver a) times (call_name dir a) (a_ext a), c)
  | Writing c more => exists times m b, stamped a fs (listing a fs) times /\ dget (cache_name a) fs = Some (m, b) /\ enc (mkStamp (a_ver a) times (call_name dir a) (a_ext a), c) = b ++ more
  | Done (Ok c) => loads a fs c
  | _ => True
  end.
Lemma stamped_dset a fs fl times f x : cachef f = true -> (forall g, In g fl -> cachef g = false) -> stamped a fs fl times -> stamped a (dset f x fs) fl times.
Proof. intros C N [S1 S2]. split; [exact S1|]. intros g t G. destruct (S2 g t G) as [b G']. exists b. rewrite dget_dset_other; [exact G'|]. apply dget_Some_key in G. rewrite S1 in G. specialize (N g G). congruence. Qed.
Lemma stamped_loads a fs times c : (forall v, dec (enc v) = Ok v) -> stamped a fs (listing a fs) times -> load_cache dir dec a fs (listing a fs) (enc (mkStamp (a_ver a) times (call_name dir a) (a_ext a), c)) = Ok c.
Proof.
  intros PK [S1 S2]. unfold load_cache. rewrite PK. cbn [s_ver s_name s_ext s_files]. rewrite !eqb_refl. cbn [negb].
  replace (length (listing a fs) =? length times) with true by (symmetry; apply Nat.eqb_eq; rewrite <- S1; unfold dkeys; rewrite map_length; reflexivity). cbn [negb].
  assert (ST : same_times fs times (rev (listing a fs)) = Ok tt).
  { apply same_times_spec. intros f I1. apply in_rev in I1. rewrite <- S1 in I1. destruct (dget f times) as [t|] eqn:G; [|apply dget_None in G; contradiction]. destruct (S2 f t G) as [b G']. eauto. }
  rewrite ST. reflexivity.
Qed.
Lemma sinv_tick a n m fs p : (forall v, dec (enc v) = Ok v) -> a_kind a = Records -> a_cached a = true -> sinv a fs p -> let '(fs', p') := tick a n m fs p in sinv a fs' p'.
Proof.
  intros PK K CA [ND I]. pose proof (cache_cachef dir a K) as CC.
  assert (WL : forall g, In g (listing a fs) -> cachef g = false) by (intros g I1; apply In_listing in I1; exact (wanted_user a g K (proj1 I1))).
  destruct p as [|fl|fl todo c|fl todo c times|c v|c more|r]; cbn [CacheModel.tick].
  - rewrite CA. split; [exact ND|reflexivity].
  - subst fl. destruct (dget (cache_name a) fs) as [[mt b]|] eqn:G; [|split; [exact ND|reflexivity]].
    assert (DEL : sinv a (ddel (cache_name a) fs) (Reading (listing a fs) (listing a fs) (no_coll a))) by (split; [apply NoDup_ddel; exact ND|symmetry; exact (listing_ddel a _ fs K CC)]).
    destruct (load_cache dir dec a fs (listing a fs) b) as [c|e] eqn:L; [split; [exact ND|exists mt, b; split; [exact G|exact L]]|].
    destruct e; try exact DEL; split; try exact ND; exact Logic.I.
  - destruct todo as [|f todo].
    + rewrite CA. split; [exact ND|]. split; [exact I|]. exists []. split; [reflexivity|]. split; [reflexivity|discriminate].
    + destruct (read_file parse a fs f c); split; try exact ND; [exact I|exact Logic.I].
  - destruct I as (-> & done & EL & ST). destruct todo as [|f todo].
    + split; [exact ND|]. exists times. rewrite app_nil_r in EL. split; [rewrite EL; exact ST|reflexivity].
    + destruct (dget f fs) as [[t b]|] eqn:G; split; try exact ND; [|exact Logic.I]. split; [reflexivity|]. exists (done ++ [f]). split; [rewrite <- app_assoc; exact EL|]. destruct ST as [S1 S2]. split.
      * rewrite dkeys_dset. destruct (dhas f times) eqn:DH; [|rewrite S1; reflexivity]. exfalso. apply dhas_spec in DH. rewrite S1 in DH. pose proof (listing_NoDup a fs ND) as N2. rewrite EL in N2. apply NoDup_remove_2 in N2. apply N2. apply in_app_iff. left. exact DH.
      * intros g t' G'. destruct (eq_dec g f) as [->|NE].
        -- rewrite dget_dset_same in G'. injection G' as <-. exists b. exact G.
        -- rewrite dget_dset_other in G' by exact NE. exact (S2 g t' G').
  - destruct I as (times & ST & ->). split; [apply NoDup_dset; exact ND|]. exists times, m, []. rewrite (listing_dset a _ _ fs K CC). split; [apply stamped_dset; auto|]. split; [apply dget_dset_same|reflexivity].
  - destruct I as (times & m0 & b & ST & G & E). destruct more as [|x more].
    + split; [exact ND|]. exists m0, b. split; [exact G|]. rewrite app_nil_r in E. rewrite <- E. apply stamped_loads; auto.
    + rewrite G. split; [apply NoDup_dset; exact ND|]. exists times, m, (b ++ firstn (S n) (x :: more)). rewrite (listing_dset a _ _ fs K CC). split; [apply stamped_dset; auto|]. split; [apply dget_dset_same|]. rewrite <- app_assoc, firstn_skipn. exact E.
  - split; [exact ND|exact I].
Qed.
Lemma sinv_run a : (forall v, dec (enc v) = Ok v) -> a_kind a = Records -> a_cached a = true -> forall ts fs p, (forall e, In e ts -> exists n m, e = Tick n m) -> sinv a fs p ->
  exists fs' p', run ts (mkWorld fs (Some (a, p))) = mkWorld fs' (Some (a, p')) /\ sinv a fs' p'.
Proof.
  intros PK K CA. induction ts as [|e ts IH]; intros fs p T I; [exists fs, p; split; [reflexivity|exact I]|].
  destruct (T e (or_introl eq_refl)) as (n & m & ->). change (run (Tick n m :: ts) (mkWorld fs (Some (a, p)))) with (run ts (step (mkWorld fs (Some (a, p))) (Tick n m))). cbn [CacheModel.step w_run w_files].
  pose proof (sinv_tick a n m fs p PK K CA I) as I'. destruct (tick a n m fs p) as [fs1 p1]. apply IH; [intros; apply T; now right|exact I'].
Qed.
Theorem reload : forall a fs c fs' n1 m1 n2 m2, (forall v, dec (enc v) = Ok v) -> NoDup (dkeys fs) -> a_kind a = Records -> a_cached a = true -> returns a fs (Ok c) fs' ->
  run [Call a; Tick n1 m1; Tick n2 m2] (mkWorld fs' None) = mkWorld fs' (Some (a, Done (Ok c))).
Proof.
  intros a fs c fs' n1 m1 n2 m2 PK ND K CA (ts & T & R). change (run (Call a :: ts) (mkWorld fs None)) with (run ts (mkWorld fs (Some (a, Listing)))) in R.
  destruct (sinv_run a PK K CA ts fs Listing T) as (fs1 & p1 & R1 & I1); [split; [exact ND|exact Logic.I]|]. rewrite R in R1. injection R1 as <- <-. destruct I1 as (_ & m & b & G & L).
  unfold CacheModel.run. cbn [fold_left CacheModel.step w_run w_files CacheModel.tick]. rewrite CA. cbn [w_run w_files CacheModel.tick]. rewrite G, L. reflexivity.
Qed.
Theorem broken_cache : forall a fs m b e n1 m1 n2 m2, a_cached a = true -> dget (cache_name a) fs = Some (m, b) -> dec b = Raise e -> ~ In e [UnpicklingError; CacheError; KeyError; FileNotFoundError] ->
  run [Call a; Tick n1 m1; Tick n2 m2] (mkWorld fs None) = mkWorld fs (Some (a, Done (Raise e))).
Proof.
  intros a fs m b e n1 m1 n2 m2 CA G D NI. unfold CacheModel.run. cbn [fold_left CacheModel.step w_run w_files CacheModel.tick]. rewrite CA. cbn [w_run w_files CacheModel.tick]. rewrite G. unfold load_cache. rewrite D.
  destruct e; try reflexivity; exfalso; apply NI; cbn; tauto.
Qed.

(** ** Every call ends *)
Lemma stating_ends a fs fl c : forall todo times, exists n, run (ticks n) (mkWorld fs (Some (a, Stating fl todo c times)))
  = mkWorld fs (Some (a, match find (fun f => negb (dhas f fs)) todo with
                         | Some _ => Done (Raise FileNotFoundError)
                         | None => Stating fl [] c (fold_left (fun t f => dset f (match dget f fs with Some (m, _) => m | None => 0%Z end) t) todo times) end)).
Proof.
  induction todo as [|f todo IH]; intros times; [exists 0; reflexivity|]. cbn [find fold_left]. rewrite dhas_dget. destruct (dget f fs) as [[m b]|] eqn:G; cbn [negb].
  - destruct (IH (dset f m times)) as [n E]. exists (S n). rewrite run_tick. cbn [CacheModel.tick]. rewrite G. exact E.
  - exists 1. rewrite run_tick. cbn [CacheModel.tick]. rewrite G. reflexivity.
Qed.
Lemma writing_ends a c : forall more fs, exists n fs', run (ticks n) (mkWorld fs (Some (a, Writing c more))) = mkWorld fs' (Some (a, Done (Ok c))).
Proof.
  induction more as [|x more IH]; intros fs.
  - exists 1, fs. reflexivity.
  - set (fs1 := fst (tick a 0 0 fs (Writing c (x :: more)))). destruct (IH fs1) as (n & fs' & E). exists (S n), fs'. rewrite run_tick. cbn [CacheModel.tick]. unfold fs1 in E. cbn [CacheModel.tick] in E.
    destruct (dget (cache_name a) fs) as [[m b]|]; exact E.
Qed.
Lemma then_ n1 n2 fs a p fs1 p1 w : run (ticks n1) (mkWorld fs (Some (a, p))) = mkWorld fs1 (Some (a, p1)) -> run (ticks n2) (mkWorld fs1 (Some (a, p1))) = w -> run (ticks (n1 + n2)) (mkWorld fs (Some (a, p))) = w.
Proof. intros E1 E2. unfold ticks in *. rewrite repeat_app, run_app, E1. exact E2. Qed.
Lemma read_ends a fs fl todo c : exists n r fs', run (ticks n) (mkWorld fs (Some (a, Reading fl todo c))) = mkWorld fs' (Some (a, Done r)).
Proof.
  destruct (reading_ends a fs fl todo c) as [n1 E1]. destruct (collect a fs todo c) as [c1|e]; [|eauto].
  destruct (a_cached a) eqn:CA.
  - destruct (stating_ends a fs fl c1 fl []) as [n2 E2]. destruct (find _ fl).
    + exists (n1 + (1 + n2)), (Raise FileNotFoundError), fs. eapply then_; [exact E1|]. eapply then_; [rewrite run_tick; cbn [CacheModel.tick]; rewrite CA; reflexivity|exact E2].
    + match type of E2 with _ = mkWorld _ (Some (_, Stating _ _ _ ?t)) => set (times := t) in * end.
      set (v := (mkStamp (a_ver a) times (call_name dir a) (a_ext a), c1)).
      destruct (writing_ends a c1 (enc v) (dset (cache_name a) (0%Z, []) fs)) as (n3 & fs' & E3).
      exists (n1 + (1 + (n2 + (2 + n3)))), (Ok c1), fs'. eapply then_; [exact E1|]. eapply then_; [rewrite run_tick; cbn [CacheModel.tick]; rewrite CA; reflexivity|]. eapply then_; [exact E2|].
      eapply then_; [rewrite run_tick; cbn [CacheModel.tick]; rewrite run_tick; cbn [CacheModel.tick]; reflexivity|exact E3].
  - exists (n1 + 1), (Ok c1), fs. eapply then_; [exact E1|]. rewrite run_tick. cbn [CacheModel.tick]. rewrite CA. reflexivity.
Qed.
Theorem call_ends : forall a fs, exists r fs', returns a fs r fs'.
Proof.
  intros a fs. assert (X : exists n r fs', run (ticks n) (mkWorld fs (Some (a, Listing))) = mkWorld fs' (Some (a, Done r))).
  { destruct (a_cached a) eqn:CA.
    - set (fs1 := fst (tick a 0 0 fs (Loading (listing a fs)))). set (p1 := snd (tick a 0 0 fs (Loading (listing a fs)))).
      assert (Y : exists n r fs', run (ticks n) (mkWorld fs1 (Some (a, p1))) = mkWorld fs' (Some (a, Done r))).
      { unfold fs1, p1. cbn [CacheModel.tick]. destruct (dget (cache_name a) fs) as [[m b]|]; [|apply read_ends]. destruct (load_cache dir dec a fs (listing a fs) b) as [c|e].
        - exists 0. eexists _, _. reflexivity.
        - destruct e; try apply read_ends; exists 0; eexists _, _; reflexivity. }
      destruct Y as (n & r & fs' & E). exists (1 + (1 + n)), r, fs'. eapply then_; [rewrite run_tick; cbn [CacheModel.tick]; rewrite CA; reflexivity|]. eapply then_; [|exact E]. rewrite run_tick. unfold fs1, p1. destruct (tick a 0 0 fs (Loading (listing a fs))). reflexivity.
    - destruct (read_ends a fs (listing a fs) (listing a fs) (no_coll a)) as (n & r & fs' & E). exists (1 + n), r, fs'. eapply then_; [|exact E]. rewrite run_tick. cbn [CacheModel.tick]. rewrite CA. reflexivity. }
  destruct X as (n & r & fs' & E). exists r, fs', (ticks n). split; [apply ticks_are|exact E].
Qed.
End P.
