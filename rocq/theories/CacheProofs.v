(** Proofs about caches. *)
From Coq Require Import List ZArith Lia Bool Arith Permutation.
From Coq Require Import String.
From Verif Require Import Base PyStr CacheModel CacheSpec.
Import ListNotations.
Local Open Scope list_scope.

Lemma ends_with_spec (x s : str) : ends_with x s = true <-> exists u, s = u ++ x.
Proof.
  unfold ends_with. rewrite starts_with_spec. split; intros [u E].
  - exists (rev u). apply (f_equal (@rev _)) in E. rewrite rev_involutive, rev_app_distr, rev_involutive in E. exact E.
  - exists (rev u). subst s. apply rev_app_distr.
Qed.
Definition cachef (f : str) : bool := ends_with $"mkRecordDirCache" f.
Lemma user_cachef f : user_file f <-> cachef f = false.
Proof.
  unfold user_file, cachef. destruct (ends_with _ f) eqn:E.
  - apply ends_with_spec in E as [u ->]. split; [intros U; exfalso; apply (U u); reflexivity|discriminate].
  - split; [reflexivity|]. intros _ u ->. assert (X : ends_with $"mkRecordDirCache" (u ++ $"mkRecordDirCache") = true) by (apply ends_with_spec; eauto). congruence.
Qed.
Section P.
Context {rec : Type} `{EqDec rec}.
Variable dir : str.
Variable parse : kind -> str -> str -> option (list N) -> res (option (str * list rec * option exn)).
Variable enc : stamp * coll rec -> list N.
Variable dec : list N -> res (stamp * coll rec).
Notation tick := (tick dir parse enc dec).
Notation step := (step dir parse enc dec).
Notation run := (run dir parse enc dec).
Notation cache_name := (cache_name dir).
Notation no_coll := (no_coll (rec := rec) dir).
Notation read_file := (read_file parse).
Notation load_cache := (load_cache dir dec).

Fixpoint collect (a : call) (fs : files) (fl : list str) (c : coll rec) : res (coll rec) :=
  match fl with
  | [] => Ok c
  | f :: fl' => match read_file a fs f c with Ok c' => collect a fs fl' c' | Raise e => Raise e end
  end.
Lemma collect_app a fs : forall l1 l2 c, collect a fs (l1 ++ l2) c = match collect a fs l1 c with Ok c' => collect a fs l2 c' | Raise e => Raise e end.
Proof. induction l1 as [|f l1 IH]; intros l2 c; [reflexivity|]. cbn [collect app]. destruct (read_file a fs f c); [apply IH|reflexivity]. Qed.
Lemma collect_ext a a' fs fs' : a_kind a = a_kind a' -> a_ver a = a_ver a' -> a_ext a = a_ext a' -> forall fl c,
  (forall f, In f fl -> option_map snd (dget f fs) = option_map snd (dget f fs')) -> collect a fs fl c = collect a' fs' fl c.
Proof.
  intros K V X. induction fl as [|f fl IH]; intros c E; [reflexivity|]. cbn [collect]. unfold CacheModel.read_file. rewrite K, V, X, (E f (or_introl eq_refl)).
  destruct (parse _ _ f _) as [[[[t rs] e]|]|e]; [apply IH; intros; apply E; now right| |reflexivity].
  destruct (eqb _ _); [|reflexivity]. apply IH. intros; apply E; now right.
Qed.
Lemma cache_cachef a : a_kind a = Records -> cachef (cache_name a) = true.
Proof using. intros K. apply ends_with_spec. unfold CacheModel.cache_name. rewrite K. exists (basename dir ++ $".[" ++ a_ext a ++ $"]."). rewrite <- !app_assoc. reflexivity. Qed.
Lemma wanted_user a f : a_kind a = Records -> wanted a f = true -> cachef f = false.
Proof using. intros K W. unfold wanted in W. rewrite K in W. apply andb_prop in W as [_ W]. apply negb_true_iff in W. exact W. Qed.
Lemma wanted_cache a f : a_kind a = Records -> cachef f = true -> wanted a f = false.
Proof using. intros K C. destruct (wanted a f) eqn:W; [|reflexivity]. pose proof (wanted_user a f K W). congruence. Qed.
Lemma listing_dset a f x fs : a_kind a = Records -> cachef f = true -> listing a (dset f x fs) = listing a fs.
Proof using.
  intros K C. unfold listing. rewrite dkeys_dset. destruct (dhas f fs); [reflexivity|]. rewrite filter_app. cbn [filter]. rewrite (wanted_cache a f K C). apply app_nil_r.
Qed.
Lemma listing_ddel a f fs : a_kind a = Records -> cachef f = true -> listing a (ddel f fs) = listing a fs.
Proof using.
  intros K C. unfold listing. induction fs as [|[k v] fs IH]; [reflexivity|]. cbn [ddel]. destruct (eqb_spec f k) as [<-|NE].
  - cbn [dkeys map filter fst]. rewrite (wanted_cache a f K C). reflexivity.
  - cbn [dkeys map filter fst] in *. unfold dkeys in IH. rewrite IH. reflexivity.
Qed.
Lemma In_listing a fs f : In f (listing a fs) <-> wanted a f = true /\ In f (dkeys fs).
Proof using. unfold listing. rewrite filter_In. split; intros [X Y]; (split; [exact Y|exact X]). Qed.
Lemma listing_NoDup a (fs : files) : NoDup (dkeys fs) -> NoDup (listing a fs).
Proof using. intros ND. apply NoDup_filter. exact ND. Qed.
Lemma collect_dset a f x fs fl c : a_kind a = Records -> cachef f = true -> (forall g, In g fl -> wanted a g = true) -> collect a (dset f x fs) fl c = collect a fs fl c.
Proof.
  intros K C W. apply collect_ext; auto. intros g I1. rewrite dget_dset_other; [reflexivity|]. intros ->. pose proof (wanted_cache a f K C). specialize (W f I1). congruence.
Qed.
Lemma collect_ddel a f fs fl c : NoDup (dkeys fs) -> a_kind a = Records -> cachef f = true -> (forall g, In g fl -> wanted a g = true) -> collect a (ddel f fs) fl c = collect a fs fl c.
Proof.
  intros ND K C W. apply collect_ext; auto. intros g I1. rewrite (dget_ddel g f _ ND). destruct (eqb_spec g f) as [->|NE]; [|reflexivity]. pose proof (wanted_cache a f K C). specialize (W f I1). congruence.
Qed.

Variable Vs : str -> Z -> list N -> Prop.
Hypothesis Vs_one : forall f m b b', Vs f m b -> Vs f m b' -> b = b'.
Hypothesis PK : pickle_ok enc dec.

Definition versioned (fs : files) : Prop := forall f m b, dget f fs = Some (m, b) -> cachef f = false -> Vs f m b.
Definition stamped (a : call) (fs : files) (fl : list str) (times : dict str Z) : Prop :=
  dkeys times = fl /\ forall f t, dget f times = Some t -> exists b, dget f fs = Some (t, b).
Definition honest (a : call) (v : stamp * coll rec) : Prop :=
  a_kind a = Records /\ exists fs times c, NoDup (dkeys fs) /\ versioned fs /\ stamped a fs (listing a fs) times /\ collect a fs (listing a fs) (no_coll a) = Ok c /\
    v = (mkStamp (a_ver a) times (call_name dir a) (a_ext a), c).
Definition broken (e : exn) : Prop := (exists v b more, enc v = b ++ more /\ more <> [] /\ dec b = Raise e) /\ ~ In e [UnpicklingError; CacheError; KeyError; FileNotFoundError].
Definition fine (killed : bool) (a : call) (fs : files) (r : res (coll rec)) : Prop :=
  (exists fl, Permutation fl (listing a fs) /\ collect a fs fl (no_coll a) = r) \/ (killed = true /\ a_cached a = true /\ exists e, broken e /\ r = Raise e).
Definition pinv (killed : bool) (a : call) (fs : files) (p : phase rec) : Prop :=
  match p with
  | Listing => True
  | Loading fl => a_cached a = true /\ fl = listing a fs
  | Reading fl todo c => fl = listing a fs /\ exists done, fl = done ++ todo /\ collect a fs done (no_coll a) = Ok c
  | Stating fl todo c times => a_cached a = true /\ fl = listing a fs /\ collect a fs fl (no_coll a) = Ok c /\ exists done, fl = done ++ todo /\ stamped a fs done times
  | Opening c v => a_cached a = true /\ collect a fs (listing a fs) (no_coll a) = Ok c /\ honest a v
  | Writing c more => a_cached a = true /\ collect a fs (listing a fs) (no_coll a) = Ok c /\ exists v m b, honest a v /\ dget (cache_name a) fs = Some (m, b) /\ enc v = b ++ more
  | Done r => fine killed a fs r
  end.
Definition writing (r : option (call * phase rec)) (f : str) (more : list N) : Prop := exists a c, r = Some (a, Writing c more) /\ cache_name a = f.
Definition caches (killed : bool) (w : world rec) : Prop := forall f m b, dget f (w_files w) = Some (m, b) -> cachef f = true ->
  exists a v more, f = cache_name a /\ honest a v /\ enc v = b ++ more /\ (more <> [] -> killed = true \/ writing (w_run w) f more).
Definition inv (killed : bool) (w : world rec) : Prop :=
  NoDup (dkeys (w_files w)) /\ versioned (w_files w) /\ caches killed w /\
  match w_run w with None => True | Some (a, p) => a_kind a = Records /\ pinv killed a (w_files w) p end.

Lemma versioned_dset f x fs : cachef f = true -> versioned fs -> versioned (dset f x fs).
Proof. intros C V g m b G U. rewrite dget_dset_other in G; [exact (V g m b G U)|]. congruence. Qed.
Lemma versioned_ddel f fs : NoDup (dkeys fs) -> versioned fs -> versioned (ddel f fs).
Proof. intros ND V g m b G U. rewrite (dget_ddel g f _ ND) in G. destruct (eqb g f); [discriminate|exact (V g m b G U)]. Qed.
Lemma fine_dset k a f x fs r : a_kind a = Records -> cachef f = true -> fine k a fs r -> fine k a (dset f x fs) r.
Proof.
  intros K C [(fl & P & E)|B]; [left|right; exact B]. exists fl. rewrite (listing_dset a f x fs K C). split; [exact P|]. rewrite (collect_dset a f x fs fl _ K C); [exact E|].
  intros g I1. apply (Permutation_in _ P) in I1. apply In_listing in I1. tauto.
Qed.
Lemma same_times_spec fs times : forall fl, same_times fs times fl = Ok tt <-> forall f, In f fl -> exists m b, dget f fs = Some (m, b) /\ dget f times = Some m.
Proof using.
  induction fl as [|f fl IH]; [split; [intros _ f []|reflexivity]|]. cbn [same_times]. destruct (dget f fs) as [[m b]|] eqn:E.
  - destruct (dget f times) as [m'|] eqn:T.
    + destruct (Z.eqb_spec m m') as [<-|NE].
      * rewrite IH. split; [intros A g [<-|I1]; [eauto|apply A; exact I1]|intros A g I1; apply A; now right].
      * split; [discriminate|]. intros A. destruct (A f (or_introl eq_refl)) as (m0 & b0 & E0 & T0). congruence.
    + split; [discriminate|]. intros A. destruct (A f (or_introl eq_refl)) as (m0 & b0 & E0 & T0). congruence.
  - split; [discriminate|]. intros A. destruct (A f (or_introl eq_refl)) as (m0 & b0 & E0 & T0). congruence.
Qed.
Lemma same_times_tt fs times fl u : same_times fs times fl = Ok u -> same_times fs times fl = Ok tt.
Proof using. destruct u. auto. Qed.
Lemma honest_load a fs a0 v c0 b : a_kind a = Records -> NoDup (dkeys fs) -> versioned fs -> honest a0 v -> dec b = Ok v -> load_cache a fs (listing a fs) b = Ok c0 ->
  exists fl, Permutation fl (listing a fs) /\ collect a fs fl (no_coll a) = Ok c0.
Proof.
  intros K ND V (K0 & fs0 & times & c & ND0 & V0 & (T1 & T2) & C & ->) D L. unfold CacheModel.load_cache in L. rewrite D in L. cbn [s_ver s_name s_ext s_files] in L.
  destruct (eqb_spec (a_ver a0) (a_ver a)) as [EV|]; [|discriminate]. cbn [negb] in L.
  destruct (eqb_spec (call_name dir a0) (call_name dir a)) as [EN|]; [|discriminate]. cbn [negb] in L.
  destruct (eqb_spec (a_ext a0) (a_ext a)) as [EX|]; [|discriminate]. cbn [negb] in L.
  destruct (Nat.eqb_spec (length (listing a fs)) (length times)) as [EL|]; [|discriminate]. cbn [negb] in L.
  destruct (same_times fs times (rev (listing a fs))) as [u|] eqn:ST; [|discriminate]. injection L as <-. apply same_times_tt in ST. rewrite same_times_spec in ST.
  assert (A : forall f, In f (listing a fs) -> exists m b, dget f fs = Some (m, b) /\ dget f times = Some m) by (intros f I1; apply ST; apply in_rev in I1; exact I1). clear ST.
  assert (P : Permutation (listing a0 fs0) (listing a fs)).
  { symmetry. apply NoDup_Permutation_bis; [apply listing_NoDup; exact ND| |].
    - rewrite EL, <- T1. unfold dkeys. rewrite map_length. reflexivity.
    - intros f I1. destruct (A f I1) as (m & b' & _ & T). apply dget_Some_key in T. rewrite T1 in T. exact T. }
  exists (listing a0 fs0). split; [exact P|]. rewrite <- C.
  replace (no_coll a) with (no_coll a0) by (unfold CacheModel.no_coll; rewrite EN; reflexivity). symmetry. apply collect_ext; [congruence|exact EV|exact EX|].
  intros f I1. assert (U : cachef f = false). { apply In_listing in I1 as [W _]. exact (wanted_user a0 f K0 W). }
  apply (Permutation_in _ P) in I1. destruct (A f I1) as (m & b' & G & T). destruct (T2 f m T) as (b1 & G1). rewrite G, G1. cbn. f_equal. exact (Vs_one f m _ _ (V0 f m b1 G1 U) (V f m b' G U)).
Qed.

Lemma caches_frame k w r' : (forall f more, writing (w_run w) f more -> k = true \/ writing r' f more \/ more = []) -> caches k w -> caches k (mkWorld (w_files w) r').
Proof.
  intros F C f m b G U. destruct (C f m b G U) as (a & v & more & E1 & Hn & E2 & R). exists a, v, more. split; [auto|]. split; [auto|]. split; [auto|]. intros NE. destruct (R NE) as [Kt|W]; [auto|].
  destruct (F f more W) as [X|[X|X]]; [auto|auto|contradiction].
Qed.
Lemma not_writing (a : call) p f more : (forall c m, p <> Writing c m) -> ~ writing (Some (a, p)) f more.
Proof. intros N (a' & c & E & _). injection E as _ E. exact (N _ _ E). Qed.
Lemma inv_tick k a p fs n m : inv k (mkWorld fs (Some (a, p))) -> inv k (let '(fs', p') := tick a n m fs p in mkWorld fs' (Some (a, p'))).
Proof using PK Vs_one.
  intros (ND & V & C & K & I). cbn [w_files w_run] in *. pose proof (cache_cachef a K) as CC.
  assert (WL : forall g, In g (listing a fs) -> wanted a g = true) by (intros g I1; apply In_listing in I1; tauto).
  assert (FR : forall p', (forall c m, p <> Writing c m) -> caches k (mkWorld fs (Some (a, p')))).
  { intros p' N. apply (caches_frame k (mkWorld fs (Some (a, p)))); [|exact C]. intros f more W. exfalso. exact (not_writing a p f more N W). }
  destruct p as [|fl|fl todo c|fl todo c times|c v|c more|r]; cbn [CacheModel.tick]; cbn [pinv] in I.
  - split; [exact ND|]. split; [exact V|]. split; [apply FR; discriminate|]. split; [exact K|]. cbn [w_files]. destruct (a_cached a) eqn:CA; [split; [exact CA|reflexivity]|].
    split; [reflexivity|]. exists []. split; reflexivity.
  - destruct I as [CA ->]. destruct (dget (cache_name a) fs) as [[mt b]|] eqn:G.
    2: { split; [exact ND|]. split; [exact V|]. split; [apply FR; discriminate|]. split; [exact K|]. split; [reflexivity|]. exists []. split; reflexivity. }
    destruct (C _ _ _ G CC) as (a0 & v & more & EN & Hn & E2 & R).
    assert (DEL : inv k (mkWorld (ddel (cache_name a) fs) (Some (a, Reading (listing a fs) (listing a fs) (no_coll a))))).
    { split; [apply NoDup_ddel; exact ND|]. split; [apply versioned_ddel; auto|]. split.
      - intros f m0 b0 G0 U. cbn [w_files] in G0. rewrite (dget_ddel f (cache_name a) _ ND) in G0. destruct (eqb f (cache_name a)); [discriminate|]. exact (FR (Reading (listing a fs) (listing a fs) (no_coll a)) ltac:(discriminate) f m0 b0 G0 U).
      - split; [exact K|]. cbn [w_files pinv]. rewrite (listing_ddel a _ fs K CC). split; [reflexivity|]. exists []. split; reflexivity. }
    assert (DON : forall r, fine k a fs r -> inv k (mkWorld fs (Some (a, Done r)))).
    { intros r F. split; [exact ND|]. split; [exact V|]. split; [apply FR; discriminate|]. split; [exact K|exact F]. }
    destruct more as [|x more].
    + rewrite app_nil_r in E2. assert (D : dec b = Ok v) by (rewrite <- E2; apply (proj1 PK)).
      destruct (load_cache a fs (listing a fs) b) as [c|e] eqn:L.
      * apply DON. left. exact (honest_load a fs a0 v c b K ND V Hn D L).
      * assert (EE : e = CacheError \/ e = KeyError \/ e = FileNotFoundError).
        { unfold CacheModel.load_cache in L. rewrite D in L. destruct v as [dat c]. destruct (negb _); [injection L as <-; auto|]. destruct (negb _); [injection L as <-; auto|]. destruct (negb _); [injection L as <-; auto|]. destruct (negb _); [injection L as <-; auto|].
          destruct (same_times fs (s_files dat) (rev (listing a fs))) eqn:ST; [discriminate|]. injection L as <-. revert ST. generalize (rev (listing a fs)). intros l. induction l as [|f l IH]; cbn [same_times]; [discriminate|].
          destruct (dget f fs) as [[m1 b1]|]; [|intros E; injection E as <-; auto]. destruct (dget f (s_files dat)); [|intros E; injection E as <-; auto]. destruct (Z.eqb _ _); [exact IH|intros E; injection E as <-; auto]. }
        destruct EE as [->|[->| ->]]; exact DEL.
    + destruct (R ltac:(discriminate)) as [Kt|W]; [|exfalso; revert W; apply not_writing; discriminate].
      destruct (proj2 PK v b (x :: more) E2 ltac:(discriminate)) as (e & D).
      unfold CacheModel.load_cache. rewrite D.
      assert (B : ~ In e [UnpicklingError; CacheError; KeyError; FileNotFoundError] -> inv k (mkWorld fs (Some (a, Done (Raise e))))).
      { intros NI. apply DON. right. split; [exact Kt|]. split; [exact CA|]. exists e. split; [|reflexivity]. split; [|exact NI]. exists v, b, (x :: more). repeat split; [exact E2|discriminate|exact D]. }
      destruct e; try exact DEL; apply B; cbn; intros A; repeat (destruct A as [A|A]; [discriminate|]); exact A.
  - destruct I as (-> & done & EL & CO). destruct todo as [|f todo].
    + split; [exact ND|]. split; [exact V|]. split; [apply FR; discriminate|]. split; [exact K|]. cbn [w_files]. rewrite app_nil_r in EL. rewrite <- EL in CO. destruct (a_cached a) eqn:CA.
      * split; [exact CA|]. split; [reflexivity|]. split; [exact CO|]. exists []. split; [reflexivity|]. split; [reflexivity|]. intros f t E. discriminate.
      * left. exists (listing a fs). split; [apply Permutation_refl|exact CO].
    + destruct (read_file a fs f c) as [c'|e] eqn:RF.
      * split; [exact ND|]. split; [exact V|]. split; [apply FR; discriminate|]. split; [exact K|]. split; [reflexivity|]. exists (done ++ [f]). split; [rewrite <- app_assoc; exact EL|]. cbn [w_files]. rewrite collect_app, CO. cbn [collect]. rewrite RF. reflexivity.
      * split; [exact ND|]. split; [exact V|]. split; [apply FR; discriminate|]. split; [exact K|]. left. exists (listing a fs). split; [apply Permutation_refl|]. cbn [w_files]. rewrite EL, collect_app, CO. cbn [collect]. rewrite RF. reflexivity.
  - destruct I as (CA & -> & CO & done & EL & ST). destruct todo as [|f todo].
    + split; [exact ND|]. split; [exact V|]. split; [apply FR; discriminate|]. split; [exact K|]. cbn [w_files]. rewrite app_nil_r in EL. subst done. split; [exact CA|]. split; [exact CO|].
      split; [exact K|]. exists fs, times, c. split; [exact ND|]. split; [exact V|]. split; [exact ST|]. split; [exact CO|reflexivity].
    + destruct (dget f fs) as [[t b]|] eqn:G.
      * split; [exact ND|]. split; [exact V|]. split; [apply FR; discriminate|]. split; [exact K|]. split; [exact CA|]. split; [reflexivity|]. split; [exact CO|]. exists (done ++ [f]). split; [rewrite <- app_assoc; exact EL|]. destruct ST as [S1 S2]. split.
        -- rewrite dkeys_dset. destruct (dhas f times) eqn:DH; [|rewrite S1; reflexivity]. exfalso. apply dhas_spec in DH. rewrite S1 in DH. pose proof (listing_NoDup a fs ND) as N2. rewrite EL in N2. apply NoDup_remove_2 in N2. apply N2. apply in_app_iff. left. exact DH.
        -- intros g t' G'. cbn [w_files]. destruct (eq_dec g f) as [->|NE].
           ++ rewrite dget_dset_same in G'. injection G' as <-. exists b. exact G.
           ++ rewrite dget_dset_other in G' by exact NE. exact (S2 g t' G').
      * exfalso. apply dget_None in G. apply G. assert (I1 : In f (listing a fs)) by (rewrite EL; apply in_app_iff; right; left; reflexivity). apply In_listing in I1. tauto.
  - destruct I as (CA & CO & Hn). cbn [w_files w_run]. split; [apply NoDup_dset; exact ND|]. split; [apply versioned_dset; auto|]. split.
    + intros f m0 b0 G0 U. cbn [w_files] in G0. destruct (eq_dec f (cache_name a)) as [->|NE].
      * rewrite dget_dset_same in G0. injection G0 as <- <-. exists a, v, (enc v). split; [auto|]. split; [auto|]. split; [auto|]. intros _. right. exists a, c. split; reflexivity.
      * rewrite dget_dset_other in G0 by exact NE. destruct (C f m0 b0 G0 U) as (a0 & v0 & mr & E1 & H0 & E2 & R). exists a0, v0, mr. split; [auto|]. split; [auto|]. split; [auto|]. intros NN. destruct (R NN) as [X|X]; [auto|]. exfalso. revert X. apply not_writing. discriminate.
    + split; [exact K|]. cbn [pinv w_files]. split; [exact CA|]. rewrite (listing_dset a _ _ fs K CC), (collect_dset a _ _ fs _ _ K CC WL). split; [exact CO|]. exists v, m, []. split; [exact Hn|]. split; [apply dget_dset_same|reflexivity].
  - destruct I as (CA & CO & v & m0 & b & Hn & G & E2). destruct more as [|x more].
    + split; [exact ND|]. split; [exact V|]. split; [|split; [exact K|left; exists (listing a fs); split; [apply Permutation_refl|exact CO]]].
      apply (caches_frame k (mkWorld fs (Some (a, Writing c [])))); [|exact C]. intros f more (a' & c' & E & _). injection E as _ _ <-. auto.
    + rewrite G. cbn [w_files w_run]. split; [apply NoDup_dset; exact ND|]. split; [apply versioned_dset; auto|].
      assert (E3 : enc v = (b ++ firstn (S n) (x :: more)) ++ skipn (S n) (x :: more)) by (rewrite <- app_assoc, firstn_skipn; exact E2). split.
      * intros f m1 b1 G1 U. cbn [w_files] in G1. destruct (eq_dec f (cache_name a)) as [->|NE].
        -- rewrite dget_dset_same in G1. injection G1 as <- <-. exists a, v, (skipn (S n) (x :: more)). split; [auto|]. split; [auto|]. split; [auto|]. intros _. right. exists a, c. split; reflexivity.
        -- rewrite dget_dset_other in G1 by exact NE. destruct (C f m1 b1 G1 U) as (a0 & v0 & mr & E1 & H0 & E4 & R). exists a0, v0, mr. split; [auto|]. split; [auto|]. split; [auto|]. intros NN. destruct (R NN) as [X|X]; [auto|]. exfalso. destruct X as (a' & c' & E & N). cbn [w_run] in E. injection E as <- _ _. congruence.
      * split; [exact K|]. cbn [pinv w_files]. split; [exact CA|]. rewrite (listing_dset a _ _ fs K CC), (collect_dset a _ _ fs _ _ K CC WL). split; [exact CO|]. exists v, m, (b ++ firstn (S n) (x :: more)). split; [exact Hn|]. split; [apply dget_dset_same|exact E3].
  - split; [exact ND|]. split; [exact V|]. split; [exact C|]. split; [exact K|exact I].
Qed.
End P.
