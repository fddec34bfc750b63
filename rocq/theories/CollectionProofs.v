From Coq Require Import String.
From Verif Require Import Base CollectionModel CollectionSpec.
Set Implicit Arguments.

Section Proofs.
Context {E K : Type} {HK : EqDec K} {EL : Elem E K}.
Implicit Types (x y : E) (s : list E) (c : coll E).

Definition kmem (k : K) s := In k (map key s).

Lemma kmem_iff k s : kmem k s <-> exists x, In x s /\ key x = k.
Proof. unfold kmem; rewrite in_map_iff; split; intros (x & A & B); exists x; auto. Qed.
Lemma Mem_kmem k c : Mem k c <-> kmem k (members c).
Proof. unfold Mem; rewrite kmem_iff; reflexivity. Qed.

Lemma smem_spec x s : smem x s = true <-> kmem (key x) s.
Proof.
  unfold smem, same; rewrite existsb_exists, kmem_iff; split.
  - intros (y & I & Q); exists y; split; [assumption | symmetry; apply eqb_eq; assumption].
  - intros (y & I & Q); exists y; split; [assumption | rewrite Q; apply eqb_refl].
Qed.
Lemma smem_false x s : smem x s = false <-> ~ kmem (key x) s.
Proof. rewrite <- smem_spec; destruct (smem x s); split; congruence. Qed.

Lemma kmem_dec k s : {kmem k s} + {~ kmem k s}.
Proof. apply in_dec, eq_dec. Qed.

Lemma In_sadd x y s : In y (sadd x s) <-> In y s \/ (y = x /\ ~ kmem (key x) s).
Proof.
  unfold sadd; destruct (smem x s) eqn:M.
  - apply smem_spec in M; intuition.
  - apply smem_false in M; rewrite in_app_iff; cbn; intuition congruence.
Qed.
Lemma kmem_sadd k x s : kmem k (sadd x s) <-> kmem k s \/ k = key x.
Proof.
  destruct (kmem_dec (key x) s) as [M|M].
  - unfold sadd; rewrite (proj2 (smem_spec x s) M); intuition congruence.
  - unfold sadd; rewrite (proj2 (smem_false x s) M). unfold kmem; rewrite map_app, in_app_iff; cbn; intuition congruence.
Qed.
Lemma NoDup_sadd x s : NoDup (map key s) -> NoDup (map key (sadd x s)).
Proof.
  intros ND; unfold sadd; destruct (smem x s) eqn:M; [assumption|].
  apply smem_false in M. rewrite map_app; cbn.
  eapply Permutation_NoDup; [apply Permutation_cons_append|]; constructor; assumption.
Qed.

Lemma In_sor y a b : NoDup (map key b) ->
  In y (sor a b) <-> In y a \/ (In y b /\ ~ kmem (key y) a).
Proof.
  unfold sor; revert a; induction b as [|x b IH]; intros a ND; cbn [fold_left In map] in *; [intuition|].
  inversion ND as [|? ? NI ND']; subst. rewrite IH by assumption. rewrite In_sadd, kmem_sadd.
  split.
  - intros [[I|[-> M]]|[I M]]; [auto | auto | right; intuition].
  - intros [I|[[->|I] M]]; [auto | auto |].
    right; split; [assumption|]. intros [M'|Q]; [auto|].
    apply NI; rewrite <- Q; apply in_map; assumption.
Qed.
Lemma kmem_sor k a b : kmem k (sor a b) <-> kmem k a \/ kmem k b.
Proof.
  unfold sor; revert a; induction b as [|x b IH]; intros a; cbn [fold_left].
  - unfold kmem; cbn; intuition.
  - rewrite IH, kmem_sadd. unfold kmem; cbn; intuition congruence.
Qed.
Lemma NoDup_sor a b : NoDup (map key a) -> NoDup (map key (sor a b)).
Proof.
  unfold sor; revert a; induction b as [|x b IH]; intros a ND; cbn [fold_left]; [assumption|].
  apply IH, NoDup_sadd; assumption.
Qed.
Lemma sor_incl y a b : In y (sor a b) -> In y a \/ In y b.
Proof.
  unfold sor; revert a; induction b as [|x b IH]; intros a; cbn [fold_left]; [auto|].
  intros I; apply IH in I. rewrite In_sadd in I; cbn; intuition congruence.
Qed.
Lemma sor_app a l1 l2 : sor a (l1 ++ l2) = sor (sor a l1) l2.
Proof. unfold sor; apply fold_left_app. Qed.

Lemma set_of_id l : NoDup (map key l) -> set_of l = l.
Proof.
  intros ND. unfold set_of.
  assert (G : forall s l, NoDup (map key (s ++ l)) -> fold_left (fun s x => sadd x s) l s = s ++ l).
  { clear; intros s l; revert s; induction l as [|x l IH]; intros s ND; cbn [fold_left]; [rewrite app_nil_r; reflexivity|].
    assert (M : sadd x s = s ++ [x]).
    { unfold sadd. replace (smem x s) with false; [reflexivity|]. symmetry; apply smem_false.
      unfold kmem. rewrite map_app in ND; cbn in ND. apply NoDup_remove_2 in ND. rewrite in_app_iff in ND; auto. }
    rewrite M, IH; rewrite <- app_assoc; [reflexivity | assumption]. }
  rewrite G; cbn; [reflexivity|assumption].
Qed.
Lemma In_set_of y l : NoDup (map key l) -> In y (set_of l) <-> In y l.
Proof. intros; rewrite set_of_id by assumption; reflexivity. Qed.
Lemma set_of_incl y l : In y (set_of l) -> In y l.
Proof. intros I; unfold set_of in I; apply (sor_incl y [] l) in I. destruct I as [[]|I]; assumption. Qed.
Lemma kmem_set_of k l : kmem k (set_of l) <-> kmem k l.
Proof. unfold set_of; fold (sor [] l); rewrite kmem_sor; unfold kmem; cbn; intuition. Qed.
Lemma NoDup_set_of l : NoDup (map key (set_of l)).
Proof. unfold set_of; fold (sor [] l); apply NoDup_sor; constructor. Qed.

Lemma NoDup_filter_keys (f : E -> bool) s : NoDup (map key s) -> NoDup (map key (filter f s)).
Proof.
  induction s as [|x s IH]; cbn; [auto|]. intros ND; inversion ND as [|? ? NI ND']; subst.
  destruct (f x); cbn; [constructor; [|auto]|auto].
  intros I; apply NI; apply in_map_iff in I as (y & Q & I). apply filter_In in I as [I _].
  rewrite <- Q; apply in_map; assumption.
Qed.

Lemma In_sdiscard x y s : In y (sdiscard x s) <-> In y s /\ key y <> key x.
Proof.
  unfold sdiscard, same; rewrite filter_In. destruct (eqb_spec (key x) (key y)) as [Q|N]; cbn; intuition congruence.
Qed.
Lemma kmem_In x s : In x s -> kmem (key x) s.
Proof. apply in_map. Qed.

Lemma In_ssub y a b : In y (ssub a b) <-> In y a /\ ~ kmem (key y) b.
Proof.
  unfold ssub; rewrite filter_In, negb_true_iff, smem_false; reflexivity.
Qed.
Lemma In_sxor y a b :
  In y (sxor a b) <-> (In y a /\ ~ kmem (key y) b) \/ (In y b /\ ~ kmem (key y) a).
Proof. unfold sxor; rewrite in_app_iff, !In_ssub; reflexivity. Qed.
Lemma NoDup_app_disj {A} (l m : list A) : NoDup l -> NoDup m -> (forall z, In z l -> ~ In z m) -> NoDup (l ++ m).
Proof.
  intros NL NM D; induction l as [|k l IH]; cbn; [assumption|].
  inversion NL; subst. constructor; [rewrite in_app_iff; intros [I|I]; [auto | apply (D k); cbn; auto]|].
  apply IH; [assumption|]. intros z I; apply D; cbn; auto.
Qed.
Lemma NoDup_sxor a b : NoDup (map key a) -> NoDup (map key b) -> NoDup (map key (sxor a b)).
Proof.
  intros NA NB; unfold sxor; rewrite map_app. apply NoDup_app_disj.
  - apply NoDup_filter_keys; assumption.
  - apply NoDup_filter_keys; assumption.
  - intros k I J. apply in_map_iff in I as (x & <- & I). apply In_ssub in I as [I M].
    apply in_map_iff in J as (z & Q & J). apply In_ssub in J as [J M2]. apply M. rewrite <- Q; apply kmem_In; assumption.
Qed.
Lemma kmem_sand k a b : kmem k (sand a b) <-> kmem k a /\ kmem k b.
Proof.
  unfold sand; rewrite kmem_iff. destruct (length a <? length b).
  - setoid_rewrite filter_In. setoid_rewrite smem_spec. split.
    + intros (x & [I M] & <-); split; [apply kmem_In|]; assumption.
    + intros [M1 M2]; apply kmem_iff in M1 as (x & I & <-); exists x; auto.
  - setoid_rewrite filter_In. setoid_rewrite smem_spec. split.
    + intros (x & [I M] & <-); split; [|apply kmem_In]; assumption.
    + intros [M1 M2]; apply kmem_iff in M2 as (x & I & <-); exists x; auto.
Qed.
Lemma sand_incl y a b : In y (sand a b) -> In y a \/ In y b.
Proof. unfold sand; destruct (length a <? length b); rewrite filter_In; intuition. Qed.
Lemma NoDup_sand a b : NoDup (map key a) -> NoDup (map key b) -> NoDup (map key (sand a b)).
Proof. intros; unfold sand; destruct (length a <? length b); apply NoDup_filter_keys; assumption. Qed.

(** type name sets *)
Lemma In_tadd t u (s : list str) : In t (tadd u s) <-> In t s \/ t = u.
Proof.
  unfold tadd; destruct (mem u s) eqn:M.
  - apply mem_In in M; intuition congruence.
  - rewrite in_app_iff; cbn; intuition congruence.
Qed.
Lemma NoDup_tadd u (s : list str) : NoDup s -> NoDup (tadd u s).
Proof.
  intros ND; unfold tadd; destruct (mem u s) eqn:M; [assumption|]. apply mem_not_In in M.
  eapply Permutation_NoDup; [apply Permutation_cons_append|]; constructor; assumption.
Qed.
Lemma In_tor t (a b : list str) : In t (tor a b) <-> In t a \/ In t b.
Proof.
  unfold tor; revert a; induction b as [|u b IH]; intros a; cbn [fold_left In]; [intuition|].
  rewrite IH, In_tadd; intuition congruence.
Qed.
Lemma NoDup_tor (a b : list str) : NoDup a -> NoDup (tor a b).
Proof.
  unfold tor; revert a; induction b as [|u b IH]; intros a ND; cbn [fold_left]; [assumption|].
  apply IH, NoDup_tadd; assumption.
Qed.

(** permuting the members changes nothing visible *)
Lemma WF_perm c l : WF c -> Permutation (members c) l -> WF (set_members c l).
Proof.
  intros (D & A & ER & T) P; repeat split; cbn; try assumption.
  - unfold Distinct in *; cbn. eapply Permutation_NoDup; [apply Permutation_map; eassumption | assumption].
  - intros x I; apply A; eapply Permutation_in; [apply Permutation_sym|]; eassumption.
Qed.
Lemma has_error_dget c f e : NoDup (map fst (cerrors c)) -> (has_error c f e <-> dget f (cerrors c) = Some e).
Proof. intros ND; unfold has_error; split; [apply In_dget; assumption | apply dget_In]. Qed.

Lemma inplace_frame_ok f nm a b : WF a -> WF b -> inplace_frame nm a b (inplace f nm a b).
Proof.
  intros (_ & _ & EA & TA) (_ & _ & EB & TB). unfold inplace, inplace_frame; cbn.
  split; [intros t; apply In_tor|]. split; [reflexivity|].
  split; [destruct (cbad b), (cbad a); cbn; intuition congruence|].
  split; [intros -> ->; reflexivity|].
  intros B g e. unfold has_error at 1; cbn.
  replace (cbad b || cbad a) with true by (destruct (cbad b), (cbad a); cbn in *; congruence).
  rewrite (has_error_dget a g e EA), (has_error_dget b g e EB). split; intros I.
  - apply In_dget in I; [|apply NoDup_dupdate; assumption]. rewrite dget_dupdate in I by assumption.
    destruct (dget g (cerrors b)) as [e'|] eqn:G; [left; assumption|].
    right; split; [assumption|]. intros (e' & I'). apply has_error_dget in I'; [congruence|assumption].
  - apply dget_In. rewrite dget_dupdate by assumption.
    destruct (dget g (cerrors b)) as [e'|] eqn:G; destruct I as [I|[I N]]; try congruence.
    exfalso; apply N; exists e'; apply has_error_dget; assumption.
Qed.

Lemma inplace_WF f nm a b : WF a -> WF b ->
  NoDup (map key (f (members a) (members b))) ->
  (forall y, In y (f (members a) (members b)) -> In y (members a) \/ In y (members b)) ->
  WF (inplace f nm a b).
Proof.
  intros (DA & AA & EA & TA) (DB & AB & EB & TB) ND INC. repeat split; cbn.
  - assumption.
  - intros x I; apply INC in I as [I|I]; auto.
  - destruct (cbad b || cbad a); [apply NoDup_dupdate|]; assumption.
  - apply NoDup_tor; assumption.
Qed.

Lemma get_id_Some i l x : get_id i l = Some x -> In x l /\ ident x = i.
Proof.
  induction l as [|y l IH]; cbn; [congruence|]. destruct (eqb_spec (ident y) i) as [Q|N].
  - intros H; inversion H; subst; auto.
  - intros H; apply IH in H; intuition.
Qed.
Lemma get_id_None i l : get_id i l = None <-> forall x, In x l -> ident x <> i.
Proof.
  induction l as [|y l IH]; cbn; [intuition|]. destruct (eqb_spec (ident y) i) as [Q|N].
  - split; [congruence|]. intros H; exfalso; apply (H y); auto.
  - rewrite IH; split; [intros H x [->|I]; auto | intros H x I; auto].
Qed.

Lemma WF_sub c m : WF c -> NoDup (map key m) -> (forall y, In y m -> In y (members c)) -> WF (set_members c m).
Proof. intros (D & A & ER & T) ND I; repeat split; cbn; auto. intros x J; apply A; auto. Qed.

Lemma step_ok o out c l c' : WF c -> op_ok o -> Permutation (members c) l ->
  run_op o (set_members c l) = (out, c') -> spec_step o out c c' /\ WF c'.
Proof.
  intros W OK P R.
  assert (PI : forall y, In y l <-> In y (members c)).
  { intros y; split; apply Permutation_in; [apply Permutation_sym|]; assumption. }
  assert (PK : forall k, kmem k l <-> Mem k c).
  { intros k; rewrite kmem_iff; unfold Mem; split; intros (x & I & Q); exists x; split; auto; apply PI; assumption. }
  assert (W1 := WF_perm W P).
  assert (NDl : NoDup (map key l)) by (destruct W1 as (D & _); exact D).
  assert (DISC : forall x y, In y (sdiscard x l) <-> In y (members c) /\ key y <> key x).
  { intros x y; rewrite In_sdiscard, PI; reflexivity. }
  assert (WDISC : forall x, WF (set_members (set_members c l) (sdiscard x l))).
  { intros x; apply WF_sub; [assumption | apply NoDup_filter_keys; assumption |].
    cbn; intros y I; apply In_sdiscard in I; intuition. }
  assert (FR : forall m, same_frame c (set_members (set_members c l) m)) by (intros m; repeat split).
  assert (FR0 : same_frame c (set_members c l)) by (repeat split).
  assert (SO : same_objects c (set_members c l)) by (intros y; cbn; apply PI).
  destruct o as [x|x|x| | |b|b|b|b|i|i|]; cbn [run_op spec_step op_ok] in *.
  - unfold coll_add in R. destruct (allowed x) eqn:AL; inversion R; subst; clear R.
    + split.
      * left; repeat split; cbn.
        -- intros I; apply In_sadd in I. rewrite PI, PK in I; assumption.
        -- intros I; apply In_sadd; rewrite PI, PK; assumption.
        -- apply In_tadd. -- apply In_tadd.
      * destruct W1 as (D & A & ER & T). repeat split; cbn in *; auto.
        -- apply NoDup_sadd; assumption.
        -- intros y I; apply In_sadd in I as [I|[-> _]]; auto.
        -- apply NoDup_tadd; assumption.
    + split; [right; auto | assumption].
  - inversion R; subst; clear R. split; [split; [reflexivity | split; [apply DISC | apply FR]] | apply WDISC].
  - unfold coll_remove in R; change (members (set_members c l)) with l in R. destruct (smem x l) eqn:M; inversion R; subst; clear R.
    + apply smem_spec, PK in M. split; [left; exact (conj M (conj eq_refl (conj (DISC x) (FR _)))) | apply WDISC].
    + apply smem_false in M; rewrite PK in M. split; [right; auto | assumption].
  - unfold coll_pop in R; change (members (set_members c l)) with l in R. destruct l as [|x l']; inversion R; subst; clear R.
    + split; [right|assumption]. split; [|auto]. intros k M; apply PK in M; destruct M.
    + cbn in NDl; inversion NDl as [|? ? NI ND']; subst. split.
      * left; exists x; repeat split.
        -- apply PI; left; reflexivity.
        -- apply PI; right; assumption.
        -- intros Q; apply NI; rewrite <- Q; apply in_map; assumption.
        -- intros [I N]; apply PI in I as [I|I]; [congruence|assumption].
      * apply WF_sub; [assumption|assumption|]. cbn; auto.
  - inversion R; subst; clear R. split; [repeat split; cbn; auto|].
    destruct W as (_ & _ & _ & T). repeat split; cbn; [constructor | intros ? [] | constructor | assumption].
  - inversion R; subst; clear R.
    assert (F := inplace_frame_ok sor $" |= " W1 OK). destruct OK as (DB & AB & EB & TB).
    split; [split; [reflexivity|split; [exact F|]]|].
    + unfold coll_ixor, coll_isub, coll_ior, inplace; cbn [members set_members]; intros y. rewrite In_sor, PI, PK by assumption; reflexivity.
    + apply inplace_WF; [assumption | repeat split; assumption | apply NoDup_sor; assumption | intros y; apply sor_incl].
  - inversion R; subst; clear R.
    assert (F := inplace_frame_ok sand $" &= " W1 OK). destruct OK as (DB & AB & EB & TB).
    split; [split; [reflexivity|split; [exact F|split]]|].
    + intros k. rewrite (Mem_kmem k (coll_iand _ _)). unfold coll_iand, inplace; cbn [members set_members].
      rewrite kmem_sand, PK, (Mem_kmem k b); reflexivity.
    + intros y I; apply sand_incl in I; cbn [members set_members] in I; rewrite PI in I; assumption.
    + apply inplace_WF; [assumption | repeat split; assumption | apply NoDup_sand; assumption | intros y; apply sand_incl].
  - inversion R; subst; clear R.
    assert (F := inplace_frame_ok sxor $" ^= " W1 OK). destruct OK as (DB & AB & EB & TB).
    split; [split; [reflexivity|split; [exact F|]]|].
    + unfold coll_ixor, coll_isub, coll_ior, inplace; cbn [members set_members]; intros y. rewrite In_sxor, PI, PK, (Mem_kmem (key y) b); reflexivity.
    + apply inplace_WF; [assumption | repeat split; assumption | apply NoDup_sxor; assumption | intros y; cbn [members set_members]].
      rewrite In_sxor; intuition.
  - inversion R; subst; clear R.
    assert (F := inplace_frame_ok ssub $" -= " W1 OK). destruct OK as (DB & AB & EB & TB).
    split; [split; [reflexivity|split; [exact F|]]|].
    + unfold coll_ixor, coll_isub, coll_ior, inplace; cbn [members set_members]; intros y. rewrite In_ssub, PI, (Mem_kmem (key y) b); reflexivity.
    + apply inplace_WF; [assumption | repeat split; assumption | apply NoDup_filter_keys; assumption | intros y; cbn [members set_members]].
      rewrite In_ssub; intuition.
  - inversion R; subst; clear R. unfold coll_discardID; change (members (set_members c l)) with l.
    destruct (get_id i l) as [x|] eqn:G.
    + apply get_id_Some in G as [I Q]. split; [|apply WDISC]. repeat split; try apply FR.
      left; exists x; split; [apply PI; assumption|split; [assumption|apply DISC]].
    + split; [|assumption]. repeat split. right; split; [|assumption].
      intros x I; apply PI in I; revert x I; apply get_id_None; assumption.
  - unfold coll_removeID in R; change (members (set_members c l)) with l in R. destruct (get_id i l) as [x|] eqn:G.
    + apply get_id_Some in G as [I Q]. rewrite (proj2 (smem_spec x l) (kmem_In x l I)) in R.
      inversion R; subst; clear R. split; [|apply WDISC]. split; [apply FR|].
      left; split; [reflexivity|]. exists x; split; [apply PI; assumption|split; [reflexivity|apply DISC]].
    + inversion R; subst; clear R. split; [|assumption]. split; [assumption|]. right; split; [reflexivity|split; [|assumption]].
      intros x I; apply PI in I; revert x I; apply get_id_None; assumption.
  - inversion R; subst; clear R.
    assert (ND' := NoDup_filter_keys (fun x => negb (ebad x)) _ NDl).
    split.
    + split; [reflexivity|]. split; [|cbn; auto]. intros y. unfold coll_dropBadEntries; cbn [members set_members].
      rewrite In_set_of by assumption. rewrite filter_In, negb_true_iff, PI; reflexivity.
    + unfold coll_dropBadEntries; repeat split; unfold Distinct, AllAllowed; cbn [members set_members cerrors ctypes].
      * apply NoDup_set_of.
      * intros y I; apply set_of_incl, filter_In in I as [I _]; apply W1; assumption.
      * constructor.
      * apply W.
Qed.

Lemma runs_refine c h c' : WF c -> hist_ok h -> runs c h c' -> spec_runs c h c' /\ WF c'.
Proof.
  intros W OK R; revert W OK; induction R as [c|c l o out c1 h c2 P R1 R2 IH]; intros W OK.
  - split; [constructor|assumption].
  - destruct (@step_ok o out c l c1 W (OK o out (or_introl eq_refl)) P R1) as [S1 W1].
    destruct IH as [S2 W2]; [assumption | intros o' out' I; apply (OK o' out'); right; assumption |].
    split; [econstructor; eassumption | assumption].
Qed.

Lemma contains_ok x c : coll_contains x c = true <-> Mem (key x) c.
Proof. unfold coll_contains; rewrite smem_spec, Mem_kmem; reflexivity. Qed.

Lemma len_ok c ks : WF c -> NoDup ks -> (forall k, In k ks <-> Mem k c) -> coll_len c = length ks.
Proof.
  intros (D & _) ND I. unfold coll_len; rewrite <- (map_length key).
  apply Permutation_length, NoDup_Permutation; [assumption|assumption|].
  intros k; rewrite I, Mem_kmem; reflexivity.
Qed.

(** ** constructor *)
Lemma from_list_ok l name : (forall x, In x l -> allowed x = true) -> NoDup (map key l) ->
  from_iterable (Reiterable l) name = Ok (mkColl l [] name false []).
Proof.
  intros A ND; unfold from_iterable; cbn [first_walk second_walk].
  replace (forallb allowed l) with true by (symmetry; apply forallb_forall; assumption).
  rewrite set_of_id by assumption; reflexivity.
Qed.

Lemma binary_ok f nm a b : WF a -> WF b ->
  NoDup (map key (f (members a) (members b))) ->
  (forall y, In y (f (members a) (members b)) -> In y (members a) \/ In y (members b)) ->
  binary f nm a b =
  Ok (mkColl (f (members a) (members b)) [] (cname a ++ nm ++ cname b)
        (cbad b || cbad a) (if cbad b || cbad a then cerrors b else [])).
Proof.
  intros (DA & AA & EA & TA) (DB & AB & EB & TB) ND INC. unfold binary. cbn [bind].
  rewrite from_list_ok; [| intros x I; apply INC in I as [I|I]; auto | assumption].
  cbn [bind members ctypes cname cerrors]. destruct (cbad b || cbad a); [|reflexivity].
  f_equal. f_equal. unfold dupdate. clear - EB.
  (* updating the empty dict with a dict gives that dict *)
  assert (G : forall (e d : dict str str), NoDup (dkeys (d ++ e)) ->
     fold_left (fun a kv => dset (fst kv) (snd kv) a) e d = d ++ e).
  { induction e as [|[k v] e IH]; intros d N; cbn [fold_left fst snd]; [rewrite app_nil_r; reflexivity|].
    assert (Q : dset k v d = d ++ [(k, v)]).
    { unfold dkeys in N; rewrite map_app in N; cbn in N. apply NoDup_remove_2 in N. rewrite in_app_iff in N.
      assert (N' : ~ In k (map fst d)) by auto. clear - N'. induction d as [|[k' v'] d IH]; cbn; [reflexivity|].
      destruct (eqb_spec k k') as [->|NE]; [exfalso; apply N'; cbn; auto|]. rewrite IH; [reflexivity|].
      intros I; apply N'; cbn; auto. }
    rewrite Q, IH; rewrite <- app_assoc; [reflexivity|exact N]. }
  rewrite G; cbn; [reflexivity|exact EB].
Qed.

(** ** chunk and split *)
Definition last_bound (M : nat) (cur : Z) (ps : list (list E)) : Prop :=
  ps <> [] -> exists q p, ps = q ++ [p] /\ Z.of_nat (length p) = cur.

Lemma add_last_app x cs c c' : coll_add x c = Ok c' -> add_last x (cs ++ [c]) = Ok (cs ++ [c']).
Proof.
  intros A; induction cs as [|d cs IH]; cbn [app add_last].
  - rewrite A; reflexivity.
  - rewrite IH. destruct (cs ++ [c]) eqn:Q; [destruct cs; discriminate|reflexivity].
Qed.

Section Chunk.
Variable n : Z.
Let M : nat := Z.to_nat (Z.max 1 n).
Variable nm : str.

(* invariant of the chunk list while processing *)
Record chunks_inv (done : list E) (cur : Z) (cs : list (coll E)) : Prop := {
  ci_concat : concat (map members cs) = done;
  ci_shape : (cs = [] /\ (n <= cur)%Z) \/
             exists q c, cs = q ++ [c] /\ Forall (fun d => length (members d) = M) q /\
                         Z.of_nat (length (members c)) = cur /\ (1 <= cur <= Z.max 1 n)%Z;
  ci_name : forall i d, nth_error cs i = Some d -> cname d = chunk_name i nm /\ cbad d = false /\ cerrors d = []
}.

Lemma chunk_step done x cur cs : NoDup (map key (done ++ [x])) -> allowed x = true ->
  chunks_inv done cur cs ->
  exists cs' cur', chunks_inv (done ++ [x]) cur' cs' /\
   ((n <= cur)%Z /\ (exists c, from_iterable (Reiterable [x]) (chunk_name (length cs) nm) = Ok c /\
                     cs' = cs ++ [c] /\ cur' = 1%Z)
    \/ (cur < n)%Z /\ add_last x cs = Ok cs' /\ cur' = (cur + 1)%Z).
Proof.
  intros ND AL [CC SH NMS].
  destruct (Z_le_gt_dec n cur) as [LE|GT].
  - exists (cs ++ [mkColl [x] [] (chunk_name (length cs) nm) false []]), 1%Z. split.
    + constructor.
      * rewrite map_app, concat_app, CC; cbn; reflexivity.
      * right; exists cs, (mkColl [x] [] (chunk_name (length cs) nm) false []).
        split; [reflexivity|]. split; [|cbn; lia].
        destruct SH as [[-> _]|(q & c & -> & F & L & B)]; [constructor|].
        apply Forall_app; split; [assumption|]. constructor; [|constructor]. unfold M; lia.
      * intros i d I. destruct (Nat.lt_ge_cases i (length cs)) as [L|L].
        -- rewrite nth_error_app1 in I by assumption; auto.
        -- rewrite nth_error_app2 in I by assumption. destruct (i - length cs) as [|k] eqn:Q.
           ++ cbn in I; inversion I; subst; cbn. replace i with (length cs) by lia; auto.
           ++ destruct k; discriminate.
    + left; split; [assumption|]. eexists; split; [|split; reflexivity].
      apply from_list_ok; [intros y [<-|[]]; assumption | constructor; [intros []|constructor]].
  - destruct SH as [[-> L]|(q & c & -> & F & L & B)]; [lia|].
    assert (NEWX : smem x (members c) = false).
    { apply smem_false; intros KM. rewrite map_app in ND; cbn in ND. apply NoDup_remove_2 in ND. rewrite app_nil_r in ND.
      apply ND. rewrite <- CC, map_app, concat_app; cbn. rewrite app_nil_r, map_app, in_app_iff; right; assumption. }
    set (c' := mkColl (members c ++ [x]) (tadd (tyname x) (ctypes c)) (cname c) (cbad c) (cerrors c)).
    assert (A : coll_add x c = Ok c').
    { unfold coll_add, sadd; rewrite AL, NEWX; reflexivity. }
    exists (q ++ [c']), (cur + 1)%Z. split.
    + constructor.
      * rewrite <- CC. rewrite !map_app, !concat_app; cbn; rewrite !app_nil_r, app_assoc; reflexivity.
      * right; exists q, c'. repeat split; auto; unfold c'; cbn; rewrite ?app_length; cbn; lia.
      * intros i d I. destruct (Nat.lt_ge_cases i (length q)) as [L'|L'].
        -- rewrite nth_error_app1 in I by assumption. apply (NMS i d). rewrite nth_error_app1; assumption.
        -- rewrite nth_error_app2 in I by assumption. destruct (i - length q) as [|k] eqn:Q.
           ++ cbn in I; inversion I; subst; cbn. apply (NMS i c). rewrite nth_error_app2, Q by assumption; reflexivity.
           ++ destruct k; discriminate.
    + right; split; [lia|]. split; [|reflexivity]. apply add_last_app; assumption.
Qed.

Lemma chunk_loop_ok l done cur cs : NoDup (map key (done ++ l)) -> (forall x, In x l -> allowed x = true) ->
  chunks_inv done cur cs ->
  exists cs' cur', chunk_loop n cur nm l cs = Ok cs' /\ chunks_inv (done ++ l) cur' cs'.
Proof.
  revert done cur cs; induction l as [|x l IH]; intros done cur cs ND AL CI; cbn [chunk_loop].
  - exists cs, cur; rewrite app_nil_r; auto.
  - replace (done ++ x :: l) with ((done ++ [x]) ++ l) in * by (rewrite <- app_assoc; reflexivity).
    destruct (@chunk_step done x cur cs) as (cs' & cur' & CI' & R); auto.
    { rewrite map_app in ND; revert ND; generalize (map key (done ++ [x])) (map key l); clear.
      intros u v; induction v as [|z v IHv] using rev_ind; [rewrite app_nil_r; auto|].
      rewrite app_assoc; intros N; apply NoDup_remove_1 in N; rewrite app_nil_r in N; auto. }
    { apply AL; left; reflexivity. }
    destruct (IH (done ++ [x]) cur' cs') as (cs2 & cur2 & R2 & CI2); auto.
    { intros y I; apply AL; right; assumption. }
    exists cs2, cur2; split; [|assumption].
    destruct R as [(LE & c & FI & -> & ->)|(LT & AD & ->)].
    + replace (n <=? cur)%Z with true by (symmetry; apply Z.leb_le; assumption). rewrite FI; cbn [bind]. exact R2.
    + replace (n <=? cur)%Z with false by (symmetry; apply Z.leb_gt; assumption). rewrite AD; cbn [bind]. exact R2.
Qed.

Lemma chunks_inv_pieces done cur cs : chunks_inv done cur cs -> even_pieces M done (map members cs).
Proof.
  intros [CC SH _]. split; [assumption|].
  destruct SH as [[-> _]|(q & c & -> & F & L & B)].
  - split; [intros [|i] p I; discriminate | intros p []].
  - rewrite Forall_forall in F. split.
    + intros i p I LT. rewrite map_length, app_length in LT; cbn in LT.
      rewrite nth_error_map, nth_error_app1 in I by lia. destruct (nth_error q i) as [d|] eqn:Q; [|discriminate].
      inversion I; subst. apply F; eapply nth_error_In; eassumption.
    + intros p I. apply in_map_iff in I as (d & <- & I). apply in_app_iff in I as [I|[<-|[]]].
      * rewrite F by assumption. unfold M; lia.
      * unfold M; lia.
Qed.
End Chunk.

Lemma chunk_ok n c : WF c ->
  exists cs, coll_chunk n c = Ok cs /\
    even_pieces (Z.to_nat (Z.max 1 n)) (members c) (map members cs) /\
    (forall i d, nth_error cs i = Some d -> cname d = chunk_name i (cname c) /\ cbad d = false /\ cerrors d = []).
Proof.
  intros (D & A & _ & _).
  destruct (@chunk_loop_ok n (cname c) (members c) [] (n + 1) []) as (cs & cur & R & CI); auto.
  { constructor; [reflexivity | left; split; [reflexivity | lia] | intros [|i] d Q; discriminate]. }
  exists cs; split; [exact R|]. split; [|apply CI].
  apply chunks_inv_pieces in CI; exact CI.
Qed.

Lemma split_loop_chunk n cur a l cs :
  split_loop n cur a l cs =
  let* cs' := chunk_loop n cur (cname a) l cs in
  Ok (cs', mkColl [] (ctypes a) ($"Emptied-" ++ cname a) false []).
Proof.
  revert cur a cs; induction l as [|x l IH]; intros cur a cs; cbn [split_loop chunk_loop bind]; [reflexivity|].
  destruct (n <=? cur)%Z.
  - destruct (from_iterable (Reiterable [x]) (chunk_name (length cs) (cname a))) as [c|e]; cbn [bind]; [|reflexivity].
    rewrite IH; reflexivity.
  - destruct (add_last x cs) as [cs'|e]; cbn [bind]; [|reflexivity]. rewrite IH; reflexivity.
Qed.

Lemma split_ok n c : WF c ->
  exists cs c', coll_split n c = Ok (cs, c') /\
    even_pieces (Z.to_nat (Z.max 1 n)) (members c) (map members cs) /\
    (forall i d, nth_error cs i = Some d -> cname d = chunk_name i (cname c) /\ cbad d = false /\ cerrors d = []) /\
    members c' = [] /\ cbad c' = false /\ cerrors c' = [] /\ cname c' = $"Emptied-" ++ cname c /\ ctypes c' = ctypes c.
Proof.
  intros W. destruct (chunk_ok n W) as (cs & R & EP & NM).
  unfold coll_split; rewrite split_loop_chunk. unfold coll_chunk in R. rewrite R; cbn [bind].
  exists cs; eexists; split; [reflexivity|]. cbn; auto 10.
Qed.

(** ** equality, order, hash *)
Lemma eq_ok a b : WF a -> WF b -> (coll_eq a b = true <-> forall k, Mem k a <-> Mem k b).
Proof.
  intros (DA & _) (DB & _). unfold coll_eq, seq_set. rewrite andb_true_iff, Nat.eqb_eq, forallb_forall.
  setoid_rewrite smem_spec. setoid_rewrite Mem_kmem. unfold Distinct in *. split.
  - intros [L I] k. split; [intros M; apply kmem_iff in M as (x & J & <-); auto|].
    assert (INC : incl (map key (members a)) (map key (members b))).
    { intros z J; apply in_map_iff in J as (x & <- & J); apply I; assumption. }
    assert (INC' : incl (map key (members b)) (map key (members a))).
    { apply NoDup_length_incl; [assumption | rewrite !map_length; lia | assumption]. }
    intros M; apply INC'; exact M.
  - intros EQ. split.
    + rewrite <- (map_length key (members a)), <- (map_length key (members b)).
      apply Permutation_length, NoDup_Permutation; auto; exact EQ.
    + intros x I; apply EQ, kmem_In; assumption.
Qed.

Lemma sum_perm (l m : list Z) : Permutation l m -> fold_right Z.add 0%Z l = fold_right Z.add 0%Z m.
Proof. induction 1; cbn; lia. Qed.
Lemma hash_ok h hi a b : WF a -> WF b -> coll_eq a b = true -> coll_hash h hi a = coll_hash h hi b.
Proof.
  intros WA WB Q. rewrite (eq_ok WA WB) in Q. unfold coll_hash; f_equal. rewrite <- !(map_map key h).
  apply sum_perm, Permutation_map, NoDup_Permutation; [apply WA | apply WB |].
  intros k; specialize (Q k); rewrite !Mem_kmem in Q; exact Q.
Qed.
Lemma subset_le a b : WF a -> (forall k, Mem k a -> Mem k b) -> coll_le a b = true /\ coll_ge b a = true.
Proof.
  intros (DA & _) S. unfold coll_le, coll_ge.
  assert (L : length (members a) <= length (members b)).
  { rewrite <- (map_length key (members a)), <- (map_length key (members b)). apply NoDup_incl_length; [exact DA|].
    intros k I; specialize (S k); rewrite !Mem_kmem in S; apply S; exact I. }
  split; apply Nat.leb_le; assumption.
Qed.

(** ** ids *)
Lemma containsID_ok i c : coll_containsID i c = true <-> exists x, In x (members c) /\ ident x = i.
Proof.
  unfold coll_containsID. induction (members c) as [|y l IH]; cbn.
  - split; [discriminate | intros (x & [] & _)].
  - destruct (eqb_spec (ident y) i) as [Q|N].
    + split; [intros _; exists y; auto | reflexivity].
    + rewrite IH; split; intros (x & I & Q); exists x; [auto|]. destruct I as [->|I]; [congruence|auto].
Qed.
Lemma getID_ok i c :
  match coll_getID i c with
  | Some x => In x (members c) /\ ident x = i
  | None => forall x, In x (members c) -> ident x <> i
  end.
Proof.
  unfold coll_getID; destruct (get_id i (members c)) eqn:G; [apply get_id_Some; assumption | apply get_id_None; assumption].
Qed.

Lemma badEntries_ok c : WF c -> exists r, coll_badEntries c = Ok r /\
  (forall y, In y (members r) <-> In y (members c) /\ ebad y = true) /\ WF r /\
  cname r = [] /\ cbad r = false /\ cerrors r = [] /\ ctypes r = [].
Proof.
  intros (D & A & _ & _). unfold coll_badEntries.
  assert (G : forall l s, fold_left (fun s x => if ebad x then sadd x s else s) l s
     = sor s (filter (fun x => ebad x) l)).
  { induction l as [|x l IH]; intros s; cbn [fold_left filter]; [reflexivity|].
    rewrite IH. destruct (ebad x); reflexivity. }
  rewrite G. assert (ND := NoDup_filter_keys (fun x => ebad x) _ D).
  change (sor [] (filter (fun x => ebad x) (members c))) with (set_of (filter (fun x => ebad x) (members c))).
  rewrite (set_of_id _ ND).
  rewrite from_list_ok; [|intros x I; apply filter_In in I; apply A, I|assumption].
  eexists; split; [reflexivity|]. cbn. split; [intros y; apply filter_In|].
  repeat split; cbn; auto; try constructor. intros x I; apply filter_In in I; apply A, I.
Qed.

(** ** a + b *)
Lemma add_all_ok l c : WF c -> (forall x, In x l -> allowed x = true) ->
  exists c', add_all l c = Ok c' /\ members c' = sor (members c) l /\
    (forall t, In t (ctypes c') <-> In t (ctypes c) \/ exists x, In x l /\ tyname x = t) /\
    cname c' = cname c /\ cbad c' = cbad c /\ cerrors c' = cerrors c /\ WF c'.
Proof.
  revert c; induction l as [|x l IH]; intros c W A; cbn [add_all].
  - exists c; split; [reflexivity|]. split; [reflexivity|]. split; [|auto].
    intros t; split; [auto | intros [I|(x & [] & _)]; assumption].
  - unfold coll_add; rewrite (A x (or_introl eq_refl)); cbn [bind].
    destruct (IH (mkColl (sadd x (members c)) (tadd (tyname x) (ctypes c)) (cname c) (cbad c) (cerrors c)))
      as (c' & R & M & T & N & B & ER & W').
    + destruct W as (D & AA & EE & TT). repeat split; cbn; auto.
      * apply NoDup_sadd; assumption.
      * intros y I; apply In_sadd in I as [I|[-> _]]; [auto | apply A; left; reflexivity].
      * apply NoDup_tadd; assumption.
    + intros y I; apply A; right; assumption.
    + exists c'; split; [exact R|]. cbn in *. split; [exact M|]. split; [|auto].
      intros t; rewrite T, In_tadd. split.
      * intros [[I| ->]|(y & I & Q)]; [auto | right; exists x; auto | right; exists y; auto].
      * intros [I|(y & [<-|I] & Q)]; [auto | left; right; congruence | right; exists y; auto].
Qed.
Lemma plus_ok a b : WF a -> WF b -> exists r, coll_plus a b = Ok r /\ WF r /\
  (forall y, In y (members r) <-> In y (members a) \/ (In y (members b) /\ ~ Mem (key y) a)) /\
  (forall t, In t (ctypes r) <-> exists x, (In x (members a) \/ In x (members b)) /\ tyname x = t) /\
  cbad r = false /\ cerrors r = [].
Proof.
  intros WA WB. unfold coll_plus.
  destruct (@add_all_ok (members a) (empty_coll (cname a ++ $" " ++ cname b))) as (c1 & R1 & M1 & T1 & N1 & B1 & E1 & W1).
  { repeat split; cbn; try constructor; intros ? []. }
  { apply WA. }
  rewrite R1; cbn [bind].
  destruct (@add_all_ok (members b) c1) as (c2 & R2 & M2 & T2 & N2 & B2 & E2 & W2); [assumption|apply WB|].
  exists c2; split; [exact R2|]. split; [assumption|]. cbn in M1, B1, E1.
  assert (MA : members c1 = members a).
  { rewrite M1; fold (set_of (members a)). unfold sor; apply set_of_id, WA. }
  repeat split.
  - rewrite M2, MA, In_sor, Mem_kmem by apply WB; auto.
  - rewrite M2, MA, In_sor, Mem_kmem by apply WB; auto.
  - rewrite T2, T1; cbn. intros [[[]|(x & I & Q)]|(x & I & Q)]; exists x; auto.
  - rewrite T2, T1; cbn. intros (x & [I|I] & Q); [left; right|right]; exists x; auto.
  - congruence.
  - congruence.
Qed.
End Proofs.
