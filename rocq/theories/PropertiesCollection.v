(** Property theorems about collections (C01-C10, C53).  Statements only; each is closed by a lemma. *)
From Coq Require Import String.
From Verif Require Import Base CollectionModel CollectionSpec CollectionProofs CollectionExamples.

(** C01, C09, C10: over every history, under every iteration order, each operation has exactly
    the effect of the mathematical set operation and leaves the bookkeeping as specified. *)
Theorem C01_history_refines_set :
  forall (E K : Type) (HK : EqDec K) (EL : Elem E K) (c c' : coll E) (h : list (op E * outcome E)),
    WF c -> hist_ok h -> runs c h c' -> spec_runs c h c' /\ WF c'.
Proof. intros E K HK EL c c' h; exact (@runs_refine E K HK EL c h c'). Qed.
Print Assumptions C01_history_refines_set.
Example C01_history_example : WF c12 /\ hist_ok hist /\ runs c12 hist hist_end.
Proof. exact (conj c12_wf (conj hist_hist_ok hist_runs)). Qed.

(** C01: membership test and length. *)
Theorem C01_contains :
  forall (E K : Type) (HK : EqDec K) (EL : Elem E K) (x : E) (c : coll E),
    coll_contains x c = true <-> exists y, In y (members c) /\ key y = key x.
Proof. intros E K HK EL x c; exact (contains_ok x c). Qed.
Print Assumptions C01_contains.
(** peek gives a member, and None only if there is none; it changes nothing. *)
Theorem C01_peek :
  forall (E K : Type) (HK : EqDec K) (EL : Elem E K) (c : coll E),
    match coll_peek c with
    | Some x => coll_contains x c = true /\ exists y, In y (members c) /\ y = x
    | None => coll_len c = 0 /\ forall x, coll_contains x c = false
    end.
Proof.
  intros E K HK EL c. unfold coll_peek. destruct (members c) as [|y l] eqn:M.
  - split; [unfold coll_len; rewrite M; reflexivity|]. intros x. destruct (coll_contains x c) eqn:Q; [|reflexivity].
    apply contains_ok in Q as (y & Iy & _). rewrite M in Iy; destruct Iy.
  - split; [apply contains_ok; exists y; rewrite M; split; [left|]; reflexivity | exists y; split; [left|]; reflexivity].
Qed.

Print Assumptions C01_peek.
Example C01_peek_ex : coll_peek c12 <> None /\ coll_peek (coll_clear c12) = None.
Proof. split; [discriminate | reflexivity]. Qed.

Theorem C01_len_is_cardinality :
  forall (E K : Type) (HK : EqDec K) (EL : Elem E K) (c : coll E) (ks : list K),
    WF c -> NoDup ks -> (forall k, In k ks <-> exists y, In y (members c) /\ key y = k) ->
    coll_len c = length ks.
Proof. intros E K HK EL c ks; exact (@len_ok E K EL c ks). Qed.
Print Assumptions C01_len_is_cardinality.
Example C01_len_example : WF c12 /\ NoDup [$"WOS:2"; $"WOS:1"] /\
  (forall k, In k [$"WOS:2"; $"WOS:1"] <-> exists y, In y (members c12) /\ key y = k).
Proof.
  split; [exact c12_wf|]. split; [nodup|]. intros k; cbn. split.
  - intros [<-|[<-|[]]]; [exists r2|exists r1]; auto.
  - intros (y & [<-|[<-|[]]] & <-); auto.
Qed.

(** C02: every reachable collection holds allowed objects only (no object twice, dict and set fields proper). *)
Theorem C02_only_allowed_types :
  forall (E K : Type) (HK : EqDec K) (EL : Elem E K) (c c' : coll E) (h : list (op E * outcome E)),
    WF c -> hist_ok h -> runs c h c' -> forall x, In x (members c') -> allowed x = true.
Proof. intros E K HK EL c c' h W O R; exact (proj1 (proj2 (proj2 (@runs_refine E K HK EL c h c' W O R)))). Qed.
Print Assumptions C02_only_allowed_types.
(** the type names recorded need not cover the members: a union built with | records none *)
Theorem C02_recorded_types_refuted :
  exists (a b r : coll rec) (x : rec), WF a /\ WF b /\ coll_or a b = Ok r /\ In x (members r) /\ ~ In (tyname x) (ctypes r).
Proof.
  exists c12, c13. eexists. exists r1. split; [exact c12_wf|]. split; [exact c13_wf|].
  split; [vm_compute; reflexivity|]. split; [cbn; auto | intros []].
Qed.
Print Assumptions C02_recorded_types_refuted.

(** C03: the four binary operators. *)
Theorem C03_or :
  forall (E K : Type) (HK : EqDec K) (EL : Elem E K) (a b : coll E), WF a -> WF b ->
  exists r, coll_or a b = Ok r /\
    (forall y, In y (members r) <-> In y (members a) \/ (In y (members b) /\ ~ Mem (key y) a)) /\
    Distinct r /\ cname r = cname a ++ $" | " ++ cname b /\
    (cbad r = true <-> cbad a = true \/ cbad b = true).
Proof.
  intros E K HK EL a b WA WB. unfold coll_or. rewrite binary_ok; auto.
  - eexists; split; [reflexivity|]. split; [|split; [|split; [reflexivity|]]].
    + intros y; cbn [members]. rewrite In_sor, Mem_kmem by apply WB. reflexivity.
    + apply NoDup_sor, WA.
    + cbn. destruct (cbad b), (cbad a); cbn; intuition congruence.
  - apply NoDup_sor, WA.
  - intros y; apply sor_incl.
Qed.
Print Assumptions C03_or.
Theorem C03_and :
  forall (E K : Type) (HK : EqDec K) (EL : Elem E K) (a b : coll E), WF a -> WF b ->
  exists r, coll_and a b = Ok r /\
    (forall k, Mem k r <-> Mem k a /\ Mem k b) /\
    (forall y, In y (members r) -> In y (members a) \/ In y (members b)) /\
    Distinct r /\ cname r = cname a ++ $" & " ++ cname b /\
    (cbad r = true <-> cbad a = true \/ cbad b = true).
Proof.
  intros E K HK EL a b WA WB. unfold coll_and. rewrite binary_ok; auto.
  - eexists; split; [reflexivity|]. split; [|split; [|split; [|split; [reflexivity|]]]].
    + intros k; rewrite !Mem_kmem; cbn [members]. apply kmem_sand.
    + cbn [members]. intros y; apply sand_incl.
    + apply NoDup_sand; [apply WA | apply WB].
    + cbn. destruct (cbad b), (cbad a); cbn; intuition congruence.
  - apply NoDup_sand; [apply WA | apply WB].
  - intros y; apply sand_incl.
Qed.
Print Assumptions C03_and.
Theorem C03_sub :
  forall (E K : Type) (HK : EqDec K) (EL : Elem E K) (a b : coll E), WF a -> WF b ->
  exists r, coll_sub a b = Ok r /\
    (forall y, In y (members r) <-> In y (members a) /\ ~ Mem (key y) b) /\
    Distinct r /\ cname r = cname a ++ $" - " ++ cname b /\
    (cbad r = true <-> cbad a = true \/ cbad b = true).
Proof.
  intros E K HK EL a b WA WB. unfold coll_sub. rewrite binary_ok; auto.
  - eexists; split; [reflexivity|]. split; [|split; [|split; [reflexivity|]]].
    + intros y; cbn [members]. rewrite In_ssub, Mem_kmem. reflexivity.
    + apply NoDup_filter_keys, WA.
    + cbn. destruct (cbad b), (cbad a); cbn; intuition congruence.
  - apply NoDup_filter_keys, WA.
  - intros y I; apply In_ssub in I; left; apply I.
Qed.
Print Assumptions C03_sub.
Theorem C03_xor :
  forall (E K : Type) (HK : EqDec K) (EL : Elem E K) (a b : coll E), WF a -> WF b ->
  exists r, coll_xor a b = Ok r /\
    (forall y, In y (members r) <->
       (In y (members a) /\ ~ Mem (key y) b) \/ (In y (members b) /\ ~ Mem (key y) a)) /\
    Distinct r /\ cname r = cname a ++ $" ^ " ++ cname b /\
    (cbad r = true <-> cbad a = true \/ cbad b = true).
Proof.
  intros E K HK EL a b WA WB. unfold coll_xor. rewrite binary_ok; auto.
  - eexists; split; [reflexivity|]. split; [|split; [|split; [reflexivity|]]].
    + intros y; cbn [members]. rewrite In_sxor, !Mem_kmem. reflexivity.
    + apply NoDup_sxor; [apply WA | apply WB].
    + cbn. destruct (cbad b), (cbad a); cbn; intuition congruence.
  - apply NoDup_sxor; [apply WA | apply WB].
  - intros y I; apply In_sxor in I; intuition.
Qed.
Print Assumptions C03_xor.
Example C03_example : WF c12 /\ WF c13 /\ cbad c12 = true /\ Mem $"WOS:1" c12 /\ Mem $"WOS:1" c13.
Proof. split; [exact c12_wf|]. split; [exact c13_wf|]. split; [reflexivity|].
  split; [exists r1|exists r1']; split; cbn; auto. Qed.

(** a + b: the members of |, with the type names, without bad flag and errors *)
Theorem C03_plus :
  forall (E K : Type) (HK : EqDec K) (EL : Elem E K) (a b : coll E), WF a -> WF b ->
  exists r, coll_plus a b = Ok r /\ WF r /\
    (forall y, In y (members r) <-> In y (members a) \/ (In y (members b) /\ ~ Mem (key y) a)) /\
    (forall t, In t (ctypes r) <-> exists x, (In x (members a) \/ In x (members b)) /\ tyname x = t) /\
    cbad r = false /\ cerrors r = [].
Proof. intros E K HK EL a b; exact (@plus_ok E K HK EL a b). Qed.
Print Assumptions C03_plus.

(** C04: in-place operators keep every file name with an error of either side once the result is bad. *)
Theorem C04_inplace_keeps_errors :
  forall (E K : Type) (HK : EqDec K) (EL : Elem E K) (a b r : coll E) (f e : str),
    WF a -> WF b -> In r [coll_ior a b; coll_iand a b; coll_ixor a b; coll_isub a b] ->
    cbad a = true \/ cbad b = true -> has_error a f e \/ has_error b f e ->
    cbad r = true /\ exists e', has_error r f e'.
Proof.
  intros E K HK EL a b r f e WA WB I B H.
  assert (exists g nm, r = inplace g nm a b) as (g & nm & ->).
  { cbn in I; repeat destruct I as [<-|I]; try (eexists; eexists; reflexivity); destruct I. }
  destruct (inplace_frame_ok g nm WA WB) as (_ & _ & BB & _ & ER).
  assert (BT := proj2 BB B). split; [assumption|]. specialize (ER BT f).
  destruct H as [H|H]; [|exists e; apply ER; auto].
  destruct (dget f (cerrors b)) as [e'|] eqn:G.
  - exists e'; apply ER; left; apply dget_In; assumption.
  - exists e; apply ER; right; split; [assumption|]. intros (e' & J).
    apply has_error_dget in J; [congruence | apply WB].
Qed.
Print Assumptions C04_inplace_keeps_errors.
Example C04_example : WF c13 /\ WF c12 /\ (cbad c13 = true \/ cbad c12 = true) /\ has_error c12 $"f.txt" $"bad file".
Proof. split; [exact c13_wf|]. split; [exact c12_wf|]. split; [right; reflexivity|]. left; reflexivity. Qed.
(** the binary operators forget the errors of the left operand *)
Theorem C04_binary_keeps_errors_refuted :
  exists (a b r : coll rec) (f e : str), WF a /\ WF b /\ has_error a f e /\ coll_or a b = Ok r /\
    cbad r = true /\ ~ exists e', has_error r f e'.
Proof.
  exists c12, c13. eexists. exists $"f.txt", $"bad file".
  split; [exact c12_wf|]. split; [exact c13_wf|]. split; [left; reflexivity|].
  split; [vm_compute; reflexivity|]. split; [reflexivity|]. intros (e' & []).
Qed.
Print Assumptions C04_binary_keeps_errors_refuted.
(** what holds: the result has exactly the right operand's errors when bad, none otherwise *)
Theorem C04_binary_errors_partial :
  forall (E K : Type) (HK : EqDec K) (EL : Elem E K) (a b r : coll E),
    WF a -> WF b -> In (Ok r) [coll_or a b; coll_and a b; coll_xor a b; coll_sub a b] ->
    cerrors r = if cbad a || cbad b then cerrors b else [].
Proof.
  intros E K HK EL a b r WA WB I.
  rewrite orb_comm. cbn in I. destruct I as [I|[I|[I|[I|[]]]]].
  - unfold coll_or in I; rewrite binary_ok in I; auto; [inversion I; reflexivity | apply NoDup_sor, WA | intros y; apply sor_incl].
  - unfold coll_and in I; rewrite binary_ok in I; auto;
      [inversion I; reflexivity | apply NoDup_sand; [apply WA | apply WB] | intros y; apply sand_incl].
  - unfold coll_xor in I; rewrite binary_ok in I; auto;
      [inversion I; reflexivity | apply NoDup_sxor; [apply WA | apply WB] | intros y J; apply In_sxor in J; intuition].
  - unfold coll_sub in I; rewrite binary_ok in I; auto;
      [inversion I; reflexivity | apply NoDup_filter_keys, WA | intros y J; apply In_ssub in J; left; apply J].
Qed.
Print Assumptions C04_binary_errors_partial.

(** C05 *)
Theorem C05_eq_is_same_members :
  forall (E K : Type) (HK : EqDec K) (EL : Elem E K) (a b : coll E), WF a -> WF b ->
    (coll_eq a b = true <-> forall k, Mem k a <-> Mem k b).
Proof. intros E K HK EL a b; exact (@eq_ok E K HK EL a b). Qed.
Print Assumptions C05_eq_is_same_members.
Theorem C05_equal_collections_hash_equal :
  forall (E K : Type) (HK : EqDec K) (EL : Elem E K) (h : K -> Z) (hi : Z -> Z) (a b : coll E), WF a -> WF b ->
    coll_eq a b = true -> coll_hash h hi a = coll_hash h hi b.
Proof. intros E K HK EL h hi a b; exact (@hash_ok E K HK EL h hi a b). Qed.
Print Assumptions C05_equal_collections_hash_equal.
Theorem C05_subset_implies_le_partial :
  forall (E K : Type) (HK : EqDec K) (EL : Elem E K) (a b : coll E), WF a ->
    (forall k, Mem k a -> Mem k b) -> coll_le a b = true /\ coll_ge b a = true.
Proof. intros E K HK EL a b; exact (@subset_le E K EL a b). Qed.
Print Assumptions C05_subset_implies_le_partial.
Example C05_example : WF c13 /\ WF c123 /\ (forall k, Mem k c13 -> Mem k c123) /\
  coll_eq (coll_ior c12 c13) c123 = true.
Proof.
  split; [exact c13_wf|]. split; [exact c123_wf|]. split; [|reflexivity].
  intros k (x & [<-|[<-|[]]] & <-); [exists r3 | exists r1]; cbn; auto.
Qed.
Theorem C05_le_is_subset_refuted :
  exists a b : coll rec, WF a /\ WF b /\ coll_le a b = true /\ exists k, Mem k a /\ ~ Mem k b.
Proof.
  exists c12, c13. split; [exact c12_wf|]. split; [exact c13_wf|]. split; [reflexivity|].
  exists $"WOS:2". split; [exists r2; cbn; auto|]. intros (x & [<-|[<-|[]]] & Q); discriminate Q.
Qed.
Print Assumptions C05_le_is_subset_refuted.

(** C07 *)
Theorem C07_chunk_partitions :
  forall (E K : Type) (HK : EqDec K) (EL : Elem E K) (n : Z) (c : coll E), WF c ->
    exists cs, coll_chunk n c = Ok cs /\
      even_pieces (Z.to_nat (Z.max 1 n)) (members c) (map members cs) /\
      (forall i d, nth_error cs i = Some d ->
         cname d = $"Chunk-" ++ dec_nat i ++ $"-of-" ++ cname c /\ cbad d = false /\ cerrors d = []).
Proof. intros E K HK EL n c; exact (@chunk_ok E K HK EL n c). Qed.
Print Assumptions C07_chunk_partitions.
Example C07_example : WF c123 /\ exists cs, coll_chunk 2 c123 = Ok cs /\ map members cs = [[r1; r2]; [r3]].
Proof. split; [exact c123_wf|]. eexists; split; [vm_compute; reflexivity | reflexivity]. Qed.

(** C08 *)
Theorem C08_split_partitions_and_empties :
  forall (E K : Type) (HK : EqDec K) (EL : Elem E K) (n : Z) (c : coll E), WF c ->
    exists cs c', coll_split n c = Ok (cs, c') /\
      even_pieces (Z.to_nat (Z.max 1 n)) (members c) (map members cs) /\
      (forall i d, nth_error cs i = Some d ->
         cname d = $"Chunk-" ++ dec_nat i ++ $"-of-" ++ cname c /\ cbad d = false /\ cerrors d = []) /\
      members c' = [] /\ cbad c' = false /\ cerrors c' = [] /\ cname c' = $"Emptied-" ++ cname c /\ ctypes c' = ctypes c.
Proof. intros E K HK EL n c; exact (@split_ok E K HK EL n c). Qed.
Print Assumptions C08_split_partitions_and_empties.

(** C09 (discardID and removeID are in C01_history_refines_set) *)
Theorem C09_containsID :
  forall (E K : Type) (HK : EqDec K) (EL : Elem E K) (i : str) (c : coll E),
    coll_containsID i c = true <-> exists x, In x (members c) /\ ident x = i.
Proof. intros E K HK EL i c; exact (containsID_ok i c). Qed.
Print Assumptions C09_containsID.
Theorem C09_getID :
  forall (E K : Type) (HK : EqDec K) (EL : Elem E K) (i : str) (c : coll E),
    match coll_getID i c with
    | Some x => In x (members c) /\ ident x = i
    | None => forall x, In x (members c) -> ident x <> i
    end.
Proof. intros E K HK EL i c; exact (getID_ok i c). Qed.
Print Assumptions C09_getID.
Example C09_example : coll_getID $"WOS:2" c12 = Some r2 /\ coll_getID $"WOS:9" c12 = None.
Proof. split; reflexivity. Qed.

(** C10 (dropBadEntries is in C01_history_refines_set) *)
Theorem C10_badEntries :
  forall (E K : Type) (HK : EqDec K) (EL : Elem E K) (c : coll E), WF c ->
    exists r, coll_badEntries c = Ok r /\
      (forall y, In y (members r) <-> In y (members c) /\ ebad y = true) /\ WF r /\
      cname r = [] /\ cbad r = false /\ cerrors r = [] /\ ctypes r = [].
Proof. intros E K HK EL c; exact (@badEntries_ok E K HK EL c). Qed.
Print Assumptions C10_badEntries.

(** C53: building from an iterable *)
Theorem C53_from_reiterable :
  forall (E K : Type) (HK : EqDec K) (EL : Elem E K) (l : list E) (name : str),
    (forall x, In x l -> allowed x = true) ->
    exists c, from_iterable (Reiterable l) name = Ok c /\ WF c /\ cname c = name /\
      (forall k, Mem k c <-> exists x, In x l /\ key x = k) /\ (forall y, In y (members c) -> In y l).
Proof.
  intros E K HK EL l name A. unfold from_iterable; cbn [first_walk second_walk].
  replace (forallb allowed l) with true by (symmetry; apply forallb_forall; assumption).
  eexists; split; [reflexivity|]. split; [|split; [reflexivity|split]].
  - split; [|split; [|split; constructor]]; [apply NoDup_set_of|].
    intros x I; apply A; apply set_of_incl; exact I.
  - intros k; rewrite Mem_kmem; cbn [members]; rewrite kmem_set_of; apply kmem_iff.
  - intros y I; apply set_of_incl; exact I.
Qed.
Print Assumptions C53_from_reiterable.
Theorem C53_rejects_foreign :
  forall (E K : Type) (HK : EqDec K) (EL : Elem E K) (it : iterable E) (name : str) (x : E),
    In x (first_walk it) -> allowed x = false -> from_iterable it name = Raise RCTypeError.
Proof.
  intros E K HK EL it name x I A. unfold from_iterable.
  destruct (forallb allowed (first_walk it)) eqn:F; [|reflexivity].
  rewrite forallb_forall in F. rewrite (F x I) in A; discriminate A.
Qed.
Print Assumptions C53_rejects_foreign.
(** a generator (walked once) of any records gives an empty collection *)
Theorem C53_from_generator_refuted :
  exists (l : list rec) (c : coll rec), l <> [] /\ (forall x, In x l -> allowed x = true) /\
    from_iterable (OneShot l) [] = Ok c /\ members c = [].
Proof.
  exists [r1; r3]. eexists. split; [discriminate|]. split; [intros x [<-|[<-|[]]]; reflexivity|].
  split; [vm_compute; reflexivity | reflexivity].
Qed.
Print Assumptions C53_from_generator_refuted.
