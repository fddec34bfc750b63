(** C85: dropping the records that are not of journals, and the tags of a collection. *)
From Coq Require Import List ZArith Lia Bool Arith.
From Coq Require Import String.
From Verif Require Import Base TagNames CollectionModel CollectionSpec CollectionProofs DropModel.
Import ListNotations.
Local Open Scope list_scope.

Section Facts.
Context {E K : Type} {HK : EqDec K} {EL : Elem E K}.
Variables (pub : E -> res (option str)) (t : str) (invert : bool).
Definition wanted (r : E) : bool := match pub r with Ok v => xorb invert (eqb v (Some t)) | Raise _ => false end.
Lemma keep_ok l : (forall r, In r l -> exists v, pub r = Ok v) -> keep_types pub t invert l = Ok (filter wanted l).
Proof.
  induction l as [|r l IH]; intros H; [reflexivity|]. cbn [keep_types filter]. destruct (H r (or_introl eq_refl)) as (v & P). unfold wanted at 1. rewrite P.
  rewrite IH by (intros q I1; apply H; right; exact I1). cbn [bind]. destruct (xorb _ _); reflexivity.
Qed.
Lemma keep_fails l r e : In r l -> pub r = Raise e -> exists r' e', In r' l /\ pub r' = Raise e' /\ keep_types pub t invert l = Raise e'.
Proof.
  intros I1 P. induction l as [|x l IH]; [destruct I1|]. cbn [keep_types]. destruct (pub x) as [v|e'] eqn:PX.
  - destruct I1 as [->|I1]; [congruence|]. destruct (IH I1) as (r' & e' & I2 & P2 & E2). exists r', e'. rewrite E2. cbn [bind]. repeat split; [right; exact I2|exact P2].
  - exists x, e'. repeat split; [left; reflexivity|exact PX].
Qed.
Lemma wanted_spec r v : pub r = Ok v -> (wanted r = true <-> (pub r = Ok (Some t) <-> invert = false)).
Proof.
  intros P. unfold wanted. rewrite P. destruct (eqb_spec v (Some t)) as [->|N], invert; cbn; split; intros H; try congruence; try tauto; intuition congruence.
Qed.
Lemma drop_WF c : WF c -> WF (coll_dropBadEntries c) /\ forall y, In y (members (coll_dropBadEntries c)) <-> In y (members c) /\ ebad y = false.
Proof.
  intros W. destruct W as (ND & AL & NE & NT). assert (ND' := NoDup_filter_keys (fun x => negb (ebad x)) _ ND). split.
  - unfold coll_dropBadEntries. repeat split; unfold Distinct, AllAllowed; cbn [members set_members cerrors ctypes].
    + apply NoDup_set_of.
    + intros y I1. apply set_of_incl, filter_In in I1 as [I1 _]. apply AL. assumption.
    + constructor.
    + exact NT.
  - intros y. unfold coll_dropBadEntries. cbn [members]. rewrite In_set_of by exact ND'. rewrite filter_In, negb_true_iff. reflexivity.
Qed.
End Facts.

(** Exactly the records of the type asked for stay, or with invert the others, and with dropBad only those that are not bad; nothing else about the collection changes,
    except that dropBad forgets the errors. *)
Theorem C85_kept : forall (E K : Type) (HK : EqDec K) (EL : Elem E K) (pub : E -> res (option str)) (upper : str -> str) ptVal dropBad invert (c : coll E),
  WF c -> (forall r, In r (members c) -> dropBad = true /\ ebad r = true \/ exists v, pub r = Ok v) ->
  exists c', dropNonJournals pub upper ptVal dropBad invert c = (c', None) /\ WF c' /\
    (forall r, In r (members c') <-> In r (members c) /\ (dropBad = true -> ebad r = false) /\ (pub r = Ok (Some (upper ptVal)) <-> invert = false)) /\
    cname c' = cname c /\ ctypes c' = ctypes c /\
    (if dropBad then cbad c' = false /\ cerrors c' = [] else cbad c' = cbad c /\ cerrors c' = cerrors c).
Proof.
  intros E K HK EL pub upper ptVal dropBad invert c W H. unfold dropNonJournals. set (c1 := if dropBad then coll_dropBadEntries c else c).
  assert (W1 : WF c1) by (unfold c1; destruct dropBad; [apply drop_WF; exact W|exact W]).
  assert (M1 : forall y, In y (members c1) <-> In y (members c) /\ (dropBad = true -> ebad y = false)).
  { intros y. unfold c1. destruct dropBad; [rewrite (proj2 (drop_WF c W) y); tauto|]. split; [intros I1; split; [exact I1|discriminate]|tauto]. }
  assert (P1 : forall r, In r (members c1) -> exists v, pub r = Ok v).
  { intros r I1. apply M1 in I1 as [I1 B]. destruct (H r I1) as [[D B']|V]; [|exact V]. rewrite (B D) in B'. discriminate. }
  rewrite (keep_ok pub (upper ptVal) invert _ P1). assert (ND := NoDup_filter_keys (wanted pub (upper ptVal) invert) _ (proj1 W1)).
  eexists. split; [reflexivity|]. rewrite (set_of_id _ ND). split; [|split; [|split; [|split]]].
  - apply WF_sub; [exact W1|exact ND|]. intros y I1. apply filter_In in I1. tauto.
  - intros r. cbn [members set_members]. rewrite filter_In. split.
    + intros [I1 WT]. destruct (P1 r I1) as (v & PV). apply (wanted_spec _ _ _ _ _ PV) in WT. apply M1 in I1. tauto.
    + intros (I1 & B & WT). assert (I2 : In r (members c1)) by (apply M1; tauto). destruct (P1 r I2) as (v & PV). split; [exact I2|]. apply (wanted_spec _ _ _ _ _ PV). exact WT.
  - unfold c1. destruct dropBad; reflexivity.
  - unfold c1. destruct dropBad; reflexivity.
  - unfold c1. destruct dropBad; split; reflexivity.
Qed.
(** Without and with invert the records are divided in two: every one that is not dropped as bad is in exactly one of the two collections. *)
Theorem C85_partition : forall (E K : Type) (HK : EqDec K) (EL : Elem E K) (pub : E -> res (option str)) (upper : str -> str) ptVal dropBad (c a b : coll E) ea eb,
  WF c -> (forall r, In r (members c) -> exists v, pub r = Ok v) ->
  dropNonJournals pub upper ptVal dropBad false c = (a, ea) -> dropNonJournals pub upper ptVal dropBad true c = (b, eb) ->
  (forall r, In r (members c) /\ (dropBad = true -> ebad r = false) <-> In r (members a) \/ In r (members b)) /\ (forall r, In r (members a) -> In r (members b) -> False).
Proof.
  intros E K HK EL pub upper ptVal dropBad c a b ea eb W P DA DB.
  destruct (C85_kept E K HK EL pub upper ptVal dropBad false c W (fun r I1 => or_intror (P r I1))) as (a' & EA & _ & MA & _). rewrite DA in EA. injection EA as -> _.
  destruct (C85_kept E K HK EL pub upper ptVal dropBad true c W (fun r I1 => or_intror (P r I1))) as (b' & EB & _ & MB & _). rewrite DB in EB. injection EB as -> _.
  split; intros r; rewrite MA, MB; [|intuition congruence]. split; [|tauto].
  intros [I1 B]. destruct (P r I1) as (v & PV). rewrite PV. destruct (eqb_spec v (Some (upper ptVal))) as [->|N]; [left|right]; repeat split; auto; congruence.
Qed.
(** A record that stays and has no type: the exception of one such record is raised, and the collection has lost its bad records only. *)
Theorem C85_untyped : forall (E K : Type) (HK : EqDec K) (EL : Elem E K) (pub : E -> res (option str)) (upper : str -> str) ptVal dropBad invert (c : coll E) r e,
  WF c -> In r (members c) -> (dropBad = true -> ebad r = false) -> pub r = Raise e ->
  exists c' r' e', dropNonJournals pub upper ptVal dropBad invert c = (c', Some e') /\ In r' (members c) /\ pub r' = Raise e' /\
    forall y, In y (members c') <-> In y (members c) /\ (dropBad = true -> ebad y = false).
Proof.
  intros E K HK EL pub upper ptVal dropBad invert c r e W I1 B P. unfold dropNonJournals. set (c1 := if dropBad then coll_dropBadEntries c else c).
  assert (M1 : forall y, In y (members c1) <-> In y (members c) /\ (dropBad = true -> ebad y = false)).
  { intros y. unfold c1. destruct dropBad; [rewrite (proj2 (drop_WF c W) y); tauto|]. split; [intros I2; split; [exact I2|discriminate]|tauto]. }
  destruct (keep_fails pub (upper ptVal) invert (members c1) r e) as (r' & e' & I2 & P2 & ->); [apply M1; tauto|exact P|]. exists c1, r', e'. split; [reflexivity|]. split; [apply M1 in I2; tauto|]. split; [exact P2|exact M1].
Qed.
(** The tags of a collection are those of its records, each once. *)
Theorem C85_tags : forall (E K : Type) (HK : EqDec K) (EL : Elem E K) (keys : E -> list str) (c : coll E),
  NoDup (coll_tags keys c) /\ forall t, In t (coll_tags keys c) <-> exists r, In r (members c) /\ In t (keys r).
Proof.
  intros E K HK EL keys c. unfold coll_tags.
  assert (T : forall l s, (NoDup s -> NoDup (tor s l)) /\ forall t, In t (tor s l) <-> In t s \/ In t l).
  { unfold tor. induction l as [|x l IH]; intros s; cbn [fold_left]; [split; [auto|intros t; cbn; tauto]|]. destruct (IH (tadd x s)) as [A B]. unfold tadd in *. destruct (mem x s) eqn:M.
    - apply mem_In in M. split; [exact A|]. intros t. rewrite B. cbn. intuition congruence.
    - apply mem_not_In in M. split; [|intros t; rewrite B, in_app_iff; cbn; tauto]. intros N. apply A. clear - N M. induction s as [|y s IH]; cbn; [constructor; [intros []|constructor]|]. inversion_clear N. constructor; [rewrite in_app_iff; cbn; intros [I1|[->|[]]]; [tauto|apply M; left; reflexivity]|]. apply IH; [intros I1; apply M; right; exact I1|assumption]. }
  assert (G : forall l s, NoDup s -> NoDup (fold_left (fun s r => tor s (keys r)) l s) /\ forall t, In t (fold_left (fun s r => tor s (keys r)) l s) <-> In t s \/ exists r, In r l /\ In t (keys r)).
  { induction l as [|x l IH]; intros s N; cbn [fold_left].
    - split; [exact N|]. intros t. split; [tauto|]. intros [I1|(r & [] & _)]. exact I1.
    - destruct (T (keys x) s) as [A B]. destruct (IH _ (A N)) as [C D]. split; [exact C|]. intros t. rewrite D, B. split.
      + intros [[I1|I1]|(r & I1 & I2)]; [tauto|right; exists x; cbn; tauto|right; exists r; cbn; tauto].
      + intros [I1|(r & [->|I1] & I2)]; [tauto|tauto|right; exists r; tauto]. }
  destruct (G (members c) [] (NoDup_nil _)) as [A B]. split; [exact A|]. intros t. rewrite B. split; [intros [[]|X]; exact X|tauto].
Qed.

(** A collection of four records: two of journals, one of a book and a bad one that cannot be read. *)
Definition ex_elem : Elem (str * bool) str := {| key := fst; tyname := fun _ => $"WOSRecord"; allowed := fun _ => true; ident := fst; ebad := snd |}.
Definition ex_pub (r : str * bool) : res (option str) := if snd r then Raise KeyError else if eqb (fst r) $"book" then Ok (Some $"B") else Ok (Some $"J").
Definition ex_coll : coll (str * bool) := mkColl [($"a", false); ($"book", false); ($"bad", true); ($"c", false)] [$"WOSRecord"] $"n" true [($"f", $"e")].
Example C85_ex : dropNonJournals (EL := ex_elem) ex_pub ascii_upper $"j" true false ex_coll = (mkColl [($"a", false); ($"c", false)] [$"WOSRecord"] $"n" false [], None)
  /\ dropNonJournals (EL := ex_elem) ex_pub ascii_upper $"j" true true ex_coll = (mkColl [($"book", false)] [$"WOSRecord"] $"n" false [], None)
  /\ dropNonJournals (EL := ex_elem) ex_pub ascii_upper $"j" false false ex_coll = (ex_coll, Some KeyError).
Proof. vm_compute. auto. Qed.
Example C85_met : WF (EL := ex_elem) ex_coll /\ forall r, In r (members ex_coll) -> true = true /\ ebad (Elem := ex_elem) r = true \/ exists v, ex_pub r = Ok v.
Proof.
  split.
  - repeat split; cbn; repeat constructor; cbn; intuition congruence.
  - intros r [<-|[<-|[<-|[<-|[]]]]]; vm_compute; eauto.
Qed.
Print Assumptions C85_kept.
Print Assumptions C85_partition.
Print Assumptions C85_untyped.
Print Assumptions C85_tags.
