(** * C107: the fields of grants over histories of changes. *)
From Coq Require Import List ZArith Lia Bool Arith.
From Coq Require Import String.
From Verif Require Import Base IdentityModel IdentitySpec IdentityProofs.
Import ListNotations.
Local Open Scope list_scope.

Section C107.
Context {V : Type}.
Variable shown : list V -> str.
Variable hash : str -> Z.
Variable nserc : dict str V -> dict str V -> dict str V.

(** what the fields of the grants are after a history, the last action first: the value last stored under the tag, none if it was deleted since, and after an update with a grant of
    the same class that of the other grant if it had one; adding to a collection and discarding change no grant *)
Fixpoint field (l : list (@obj V)) (rev_history : list (@action V)) (i : nat) (tag : str) : option V :=
  match rev_history with
  | [] => match nth_error l i with Some o => dget tag (o_data o) | None => None end
  | Store r k v :: h => if (Nat.eqb i r && Nat.ltb i (length l) && eqb tag k)%bool then Some v else field l h i tag
  | Delete r k :: h => if (Nat.eqb i r && eqb tag k)%bool then None else field l h i tag
  | Update r q :: h =>
    if (Nat.eqb i r && eqb (option_map (@o_cls V) (nth_error l r)) (option_map (@o_cls V) (nth_error l q)))%bool
    then match field l h q tag with Some v => Some v | None => field l h r tag end
    else field l h i tag
  | _ :: h => field l h i tag
  end.
Definition holds (l : list (@obj V)) (h : list (@action V)) (w : @world V) : Prop :=
  length (w_objs w) = length l /\
  forall i o, nth_error (w_objs w) i = Some o -> option_map (@o_cls V) (nth_error l i) = Some (o_cls o) /\ option_map (@o_id V) (nth_error l i) = Some (o_id o) /\
    (o_cls o <> NsercC -> NoDup (dkeys (o_data o)) /\ forall tag, dget tag (o_data o) = field l h i tag).
Lemma length_set_obj r (o : @obj V) l : length (set_obj r o l) = length l.
Proof.
  unfold set_obj. rewrite app_length. rewrite <- (firstn_skipn r l) at 3. rewrite app_length. f_equal. destruct (skipn r l); reflexivity.
Qed.
Lemma holds_step l h w a : holds l h w -> holds l (a :: h) (act shown hash nserc w a).
Proof.
  intros H. pose proof H as (L & HH).
  destruct a as [r|r|r k v|r k|r q]; cbn [act].
  - destruct (nth_error (w_objs w) r); [destruct (contains shown hash w r)|]; split; try exact L; exact HH.
  - split; [exact L|exact HH].
  - destruct (nth_error (w_objs w) r) as [o|] eqn:O; (split; [cbn [w_objs]; rewrite ?length_set_obj; exact L|]); cbn [w_objs].
    + intros i p. rewrite nth_set_obj, O. destruct (Nat.eqb_spec i r) as [->|NE].
      * intros Q. injection Q as <-. destruct (HH r o O) as (C & I1 & NF). cbn [with_data o_data o_cls o_id]. split; [exact C|]. split; [exact I1|]. intros NS. destruct (NF NS) as (N & F). split; [apply NoDup_dset, N|]. intros tag. cbn [field]. rewrite Nat.eqb_refl.
        assert (B : Nat.ltb r (length l) = true) by (apply Nat.ltb_lt; rewrite <- L; apply nth_error_Some; rewrite O; discriminate). rewrite B. cbn [andb]. rewrite dget_dset. destruct (eqb tag k); [reflexivity|apply F].
      * intros Q. destruct (HH i p Q) as (C & I1 & NF). split; [exact C|]. split; [exact I1|]. intros NS. destruct (NF NS) as (N & F). split; [exact N|]. intros tag. cbn [field]. destruct (Nat.eqb_spec i r); [contradiction|]. cbn [andb]. apply F.
    + intros i p Q. destruct (HH i p Q) as (C & I1 & NF). split; [exact C|]. split; [exact I1|]. intros NS. destruct (NF NS) as (N & F). split; [exact N|]. intros tag. cbn [field]. destruct (Nat.eqb_spec i r); [subst; congruence|]. cbn [andb]. apply F.
  - destruct (nth_error (w_objs w) r) as [o|] eqn:O; (split; [cbn [w_objs]; rewrite ?length_set_obj; exact L|]); cbn [w_objs].
    + intros i p. rewrite nth_set_obj, O. destruct (Nat.eqb_spec i r) as [->|NE].
      * intros Q. injection Q as <-. destruct (HH r o O) as (C & I1 & NF). cbn [with_data o_data o_cls o_id]. split; [exact C|]. split; [exact I1|]. intros NS. destruct (NF NS) as (N & F). split; [apply NoDup_ddel, N|]. intros tag. cbn [field]. rewrite Nat.eqb_refl.
        cbn [andb]. rewrite dget_ddel by exact N. destruct (eqb tag k); [reflexivity|apply F].
      * intros Q. destruct (HH i p Q) as (C & I1 & NF). split; [exact C|]. split; [exact I1|]. intros NS. destruct (NF NS) as (N & F). split; [exact N|]. intros tag. cbn [field]. destruct (Nat.eqb_spec i r); [contradiction|]. cbn [andb]. apply F.
    + intros i p Q. destruct (HH i p Q) as (C & I1 & NF). split; [exact C|]. split; [exact I1|]. intros NS. destruct (NF NS) as (N & F). split; [exact N|]. intros tag. cbn [field]. destruct (Nat.eqb_spec i r); [subst; congruence|]. cbn [andb]. apply F.
  - assert (SAME : forall i p, i <> r -> nth_error (w_objs w) i = Some p -> option_map (@o_cls V) (nth_error l i) = Some (o_cls p) /\ option_map (@o_id V) (nth_error l i) = Some (o_id p) /\ (o_cls p <> NsercC -> NoDup (dkeys (o_data p)) /\ forall tag, dget tag (o_data p) = field l (Update r q :: h) i tag)).
    { intros i p NE Q. destruct (HH i p Q) as (C & I1 & NF). split; [exact C|]. split; [exact I1|]. intros NS. destruct (NF NS) as (N & F). split; [exact N|]. intros tag. cbn [field]. destruct (Nat.eqb_spec i r); [contradiction|]. cbn [andb]. apply F. }
    destruct (nth_error (w_objs w) r) as [o|] eqn:O.
    + destruct (HH r o O) as (C & I1 & NF). destruct (nth_error (w_objs w) q) as [p|] eqn:P.
      * destruct (HH q p P) as (C' & _ & NF'). destruct (eqb_spec (o_cls o) NsercC) as [ES|NS].
        { split; [cbn [w_objs]; rewrite length_set_obj; exact L|]. cbn [w_objs]. intros i p'. rewrite nth_set_obj, O. destruct (Nat.eqb_spec i r) as [->|NE]; [|apply SAME, NE]. intros Q. injection Q as <-. cbn [with_data o_data o_cls o_id].
          split; [exact C|]. split; [exact I1|]. intros NS. contradiction. }
        destruct (NF NS) as (N & F).
        destruct (eqb_spec (o_cls o) (o_cls p)) as [CE|CN]; (split; [cbn [w_objs]; rewrite ?length_set_obj; exact L|]); cbn [w_objs].
        -- intros i p'. rewrite nth_set_obj, O. destruct (Nat.eqb_spec i r) as [->|NE]; [|apply SAME, NE]. intros Q. injection Q as <-. cbn [o_data o_cls o_id]. split; [exact C|]. split; [exact I1|]. intros _. split; [apply NoDup_dupdate, N|].
           assert (NS' : o_cls p <> NsercC) by (rewrite <- CE; exact NS). destruct (NF' NS') as (N' & F'). intros tag. cbn [field]. rewrite Nat.eqb_refl, C, C', CE, eqb_refl. cbn [andb]. rewrite dget_dupdate by exact N'. rewrite F, F'. reflexivity.
        -- intros i p' Q. destruct (Nat.eq_dec i r) as [->|NE]; [|apply (SAME i p' NE Q)]. rewrite O in Q. injection Q as <-. split; [exact C|]. split; [exact I1|]. intros _. split; [exact N|]. intros tag. cbn [field]. rewrite C, C'. rewrite neq_eqb by congruence. rewrite andb_false_r. apply F.
      * split; [exact L|]. intros i p' Q. destruct (Nat.eq_dec i r) as [->|NE]; [|apply (SAME i p' NE Q)]. rewrite O in Q. injection Q as <-. split; [exact C|]. split; [exact I1|]. intros NS. destruct (NF NS) as (N & F). split; [exact N|]. intros tag. cbn [field]. rewrite C.
        apply nth_error_None in P. rewrite L in P. apply nth_error_None in P. rewrite P. cbn [option_map]. rewrite neq_eqb by discriminate. rewrite andb_false_r. apply F.
    + split; [exact L|]. intros i p' Q. destruct (Nat.eq_dec i r) as [->|NE]; [congruence|apply (SAME i p' NE Q)].
Qed.
(** C107: after any history every grant has the class and the id it had, and the fields of a grant that is not of NSERC (for the update of those see C41) are those last given to it. *)
Theorem C107_fields (l : list (@obj V)) : (forall o, In o l -> NoDup (dkeys (o_data o))) -> forall h, let w := acts shown hash nserc (mkWorld l []) h in
  length (w_objs w) = length l /\
  forall i o o', nth_error l i = Some o -> nth_error (w_objs w) i = Some o' -> o_cls o' = o_cls o /\ o_id o' = o_id o /\ (o_cls o <> NsercC -> forall tag, dget tag (o_data o') = field l (rev h) i tag).
Proof.
  intros G h w. assert (H : holds l (rev h) w).
  { subst w. unfold acts. rewrite <- (rev_involutive h) at 2. generalize (rev h) as h'. clear h. intros h'. rewrite <- fold_left_rev_right, rev_involutive. induction h' as [|a h' IH]; cbn [fold_right].
    - split; [reflexivity|]. cbn [w_objs]. intros i o O. rewrite O. split; [reflexivity|]. split; [reflexivity|]. intros _. split; [apply (G o), (nth_error_In _ _ O)|]. intros tag. cbn [field]. rewrite O. reflexivity.
    - apply holds_step. exact IH. }
  destruct H as (L & H). split; [exact L|]. intros i o o' O O'. destruct (H i o' O') as (C & I1 & F). rewrite O in C, I1. injection C as C. injection I1 as I1. split; [auto|]. split; [auto|]. intros NS. rewrite C in NS. apply (F NS).
Qed.
(** whether a grant is bad after a history and with which error, the last action first: as it was made, and after an update with a bad grant of the same class bad with the error of that
    grant; nothing else changes it, and updates change neither of an NSERC grant *)
Fixpoint state (l : list (@obj V)) (rev_history : list (@action V)) (i : nat) : option (bool * str) :=
  match rev_history with
  | [] => option_map (fun o => (o_bad o, o_error o)) (nth_error l i)
  | Update r q :: h =>
    if (Nat.eqb i r && negb (eqb (option_map (@o_cls V) (nth_error l r)) (Some NsercC)) && eqb (option_map (@o_cls V) (nth_error l r)) (option_map (@o_cls V) (nth_error l q)))%bool
    then match state l h q with Some (true, e) => Some (true, e) | _ => state l h i end
    else state l h i
  | _ :: h => state l h i
  end.
Definition stands (l : list (@obj V)) (h : list (@action V)) (w : @world V) : Prop :=
  length (w_objs w) = length l /\
  forall i o, nth_error (w_objs w) i = Some o -> option_map (@o_cls V) (nth_error l i) = Some (o_cls o) /\ state l h i = Some (o_bad o, o_error o).
Lemma stands_step l h w a : stands l h w -> stands l (a :: h) (act shown hash nserc w a).
Proof.
  intros H. pose proof H as (L & HH).
  destruct a as [r|r|r k v|r k|r q]; cbn [act].
  - destruct (nth_error (w_objs w) r); [destruct (contains shown hash w r)|]; split; try exact L; exact HH.
  - split; [exact L|exact HH].
  - destruct (nth_error (w_objs w) r) as [o|] eqn:O; [|exact H]. split; [cbn [w_objs]; rewrite length_set_obj; exact L|]. cbn [w_objs state]. intros i p. rewrite nth_set_obj, O.
    destruct (Nat.eqb_spec i r) as [->|NE]; [|apply HH]. intros Q. injection Q as <-. apply (HH r o O).
  - destruct (nth_error (w_objs w) r) as [o|] eqn:O; [|exact H]. split; [cbn [w_objs]; rewrite length_set_obj; exact L|]. cbn [w_objs state]. intros i p. rewrite nth_set_obj, O.
    destruct (Nat.eqb_spec i r) as [->|NE]; [|apply HH]. intros Q. injection Q as <-. apply (HH r o O).
  - assert (SAME : forall i p, i <> r -> nth_error (w_objs w) i = Some p -> option_map (@o_cls V) (nth_error l i) = Some (o_cls p) /\ state l (Update r q :: h) i = Some (o_bad p, o_error p)).
    { intros i p NE Q. destruct (HH i p Q) as (C & F). split; [exact C|]. cbn [state]. destruct (Nat.eqb_spec i r); [contradiction|]. exact F. }
    destruct (nth_error (w_objs w) r) as [o|] eqn:O.
    + destruct (HH r o O) as (C & F). destruct (nth_error (w_objs w) q) as [p|] eqn:P.
      * destruct (HH q p P) as (C' & F'). destruct (eqb_spec (o_cls o) NsercC) as [ES|NS].
        { split; [cbn [w_objs]; rewrite length_set_obj; exact L|]. cbn [w_objs]. intros i p'. rewrite nth_set_obj, O. destruct (Nat.eqb_spec i r) as [->|NE]; [|apply SAME, NE]. intros Q. injection Q as <-. cbn [with_data o_bad o_error o_cls].
          split; [exact C|]. cbn [state]. rewrite C, ES, eqb_refl. cbn [negb]. rewrite andb_false_r. exact F. }
        destruct (eqb_spec (o_cls o) (o_cls p)) as [CE|CN]; (split; [cbn [w_objs]; rewrite ?length_set_obj; exact L|]); cbn [w_objs].
        -- intros i p'. rewrite nth_set_obj, O. destruct (Nat.eqb_spec i r) as [->|NE]; [|apply SAME, NE]. intros Q. injection Q as <-. cbn [o_bad o_error o_cls]. split; [exact C|].
           cbn [state]. rewrite Nat.eqb_refl, C, C', F', F. assert (N1 : Some (o_cls o) <> Some NsercC) by congruence; rewrite (neq_eqb N1). rewrite CE, eqb_refl. cbn [negb andb]. destruct (o_bad p); reflexivity.
        -- intros i p' Q. destruct (Nat.eq_dec i r) as [->|NE]; [|apply (SAME i p' NE Q)]. rewrite O in Q. injection Q as <-. split; [exact C|]. cbn [state]. rewrite C, C'. assert (N1 : Some (o_cls o) <> Some (o_cls p)) by congruence; rewrite (neq_eqb N1). rewrite andb_false_r. exact F.
      * split; [exact L|]. intros i p' Q. destruct (Nat.eq_dec i r) as [->|NE]; [|apply (SAME i p' NE Q)]. rewrite O in Q. injection Q as <-. split; [exact C|]. cbn [state]. rewrite C.
        apply nth_error_None in P. rewrite L in P. apply nth_error_None in P. rewrite P. cbn [option_map]. assert (N1 : Some (o_cls o) <> None) by discriminate; rewrite (neq_eqb N1). rewrite andb_false_r. exact F.
    + split; [exact L|]. intros i p' Q. destruct (Nat.eq_dec i r) as [->|NE]; [congruence|apply (SAME i p' NE Q)].
Qed.
(** C107: after any history a grant is bad, with the error of that grant, if it was made bad or was updated since with a bad grant of its class; it stays bad for ever. *)
Theorem C107_flags (l : list (@obj V)) h : let w := acts shown hash nserc (mkWorld l []) h in
  (forall i o, nth_error (w_objs w) i = Some o -> state l (rev h) i = Some (o_bad o, o_error o)) /\
  (forall i o a o', nth_error (w_objs w) i = Some o -> o_bad o = true -> nth_error (w_objs (act shown hash nserc w a)) i = Some o' -> o_bad o' = true).
Proof.
  intros w. assert (H : stands l (rev h) w).
  { subst w. unfold acts. rewrite <- (rev_involutive h) at 2. generalize (rev h) as h'. clear h. intros h'. rewrite <- fold_left_rev_right, rev_involutive. induction h' as [|a h' IH]; cbn [fold_right].
    - split; [reflexivity|]. cbn [w_objs]. intros i o O. cbn [state]. rewrite O. split; reflexivity.
    - apply stands_step. exact IH. }
  split; [intros i o O; apply (proj2 H i o O)|]. intros i o a o' O B O'. pose proof (stands_step _ _ _ a H) as (_ & H'). destruct (H' i o' O') as (_ & S'). destruct (proj2 H i o O) as (_ & S0).
  assert (K : exists e, state l (a :: rev h) i = Some (true, e)).
  { rewrite B in S0. destruct a as [r|r|r k v|r k|r q]; cbn [state]; try (eexists; exact S0).
    match goal with |- exists e, (if ?c then _ else _) = _ => destruct c end; [|eexists; exact S0]. destruct (state l (rev h) q) as [[[] e]|]; eexists; first [reflexivity|exact S0]. }
  destruct K as (e & K). rewrite K in S'. congruence.
Qed.
End C107.
Example C107_flags_ex : let a := mkObj CihrC $"A" false [] [($"X", 1)] in let b := mkObj CihrC $"B" true $"No end" [($"Y", 3)] in let c := mkObj NsercC $"C" false [] [] in
  let h := [Add 0; Update 2 1; Update 0 1; Store 0 $"Z" 5; Update 0 0] in
  map (fun o => (o_bad o, o_error o)) (w_objs (acts (fun _ => []) (fun _ => 0%Z) (fun d _ => d) (mkWorld [a; b; c] []) h)) = [(true, $"No end"); (true, $"No end"); (false, [])] /\
  state [a; b; c] (rev h) 0 = Some (true, $"No end").
Proof. cbv zeta. split; vm_compute; reflexivity. Qed.
Example C107_fields_ex : let a := mkObj CihrC $"A" false [] [($"X", 1); ($"Y", 2)] in let b := mkObj CihrC $"B" false [] [($"Y", 3)] in
  let h := [Add 0; Store 1 $"Z" 5; Update 0 1; Delete 0 $"X"; Discard 0] in
  map (fun o => o_data o) (w_objs (acts (fun _ => []) (fun _ => 0%Z) (fun d _ => d) (mkWorld [a; b] []) h)) = [[($"Y", 3); ($"Z", 5)]; [($"Y", 3); ($"Z", 5)]] /\
  field [a; b] (rev h) 0 $"Y" = Some 3 /\ field [a; b] (rev h) 0 $"X" = None /\ (forall o, In o [a; b] -> NoDup (dkeys (o_data o))).
Proof.
  cbv zeta. split; [vm_compute; reflexivity|]. split; [vm_compute; reflexivity|]. split; [vm_compute; reflexivity|]. intros o [<-|[<-|[]]]; repeat constructor; cbn; intuition discriminate.
Qed.
Print Assumptions C107_fields.

Print Assumptions C107_flags.
