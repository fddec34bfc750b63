(** Facts about counting and sorting. *)
From Coq Require Import String Lia Sorted.
From Verif Require Import Base RecordView SeriesSpec.
Set Implicit Arguments.

Lemma total_app {A} (f : A -> nat) l m : total f (l ++ m) = total f l + total f m.
Proof. induction l as [|x l IH]; cbn; [reflexivity|]. fold (total f (l ++ m)). fold (total f l). lia. Qed.
Lemma total_ext {A} (f g : A -> nat) l : (forall x, In x l -> f x = g x) -> total f l = total g l.
Proof. intros E. induction l as [|x l IH]; cbn; [reflexivity|]. fold (total f l); fold (total g l). rewrite E, IH; auto using in_eq, in_cons. Qed.
Lemma total_perm {A} (f : A -> nat) l m : Permutation l m -> total f l = total f m.
Proof. unfold total. induction 1; cbn [fold_right]; lia. Qed.
Lemma total_plus {A} (f g : A -> nat) l : total (fun x => f x + g x) l = total f l + total g l.
Proof. induction l as [|x l IH]; cbn; [reflexivity|]. fold (total (fun x => f x + g x) l) (total f l) (total g l). lia. Qed.
Lemma total_pos {A} (f : A -> nat) l : 0 < total f l <-> exists x, In x l /\ 0 < f x.
Proof.
  induction l as [|x l IH]; unfold total in *; cbn [fold_right In].
  - split; [lia | intros (? & [] & _)].
  - split.
    + intros P. destruct (Nat.eq_dec (f x) 0) as [Z|Z]; [|exists x; split; [auto|lia]].
      destruct (proj1 IH) as (y & I & Q); [lia|]. exists y; auto.
    + intros (y & [<-|I] & Q); [lia|]. enough (0 < fold_right (fun x n => f x + n) 0 l) by lia. apply IH. eauto.
Qed.
Lemma total_zero {A} (l : list A) : total (fun _ => 0) l = 0.
Proof. induction l; cbn; auto. Qed.
Lemma total_scale {A} (f : A -> nat) n l : total (fun x => n * f x) l = n * total f l.
Proof. induction l as [|x l IH]; cbn; [lia|]. fold (total (fun x => n * f x) l) (total f l). lia. Qed.
Lemma count_flat_map {A B} `{EqDec B} (f : A -> list B) l (v : B) : count v (flat_map f l) = total (fun x => count v (f x)) l.
Proof. induction l as [|x l IH]; cbn [flat_map total fold_right]; [reflexivity|]. rewrite count_app. unfold total in IH. rewrite IH. reflexivity. Qed.
Lemma count_filter {A} `{EqDec A} (p : A -> bool) l (v : A) : count v (filter p l) = if p v then count v l else 0.
Proof.
  induction l as [|x l IH]; cbn [filter]; [destruct (p v); reflexivity|].
  destruct (p x) eqn:P; cbn [count]; destruct (eqb_spec v x) as [->|N]; rewrite ?IH, ?P; try reflexivity; destruct (p v); reflexivity.
Qed.

(** ** first occurrences *)
Lemma In_first_seen {A} `{EqDec A} (l : list A) x : In x (first_seen l) <-> In x l.
Proof.
  induction l as [|y l IH]; cbn [first_seen In]; [tauto|]. rewrite filter_In, IH, negb_true_iff.
  split; [tauto|]. intros [->|I]; [auto|]. destruct (eqb_spec x y) as [->|N]; auto.
Qed.
Lemma NoDup_first_seen {A} `{EqDec A} (l : list A) : NoDup (first_seen l).
Proof.
  induction l as [|y l IH]; cbn [first_seen]; constructor.
  - rewrite filter_In, eqb_refl. intros [_ Q]; discriminate.
  - apply NoDup_filter, IH.
Qed.
Lemma filter_filter {A} (p q : A -> bool) l : filter p (filter q l) = filter (fun x => q x && p x) l.
Proof. induction l as [|x l IH]; cbn; [reflexivity|]. destruct (q x); cbn; [destruct (p x); rewrite IH|]; auto. Qed.
Lemma uniq_first_seen {A} `{EqDec A} (l : list A) : forall seen, uniq_acc seen l = filter (fun x => negb (mem x seen)) (first_seen l).
Proof.
  induction l as [|x l IH]; intros seen; [reflexivity|]. cbn [uniq_acc first_seen filter].
  destruct (mem x seen) eqn:M; cbn [negb].
  - rewrite IH, filter_filter. apply filter_ext. intros y. destruct (eqb_spec y x) as [->|N]; [rewrite M|]; reflexivity.
  - f_equal. rewrite IH, filter_filter. apply filter_ext. intros y. unfold mem. cbn [existsb]. destruct (eqb y x); reflexivity.
Qed.
Lemma NoDup_same_length {A} (a b : list A) : NoDup a -> NoDup b -> (forall x, In x a <-> In x b) -> length a = length b.
Proof. intros NA NB E. apply Permutation_length. apply NoDup_Permutation; assumption. Qed.
Lemma first_seen_filter {A} `{EqDec A} (p : A -> bool) (l : list A) : first_seen (filter p l) = filter p (first_seen l).
Proof.
  induction l as [|x l IH]; [reflexivity|]. cbn [filter first_seen]. destruct (p x) eqn:P; cbn [first_seen].
  - rewrite IH. f_equal. rewrite !filter_filter. apply filter_ext. intros y. apply andb_comm.
  - rewrite IH, filter_filter. apply filter_ext. intros y. destruct (eqb_spec y x) as [->|N]; cbn; [exact P|reflexivity].
Qed.

(** ** counting into a dictionary *)
Section Dincr.
  Context {V : Type} `{EqDec V}.
  Lemma dget_dincr (v w : V) (d : dict V nat) :
    dget v (dincr w d) = if eqb v w then Some (match dget w d with Some n => n + 1 | None => 1 end) else dget v d.
  Proof. unfold dincr. destruct (dget w d) eqn:E; rewrite dget_dset; destruct (eqb v w); reflexivity. Qed.
  Lemma dkeys_dincr (w : V) (d : dict V nat) : dkeys (dincr w d) = if mem w (dkeys d) then dkeys d else dkeys d ++ [w].
  Proof. unfold dincr. destruct (dget w d); rewrite dkeys_dset; unfold dhas; reflexivity. Qed.
  Lemma uniq_acc_ext (l : list V) : forall s s', (forall x, mem x s = mem x s') -> uniq_acc s l = uniq_acc s' l.
  Proof.
    induction l as [|x l IH]; intros s s' E; cbn; [reflexivity|]. rewrite E. destruct (mem x s'); [apply IH, E|]. f_equal. apply IH. intros y. unfold mem in *. cbn. rewrite E. reflexivity.
  Qed.
  Lemma fold_dincr (l : list V) : forall d,
    (forall v, dget v (fold_left (fun d v => dincr v d) l d) =
       match dget v d with
       | Some n => Some (n + count v l)
       | None => if count v l =? 0 then None else Some (count v l)
       end) /\
    dkeys (fold_left (fun d v => dincr v d) l d) = dkeys d ++ uniq_acc (dkeys d) l.
  Proof.
    induction l as [|x l IH]; intros d; cbn [fold_left].
    - split; [|cbn; rewrite app_nil_r; reflexivity]. intros v. destruct (dget v d); [rewrite Nat.add_0_r|]; reflexivity.
    - destruct (IH (dincr x d)) as [G K]. split.
      + intros v. rewrite G, dget_dincr. cbn [count]. destruct (eqb_spec v x) as [->|N].
        * destruct (dget x d); cbn [Nat.add Nat.eqb]; f_equal; lia.
        * reflexivity.
      + rewrite K, dkeys_dincr. cbn [uniq_acc]. destruct (mem x (dkeys d)) eqn:M; [reflexivity|].
        rewrite <- app_assoc. cbn [app]. do 2 f_equal. apply uniq_acc_ext. intros y. unfold mem. rewrite existsb_app. cbn. rewrite orb_false_r. apply orb_comm.
  Qed.
  Lemma NoDup_fold_dincr (l : list V) : forall d, NoDup (dkeys d) -> NoDup (dkeys (fold_left (fun d v => dincr v d) l d)).
  Proof. induction l as [|x l IH]; intros d ND; cbn; [exact ND|]. apply IH. unfold dincr. destruct (dget x d); apply NoDup_dset; exact ND. Qed.
End Dincr.

(** ** stable sorting *)
Section SortFacts.
  Context {A K : Type} (key : A -> K) (le : K -> K -> bool).
  Lemma sinsert_perm x l : Permutation (x :: l) (sinsert key le x l).
  Proof.
    induction l as [|y l IH]; cbn [sinsert]; [apply Permutation_refl|]. destruct (le (key x) (key y)); [apply Permutation_refl|].
    eapply Permutation_trans; [apply perm_swap|]. apply perm_skip, IH.
  Qed.
  Lemma ssort_perm l : Permutation l (ssort key le l).
  Proof. induction l as [|x l IH]; cbn; [constructor|]. eapply Permutation_trans; [apply perm_skip, IH|]. apply sinsert_perm. Qed.
  Lemma ssort_length l : length (ssort key le l) = length l.
  Proof. symmetry. apply Permutation_length, ssort_perm. Qed.
  Hypothesis le_total : forall a b, le a b = true \/ le b a = true.
  Hypothesis le_trans : forall a b c, le a b = true -> le b c = true -> le a c = true.
  Definition ordered (l : list A) : Prop := StronglySorted (fun x y => le (key x) (key y) = true) l.
  Lemma sinsert_ordered x l : ordered l -> ordered (sinsert key le x l).
  Proof.
    unfold ordered. induction 1 as [|y l S IH F]; cbn [sinsert]; [repeat constructor|].
    destruct (le (key x) (key y)) eqn:L.
    - constructor; [constructor; assumption|]. constructor; [exact L|]. eapply Forall_impl; [|exact F]. intros z Lz. eapply le_trans; eassumption.
    - constructor; [exact IH|]. eapply Permutation_Forall; [apply sinsert_perm|]. constructor; [|exact F].
      destruct (le_total (key x) (key y)); [congruence | assumption].
  Qed.
  Lemma ssort_ordered l : ordered (ssort key le l).
  Proof. induction l as [|x l IH]; cbn; [constructor|]. apply sinsert_ordered, IH. Qed.
  Lemma sinsert_stable (p : A -> bool) x l : (forall y, p x = true -> p y = true -> key x = key y) ->
    filter p (sinsert key le x l) = filter p (x :: l).
  Proof.
    intros P. induction l as [|y l IH]; cbn [sinsert]; [reflexivity|]. destruct (le (key x) (key y)) eqn:L; [reflexivity|].
    cbn [filter] in *. rewrite IH. destruct (p x) eqn:Px; [|reflexivity]. destruct (p y) eqn:Py; [|reflexivity].
    exfalso. rewrite (P y eq_refl Py) in L. destruct (le_total (key y) (key y)); congruence.
  Qed.
  Lemma ssort_stable (p : A -> bool) l : (forall x y, p x = true -> p y = true -> key x = key y) ->
    filter p (ssort key le l) = filter p l.
  Proof. intros P. induction l as [|x l IH]; [reflexivity|]. cbn [ssort fold_right]. rewrite sinsert_stable by auto. cbn [filter]. fold (ssort key le l). rewrite IH. reflexivity. Qed.
End SortFacts.
