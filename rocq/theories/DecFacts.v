(** Decimal notation: [int(str(z)) == z], and the number of digits. *)
From Coq Require Import String.
From Verif Require Import Base PyStr PyInt CsvProofs.
Set Implicit Arguments.

Definition is_digit (c : char) : Prop := (48 <= c <= 57)%N.
(** the number a digit string stands for *)
Definition number_from (a : Z) (s : str) : Z := fold_left (fun a c => 10 * a + (Z.of_N c - 48))%Z s a.

Lemma digit_value c : is_digit c -> digit c = Some (Z.of_N c - 48)%Z.
Proof.
  unfold is_digit, digit. intros [A B]. apply N.leb_le in A as A'. apply N.leb_le in B as B'. rewrite A', B'. cbn.
  rewrite N2Z.inj_sub by assumption. reflexivity.
Qed.
Lemma int_digits_value s : forall b a, Forall is_digit s -> (s <> [] \/ b = true) -> int_digits b a s = Some (number_from a s).
Proof.
  induction s as [|c s IH]; intros b a F H; cbn [int_digits].
  - destruct H as [H| ->]; [congruence|reflexivity].
  - inversion F; subst. rewrite digit_value by assumption. rewrite IH; [|assumption|right; reflexivity]. reflexivity.
Qed.
Lemma digit_not_ws c : is_digit c -> ws_char c = false.
Proof.
  intros D. destruct (ws_char c) eqn:E; [|reflexivity]. exfalso. revert E. unfold ws_char. unfold is_digit in D.
  repeat match goal with |- context [(?a =? ?b)%N] => destruct (N.eqb_spec a b); [subst; lia|] end.
  intros E. repeat (apply orb_prop in E as [E|E]; [|]); try apply andb_prop in E as [E1 E2]; try discriminate;
  repeat match goal with H : (_ <=? _)%N = true |- _ => apply N.leb_le in H end; try lia.
Qed.
Lemma lstrip_keep c s : ws_char c = false -> lstrip (c :: s) = c :: s.
Proof. intros E; cbn [lstrip]. rewrite E. reflexivity. Qed.
Lemma strip_keep s : Forall (fun c => ws_char c = false) s -> strip s = s.
Proof.
  intros F. assert (L : forall t, Forall (fun c => ws_char c = false) t -> lstrip t = t).
  { intros [|c t] H; [reflexivity|]. inversion H; subst. apply lstrip_keep; assumption. }
  unfold strip, rstrip. rewrite (L s F), (L (rev s)); [apply rev_involutive|].
  apply Forall_forall. intros x I. rewrite <- in_rev in I. rewrite Forall_forall in F. auto.
Qed.
Lemma py_int_digits s : s <> [] -> Forall is_digit s -> py_int s = Some (number_from 0 s).
Proof.
  intros NE F. unfold py_int. rewrite strip_keep.
  - destruct s as [|c s]; [congruence|]. inversion F as [|? ? D F']; subst.
    destruct (N.eqb_spec c 45) as [->|]; [unfold is_digit in D; lia|].
    destruct (N.eqb_spec c 43) as [->|]; [unfold is_digit in D; lia|].
    apply int_digits_value; [assumption|left; discriminate].
  - eapply Forall_impl; [|exact F]. apply digit_not_ws.
Qed.
Lemma py_int_minus s : s <> [] -> Forall is_digit s -> py_int (45%N :: s) = Some (- number_from 0 s)%Z.
Proof.
  intros NE F. unfold py_int. rewrite strip_keep.
  - cbn [N.eqb Pos.eqb]. rewrite int_digits_value; [reflexivity|assumption|auto].
  - constructor; [reflexivity|]. eapply Forall_impl; [|exact F]. apply digit_not_ws.
Qed.

Lemma dec_fuel_value f : forall n acc, (n < 2 ^ N.of_nat f)%N -> number_from 0 (dec_fuel f n acc) = number_from (Z.of_N n) acc.
Proof.
  induction f as [|f IH]; intros n acc L; cbn [dec_fuel].
  - cbn in L. assert (n = 0)%N as -> by lia. reflexivity.
  - pose proof (N.div_mod n 10 ltac:(discriminate)) as DM. pose proof (N.mod_upper_bound n 10 ltac:(discriminate)) as MB.
    set (q := (n / 10)%N) in *. set (r := N.modulo n 10) in *. clearbody q r.
    destruct (N.eqb_spec q 0) as [->|NZ].
    + unfold number_from. cbn [fold_left]. f_equal. lia.
    + rewrite IH.
      * unfold number_from. cbn [fold_left]. f_equal. lia.
      * rewrite Nat2N.inj_succ, N.pow_succ_r' in L. lia.
Qed.
Lemma dec_N_value n : number_from 0 (dec_N n) = Z.of_N n.
Proof.
  unfold dec_N. rewrite dec_fuel_value; [reflexivity|]. rewrite Nat2N.inj_succ, N2Nat.id.
  destruct (N.eq_dec n 0) as [->|NZ]; [reflexivity|]. apply N.log2_spec. lia.
Qed.
Lemma dec_N_digits n : Forall is_digit (dec_N n).
Proof. apply Forall_forall. intros c I. apply (dec_N_chars n). exact I. Qed.
Theorem int_of_str (z : Z) : py_int (dec_Z z) = Some z.
Proof.
  unfold dec_Z. destruct (Z.ltb_spec z 0).
  - rewrite py_int_minus; [|apply dec_N_ne|apply dec_N_digits]. rewrite dec_N_value. f_equal. lia.
  - rewrite py_int_digits; [|apply dec_N_ne|apply dec_N_digits]. rewrite dec_N_value. f_equal. lia.
Qed.
Lemma dec_Z_inj a b : dec_Z a = dec_Z b -> a = b.
Proof. intros E. pose proof (int_of_str a) as A. rewrite E, int_of_str in A. congruence. Qed.
Lemma dec_fuel_length f : forall k n acc, (n < 10 ^ N.of_nat (S k))%N -> length (dec_fuel f n acc) <= S k + length acc.
Proof.
  induction f as [|f IH]; intros k n acc L; cbn [dec_fuel]; [lia|].
  destruct (N.eqb_spec (n / 10) 0) as [_|NZ]; [cbn [length]; lia|].
  destruct k as [|k].
  - exfalso. apply NZ. apply N.div_small. exact L.
  - etransitivity; [apply (IH k)|cbn [length]; lia]. apply N.div_lt_upper_bound; [discriminate|].
    rewrite Nat2N.inj_succ, N.pow_succ_r' in L. exact L.
Qed.
Lemma dec_N_length k n : (n < 10 ^ N.of_nat (S k))%N -> length (dec_N n) <= S k.
Proof. intros L. unfold dec_N. pose proof (@dec_fuel_length (S (N.to_nat (N.log2 n))) k n [] L) as H. cbn [length] in H. lia. Qed.
