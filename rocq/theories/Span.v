(** The longest prefix of elements with a property, and what follows it. *)
From Verif Require Import Base.
Set Implicit Arguments.

Fixpoint tw {A} (p : A -> bool) (s : list A) : list A := match s with x :: s' => if p x then x :: tw p s' else [] | [] => [] end.
Fixpoint dw {A} (p : A -> bool) (s : list A) : list A := match s with x :: s' => if p x then dw p s' else s | [] => [] end.
(** at most [n] *)
Fixpoint twn {A} (n : nat) (p : A -> bool) (s : list A) : list A :=
  match n, s with S n', x :: s' => if p x then x :: twn n' p s' else [] | _, _ => [] end.
Fixpoint dwn {A} (n : nat) (p : A -> bool) (s : list A) : list A :=
  match n, s with S n', x :: s' => if p x then dwn n' p s' else s | _, _ => s end.
Lemma tw_dw {A} (p : A -> bool) s : s = tw p s ++ dw p s.
Proof. induction s as [|x s IH]; cbn; [reflexivity|]. destruct (p x); cbn; congruence. Qed.
Lemma twn_dwn {A} (p : A -> bool) n : forall s, s = twn n p s ++ dwn n p s.
Proof. induction n as [|n IH]; intros [|x s]; cbn; try reflexivity. destruct (p x); cbn; [f_equal; apply IH|reflexivity]. Qed.
Lemma tw_all {A} (p : A -> bool) s : Forall (fun x => p x = true) (tw p s).
Proof. induction s as [|x s IH]; cbn; [constructor|]. destruct (p x) eqn:E; constructor; assumption. Qed.
Lemma twn_all {A} (p : A -> bool) n : forall s, Forall (fun x => p x = true) (twn n p s).
Proof. induction n as [|n IH]; intros [|x s]; cbn; try constructor. destruct (p x) eqn:E; constructor; auto. Qed.
Lemma dw_head {A} (p : A -> bool) s : match dw p s with [] => True | x :: _ => p x = false end.
Proof. induction s as [|x s IH]; cbn; [exact I|]. destruct (p x) eqn:E; [exact IH|exact E]. Qed.
Lemma tw_app {A} (p : A -> bool) a b : Forall (fun x => p x = true) a -> match b with [] => True | x :: _ => p x = false end -> tw p (a ++ b) = a /\ dw p (a ++ b) = b.
Proof.
  induction 1 as [|x a E F IH]; intros H; cbn.
  - destruct b as [|y b]; cbn; [auto|]. rewrite H. auto.
  - rewrite E. destruct (IH H) as [-> ->]. auto.
Qed.
Lemma twn_app {A} (p : A -> bool) a b : forall n, Forall (fun x => p x = true) a -> length a <= n -> match b with [] => True | x :: _ => p x = false end -> twn n p (a ++ b) = a /\ dwn n p (a ++ b) = b.
Proof.
  induction a as [|x a IH]; intros n F L H; cbn.
  - destruct b as [|y b], n; cbn; auto. rewrite H. auto.
  - destruct n as [|n]; [cbn in L; lia|]. inversion F as [|? ? E F']; subst. cbn. rewrite E.
    destruct (IH n F' ltac:(cbn in L; lia) H) as [-> ->]. auto.
Qed.

