(** The texts an expression without loops matches, and that the backtracking search finds them. *)
From Coq Require Import List Lia Bool Arith.
From Coq Require Import String.
From Verif Require Import Base PyStr Regex.
Import ListNotations.
Local Open Scope list_scope.

(** usual meaning of the expressions *)
Inductive Lang : rx -> str -> Prop :=
| L_cls (p : char -> bool) x : p x = true -> Lang (RCls p) [x]
| L_cat a b u v : Lang a u -> Lang b v -> Lang (RCat a b) (u ++ v)
| L_or_l a b u : Lang a u -> Lang (ROr a b) u
| L_or_r a b u : Lang b u -> Lang (ROr a b) u
| L_opt_no a : Lang (ropt a) []
| L_opt a u : Lang a u -> Lang (ropt a) u
| L_grp n a u : Lang a u -> Lang (RGrp n a) u
| L_eps : Lang REps [].
Inductive no_loop : rx -> Prop :=
| N_cls p : no_loop (RCls p)
| N_cat a b : no_loop a -> no_loop b -> no_loop (RCat a b)
| N_or a b : no_loop a -> no_loop b -> no_loop (ROr a b)
| N_opt a : no_loop a -> no_loop (ropt a)
| N_grp n a : no_loop a -> no_loop (RGrp n a)
| N_eps : no_loop REps.

Lemma no_loop_sound {X} r : no_loop r -> forall s c (k : str -> caps -> option X) x, rmatch r s c k = Some x -> exists u v c', s = u ++ v /\ Lang r u /\ k v c' = Some x.
Proof.
  induction 1 as [p|a b _ IHa _ IHb|a b _ IHa _ IHb|a _ IHa|n a _ IHa|]; intros s c k x; cbn [rmatch].
  - destruct s as [|y s]; [discriminate|]. destruct (p y) eqn:P; [|discriminate]. intros Q. exists [y], s, c. repeat split; [constructor; exact P|exact Q].
  - intros Q. apply IHa in Q as (u & v & c' & -> & LA & Q). apply IHb in Q as (u' & v' & c'' & -> & LB & Q). exists (u ++ u'), v', c''. rewrite app_assoc. repeat split; [constructor; assumption|exact Q].
  - unfold orelse. destruct (rmatch a s c k) eqn:E.
    + intros [= ->]. apply IHa in E as (u & v & c' & -> & LA & Q). exists u, v, c'. repeat split; [apply L_or_l, LA|exact Q].
    + intros Q. apply IHb in Q as (u & v & c' & -> & LA & Q). exists u, v, c'. repeat split; [apply L_or_r, LA|exact Q].
  - unfold ropt. cbn [rmatch rep]. unfold orelse. match goal with |- match ?m with _ => _ end = _ -> _ => destruct m eqn:E end.
    + intros [= ->]. apply IHa in E as (u & v & c' & -> & LA & Q). destruct (length v <? length (u ++ v)); [|discriminate]. cbn [option_map pred] in Q.
      destruct (length (u ++ v)); cbn [rep] in Q; [discriminate|]. cbn [Nat.eqb orelse] in Q. exists u, v, c'. repeat split; [apply L_opt, LA|exact Q].
    + cbn [Nat.eqb]. intros Q. exists [], s, c. repeat split; [apply L_opt_no|exact Q].
  - intros Q. apply IHa in Q as (u & v & c' & -> & LA & Q). exists u, v, (set_cap n (firstn (length (u ++ v) - length v) (u ++ v)) c'). repeat split; [constructor; exact LA|exact Q].
  - intros Q. exists [], s, c. repeat split; [constructor|exact Q].
Qed.
Lemma lang_found {X} r u : Lang r u -> forall v c (k : str -> caps -> option X), (forall c', k v c' <> None) -> rmatch r (u ++ v) c k <> None.
Proof.
  induction 1 as [p x P|a b u u' _ IHa _ IHb|a b u _ IHa|a b u _ IHb|a|a u LA IHa|n a u _ IHa|]; intros v c k K; cbn [rmatch].
  - cbn. rewrite P. apply K.
  - rewrite <- app_assoc. apply IHa. intros c'. apply IHb. exact K.
  - unfold orelse. specialize (IHa v c k K). destruct (rmatch a (u ++ v) c k); [discriminate|congruence].
  - unfold orelse. destruct (rmatch a (u ++ v) c k); [discriminate|]. apply IHb, K.
  - unfold ropt. cbn [rmatch rep app Nat.eqb]. unfold orelse. match goal with |- match ?m with _ => _ end <> _ => destruct m end; [discriminate|apply K].
  - unfold ropt. destruct u as [|y u].
    + cbn [rmatch rep app Nat.eqb]. unfold orelse. match goal with |- match ?m with _ => _ end <> _ => destruct m end; [discriminate|apply K].
    + cbn [rmatch rep]. unfold orelse. match goal with |- match ?m with _ => _ end <> _ => assert (E : m <> None) end.
      { apply IHa. intros c'. replace (length v <? length ((y :: u) ++ v)) with true by (symmetry; apply Nat.ltb_lt; cbn; rewrite app_length; lia). cbn [length app]. cbn. apply K. }
      match goal with |- match ?m with _ => _ end <> _ => destruct m end; [discriminate|congruence].
  - apply IHa. intros c'. apply K.
  - apply K.
Qed.
