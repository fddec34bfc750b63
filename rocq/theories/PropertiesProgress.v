(** C77: the progress bar, for every order of the steps of its two threads. *)
From Coq Require Import List ZArith Lia Bool Arith.
From Coq Require Import String.
From Verif Require Import Base PyStr TextModel TextSpec ProgressModel ProgressSpec ProgressProofs ProgressProofs2.
From Verif Require PropertiesText.
Import ListNotations.
Local Open Scope list_scope.

(** What the caller writes is what its calls say, whatever the other thread does meanwhile. *)
Theorem C77_said : forall P T (percent : P -> str) part (time : T -> nat -> str) dummy big p s calls sch b,
  b = run P T percent part time big sch (start P dummy p s calls) -> todo P b = [] ->
  says P T time dummy big false calls (by_ Caller (out P b)).
Proof.
  intros P T percent part time dummy big p s calls sch b -> D. destruct (said_ok P T percent part time dummy big calls (start P dummy p s calls) sch eq_refl D) as (l & O & S). rewrite O. exact S.
Qed.
(** The drawing is over before the caller writes anything (jumpUp apart): on the terminal, all that is drawn comes before the message or the end of line, ... *)
Theorem C77_order : forall P T (percent : P -> str) part (time : T -> nat -> str) dummy big p s calls sch, ~ In (Up P) calls ->
  exists shown said, out P (run P T percent part time big sch (start P dummy p s calls)) = map (pair Drawer) shown ++ map (pair Caller) said.
Proof.
  intros P T percent part time dummy big p s calls sch N. assert (H : ordered P (run P T percent part time big sch (start P dummy p s calls))) by (apply run_ind; [intros b e; apply step_ordered|apply start_ordered, N]).
  destruct H as [[_ H]|[(sh & O) _]]; [exact H|]. exists sh, []. rewrite app_nil_r. exact O.
Qed.
(** ... and once the bar has been ended and the caller is done, nothing changes any more. *)
Theorem C77_over : forall P T (percent : P -> str) part (time : T -> nat -> str) big p s calls sch later b,
  (exists c, In c calls /\ (c = Exit P \/ exists m, c = Finish P m)) ->
  b = run P T percent part time big sch (start P false p s calls) -> todo P b = [] -> run P T percent part time big later b = b.
Proof.
  intros P T percent part time big p s calls sch later b C -> D. assert (H : pending P (run P T percent part time big sch (start P false p s calls))) by (apply run_ind; [intros b e; apply step_pending|apply start_pending; [reflexivity|exact C]]).
  destruct H as [_ H]. rewrite D in H. destruct H as [A|[[]|[_ [? []]]]]. apply ended_still; assumption.
Qed.
(** The calls return: the drawing thread ends at most nine of its steps after the bar is said to be finished, ... *)
Theorem C77_join : forall P T (percent : P -> str) part (time : T -> nat -> str) big b sch, finished P b = true -> 9 <= drawers T sch -> at_ P (run P T percent part time big sch b) = PEnd.
Proof.
  intros P T percent part time big b sch F D. destruct (run_left P T percent part time big sch b F) as [_ L]. apply left_zero. pose proof (left_nine (at_ P b)). lia.
Qed.
(** ... so all calls have returned if the caller gets a turn after nine of the drawing thread, seven times for each call. *)
Theorem C77_done : forall P T (percent : P -> str) part (time : T -> nat -> str) dummy big p s calls turns,
  Forall (fun turn => exists before w t, turn = before ++ [(Caller, w, t)] /\ 9 <= length (filter (fun e => match fst (fst e) with Drawer => true | Caller => false end) before)) turns ->
  7 * length calls <= length turns -> todo P (run P T percent part time big (concat turns) (start P dummy p s calls)) = [].
Proof.
  intros P T percent part time dummy big p s calls turns F L. apply blocks_done; [apply start_wf|exact F|]. pose proof (start_weigh P dummy p s calls). lia.
Qed.
(** What is drawn: values and texts that the bar was given, also if they are changed while it is being drawn, laid out for a width that the terminal had. *)
Definition values_of {P} (p : P) (calls : list (call P)) (v : P) : Prop := v = p \/ exists s, In (Update P v s) calls.
Definition texts_of {P} (s : str) (calls : list (call P)) (u : str) : Prop := u = s \/ (exists v, In (Update P v (Some u)) calls) \/ In (Finish P u) calls.
Theorem C77_drawn : forall P T (percent : P -> str) part (time : T -> nat -> str) p s calls sch c,
  In c (by_ Drawer (out P (run P T percent part time false sch (start P false p s calls)))) ->
  c = [13%N] \/ exists x w y, In (x, w, y) sch /\
    ((exists v u r, values_of p calls v /\ values_of p calls u /\ bar_row P percent part (max w 8) v u r /\ c = r ++ [13%N]) \/
     (exists v u x' w' t, values_of p calls v /\ texts_of s calls u /\ In (x', w', t) sch /\ text_frame P T percent time (max w 8) u t v c)).
Proof.
  intros P T percent part time p s calls sch c I.
  set (ps := p :: flat_map (fun k => match k with Update _ v _ => [v] | _ => [] end) calls).
  set (ss := s :: flat_map (fun k => match k with Update _ _ (Some u) => [u] | Finish _ u => [u] | _ => [] end) calls).
  set (ws := map (fun e => snd (fst e)) sch). set (ts := map (@snd (who * nat) T) sch).
  assert (VP : forall v, In v ps -> values_of p calls v).
  { intros v [E|E]; [left; congruence|]. right. apply in_flat_map in E. destruct E as (k & K & E). destruct k as [v0 s0|s0| |]; cbn in E; try contradiction. destruct E as [->|[]]. eauto. }
  assert (VS : forall u, In u ss -> texts_of s calls u).
  { intros v [E|E]; [left; congruence|]. right. apply in_flat_map in E. destruct E as (k & K & E). destruct k as [v0 [s0|]|s0| |]; cbn in E; try contradiction; destruct E as [->|[]]; eauto. }
  assert (D : drawing P T percent part time false ps ss ws ts (run P T percent part time false sch (start P false p s calls))).
  { assert (G : forall sch' b, (forall e, In e sch' -> In e sch) -> drawing P T percent part time false ps ss ws ts b -> drawing P T percent part time false ps ss ws ts (run P T percent part time false sch' b)).
    { induction sch' as [|[[x w] t] sch' IH]; intros b S D; [exact D|]. rewrite run_cons. apply IH; [intros e E; apply S; right; exact E|]. pose proof (S _ (or_introl eq_refl)) as E.
      apply step_drawing; [apply (in_map (fun e => snd (fst e)) _ _ E)|apply (in_map (@snd (who * nat) T) _ _ E)|exact D]. }
    apply G; [auto|]. unfold drawing, start. cbn [per text at_ todo out width]. repeat split; try (left; reflexivity).
    - assert (X : forall l, (forall k, In k l -> In k calls) -> ops_ok P ps ss (flat_map (ops_of P false) l)); [|apply X; auto].
      assert (AP : forall a b, ops_ok P ps ss a -> ops_ok P ps ss b -> ops_ok P ps ss (a ++ b)) by (induction a as [|o a IHa]; intros b A B; [exact B|]; destruct o; cbn [app ops_ok] in *; intuition).
      induction l as [|k l IH]; intros S; [exact Logic.I|]. cbn [flat_map]. pose proof (S k (or_introl eq_refl)) as K.
      assert (KP : forall v o, k = Update P v o -> In v ps) by (intros v o ->; right; apply in_flat_map; exists (Update P v o); split; [exact K|left; reflexivity]).
      assert (KS : forall u, (exists v, k = Update P v (Some u)) \/ k = Finish P u -> In u ss) by (intros u U; right; apply in_flat_map; exists k; split; [exact K|]; destruct U as [(v & ->)| ->]; left; reflexivity).
      apply AP; [|apply IH; intros e E; apply S; right; exact E]. destruct k as [v [u|]|u| |]; cbn [ops_of ops_ok]; repeat split; eauto.
    - right. clear. induction calls as [|k calls IH]; [reflexivity|]. destruct k as [v [u|]|u| |]; cbn [flat_map ops_of app joins]; try exact IH. reflexivity.
 }
  destruct D as (_ & _ & _ & _ & _ & D). rewrite Forall_forall in D. destruct (D c I) as [->|(m & (w & W & ->) & Q)]; [left; reflexivity|]. right. apply in_map_iff in W. destruct W as ([[x w0] y] & <- & W). cbn [fst snd] in *. exists x, w0, y. split; [exact W|].
  assert (PC : forall pct, pct_of P percent ps pct -> exists v, In v ps /\ percentage P percent v pct).
  { intros pct (v & V & ->). exists v. split; [exact V|]. exists (6 - length (percent v)). split; [reflexivity|]. unfold rjust6. rewrite app_length, repeat_length. lia. }
  assert (M : max w0 8 - 8 = w0 - 8) by lia.
  destruct Q as [(c' & (pct & q & PT & Qq & ->) & ->)|(u & t & pct & U & TT & PT & ->)].
  - left. destruct (PC pct PT) as (v & V & PV). exists v, q. eexists. split; [apply VP, V|]. split; [apply VP, Qq|]. split; [|reflexivity]. exists pct. split; [exact PV|]. cbn zeta. rewrite M. unfold drawn. destruct (w0 - 8 <=? part q (w0 - 8)) eqn:L; [apply Nat.leb_le in L|apply Nat.leb_gt in L]; split; intros; reflexivity || lia.
  - right. destruct (PC pct PT) as (v & V & PV). apply in_map_iff in TT. destruct TT as ([[x' w'] t'] & <- & TT). exists v, u, x', w', t'. split; [apply VP, V|]. split; [apply VS, U|]. split; [exact TT|]. exists pct. split; [exact PV|]. cbn [snd]. replace (Z.of_nat (max w0 8) - 14)%Z with (Z.of_nat (w0 - 8) + 8 - 6 - 6 - 2)%Z by lia. reflexivity.
Qed.
(** On a terminal that is always at least twenty wide, a text line is as wide as the terminal and so is a bar with the return of the cursor after it,
    if percentages take at most six characters, no more than the whole bar is filled and times fill six characters. *)
Theorem C77_width : forall P T (percent : P -> str) part (time : T -> nat -> str) p s calls sch c,
  (forall v, length (percent v) <= 6) -> (forall v n, part v n <= n) -> (forall t, length (time t 6) = 6) -> (forall x w t, In (x, w, t) sch -> 20 <= w) ->
  In c (by_ Drawer (out P (run P T percent part time false sch (start P false p s calls)))) ->
  c = [13%N] \/ exists x w t, In (x, w, t) sch /\ (length c = w \/ exists r, c = r ++ [13%N] /\ length r = w).
Proof.
  intros P T percent part time p s calls sch c HP HA HT HW I. destruct (C77_drawn P T percent part time p s calls sch c I) as [->|(x & w & y & W & Q)]; [left; reflexivity|]. right. exists x, w, y. split; [exact W|]. pose proof (HW _ _ _ W) as L. replace (max w 8) with w in Q by lia.
  assert (PL : forall v pct, percentage P percent v pct -> length pct = 6) by (intros v pct (n & _ & E); rewrite E; pose proof (HP v); lia).
  destruct Q as [(v & u & r & _ & _ & (pct & PC & B1 & B2) & ->)|(v & u & x' & w' & t & _ & _ & _ & (pct & PC & ->))].
  - right. exists r. split; [reflexivity|]. pose proof (PL v pct PC) as LP. pose proof (HA u (w - 8)) as LA. destruct (Nat.eq_dec (part u (w - 8)) (w - 8)) as [E|E].
    + rewrite B1 by lia. rewrite !app_length, repeat_length, LP, E. cbn [length]. change (length ($"[")) with 1. change (length ($"]")) with 1. lia.
    + rewrite B2 by lia. rewrite !app_length, !repeat_length, LP. change (length ($"[")) with 1. change (length ($"]")) with 1. change (length ($">")) with 1. lia.
  - left. rewrite !app_length, HT, (PL v pct PC). pose proof (PropertiesText.C60_width u (Z.of_nat w - 14)) as WD. unfold wide in WD. change (length ($"[")) with 1. change (length ($"]")) with 1. lia.
Qed.
(** With secondRow and a text, an unfinished bar ends its second row in an escape sequence without its letter (line 128): the cursor is not moved up again. *)
Theorem C77_second_row_refuted : exists sch, by_ Drawer (out nat (run nat nat (fun _ => $"50.0%") (fun _ n => Nat.div n 2) (fun _ _ => $"  1.0s") true sch (start nat false 0 ($"Reading") []))) =
  [[13%N]; $"[======>     ] 50.0%"; [10%N] ++ $"Reading         1.0s" ++ [27%N; 91%N]].
Proof. exists (repeat (Drawer, 20, 0) 9). vm_compute. reflexivity. Qed.

(** A bar in a with block, drawn while its value is changed between the percentage and the bar, then finished. *)
Definition ex_calls : list (call nat) := [Update nat 1 None; Finish nat ($"Done"); Exit nat].
Definition ex_percent (v : nat) : str := if v =? 0 then $"0.0%" else $"100.0%".
Definition ex_part (v n : nat) : nat := if v =? 0 then 0 else n.
Definition ex_time (_ : nat) (n : nat) : str := repeat sp (n - 4) ++ $"1.0s".
Definition ex_run : bar nat := run nat nat ex_percent ex_part ex_time false
  (repeat (Drawer, 20, 0) 4 ++ [(Caller, 20, 0); (Caller, 20, 0); (Drawer, 30, 1)] ++ repeat (Caller, 20, 0) 3 ++ repeat (Drawer, 30, 1) 9 ++ repeat (Caller, 20, 0) 9) (start nat false 0 [] ex_calls).
Example C77_ex : todo nat ex_run = [] /\ by_ Drawer (out nat ex_run) = [[13%N]; $"Done" ++ $"  [  1.0s]  0.0%"] /\ by_ Caller (out nat ex_run) = [[13%N]; $"Done" ++ $"            1.0s"; [10%N]] .
Proof. vm_compute. repeat split. Qed.
Example C77_ex_width : (forall v, length (ex_percent v) <= 6) /\ (forall v n, ex_part v n <= n) /\ (forall t, length (ex_time t 6) = 6).
Proof. unfold ex_percent, ex_part. repeat split; intros; try destruct (_ =? 0); cbn; lia. Qed.
Example C77_ex_done : Forall (fun turn => exists before w t, turn = before ++ [(Caller, w, t)] /\ 9 <= length (filter (fun e : who * nat * nat => match fst (fst e) with Drawer => true | Caller => false end) before)) (repeat (repeat (Drawer, 80, 0) 9 ++ [(Caller, 80, 0)]) 21).
Proof. apply Forall_forall. intros t H. apply repeat_spec in H. subst t. exists (repeat (Drawer, 80, 0) 9), 80, 0. split; [reflexivity|cbn; lia]. Qed.

Print Assumptions C77_said.
Print Assumptions C77_order.
Print Assumptions C77_over.
Print Assumptions C77_join.
Print Assumptions C77_done.
Print Assumptions C77_drawn.
Print Assumptions C77_width.
Print Assumptions C77_second_row_refuted.
