(** Proofs about ProgressModel.v. *)
From Coq Require Import List ZArith Lia Bool Arith.
From Coq Require Import String.
From Verif Require Import Base PyStr TextModel ProgressModel ProgressSpec.
Import ListNotations.
Local Open Scope list_scope.

Section Bar.
Variables P T : Type.
Variable percent : P -> str.
Variable part : P -> nat -> nat.
Variable time : T -> nat -> str.
Variables dummy big : bool.
Notation bar := (bar P). Notation call := (call P). Notation op := (op P).
Notation run := (run P T percent part time big).
Notation step := (step P T percent part time big).
Notation ops_of := (ops_of P dummy).
Notation start := (start P dummy).
Notation caller_step := (caller_step P T time big).
Notation drawer_step := (drawer_step P T percent part time big).
Notation last_line := (last_line T time).
Notation full_line := (full_line T time).
Notation says := (says P T time dummy big).

Lemma by_app x l m : by_ x (l ++ m) = by_ x l ++ by_ x m.
Proof. unfold by_. rewrite filter_app, map_app. reflexivity. Qed.
Lemma by_drawer l : by_ Caller (map (pair Drawer) l) = [].
Proof. unfold by_. induction l as [|c l IH]; [reflexivity|exact IH]. Qed.

(** steps of the drawer *)
Definition quiet (b c : bar) : Prop :=
  finished P c = finished P b /\ per P c = per P b /\ text P c = text P b /\ todo P c = todo P b /\ (exists shown, out P c = out P b ++ map (pair Drawer) shown) /\ (at_ P b = PEnd -> c = b).
Lemma quiet_refl b : quiet b b.
Proof. repeat split. exists []. symmetry. apply app_nil_r. Qed.
Lemma quiet_trans b c d : quiet b c -> quiet c d -> quiet b d.
Proof.
  intros (A1 & A2 & A3 & A4 & (x & A5) & A6) (B1 & B2 & B3 & B4 & (y & B5) & B6). repeat split; try congruence.
  - exists (x ++ y). rewrite B5, A5, map_app, app_assoc. reflexivity.
  - intros E. specialize (A6 E). subst c. apply B6, E.
Qed.
Lemma drawer_quiet w t b : quiet b (drawer_step w t b).
Proof.
  unfold drawer_step, ProgressModel.drawer_step, go, write. destruct (at_ P b) eqn:E; (split; [reflexivity|split; [reflexivity|split; [reflexivity|split; [reflexivity|split]]]]); cbn [out at_]; try (exists []; symmetry; apply app_nil_r); try (eexists [_]; reflexivity); intros Q; congruence.
Qed.
Lemma next_op sch : forall b o rest, todo P b = o :: rest -> todo P (run sch b) = [] ->
  exists c w t sch', quiet b c /\ (o = Join P -> at_ P c = PEnd) /\ run sch b = run sch' (caller_step w t c).
Proof.
  induction sch as [|[[x w] t] sch IH]; intros b o rest E D; cbn [run ProgressModel.run fold_left] in *; [unfold run, ProgressModel.run in D; cbn [fold_left] in D; congruence|].
  fold (run sch (step b (x, w, t))) in *. destruct x; cbn [step ProgressModel.step] in *.
  - assert (X : (o = Join P /\ at_ P b <> PEnd) \/ (o = Join P -> at_ P b = PEnd)). { destruct (at_ P b) eqn:A; destruct o; (right; intros; congruence) || (left; split; congruence). }
    destruct X as [[-> X]|X].
    + assert (S1 : caller_step w t b = b) by (unfold caller_step, ProgressModel.caller_step; rewrite E; destruct (at_ P b); congruence). rewrite S1 in *. destruct (IH b (Join P) rest E D) as (c & w' & t' & sch' & H). exists c, w', t', sch'. exact H.
    + exists b, w, t, sch. split; [apply quiet_refl|]. split; [exact X|reflexivity].
  - pose proof (drawer_quiet w t b) as Q. destruct Q as (A1 & A2 & A3 & A4 & A5 & A6). rewrite <- A4 in E. destruct (IH (drawer_step w t b) o rest E D) as (c & w' & t' & sch' & Q & J & R). exists c, w', t', sch'. split; [eapply quiet_trans; [|exact Q]; repeat split; assumption|]. auto.
Qed.

Lemma last_ok s m t : full_line s (m + 8) t (last_line s m t).
Proof.
  unfold full_line, last_line, ProgressModel.last_line. split; intros H.
  - destruct (Nat.ltb_spec (length s) (m + 8 - 6)); [reflexivity|lia].
  - destruct (Nat.ltb_spec (length s) (m + 8 - 6)); [lia|]. do 2 f_equal. lia.
Qed.
Lemma said_ok calls : forall b sch, todo P b = flat_map ops_of calls -> todo P (run sch b) = [] ->
  exists l, by_ Caller (out P (run sch b)) = by_ Caller (out P b) ++ l /\ says (finished P b) calls l.
Proof.
  induction calls as [|c calls IH]; intros b sch E D; cbn [flat_map] in E.
  - assert (X : forall sch b, todo P b = [] -> by_ Caller (out P (run sch b)) = by_ Caller (out P b)).
    { clear. induction sch as [|[[x w] t] sch IH]; intros b E; [reflexivity|]. change (run ((x, w, t) :: sch) b) with (run sch (step b (x, w, t))). destruct x; cbn [step ProgressModel.step].
      - assert (S1 : caller_step w t b = b) by (unfold caller_step, ProgressModel.caller_step; rewrite E; reflexivity). rewrite S1. apply IH, E.
      - destruct (drawer_quiet w t b) as (_ & _ & _ & A4 & (sh & A5) & _). rewrite IH by congruence. rewrite A5, by_app, by_drawer, app_nil_r. reflexivity. }
    exists []. split; [rewrite app_nil_r; apply X, E|constructor].
  - assert (ONE : forall b sch o rest, todo P b = o :: rest -> todo P (run sch b) = [] -> exists c w t sch', quiet b c /\ (o = Join P -> at_ P c = PEnd) /\ run sch b = run sch' (caller_step w t c) /\ todo P c = o :: rest).
    { intros b0 sch0 o rest E0 D0. destruct (next_op sch0 b0 o rest E0 D0) as (c0 & w & t & s' & Q & J & R). exists c0, w, t, s'. split; [exact Q|]. split; [exact J|]. split; [exact R|]. destruct Q as (_ & _ & _ & A4 & _). congruence. }
    destruct c as [p [s|]|s| |]; cbn [ops_of ProgressModel.ops_of app] in E.
    + destruct (ONE b sch _ _ E D) as (c1 & w1 & t1 & sch1 & Q1 & J1 & R1 & E1). rewrite R1 in *. assert (E2 : todo P (caller_step w1 t1 c1) = SetText P s :: flat_map ops_of calls) by (unfold caller_step, ProgressModel.caller_step; rewrite E1; reflexivity).
      destruct (ONE _ sch1 _ _ E2 D) as (c2 & w2 & t2 & sch2 & Q2 & J2 & R2 & E3). rewrite R2 in *. assert (E4 : todo P (caller_step w2 t2 c2) = flat_map ops_of calls) by (unfold caller_step, ProgressModel.caller_step; rewrite E3; reflexivity).
      destruct (IH _ sch2 E4 D) as (l & O & S1). exists l. destruct Q1 as (A1 & A2 & A3 & A4 & (sh & A5) & A6). destruct Q2 as (B1 & B2 & B3 & B4 & (sh2 & B5) & B6).
      assert (F : finished P (caller_step w2 t2 c2) = finished P b). { transitivity (finished P c2); [unfold caller_step, ProgressModel.caller_step; rewrite E3; reflexivity|]. rewrite B1. rewrite <- A1. unfold caller_step, ProgressModel.caller_step. rewrite E1. reflexivity. }
      assert (OO : by_ Caller (out P (caller_step w2 t2 c2)) = by_ Caller (out P b)).
      { transitivity (by_ Caller (out P c2)); [unfold caller_step, ProgressModel.caller_step; rewrite E3; reflexivity|]. rewrite B5, by_app, by_drawer, app_nil_r. transitivity (by_ Caller (out P c1)); [unfold caller_step, ProgressModel.caller_step; rewrite E1; reflexivity|]. rewrite A5, by_app, by_drawer, app_nil_r. reflexivity. }
      rewrite O, OO. split; [reflexivity|]. rewrite <- F. constructor. exact S1.
    + destruct (ONE b sch _ _ E D) as (c1 & w1 & t1 & sch1 & Q1 & J1 & R1 & E1). rewrite R1 in *. assert (E4 : todo P (caller_step w1 t1 c1) = flat_map ops_of calls) by (unfold caller_step, ProgressModel.caller_step; rewrite E1; reflexivity).
      destruct (IH _ sch1 E4 D) as (l & O & S1). exists l. destruct Q1 as (A1 & A2 & A3 & A4 & (sh & A5) & A6).
      assert (F : finished P (caller_step w1 t1 c1) = finished P b). { rewrite <- A1. unfold caller_step, ProgressModel.caller_step. rewrite E1. reflexivity. }
      assert (OO : by_ Caller (out P (caller_step w1 t1 c1)) = by_ Caller (out P b)).
      { transitivity (by_ Caller (out P c1)); [unfold caller_step, ProgressModel.caller_step; rewrite E1; reflexivity|]. rewrite A5, by_app, by_drawer, app_nil_r. reflexivity. }
      rewrite O, OO. split; [reflexivity|]. rewrite <- F. constructor. exact S1.
    + destruct dummy eqn:DU; cbn [app] in E.
      { destruct (IH b sch E D) as (l & O & S1). exists l. split; [exact O|]. apply says_dummy; [reflexivity|right; eauto|exact S1]. }
      destruct (ONE b sch _ _ E D) as (c1 & w1 & t1 & sch1 & Q1 & J1 & R1 & E1). rewrite R1 in *.
      set (b1 := caller_step w1 t1 c1) in *. assert (X1 : b1 = mkBar P true (per P c1) (text P c1) (width P c1) (at_ P c1) (tl (todo P c1)) (out P c1)) by (unfold b1, caller_step, ProgressModel.caller_step; rewrite E1; reflexivity).
      rewrite E1 in X1. cbn [tl] in X1. assert (E2 : todo P b1 = _) by (rewrite X1; reflexivity). cbn [todo] in E2.
      destruct (ONE b1 sch1 _ _ E2 D) as (c2 & w2 & t2 & sch2 & Q2 & J2 & R2 & E3). rewrite R2 in *. set (b2 := caller_step w2 t2 c2) in *. assert (X2 : b2 = mkBar P (finished P c2) (per P c2) s (width P c2) (at_ P c2) (tl (todo P c2)) (out P c2)) by (unfold b2, caller_step, ProgressModel.caller_step; rewrite E3; reflexivity).
      rewrite E3 in X2. cbn [tl] in X2. assert (E4 : todo P b2 = _) by (rewrite X2; reflexivity). cbn [todo] in E4.
      destruct (ONE b2 sch2 _ _ E4 D) as (c3 & w3 & t3 & sch3 & Q3 & J3 & R3 & E5). rewrite R3 in *. specialize (J3 eq_refl). set (b3 := caller_step w3 t3 c3) in *. assert (X3 : b3 = mkBar P (finished P c3) (per P c3) (text P c3) (width P c3) PEnd (tl (todo P c3)) (out P c3)) by (unfold b3, caller_step, ProgressModel.caller_step; rewrite E5, J3; reflexivity).
      rewrite E5 in X3. cbn [tl] in X3. assert (E6 : todo P b3 = _) by (rewrite X3; reflexivity). cbn [todo] in E6. assert (P3 : at_ P b3 = PEnd) by (rewrite X3; reflexivity).
      destruct (ONE b3 sch3 _ _ E6 D) as (c4 & w4 & t4 & sch4 & Q4 & J4 & R4 & E7). rewrite R4 in *. destruct Q4 as (_ & _ & _ & _ & _ & Q4). specialize (Q4 P3). subst c4. set (b4 := caller_step w4 t4 b3) in *. assert (X4 : b4 = mkBar P (finished P b3) (per P b3) (text P b3) (w4 - 8) (at_ P b3) (tl (todo P b3)) (out P b3)) by (unfold b4, caller_step, ProgressModel.caller_step; rewrite E7; reflexivity).
      rewrite E7 in X4. cbn [tl] in X4. assert (E8 : todo P b4 = _) by (rewrite X4; reflexivity). cbn [todo] in E8. assert (P4 : at_ P b4 = PEnd) by (rewrite X4; exact P3).
      destruct (ONE b4 sch4 _ _ E8 D) as (c5 & w5 & t5 & sch5 & Q5 & J5 & R5 & E9). rewrite R5 in *. destruct Q5 as (_ & _ & _ & _ & _ & Q5). specialize (Q5 P4). subst c5. set (b5 := caller_step w5 t5 b4) in *. assert (X5 : b5 = mkBar P (finished P b4) (per P b4) (text P b4) (width P b4) (at_ P b4) (tl (todo P b4)) (out P b4 ++ [(Caller, if big then [nl] ++ repeat sp (width P b4 + 8) ++ up else [cr])])) by (unfold b5, caller_step, ProgressModel.caller_step; rewrite E9; reflexivity).
      rewrite E9 in X5. cbn [tl] in X5. assert (E10 : todo P b5 = _) by (rewrite X5; reflexivity). cbn [todo] in E10. assert (P5 : at_ P b5 = PEnd) by (rewrite X5; exact P4).
      destruct (ONE b5 sch5 _ _ E10 D) as (c6 & w6 & t6 & sch6 & Q6 & J6 & R6 & E11). rewrite R6 in *. destruct Q6 as (_ & _ & _ & _ & _ & Q6). specialize (Q6 P5). subst c6. set (b6 := caller_step w6 t6 b5) in *. assert (X6 : b6 = mkBar P (finished P b5) (per P b5) (text P b5) (width P b5) (at_ P b5) (tl (todo P b5)) (out P b5 ++ [(Caller, last_line (text P b5) (width P b5) t6)])) by (unfold b6, caller_step, ProgressModel.caller_step; rewrite E11; reflexivity).
      rewrite E11 in X6. cbn [tl] in X6. assert (E12 : todo P b6 = _) by (rewrite X6; reflexivity). cbn [todo] in E12. assert (P6 : at_ P b6 = PEnd) by (rewrite X6; exact P5).
      destruct (ONE b6 sch6 _ _ E12 D) as (c7 & w7 & t7 & sch7 & Q7 & J7 & R7 & E13). rewrite R7 in *. destruct Q7 as (_ & _ & _ & _ & _ & Q7). specialize (Q7 P6). subst c7. set (b7 := caller_step w7 t7 b6) in *. assert (X7 : b7 = mkBar P (finished P b6) (per P b6) (text P b6) (width P b6) (at_ P b6) (tl (todo P b6)) (out P b6 ++ [(Caller, [nl])])) by (unfold b7, caller_step, ProgressModel.caller_step; rewrite E13; reflexivity).
      rewrite E13 in X7. cbn [tl] in X7. assert (E14 : todo P b7 = _) by (rewrite X7; reflexivity). cbn [todo] in E14.
      destruct (IH b7 sch7 E14 D) as (l & O & S1).
      assert (F1 : finished P c2 = true) by (destruct Q2 as (A1 & _); rewrite A1, X1; reflexivity).
      assert (F2 : finished P c3 = true) by (destruct Q3 as (A1 & _); rewrite A1, X2; exact F1).
      assert (TX : text P c3 = s) by (destruct Q3 as (_ & _ & A3 & _); rewrite A3, X2; reflexivity).
      assert (F7 : finished P b7 = true) by (rewrite X7, X6, X5, X4, X3; exact F2). rewrite F7 in S1.
      assert (O3 : by_ Caller (out P c3) = by_ Caller (out P b)).
      { destruct Q1 as (_ & _ & _ & _ & (h1 & O1) & _). destruct Q2 as (_ & _ & _ & _ & (h2 & O2) & _). destruct Q3 as (_ & _ & _ & _ & (h3 & O3) & _). rewrite O3, X2. cbn [out]. rewrite O2, X1. cbn [out]. rewrite O1. rewrite !by_app, !by_drawer, !app_nil_r. reflexivity. }
      assert (W5 : width P b5 = w4 - 8) by (rewrite X5, X4; reflexivity). assert (T5 : text P b5 = s) by (rewrite X5, X4, X3; exact TX). assert (W4 : width P b4 = w4 - 8) by (rewrite X4; reflexivity).
      exists ((if big then [nl] ++ repeat sp (w4 - 8 + 8) ++ up else [cr]) :: last_line s (w4 - 8) t6 :: [nl] :: l). split.
      * rewrite O, X7. cbn [out]. rewrite X6. cbn [out]. rewrite T5, W5, X5. cbn [out]. rewrite W4, X4. cbn [out]. rewrite X3. cbn [out]. rewrite !by_app, O3, <- !app_assoc. reflexivity.
      * apply says_finish with (w := w4 - 8 + 8) (t := t6); [reflexivity|lia|apply last_ok|exact S1].
    + destruct (ONE b sch _ _ E D) as (c1 & w1 & t1 & sch1 & Q1 & J1 & R1 & E1). rewrite R1 in *. assert (E4 : todo P (caller_step w1 t1 c1) = flat_map ops_of calls) by (unfold caller_step, ProgressModel.caller_step; rewrite E1; reflexivity).
      destruct (IH _ sch1 E4 D) as (l & O & S1). exists (up :: l). destruct Q1 as (A1 & A2 & A3 & A4 & (sh & A5) & A6).
      assert (F : finished P (caller_step w1 t1 c1) = finished P b). { rewrite <- A1. unfold caller_step, ProgressModel.caller_step. rewrite E1. reflexivity. }
      assert (OO : by_ Caller (out P (caller_step w1 t1 c1)) = by_ Caller (out P b) ++ [up]).
      { transitivity (by_ Caller (out P c1 ++ [(Caller, up)])); [unfold caller_step, ProgressModel.caller_step; rewrite E1; reflexivity|]. rewrite A5, !by_app, by_drawer, app_nil_r. reflexivity. }
      rewrite O, OO, <- app_assoc. split; [reflexivity|]. rewrite <- F. apply says_up. exact S1.
    + destruct dummy eqn:DU; cbn [app] in E.
      { destruct (IH b sch E D) as (l & O & S1). exists l. split; [exact O|]. apply says_dummy; [reflexivity|left; reflexivity|exact S1]. }
      destruct (ONE b sch _ _ E D) as (c1 & w1 & t1 & sch1 & Q1 & J1 & R1 & E1). rewrite R1 in *. destruct Q1 as (A1 & A2 & A3 & A4 & (sh & A5) & A6).
      set (b1 := caller_step w1 t1 c1) in *. destruct (finished P b) eqn:FB.
      * assert (X1 : b1 = mkBar P (finished P c1) (per P c1) (text P c1) (width P c1) (at_ P c1) (flat_map (ProgressModel.ops_of P false) calls) (out P c1)) by (unfold b1, caller_step, ProgressModel.caller_step; rewrite E1, A1; reflexivity).
        destruct (IH b1 sch1 ltac:(rewrite X1; reflexivity) D) as (l & O & S1). exists l. rewrite O, X1. cbn [out]. rewrite A5, by_app, by_drawer, app_nil_r. split; [reflexivity|]. apply says_again; [reflexivity|]. rewrite X1 in S1. cbn [finished] in S1. rewrite A1 in S1. exact S1.
      * assert (X1 : b1 = mkBar P (finished P c1) (per P c1) (text P c1) (width P c1) (at_ P c1) ([SetFinished P; Join P; Write P [nl]] ++ flat_map (ProgressModel.ops_of P false) calls) (out P c1)) by (unfold b1, caller_step, ProgressModel.caller_step; rewrite E1, A1; reflexivity).
        assert (E2 : todo P b1 = SetFinished P :: Join P :: Write P [nl] :: flat_map (ProgressModel.ops_of P false) calls) by (rewrite X1; reflexivity).
        destruct (ONE b1 sch1 _ _ E2 D) as (c2 & w2 & t2 & sch2 & Q2 & J2 & R2 & E3). rewrite R2 in *. set (b2 := caller_step w2 t2 c2) in *. assert (X2 : b2 = mkBar P true (per P c2) (text P c2) (width P c2) (at_ P c2) (tl (todo P c2)) (out P c2)) by (unfold b2, caller_step, ProgressModel.caller_step; rewrite E3; reflexivity).
        rewrite E3 in X2. cbn [tl] in X2. assert (E4 : todo P b2 = _) by (rewrite X2; reflexivity). cbn [todo] in E4.
        destruct (ONE b2 sch2 _ _ E4 D) as (c3 & w3 & t3 & sch3 & Q3 & J3 & R3 & E5). rewrite R3 in *. specialize (J3 eq_refl). set (b3 := caller_step w3 t3 c3) in *. assert (X3 : b3 = mkBar P (finished P c3) (per P c3) (text P c3) (width P c3) PEnd (tl (todo P c3)) (out P c3)) by (unfold b3, caller_step, ProgressModel.caller_step; rewrite E5, J3; reflexivity).
        rewrite E5 in X3. cbn [tl] in X3. assert (E6 : todo P b3 = _) by (rewrite X3; reflexivity). cbn [todo] in E6.
        destruct (ONE b3 sch3 _ _ E6 D) as (c4 & w4 & t4 & sch4 & Q4 & J4 & R4 & E7). rewrite R4 in *. destruct Q4 as (_ & _ & _ & _ & _ & Q4). specialize (Q4 ltac:(rewrite X3; reflexivity)). subst c4. set (b4 := caller_step w4 t4 b3) in *. assert (X4 : b4 = mkBar P (finished P b3) (per P b3) (text P b3) (width P b3) (at_ P b3) (tl (todo P b3)) (out P b3 ++ [(Caller, [nl])])) by (unfold b4, caller_step, ProgressModel.caller_step; rewrite E7; reflexivity).
        rewrite E7 in X4. cbn [tl] in X4. destruct (IH b4 sch4 ltac:(rewrite X4; reflexivity) D) as (l & O & S1). exists ([nl] :: l).
        assert (F4 : finished P b4 = true) by (rewrite X4, X3; cbn [finished]; destruct Q3 as (B1 & _); rewrite B1, X2; reflexivity). rewrite F4 in S1.
        split; [|apply says_exit; [reflexivity|exact S1]]. rewrite O, X4. cbn [out]. rewrite X3. cbn [out]. destruct Q2 as (_ & _ & _ & _ & (h2 & O2) & _). destruct Q3 as (_ & _ & _ & _ & (h3 & O3) & _). rewrite O3, X2. cbn [out]. rewrite O2, X1. cbn [out]. rewrite A5. rewrite !by_app, !by_drawer, !app_nil_r, <- app_assoc. reflexivity.
Qed.
End Bar.
