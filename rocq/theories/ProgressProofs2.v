(** More proofs about ProgressModel.v: the order of the output, the end of the drawing thread, what is drawn. *)
From Coq Require Import List ZArith Lia Bool Arith.
From Coq Require Import String.
From Verif Require Import Base PyStr TextModel ProgressModel ProgressSpec ProgressProofs.
Import ListNotations.
Local Open Scope list_scope.

Section Bar.
Variables P T : Type.
Variable percent : P -> str.
Variable part : P -> nat -> nat.
Variable time : T -> nat -> str.
Variables dummy big : bool.
Notation bar := (bar P). Notation call := (call P). Notation op := (op P).
Notation run := (run P T percent part time big).
Notation step := (step P T percent part time big).
Notation ops_of := (ops_of P dummy).
Notation start := (start P dummy).
Notation caller_step := (caller_step P T time big).
Notation drawer_step := (drawer_step P T percent part time big).

Lemma run_cons e sch b : run (e :: sch) b = run sch (step b e).
Proof. reflexivity. Qed.
Lemma run_app a c b : run (a ++ c) b = run c (run a b).
Proof. unfold run, ProgressModel.run. apply fold_left_app. Qed.
Lemma run_ind (I : bar -> Prop) : (forall b e, I b -> I (step b e)) -> forall sch b, I b -> I (run sch b).
Proof. intros H. induction sch as [|e sch IH]; intros b B; [exact B|]. rewrite run_cons. apply IH, H, B. Qed.

(** ** Order: nothing of the caller before a join *)
Fixpoint guarded (l : list op) : bool :=
  match l with
  | [] => true
  | Join _ :: _ => true
  | (Head _ | Line _ | Write _ _) :: _ => false
  | UnlessFinished _ l' :: l'' => match l' with SetFinished _ :: Join _ :: _ => guarded l'' | _ => false end
  | _ :: l' => guarded l'
  end.
Definition ordered (b : bar) : Prop :=
  (at_ P b = PEnd /\ exists shown said, out P b = map (pair Drawer) shown ++ map (pair Caller) said) \/
  (exists shown, out P b = map (pair Drawer) shown) /\ guarded (todo P b) = true.
Lemma step_ordered b e : ordered b -> ordered (step b e).
Proof.
  destruct e as [[x w] t]. destruct x; cbn [step ProgressModel.step].
  - unfold caller_step, ProgressModel.caller_step. destruct (todo P b) as [|o l] eqn:E; [intros H; exact H|]. intros [[A (sh & sd & O)]|[(sh & O) G]].
    + left. assert (ADD : forall s, map (pair Drawer) sh ++ map (pair Caller) sd ++ [(Caller, s)] = map (pair Drawer) sh ++ map (pair Caller) (sd ++ [s])) by (intros s; rewrite map_app; reflexivity).
      destruct o; rewrite ?A; cbn [at_ out]; (split; [exact A || reflexivity|]); rewrite O; rewrite <- ?app_assoc; rewrite ?ADD; eauto.
    + rewrite E in G. destruct o; cbn [guarded] in G; try discriminate; try (right; cbn [out todo]; split; [eauto|exact G]).
      * destruct (at_ P b) eqn:A; try (right; split; [eauto|rewrite E; reflexivity]). left. cbn [at_ out]. split; [reflexivity|]. exists sh, []. rewrite app_nil_r. exact O.
      * destruct l0 as [|o1 l0]; [discriminate|]. destruct o1; try discriminate. destruct l0 as [|o2 l0]; [discriminate|]. destruct o2; try discriminate. right. cbn [out todo]. split; [eauto|]. destruct (finished P b); [exact G|reflexivity].
  - intros H. destruct (drawer_quiet P T percent part time big w t b) as (A1 & A2 & A3 & A4 & (s & A5) & A6). destruct H as [[A (sh & sd & O)]|[(sh & O) G]].
    + rewrite (A6 A). left. eauto.
    + right. rewrite A5, O, A4, <- map_app. eauto.
Qed.
Lemma guarded_app a b : guarded a = true -> guarded b = true -> guarded (a ++ b) = true.
Proof.
  intros A B. induction a as [|o a IH]; [exact B|]. cbn [app]. destruct o; cbn [guarded] in *; auto. destruct l as [|o1 l]; [discriminate|]. destruct o1; try discriminate. destruct l as [|o2 l]; [discriminate|]. destruct o2; try discriminate. auto.
Qed.
Lemma start_ordered p s calls : ~ In (Up P) calls -> ordered (start p s calls).
Proof.
  intros N. right. unfold start, ProgressModel.start. cbn [out todo]. split; [exists []; reflexivity|]. induction calls as [|c calls IH]; [reflexivity|]. cbn [flat_map]. apply guarded_app; [|apply IH; intros I; apply N; right; exact I].
  destruct c as [p0 [s0|]|s0| |]; try reflexivity; cbn [ops_of ProgressModel.ops_of]; try (destruct dummy; reflexivity). exfalso. apply N. left. reflexivity.
Qed.

(** ** The end of the drawing thread *)
Definition drawers (sch : list (who * nat * T)) : nat := length (filter (fun e => match fst (fst e) with Drawer => true | Caller => false end) sch).
Definition left_ (pl : place) : nat :=
  match pl with
  | PEnd => 0 | PCheck => 1 | PWrite _ | PDraw _ _ | PBelow _ _ => 2 | PText _ | PRow _ _ _ => 3 | PElif _ _ | PTextBig _ _ => 4 | PBig _ _ => 5
  | PBar _ => 6 | PPercent => 7 | PReturn => 8 | PSize => 9
  end.
Lemma left_nine pl : left_ pl <= 9.
Proof. destruct pl; cbn; lia. Qed.
Lemma caller_keeps w t b : at_ P (caller_step w t b) = at_ P b /\ (finished P b = true -> finished P (caller_step w t b) = true).
Proof.
  unfold caller_step, ProgressModel.caller_step. destruct (todo P b) as [|[] l]; cbn [at_ finished]; auto. destruct (at_ P b) eqn:A; cbn [at_ finished]; auto.
Qed.
Lemma drawer_left w t b : finished P b = true -> left_ (at_ P (drawer_step w t b)) <= pred (left_ (at_ P b)).
Proof.
  intros F. unfold drawer_step, ProgressModel.drawer_step, go, write. destruct (at_ P b) eqn:A; cbn [at_ left_]; rewrite ?F; cbn; try lia.
  - destruct (big && _); cbn; lia.
  - destruct (negb _); cbn; lia.
  - rewrite A. cbn. lia.
Qed.
Lemma run_left sch : forall b, finished P b = true -> finished P (run sch b) = true /\ left_ (at_ P (run sch b)) <= left_ (at_ P b) - drawers sch.
Proof.
  induction sch as [|[[x w] t] sch IH]; intros b F; [split; [exact F|cbn; lia]|]. rewrite run_cons. destruct x; cbn [step ProgressModel.step].
  - destruct (caller_keeps w t b) as [A K]. destruct (IH (caller_step w t b) (K F)) as [F' L]. split; [exact F'|]. rewrite A in L. exact L.
  - assert (F2 : finished P (drawer_step w t b) = true) by (destruct (drawer_quiet P T percent part time big w t b) as (A1 & _); congruence). destruct (IH _ F2) as [F' L]. split; [exact F'|]. pose proof (drawer_left w t b F) as D. unfold drawers in *. cbn [filter fst length]. lia.
Qed.
Lemma left_zero pl : left_ pl = 0 -> pl = PEnd.
Proof. destruct pl; cbn; intros H; congruence || lia. Qed.
(** a join only where finished is set *)
Fixpoint set_first (f : bool) (l : list op) : bool :=
  match l with
  | [] => true
  | Join _ :: l' => f && set_first f l'
  | SetFinished _ :: l' => set_first true l'
  | UnlessFinished _ l' :: l'' => match l' with [SetFinished _; Join _; Write _ _] => set_first true l'' && set_first f l'' | _ => false end
  | _ :: l' => set_first f l'
  end.
Lemma set_mono l : forall f, set_first f l = true -> set_first true l = true.
Proof.
  induction l as [|o l IH]; intros f H; [reflexivity|]. destruct o; cbn [set_first] in *; eauto.
  - apply andb_true_iff in H as [_ H]. exact (IH f H).
  - destruct l0 as [|o1 l0]; [discriminate|]. destruct o1; try discriminate. destruct l0 as [|o2 l0]; [discriminate|]. destruct o2; try discriminate. destruct l0 as [|o3 l0]; [discriminate|]. destruct o3; try discriminate. destruct l0; [|discriminate]. apply andb_true_iff in H as [H1 H2]. rewrite H1. reflexivity.
Qed.
Lemma step_set b e : set_first (finished P b) (todo P b) = true -> set_first (finished P (step b e)) (todo P (step b e)) = true.
Proof.
  destruct e as [[x w] t]. destruct x; cbn [step ProgressModel.step].
  - unfold caller_step, ProgressModel.caller_step. destruct (todo P b) as [|o l] eqn:E; [rewrite E; auto|]. intros H. destruct o; cbn [set_first finished todo] in *; auto.
    + apply andb_true_iff in H as [H1 H2]. destruct (at_ P b); try (rewrite E; cbn [set_first]; rewrite H1; rewrite H1 in H2; exact H2). exact H2.
    + destruct l0 as [|o1 l0]; [discriminate|]. destruct o1; try discriminate. destruct l0 as [|o2 l0]; [discriminate|]. destruct o2; try discriminate. destruct l0 as [|o3 l0]; [discriminate|]. destruct o3; try discriminate. destruct l0; [|discriminate]. apply andb_true_iff in H as [H1 H2].
      destruct (finished P b); [exact H2|]. cbn [app set_first andb]. exact H1.
  - intros H. destruct (drawer_quiet P T percent part time big w t b) as (A1 & _ & _ & A4 & _). rewrite A1, A4. exact H.
Qed.
Lemma set_app a b : (forall f, set_first f a = true) -> (forall f, set_first f b = true) -> forall f, set_first f (a ++ b) = true.
Proof.
  assert (X : forall a, (forall f, set_first f b = true) -> forall f, set_first f a = true -> set_first f (a ++ b) = true).
  { clear a. intros a B. induction a as [|o a IH]; intros f A; [apply B|]. cbn [app]. destruct o; cbn [set_first] in *; auto.
    - apply andb_true_iff in A as [-> A]. cbn [andb]. apply IH, A.
    - destruct l as [|o1 l0]; [discriminate|]. destruct o1; try discriminate. destruct l0 as [|o2 l0]; [discriminate|]. destruct o2; try discriminate. destruct l0 as [|o3 l0]; [discriminate|]. destruct o3; try discriminate. destruct l0; [|discriminate]. apply andb_true_iff in A as [A1 A2]. rewrite (IH _ A1), (IH _ A2). reflexivity. }
  intros A B f. apply X; auto.
Qed.
Lemma start_set p s calls : set_first (finished P (start p s calls)) (todo P (start p s calls)) = true.
Proof.
  unfold start, ProgressModel.start. cbn [finished todo]. generalize false. induction calls as [|c calls IH]; [reflexivity|]. cbn [flat_map]. apply set_app; [|exact IH]. intros f. destruct c as [p0 [s0|]|s0| |]; try reflexivity; cbn [ops_of ProgressModel.ops_of]; destruct dummy; reflexivity.
Qed.
Definition weigh1 (o : op) : nat := match o with UnlessFinished _ l => S (length l) | _ => 1 end.
Fixpoint weigh (l : list op) : nat := match l with [] => 0 | o :: l' => weigh1 o + weigh l' end.
(** no conditional inside a conditional *)
Definition flat1 (o : op) : bool := match o with UnlessFinished _ l => forallb (fun o' => match o' with UnlessFinished _ _ => false | _ => true end) l | _ => true end.
Lemma weigh_flat l : forallb (fun o' : op => match o' with UnlessFinished _ _ => false | _ => true end) l = true -> weigh l = length l /\ forallb flat1 l = true.
Proof.
  induction l as [|o l IH]; intros H; [auto|]. cbn [forallb] in H. apply andb_true_iff in H as [H1 H2]. destruct (IH H2) as [A B]. cbn [weigh length forallb]. split; [|rewrite B; destruct o; try discriminate; reflexivity]. destruct o; try discriminate; cbn [weigh1]; lia.
Qed.
Lemma weigh_app a b : weigh (a ++ b) = weigh a + weigh b.
Proof. induction a as [|o a IH]; [reflexivity|]. cbn [app weigh]. rewrite IH. lia. Qed.
Definition wf (b : bar) : Prop := set_first (finished P b) (todo P b) = true /\ forallb flat1 (todo P b) = true.
Lemma step_wf b e : wf b -> wf (step b e) /\ weigh (todo P (step b e)) <= weigh (todo P b).
Proof.
  intros [A B]. split; [split; [apply step_set, A|]|]; destruct e as [[x w] t]; destruct x; cbn [step ProgressModel.step].
  - unfold caller_step, ProgressModel.caller_step. destruct (todo P b) as [|o l] eqn:E; [rewrite E; exact B|]. cbn [forallb] in B. apply andb_true_iff in B as [B1 B2]. destruct o; cbn [todo]; auto.
    + destruct (at_ P b); cbn [todo]; rewrite ?E; auto.
    + destruct (finished P b); [exact B2|]. rewrite forallb_app, B2, andb_true_r. apply weigh_flat, B1.
  - destruct (drawer_quiet P T percent part time big w t b) as (_ & _ & _ & A4 & _). rewrite A4. exact B.
  - unfold caller_step, ProgressModel.caller_step. destruct (todo P b) as [|o l] eqn:E; [rewrite E; lia|]. cbn [forallb] in B. apply andb_true_iff in B as [B1 B2]. cbn [weigh]. destruct o; cbn [todo weigh1]; try lia.
    + destruct (at_ P b); cbn [todo]; rewrite ?E; cbn [weigh weigh1]; lia.
    + destruct (finished P b); [lia|]. rewrite weigh_app. destruct (weigh_flat _ B1) as [-> _]. lia.
  - destruct (drawer_quiet P T percent part time big w t b) as (_ & _ & _ & A4 & _). rewrite A4. lia.
Qed.
Lemma run_wf sch : forall b, wf b -> wf (run sch b) /\ weigh (todo P (run sch b)) <= weigh (todo P b).
Proof.
  induction sch as [|e sch IH]; intros b W; [auto|]. rewrite run_cons. destruct (step_wf b e W) as [W1 L1]. destruct (IH _ W1) as [W2 L2]. split; [exact W2|lia].
Qed.
Lemma caller_moves w t b o l : todo P b = o :: l -> (o = Join P -> at_ P b = PEnd) -> forallb flat1 (todo P b) = true -> weigh (todo P (caller_step w t b)) < weigh (todo P b).
Proof.
  intros E J B. unfold caller_step, ProgressModel.caller_step. rewrite E in *. cbn [forallb] in B. apply andb_true_iff in B as [B1 B2]. cbn [weigh]. destruct o; cbn [todo weigh1]; try lia.
  - rewrite (J eq_refl). cbn [todo]. lia.
  - destruct (finished P b); [lia|]. rewrite weigh_app. destruct (weigh_flat _ B1) as [-> _]. lia.
Qed.
Definition fair_block (sch : list (who * nat * T)) : Prop := exists a w t, sch = a ++ [(Caller, w, t)] /\ 9 <= drawers a.
Lemma step_same b e : wf b -> todo P (step b e) = todo P b \/ weigh (todo P (step b e)) < weigh (todo P b).
Proof.
  intros [A B]. destruct e as [[x w] t]; destruct x; cbn [step ProgressModel.step].
  - destruct (todo P b) as [|o l] eqn:E; [left; unfold caller_step, ProgressModel.caller_step; rewrite E; exact E|].
    assert (X : (o = Join P /\ at_ P b <> PEnd) \/ (o = Join P -> at_ P b = PEnd)). { destruct (at_ P b) eqn:Q; destruct o; (right; intros; congruence) || (left; split; congruence). }
    destruct X as [[-> X]|X]; [left; unfold caller_step, ProgressModel.caller_step; rewrite E; destruct (at_ P b); congruence|].
    right. rewrite <- E. apply (caller_moves w t b o l E X). rewrite E. exact B.
  - left. apply (drawer_quiet P T percent part time big w t b).
Qed.
Lemma run_same sch : forall b, wf b -> todo P (run sch b) = todo P b \/ weigh (todo P (run sch b)) < weigh (todo P b).
Proof.
  induction sch as [|e sch IH]; intros b W; [auto|]. rewrite run_cons. destruct (step_wf b e W) as [W1 L1]. destruct (IH _ W1) as [E|L]; [rewrite E; apply step_same, W|right; lia].
Qed.
Lemma block_moves sch b : wf b -> fair_block sch -> todo P (run sch b) = [] \/ weigh (todo P (run sch b)) < weigh (todo P b).
Proof.
  intros W (a & w & t & -> & D). rewrite run_app. change (run [(Caller, w, t)] (run a b)) with (caller_step w t (run a b)). destruct (run_wf a b W) as [WA LA]. pose proof (proj2 (step_wf (run a b) (Caller, w, t) WA)) as L. cbn [step ProgressModel.step] in L.
  destruct (run_same a b W) as [E|LT]; [|right; lia].
  destruct (todo P b) as [|o l] eqn:EB; [left; unfold caller_step, ProgressModel.caller_step; rewrite E; exact E|]. right. rewrite <- E. apply (caller_moves w t (run a b) o l E); [|apply WA].
  intros ->. destruct W as [W _]. rewrite EB in W. cbn [set_first] in W. apply andb_true_iff in W as [F _]. destruct (run_left a b F) as [_ Q]. apply left_zero. pose proof (left_nine (at_ P b)). lia.
Qed.
Lemma blocks_done blocks : forall b, wf b -> Forall fair_block blocks -> weigh (todo P b) <= length blocks -> todo P (run (concat blocks) b) = [].
Proof.
  induction blocks as [|x blocks IH]; intros b W F L.
  - cbn [concat]. destruct (todo P b) as [|o l] eqn:E; [exact E|]. cbn [weigh length] in L. destruct o; cbn [weigh1] in L; lia.
  - inversion F as [|y ys FX FS]; subst. cbn [concat]. rewrite run_app. destruct (run_wf x b W) as [WX LX]. destruct (block_moves x b W FX) as [E|LT].
    + assert (Z : forall sch c, todo P c = [] -> todo P (run sch c) = []).
      { clear. induction sch as [|[[y w] t] sch IH]; intros c E; [exact E|]. rewrite run_cons. apply IH. destruct y; cbn [step ProgressModel.step]; [unfold caller_step, ProgressModel.caller_step; rewrite E; exact E|]. destruct (drawer_quiet P T percent part time big w t c) as (_ & _ & _ & A4 & _). congruence. }
      apply Z, E.
    + apply IH; [exact WX|exact FS|]. cbn [length] in L. lia.
Qed.
Lemma start_wf p s calls : wf (start p s calls).
Proof.
  split; [apply start_set|]. unfold start, ProgressModel.start. cbn [todo]. induction calls as [|c calls IH]; [reflexivity|]. cbn [flat_map]. rewrite forallb_app, IH, andb_true_r. destruct c as [p0 [s0|]|s0| |]; try reflexivity; cbn [ops_of ProgressModel.ops_of]; destruct dummy; reflexivity.
Qed.
Lemma start_weigh p s calls : weigh (todo P (start p s calls)) <= 7 * length calls.
Proof.
  unfold start, ProgressModel.start. cbn [todo]. induction calls as [|c calls IH]; [cbn; lia|]. cbn [flat_map length]. rewrite weigh_app. assert (weigh (ops_of c) <= 7); [|lia]. destruct c as [p0 [s0|]|s0| |]; cbn [ops_of ProgressModel.ops_of]; try destruct dummy; cbn; lia.
Qed.

(** ** After the end *)
Fixpoint then_join (l : list op) : Prop :=
  match l with
  | [] => True
  | SetFinished _ :: l' => In (Join P) l' /\ then_join l'
  | UnlessFinished _ l0 :: l' => (exists s, l0 = [SetFinished P; Join P; Write P s]) /\ then_join l'
  | _ :: l' => then_join l'
  end.
Definition pending (b : bar) : Prop :=
  then_join (todo P b) /\ (at_ P b = PEnd \/ In (Join P) (todo P b) \/ (finished P b = false /\ exists l, In (UnlessFinished P l) (todo P b))).
Lemma step_pending b e : pending b -> pending (step b e).
Proof.
  destruct e as [[x w] t]. destruct x; cbn [step ProgressModel.step].
  - intros [J H]. assert (PE : at_ P b = PEnd -> at_ P (caller_step w t b) = PEnd) by (intros A; rewrite (proj1 (caller_keeps w t b)); exact A). unfold pending. unfold caller_step, ProgressModel.caller_step in *. destruct (todo P b) as [|o l] eqn:E; [split; [rewrite E; exact J|]; rewrite E; destruct H as [H|[[]|[_ [? []]]]]; auto|].
    assert (KEEP : (forall l', o <> UnlessFinished P l') -> o <> Join P -> o <> SetFinished P -> then_join l /\ (at_ P b = PEnd \/ In (Join P) l \/ (finished P b = false /\ exists l', In (UnlessFinished P l') l))).
    { intros N1 N2 N3. split; [destruct o; cbn [then_join] in J; try exact J; [congruence|destruct (N1 l0 eq_refl)]|]. destruct H as [H|[[H|H]|[F (l' & [H|H])]]]; auto; [congruence|destruct (N1 l' H)|right; right; eauto]. }
    destruct o; cbn [todo at_ finished] in *; try (apply KEEP; [intros ? Q|intros Q|intros Q]; discriminate).
    + cbn [then_join] in J. split; [apply J|]. right. left. apply J.
    + destruct (at_ P b) eqn:A; cbn [todo at_ finished]; rewrite ?E, ?A; cbn [then_join] in J; (split; [exact J|]); try (right; left; left; reflexivity). left. reflexivity.
    + cbn [then_join] in J. destruct J as [(s & ->) J]. destruct (finished P b) eqn:F.
      * split; [exact J|]. destruct H as [H|[[H|H]|[F' _]]]; [auto|discriminate|auto|discriminate].
      * split; [cbn [app then_join]; split; [left; reflexivity|exact J]|]. right. left. right. left. reflexivity.
  - intros [J H]. destruct (drawer_quiet P T percent part time big w t b) as (A1 & _ & _ & A4 & _ & A6). split; [rewrite A4; exact J|]. rewrite A4, A1. destruct H as [H|H]; [left; rewrite (A6 H); exact H|auto].
Qed.
Lemma then_join_app a b : then_join a -> then_join b -> then_join (a ++ b).
Proof.
  intros A B. induction a as [|o a IH]; [exact B|]. destruct o; cbn [app then_join] in *; auto.
  - destruct A as [A1 A2]. split; [apply in_or_app; auto|auto].
  - destruct A as [A1 A2]. auto.
Qed.
Lemma start_pending p s calls : dummy = false -> (exists c, In c calls /\ (c = Exit P \/ exists m, c = Finish P m)) -> pending (start p s calls).
Proof.
  intros DU (c & I & C). unfold start, ProgressModel.start. split; cbn [todo at_ finished].
  - clear -DU. induction calls as [|c calls IH]; [exact Logic.I|]. cbn [flat_map]. apply then_join_app; [|exact IH]. destruct c as [p0 [s0|]|s0| |]; try exact Logic.I; cbn [ops_of ProgressModel.ops_of]; rewrite DU; cbn [then_join].
    + split; [right; left; reflexivity|exact Logic.I].
    + split; [eauto|exact Logic.I].
  - right. destruct C as [->|(m & ->)].
    + right. split; [reflexivity|]. eexists. apply in_flat_map. exists (Exit P). split; [exact I|]. cbn [ops_of ProgressModel.ops_of]. rewrite DU. left. reflexivity.
    + left. apply in_flat_map. exists (Finish P m). split; [exact I|]. cbn [ops_of ProgressModel.ops_of]. rewrite DU. right. right. left. reflexivity.
Qed.
Lemma ended_still b later : todo P b = [] -> at_ P b = PEnd -> run later b = b.
Proof.
  intros E A. induction later as [|[[x w] t] later IH]; [reflexivity|]. rewrite run_cons. replace (step b (x, w, t)) with b; [exact IH|]. destruct x; cbn [step ProgressModel.step].
  - unfold caller_step, ProgressModel.caller_step. rewrite E. reflexivity.
  - symmetry. apply (drawer_quiet P T percent part time big w t b), A.
Qed.

(** ** What is drawn *)
Section Drawn.
Variables (ps : list P) (ss : list str) (ws : list nat) (ts : list T).
Definition wide_of (m : nat) : Prop := exists w, In w ws /\ m = w - 8.
Definition pct_of (s : str) : Prop := exists p, In p ps /\ s = rjust6 (percent p).
Definition below (m : nat) (d : str) : Prop := exists s t, In s ss /\ In t ts /\ d = prep_string s (Z.of_nat m + 8 - 6) ++ time t 6.
Definition row (m : nat) (c : str) : Prop := exists pct q, pct_of pct /\ In q ps /\ c = drawn pct (part q m) m.
(** the pieces that may be drawn *)
Definition piece (c : str) : Prop :=
  c = [cr] \/ exists m, wide_of m /\
  if big then row m c \/ (exists d q, below m d /\ In q ps /\ c = [nl] ++ d ++ (if m <=? part q m then up else esc :: $"[")) \/ (exists c', row m c' /\ c = c' ++ [cr])
    \/ (exists s t pct, In s ss /\ In t ts /\ pct_of pct /\ c = prep_string s (Z.of_nat m + 8 - 6 - 6 - 2) ++ $"[" ++ time t 6 ++ $"]" ++ pct)
  else (exists c', row m c' /\ c = c' ++ [cr])
    \/ (exists s t pct, In s ss /\ In t ts /\ pct_of pct /\ c = prep_string s (Z.of_nat m + 8 - 6 - 6 - 2) ++ $"[" ++ time t 6 ++ $"]" ++ pct).
Definition place_ok (m : nat) (pl : place) : Prop :=
  match pl with
  | PCheck | PSize | PEnd => True
  | PReturn | PPercent => wide_of m
  | PBar pct => wide_of m /\ pct_of pct
  | PBig pct n | PElif pct n | PDraw pct n => wide_of m /\ pct_of pct /\ exists q, In q ps /\ n = part q m
  | PTextBig pct n => wide_of m /\ pct_of pct /\ (exists q, In q ps /\ n = part q m) /\ big = true
  | PRow pct n d => wide_of m /\ pct_of pct /\ (exists q, In q ps /\ n = part q m) /\ below m d /\ big = true
  | PBelow n d => wide_of m /\ (exists q, In q ps /\ n = part q m) /\ below m d /\ big = true
  | PText pct => wide_of m /\ pct_of pct
  | PWrite d => wide_of m /\ exists s t pct, In s ss /\ In t ts /\ pct_of pct /\ d = prep_string s (Z.of_nat m + 8 - 6 - 6 - 2) ++ $"[" ++ time t 6 ++ $"]" ++ pct
  end.
Fixpoint ops_ok (l : list op) : Prop :=
  match l with
  | [] => True
  | SetPer _ p :: l' => In p ps /\ ops_ok l'
  | SetText _ s :: l' => In s ss /\ ops_ok l'
  | UnlessFinished _ l0 :: l' => (exists s, l0 = [SetFinished P; Join P; Write P s]) /\ ops_ok l'
  | _ :: l' => ops_ok l'
  end.
(** the caller changes the width only when the drawer is at its end *)
Fixpoint joins (l : list op) : bool :=
  match l with [] => true | Join _ :: _ => true | Size _ :: _ => false | UnlessFinished _ l' :: l'' => match l' with [SetFinished _; Join _; Write _ _] => joins l'' | _ => false end | _ :: l' => joins l' end.
Definition drawing (b : bar) : Prop :=
  In (per P b) ps /\ In (text P b) ss /\ place_ok (width P b) (at_ P b) /\ ops_ok (todo P b) /\ (at_ P b = PEnd \/ joins (todo P b) = true) /\ Forall piece (by_ Drawer (out P b)).
Lemma by_more l x c : by_ x (l ++ [(x, c)]) = by_ x l ++ [c].
Proof. rewrite by_app. unfold by_ at 2. destruct x; reflexivity. Qed.
Lemma by_other l c : by_ Drawer (l ++ [(Caller, c)]) = by_ Drawer l.
Proof. rewrite by_app. unfold by_ at 2. cbn. apply app_nil_r. Qed.
Lemma step_drawing b x w t : In w ws -> In t ts -> drawing b -> drawing (step b (x, w, t)).
Proof.
  intros IW IT (A1 & A2 & A3 & A4 & A5 & A6). destruct x; cbn [step ProgressModel.step].
  - unfold caller_step, ProgressModel.caller_step. destruct (todo P b) as [|o l] eqn:E; [repeat split; auto; rewrite ?E; auto|].
    destruct o; cbn [ops_ok] in A4.
    + destruct A4 as [B1 B2]. repeat split; auto.
    + destruct A4 as [B1 B2]. repeat split; auto.
    + repeat split; auto.
    + destruct (at_ P b) eqn:AT; try (repeat split; rewrite ?E, ?AT; auto; fail).
    + destruct A5 as [A5|A5]; [|discriminate]. repeat split; auto. cbn [width at_]. rewrite A5. exact Logic.I.
    + repeat split; auto. cbn [out]. rewrite by_other. exact A6.
    + repeat split; auto. cbn [out]. rewrite by_other. exact A6.
    + repeat split; auto. cbn [out]. rewrite by_other. exact A6.
    + destruct A4 as [(s & ->) B2]. repeat split; auto; cbn [todo at_]; destruct (finished P b); auto. 
  - unfold drawer_step, ProgressModel.drawer_step, go, write. destruct (at_ P b) eqn:AT; cbn [place_ok] in A3; (split; [exact A1 || exact A1|]); (split; [exact A2|]).
    + cbn [width at_ todo out]. split; [destruct (finished P b); exact Logic.I|]. split; [exact A4|]. split; [destruct (finished P b); [left; reflexivity|right; destruct A5; [discriminate|assumption]]|exact A6].
    + cbn [width at_ todo out]. split; [exists w; auto|]. split; [exact A4|]. split; [right; destruct A5; [discriminate|assumption]|exact A6].
    + cbn [width at_ todo out]. split; [exact A3|]. split; [exact A4|]. split; [right; destruct A5; [discriminate|assumption]|]. rewrite by_more. apply Forall_app. split; [exact A6|]. constructor; [left; reflexivity|constructor].
    + cbn [width at_ todo out]. split; [split; [exact A3|exists (per P b); auto]|]. split; [exact A4|]. split; [right; destruct A5; [discriminate|assumption]|exact A6].
    + cbn [width at_ todo out]. split; [split; [apply A3|]; split; [apply A3|exists (per P b); auto]|]. split; [exact A4|]. split; [right; destruct A5; [discriminate|assumption]|exact A6].
    + cbn [width at_ todo out]. split; [|split; [exact A4|split; [right; destruct A5; [discriminate|assumption]|exact A6]]]. destruct big eqn:BG; cbn [andb]; [destruct (negb _); cbn [place_ok]|exact A3]; [|exact A3]. destruct A3 as (B1 & B2 & B3). auto.
    + cbn [width at_ todo out]. split; [|split; [exact A4|split; [right; destruct A5; [discriminate|assumption]|exact A6]]]. destruct (negb _); cbn [place_ok]; [split; apply A3|exact A3].
    + cbn [width at_ todo out]. destruct A3 as (B1 & B2 & B3 & B4). split; [repeat split; auto; exists (text P b), t; auto|]. split; [exact A4|split; [right; destruct A5; [discriminate|assumption]|exact A6]].
    + cbn [width at_ todo out]. destruct A3 as (B1 & B2 & (q & B3 & B3') & B4 & B5). split; [repeat split; eauto|]. split; [exact A4|split; [right; destruct A5; [discriminate|assumption]|]]. rewrite by_more. apply Forall_app. split; [exact A6|]. constructor; [|constructor]. right. exists (width P b). split; [exact B1|]. rewrite B5. left. exists pct, q. subst n. auto.
    + cbn [width at_ todo out]. destruct A3 as (B1 & (q & B3 & B3') & B4 & B5). split; [exact Logic.I|]. split; [exact A4|split; [right; destruct A5; [discriminate|assumption]|]]. rewrite by_more. apply Forall_app. split; [exact A6|]. constructor; [|constructor]. right. exists (width P b). split; [exact B1|]. rewrite B5. right. left. exists d, q. subst n. auto.
    + cbn [width at_ todo out]. destruct A3 as (B1 & B2). split; [split; [exact B1|]; exists (text P b), t, pct; auto|]. split; [exact A4|split; [right; destruct A5; [discriminate|assumption]|exact A6]].
    + cbn [width at_ todo out]. destruct A3 as (B1 & B2). split; [exact Logic.I|]. split; [exact A4|split; [right; destruct A5; [discriminate|assumption]|]]. rewrite by_more. apply Forall_app. split; [exact A6|]. constructor; [|constructor]. right. exists (width P b). split; [exact B1|]. destruct big; [right; right; right; exact B2|right; exact B2].
    + cbn [width at_ todo out]. destruct A3 as (B1 & B2 & (q & B3 & B3')). split; [exact Logic.I|]. split; [exact A4|split; [right; destruct A5; [discriminate|assumption]|]]. rewrite by_more. apply Forall_app. split; [exact A6|]. constructor; [|constructor]. right. exists (width P b). split; [exact B1|]. assert (X : exists c', row (width P b) c' /\ drawn pct n (width P b) ++ [cr] = c' ++ [cr]) by (exists (drawn pct n (width P b)); split; [exists pct, q; subst n; auto|reflexivity]). destruct big; [right; right; left; exact X|left; exact X].
    + rewrite AT. cbn [place_ok]. auto.
Qed.
End Drawn.
End Bar.
