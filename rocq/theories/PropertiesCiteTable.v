(** C64: the table of the citations of records. *)
From Coq Require Import List ZArith Lia Bool Arith Permutation.
From Coq Require Import String.
From Verif Require Import Base PyStr SeriesSpec AnalysisModel CiteTableModel CiteTableSpec CiteTableProofs.
Import ListNotations.
Local Open Scope list_scope.

(** Where the rows of a table come from: one row for each different citation, with the parts the citation has *)
Definition rows_of (l : list cite) (t : cols) : Prop :=
  t_text t = map q_original l /\ t_year t = map (fun c => cell_of (q_year c)) l /\
  t_journal t = map (fun c => cell_of (q_journal c)) l /\ t_author t = map (fun c => cell_of (q_author c)) l.

(** For any records, any field and any values, and any order in which sets are walked, the table has one row for each different
    citation asked for. The counts of a row are how many of the citations asked for are this one, the same divided by their number,
    and the same divided by how many of them have the same year, no year counting as a year. *)
Theorem C64_table : forall {R V} `{EqDec V} (cites : R -> option (list cite)) order (get : cite -> attr V) values rs f,
  (forall l, Permutation l (order l)) -> (forall c, f c = true <-> asked get values c) ->
  let all := filter f (given cites rs) in
  exists l t, cite_table cites true order (Some get) values rs = Ok t /\ each_once l all /\ rows_of l t /\
    t_num t = map (times all) l /\ t_overall t = map (fun c => (times all c, length all)) l /\
    t_in_year t = map (fun c => match q_year c with Lacks => None | _ => Some (times all c, in_year_of all c) end) l.
Proof.
  intros R V EV cites order get values rs f P F all. unfold cite_table. rewrite (picked _ _ _ _ F). fold all. exists (order (cite_set [] all)).
  pose proof (set_once order all P) as O. unfold pandas_prep. rewrite rows_counts by apply O. eexists. split; [reflexivity|]. split; [exact O|]. unfold rows_of; cbn. auto 10.
Qed.
(** Without a field all the citations are asked for, whatever the values are. *)
Theorem C64_everything : forall {R V} `{EqDec V} (cites : R -> option (list cite)) order (values : option (list (option V))) rs,
  (forall l, Permutation l (order l)) ->
  let all := given cites rs in
  exists l t, cite_table cites true order None values rs = Ok t /\ each_once l all /\ rows_of l t /\
    t_num t = map (times all) l /\ t_overall t = map (fun c => (times all c, length all)) l /\
    t_in_year t = map (fun c => match q_year c with Lacks => None | _ => Some (times all c, in_year_of all c) end) l.
Proof.
  intros R V EV cites order values rs P all. unfold cite_table. rewrite picked_all. fold all. exists (order (cite_set [] all)).
  pose proof (set_once order all P) as O. unfold pandas_prep. rewrite rows_counts by apply O. eexists. split; [reflexivity|]. split; [exact O|]. unfold rows_of; cbn. auto 10.
Qed.
(** The numbers of the rows add up to the number of the citations, so the overall fractions add up to one, ... *)
Theorem C64_total : forall all l, each_once l all -> total (times all) l = length all.
Proof.
  intros all l E. pose proof (class_total (fun _ => true) all (fun _ _ _ _ _ => eq_refl) l E) as T.
  assert (FT : forall m : list cite, filter (fun _ => true) m = m) by (induction m; cbn; congruence). rewrite !FT in T. exact T.
Qed.
(** ... and if equal citations have the same year then those of the rows of a year add up to what the numbers of that year are divided by. *)
Theorem C64_year_total : forall all l c, (forall d e, In d all -> In e all -> q_id d = q_id e -> q_year d = q_year e) ->
  each_once l all -> total (times all) (filter (same_year c) l) = in_year_of all c.
Proof.
  intros all l c Y E. unfold in_year_of. apply class_total; [|exact E]. intros d e I J Q. unfold same_year. rewrite (Y d e I J Q). reflexivity.
Qed.
(** Without the counts the rows are the same and the three other columns are not there; so it is for the table of one record. *)
Theorem C64_plain : forall {R V} `{EqDec V} (cites : R -> option (list cite)) order (get : cite -> attr V) values rs f,
  (forall l, Permutation l (order l)) -> (forall c, f c = true <-> asked get values c) ->
  exists l t, cite_table cites false order (Some get) values rs = Ok t /\ each_once l (filter f (given cites rs)) /\ rows_of l t /\
    t_num t = [] /\ t_overall t = [] /\ t_in_year t = [].
Proof.
  intros R V EV cites order get values rs f P F. unfold cite_table. rewrite (picked _ _ _ _ F). eexists. eexists. unfold pandas_prep. rewrite rows_plain by reflexivity.
  split; [reflexivity|]. split; [apply set_once, P|]. unfold rows_of; cbn. auto 10.
Qed.
Theorem C64_record : forall {R V} `{EqDec V} (cites : R -> option (list cite)) order (get : cite -> attr V) values r f,
  (forall l, Permutation l (order l)) -> (forall c, f c = true <-> asked get values c) ->
  exists l t, rec_table cites order (Some get) values r = Ok t /\ each_once l (filter f (given cites [r])) /\ rows_of l t /\
    t_num t = [] /\ t_overall t = [] /\ t_in_year t = [].
Proof.
  intros R V EV cites order get values r f P F. destruct (C64_plain cites order get values [r] f P F) as (l & t & A & B). exists l, t. split; [|exact B].
  rewrite <- A. unfold cite_table, rec_table. cbn [col_citations]. rewrite app_nil_r. reflexivity.
Qed.
(** The list of citations: each that was asked for, once. *)
Theorem C64_list : forall {R V} `{EqDec V} (cites : R -> option (list cite)) order (get : cite -> attr V) values rs f,
  (forall l, Permutation l (order l)) -> (forall c, f c = true <-> asked get values c) ->
  each_once (cite_list cites order (Some get) values rs) (filter f (given cites rs)).
Proof. intros R V EV cites order get values rs f P F. unfold cite_list. rewrite (picked _ _ _ _ F). apply set_once, P. Qed.

Section Example.
Definition mk (o i : str) (a : attr str) (y : attr Z) : cite :=
  {| q_original := o; q_id := i; q_author := a; q_journal := Empty; q_year := y; q_V := Lacks; q_P := Lacks; q_misc := Lacks; q_bad := true |}.
Definition c1 := mk $"A, 1990, J" $"A, 1990" (Has $"A") (Has 1990%Z).
Definition c1' := mk $"a., 1990, K" $"A, 1990" (Has $"A") (Has 1990%Z).
Definition c2 := mk $"B, 1990" $"B, 1990" (Has $"B") (Has 1990%Z).
Definition c3 := mk $"B" $"B" (Has $"B") Empty.
Definition c4 := mk $"x" $"x" Lacks Lacks.
Definition two : bool -> option (list cite) := fun b => if b then Some [c1; c2; c3] else Some [c4; c1'].
Example C64_ex : cite_table two true (@rev cite) (None (A := cite -> attr Z)) None [true; false] = Ok
  {| t_text := [$"x"; $"B"; $"B, 1990"; $"A, 1990, J"]; t_year := [None; None; Some 1990%Z; Some 1990%Z]; t_journal := [None; None; None; None];
     t_author := [None; Some $"B"; Some $"B"; Some $"A"]; t_num := [1; 1; 1; 2]; t_overall := [(1, 5); (1, 5); (1, 5); (2, 5)];
     t_in_year := [None; Some (1, 1); Some (1, 3); Some (2, 3)] |}
  /\ cite_list two (@rev cite) (Some q_year) (Some [Some 1990%Z]) [true; false] = [c2; c1].
Proof. vm_compute. auto. Qed.
Example C64_ex_year : forall d e, In d (given two [true; false]) -> In e (given two [true; false]) -> q_id d = q_id e -> q_year d = q_year e.
Proof. intros d e I J. cbn in I, J. repeat destruct I as [<-|I]; try destruct I; repeat destruct J as [<-|J]; try destruct J; intros E; try reflexivity; exfalso; revert E; vm_compute; discriminate. Qed.
(** What the documentation says of the field does not hold: a citation whose year is missing is not dropped when it has the
    attribute with the value None, as a Web of Science citation without a year has. *)
Theorem C64_missing_refuted : exists cs, ~ forall order t, (forall l, Permutation l (order l)) ->
  cite_table (fun _ : unit => Some cs) true order (Some q_year) None [tt] = Ok t -> ~ In None (t_year t).
Proof.
  exists [c3]. intros X. refine (X (fun l => l) _ _ eq_refl _); [auto|]. vm_compute. auto.
Qed.
End Example.
Print Assumptions C64_table.
Print Assumptions C64_everything.
Print Assumptions C64_total.
Print Assumptions C64_year_total.
Print Assumptions C64_plain.
Print Assumptions C64_record.
Print Assumptions C64_list.
Print Assumptions C64_missing_refuted.
