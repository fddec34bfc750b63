(** Specification for C64: which citations are asked for, and what a table of them says. *)
From Coq Require Import List ZArith Lia Bool Arith Permutation.
From Coq Require Import String.
From Verif Require Import Base PyStr SeriesSpec AnalysisModel CiteTableModel.
Import ListNotations.
Local Open Scope list_scope.

(** all the citations of the records, one after the other *)
Definition given {R} (cites : R -> option (list cite)) (rs : list R) : list cite :=
  flat_map (fun r => match cites r with Some cs => cs | None => [] end) rs.
(** the citation has the attribute, with one of the values if some are given; None counts as a value *)
Definition asked {V} (get : cite -> attr V) (values : option (list (option V))) (c : cite) : Prop :=
  match get c with
  | Lacks => False
  | Empty => match values with None => True | Some vs => In None vs end
  | Has v => match values with None => True | Some vs => In (Some v) vs end
  end.
(** how many of the citations are the same as [c], and how many have the same year, none counting as a year *)
Definition times (all : list cite) (c : cite) : nat := length (filter (fun d => if list_eq_dec N.eq_dec (q_id d) (q_id c) then true else false) all).
Definition same_year (c d : cite) : bool :=
  match q_year c, q_year d with
  | Has y, Has z => Z.eqb y z
  | Empty, Empty => true
  | _, _ => false
  end.
Definition in_year_of (all : list cite) (c : cite) : nat := length (filter (same_year c) all).
(** a list of citations that stands for another without repetitions *)
Definition each_once (l all : list cite) : Prop :=
  NoDup (map q_id l) /\ (forall c, In c l -> In c all) /\ (forall c, In c all -> exists d, In d l /\ q_id d = q_id c).
(** a cell: the value of an attribute if it has one *)
Definition cell_of {A} (a : attr A) : option A := match a with Has x => Some x | _ => None end.
