(** Model of RCglimpse.py 7-35: the glimpse of a collection.  The table itself is in TextModel.v, the counting in SeriesModel.v. *)
From Coq Require Import List ZArith Lia Bool Arith.
From Coq Require Import String.
From Verif Require Import Base PyStr RecordView SeriesModel TextModel.
Import ListNotations.
Local Open Scope list_scope.

(** RCglimpse.py:7-11 *)
Definition default_columns : dict str str := [($"Top Authors", $"authorsFull"); ($"Top Journals", $"journal"); ($"Top Cited", $"citations")].
(** RCglimpse.py:20-23 *)
Definition glimpse_columns (tags : list str) : dict str str := match tags with [] => default_columns | _ => fold_left (fun d t => dset t t d) tags [] end.
Section Glimpse.
Context {R V : Type} `{EqDec V}.
Variable lookup : R -> str -> res (fval V).
(** str of a value *)
Variable show : V -> str.
(** RCglimpse.py:33-34; rankedSeries with giveRanks gives pairs, and always ranks *)
Definition series_rows (s : series) : list (str * Z) := match s with SRanks l => map (fun x => (show (fst x), Z.of_nat (snd x))) l | _ => [] end.
Fixpoint glimpse_values (rs : list R) (cols : dict str str) : res (list (str * list (str * Z))) :=
  match cols with
  | [] => Ok []
  | (name, tag) :: cols' =>
    let* s := ranked_series lookup tag false true true false [] rs in
    let* vs := glimpse_values rs cols' in
    Ok ((name, series_rows s) :: vs)
  end.
(** RCglimpse.py:38-40: [cls] is the name of the class, [now] the time *)
Definition first_line (cls now : str) : str := cls ++ $" glimpse made at: " ++ now.
Definition second_line (rs : list R) (name : str) : str := dec_nat (length rs) ++ $" Records from " ++ firstn 30 name.
(** RCglimpse.py:18-35, as lines *)
Definition glimpse_of (cls now name : str) (rs : list R) (tags : list str) (cols rows : Z) (compact : bool) : res (list str) :=
  let* values := glimpse_values rs (glimpse_columns tags) in
  glimpse (first_line cls now) (second_line rs name) values cols rows compact.
End Glimpse.
