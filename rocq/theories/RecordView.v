(** What the analysis methods of mkCollection.py and recordCollection.py see of a record: a tag look-up.
    Nothing here is repository code. *)
From Coq Require Import String.
From Verif Require Import Base.
Set Implicit Arguments.

(** the value of a tag: a list, or something else *)
Inductive fval (V : Type) := One (v : V) | Many (l : list V).
Arguments One {V} v.
Arguments Many {V} l.
(** [if not isinstance(val, list): val = [val]] *)
Definition entries {V} (f : fval V) : list V := match f with One v => [v] | Many l => l end.

(** stable sorting, as python's [sorted(l, key = key)]; [le] is the order asked for *)
Section Sort.
  Context {A K : Type} (key : A -> K) (le : K -> K -> bool).
  Fixpoint sinsert (x : A) (l : list A) : list A :=
    match l with
    | [] => [x]
    | y :: l' => if le (key x) (key y) then x :: l else y :: sinsert x l'
    end.
  Definition ssort (l : list A) : list A := fold_right sinsert [] l.
End Sort.
