(** Specification for C105: years that are numbers or texts. *)
From Coq Require Import List ZArith Bool Arith.
From Coq Require Import String.
From Verif Require Import Base PyStr AnalysisModel WosTagsSpec MixedModel.
Import ListNotations.
Local Open Scope list_scope.

(** the order of texts: one starts the other, or at the first difference it has the smaller character *)
Definition text_before (s t : str) : Prop :=
  (exists r, t = s ++ r) \/ exists p x y a b, s = p ++ x :: a /\ t = p ++ y :: b /\ (x < y)%N.
(** numbers are compared with numbers and texts with texts *)
Definition not_after (a b : yearval) : Prop :=
  match a, b with YNum x, YNum y => (x <= y)%Z | YText s, YText t => text_before s t | _, _ => False end.
(** what a record tells under the name year, as a year *)
Definition the_year (ts : list thing) : option yearval :=
  match ts with [Number z] => Some (YNum z) | [Words s] => Some (YText s) | _ => None end.
(** the records of a year *)
Definition of_that_year (years : anyrec -> list thing) (y : yearval) (r : anyrec) : bool :=
  match the_year (years r), y with Some (YNum a), YNum b => Z.eqb a b | Some (YText s), YText t => eqb s t | _, _ => false end.
(** the records whose year is a number from [a] to [b] *)
Definition in_range (years : anyrec -> list thing) (a b : Z) (r : anyrec) : bool :=
  match the_year (years r) with Some (YNum y) => (a <=? y)%Z && (y <=? b)%Z | _ => false end.
