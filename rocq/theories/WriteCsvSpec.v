(** Specification for C68: the columns and the cells of the file of a collection. *)
From Coq Require Import List ZArith Lia Bool Arith.
From Coq Require Import String.
From Verif Require Import Base PyStr SeriesSpec WriteCsvModel.
Import ListNotations.
Local Open Scope list_scope.

Section Spec.
Context {R : Type}.
Variables to_tag to_full : dict str str.
Variable keys : R -> list str.
Variable get : R -> str -> option wval.
Variable genders : R -> res (nat * nat * nat).
(** a tag for a name *)
Definition tag_of (t : str) : str := match dget t to_tag with Some u => u | None => t end.
(** which fields are shown: those of [only] or else all that a record has, those of [first] before the others *)
Definition fields_shown (o : wopts) (rs : list R) : list str :=
  let first := map tag_of match w_first o with Some l => l | None => [$"id"; $"title"; $"authorsFull"; $"citations"; $"keywords"; $"DOI"] end in
  match w_only o with
  | [] => first_seen (first ++ flat_map keys rs)
  | only => filter (fun t => if in_dec (list_eq_dec N.eq_dec) t (map tag_of only) then true else false) first
            ++ filter (fun t => if in_dec (list_eq_dec N.eq_dec) t first then false else true) (map tag_of only)
  end.
(** by short or by long names *)
Definition named (o : wopts) (l l' : list str) : Prop :=
  if w_long o then Forall2 (fun t u => dget t to_full = Some u) l l' else l' = l.
Definition extra_columns (o : wopts) : list str :=
  (if w_num o then [$"num-Authors"] else []) ++ (if w_gender o then [$"num-Male"; $"num-Female"; $"num-Unknown"] else []).
(** the text of a value *)
Definition text_of (bar : str) (v : option wval) : str :=
  match v with Some (WText s) => s | Some (WMany l) => join bar l | Some (WOther s) => s | Some WNone => [] | None => [] end.
(** the cells of the two kinds of counts *)
Definition counted (r : R) (n : nat) (g : nat * nat * nat) (k : str) : option str :=
  if eqb k $"num-Authors" then Some (dec_nat n)
  else if eqb k $"num-Male" then Some (dec_nat (fst (fst g)))
  else if eqb k $"num-Female" then Some (dec_nat (snd (fst g)))
  else if eqb k $"num-Unknown" then Some (dec_nat (snd g)) else None.
(** the cell of a record in a column *)
Definition cell_is (o : wopts) (r : R) (n : nat) (g : nat * nat * nat) (k : str) : str :=
  if in_dec (list_eq_dec N.eq_dec) k (extra_columns o) then match counted r n g k with Some s => s | None => [] end else text_of (w_bar o) (get r k).
End Spec.
