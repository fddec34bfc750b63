(** Specification for C102: the authors that a record names. *)
From Coq Require Import List ZArith Bool Arith.
From Coq Require Import String.
From Verif Require Import Base PyStr WosNetSpec WosTagsSpec MixedModel MixedSpec.
From Verif Require WosModel MedlineModel ScopusModel ProQuestModel.
Import ListNotations.
Local Open Scope list_scope.

(** Web of Science and Medline have a line for each author, under one tag for the short names and another for the full ones. Scopus has
    one list of authors with commas in between, ProQuest one author.  No field of the record is itself called authorsShort or authorsFull. *)
Definition names_authors (short : bool) (r : anyrec) (authors : list str) : Prop :=
  let key := if short then $"authorsShort" else $"authorsFull" in
  match r with
  | AnyWos r => authors = lines_of (if short then $"AU" else $"AF") r
  | AnyMedline r => let d := MedlineModel.mdata r in
      apart d key /\ authors = match dget (if short then $"AU" else $"FAU") d with Some l => l | None => [] end
  | AnyScopus r => let d := ScopusModel.sdata r in apart d key /\
      ((dget $"Authors" d = None /\ authors = []) \/
       (dget $"Authors" d = Some (join $", " authors) /\ authors <> [] /\ forall a, In a authors -> no_part $", " a))
  | AnyProQuest r => let d := ProQuestModel.pdata r in apart d key /\
      ((dget $"Author" d = None /\ authors = []) \/ (exists a more, dget $"Author" d = Some (a :: more) /\ authors = [a]))
  end.
(** it is not a record of ProQuest *)
Definition lists_authors (r : anyrec) : Prop := match r with AnyProQuest _ => False | _ => True end.
