(** Specification for C24: Medline records. *)
From Coq Require Import List Lia Bool Arith.
From Coq Require Import String.
From Verif Require Import Base PyStr MedlineModel.
Import ListNotations.
Local Open Scope list_scope.

(** one to four letters *)
Definition good_tag (alpha : char -> bool) (t : str) : Prop := t <> [] /\ length t <= 4 /\ forall c, In c t -> alpha c = true.
(** the values of a field, none if there is no such field *)
Definition values (t : str) (d : mfields) : list str := match dget t d with Some vs => vs | None => [] end.
Definition authors (d : mfields) : list str := values $"AU" d.
(** each field once, with letters for a tag and at least one value *)
Definition fields_good (alpha : char -> bool) (d : mfields) : Prop :=
  NoDup (map fst d) /\ forall t vs, In (t, vs) d -> good_tag alpha t /\ vs <> [].
(** the values of the fields about authors (AD and AUID) are those of the first author, then those of the second, and so on, each after
    the name of its author; the names are different, on one line, and nothing in them looks like the mark after the name *)
Definition by_author (d : mfields) : Prop :=
  NoDup (authors d) /\
  exists about : str -> str -> list str, forall t, In t [$"AD"; $"AUID"] ->
    values t d = flat_map (fun a => map (fun w => a ++ $" : " ++ w) (about t a)) (authors d) /\
    forall a, In a (authors d) -> about t a <> [] -> ~ In nl a /\ contains $" : " (a ++ $" :") = false.
(** the same values for each tag *)
Definition same_fields (d e : mfields) : Prop := forall t, dget t d = dget t e.
(** letters are not white space *)
Definition letters (alpha : char -> bool) : Prop := forall c, alpha c = true -> ws_char c = false.
(** no carriage returns in values *)
Definition no_returns (d : mfields) : Prop := forall t vs v, In (t, vs) d -> In v vs -> ~ In cr v.
(** a record that can be written and read again: PMID first, and the number from it *)
Definition writable (alpha : char -> bool) (r : mrec) : Prop :=
  mbad r = false /\ merr r = None /\ fields_good alpha (mdata r) /\ by_author (mdata r) /\ no_returns (mdata r) /\
  exists number others fs, mdata r = ($"PMID", number :: others) :: fs /\ mid r = Some ($"PMID:" ++ number).
(** the same record, its fields perhaps in another order *)
Definition same_record (r s : mrec) : Prop := mid r = mid s /\ mbad r = mbad s /\ merr r = merr s /\ same_fields (mdata r) (mdata s).
(** ** What a text says *)
(** a field of the text: its tag, its first line, and the lines that continue it *)
Definition item : Type := str * (str * list str).
Definition item_ok (alpha : char -> bool) (i : item) : Prop := good_tag alpha (fst i) /\ forall w, In w (fst (snd i) :: snd (snd i)) -> ~ In nl w.
(** the tag in four columns, a dash and a blank, then the first line; the other lines after six blanks *)
Definition item_lines (i : item) : list str :=
  let '(t, (f, ws)) := i in (t ++ repeat sp (4 - length t) ++ $"- " ++ f ++ [nl]) :: map (fun w => $"      " ++ w ++ [nl]) ws.
(** all its lines *)
Definition item_text (i : item) : str := fst (snd i) ++ concat (map (fun w => nl :: w) (snd (snd i))).
(** the values said for a tag, in order; those about authors after the first line of the last AU field before them *)
Fixpoint said (t : str) (last_author : option str) (is : list item) : list str :=
  match is with
  | [] => []
  | i :: is' =>
    let a := if eq_dec (fst i) $"AU" then Some (fst (snd i)) else last_author in
    let v := if in_dec eq_dec (fst i) [$"AD"; $"AUID"] then (match a with Some n => n | None => $"None" end) ++ $" : " ++ item_text i else item_text i in
    if eq_dec (fst i) t then v :: said t a is' else said t a is'
  end.
