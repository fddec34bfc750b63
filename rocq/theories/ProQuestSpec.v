(** Specification for C26: ProQuest records. *)
From Coq Require Import List ZArith Lia Bool Arith.
From Coq Require Import String.
From Verif Require Import Base PyStr.
Import ListNotations.
Local Open Scope list_scope.

(** a line of text that no tag begins: no colon, unless it is a link *)
Definition untagged (s : str) : Prop := s <> [] /\ s <> repeat 95%N 60 /\ (~ In 58%N s \/ exists t, s = $"http://" ++ t).
(** a line of text for the name or the link of a record: any *)
Definition any_text (s : str) : Prop := s <> [] /\ s <> repeat 95%N 60.
(** a tag: the first colon with a blank comes after it, and it is not a link *)
Definition good_ptag (t : str) : Prop := (forall a b, t ++ $":" <> a ++ $": " ++ b) /\ forall v u, t ++ $": " ++ v <> $"http://" ++ u.

(** what a record says: a tag with its value and the lines that continue it; the author with the link that follows *)
Inductive said := Field (t v : str) (more : list str) | Author (v link : str).
Definition said_ok (x : said) : Prop :=
  match x with
  | Field t v more => t <> $"Author" /\ good_ptag t /\ Forall untagged more
  | Author v link => any_text link
  end.
Definition said_lines (x : said) : list str :=
  match x with
  | Field t v more => (t ++ $": " ++ v) :: more
  | Author v link => [$"Author: " ++ v; link]
  end.
(** the text without white space at its end *)
Definition trimmed (s u : str) : Prop := exists w, s = u ++ w /\ (forall c, In c w -> ws_char c = true) /\ (forall c u', u = u' ++ [c] -> ws_char c = false).
(** the entries of a record in order *)
Definition entries (name : str) (xs : list said) : list (str * list str) :=
  ($"Name", [name]) :: flat_map (fun x => match x with Field t v more => [(t, v :: more)] | Author v link => [($"Author", [v]); ($"url", [link])] end) xs.
(** of several entries with a tag the last one counts *)
Definition last_entry (t : str) (es : list (str * list str)) : option (list str) := option_map snd (find (fun e => if eq_dec (fst e) t then true else false) (rev es)).
Definition trimmed_list (o o' : option (list str)) : Prop :=
  match o, o' with Some l, Some l' => Forall2 trimmed l l' | None, None => True | _, _ => False end.
(** ** Files *)
From Verif Require Import PyInt.
(** a record in a file: the number in its first line, the text after it, its lines, and what they say *)
Record doc := mkDoc { dnum : str; dof : str; dlines : list str; dname : str; dsaid : list said }.
(** apart from blank lines the lines are those of the name and of what is said *)
Definition doc_ok (x : doc) : Prop :=
  any_text (dname x) /\ Forall said_ok (dsaid x) /\
  filter (fun l => if eq_dec l [nl] then false else true) (dlines x) = map (fun s => s ++ [nl]) (dname x :: flat_map said_lines (dsaid x)).
(** the first line, the lines, 60 underscores and one more line *)
Definition doc_lines (x : doc) (one_more : str) : list str :=
  ($"Document " ++ dnum x ++ $" of " ++ dof x ++ [nl]) :: dlines x ++ [repeat 95%N 60 ++ [nl]; one_more].
(** the number is the number z *)
Definition doc_numbered (x : doc) (z : Z) : Prop := (forall a b, dnum x ++ $" of" <> a ++ $" of " ++ b) /\ py_int (dnum x) = Some z.
(** the first value of a field, without white space at its end *)
Definition doc_value (x : doc) (t v : str) : Prop := exists u l, last_entry t (entries (dname x) (dsaid x)) = Some (u :: l) /\ trimmed u v.
(** the table of contents: a line, then the number and the title *)
Definition toc_lines (e : str * str * str) : list str := let '(l, n, t) := e in [l; n ++ $". " ++ t ++ [nl]].
Definition toc_ok (e : str * str * str) (zt : Z * str) : Prop := let '(l, n, t) := e in (forall a b, n ++ $"." <> a ++ $". " ++ b) /\ py_int n = Some (fst zt) /\ snd zt = t.
Definition bib : str := $"Bibliography" ++ [nl].
(** a record read from a file *)
Definition doc_record (x : doc) (id : str) (data : dict str (list str)) : Prop := doc_value x $"ProQuest document ID" id /\ forall t, trimmed_list (last_entry t (entries (dname x) (dsaid x))) (dget t data).
