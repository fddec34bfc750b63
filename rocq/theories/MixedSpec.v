(** Specification for C101: what the fields of records of the four databases tell under the names that all databases share. *)
From Coq Require Import List ZArith Bool Arith.
From Coq Require Import String.
From Verif Require Import Base PyStr WosTagsModel WosTagsSpec MixedModel.
From Verif Require WosModel MedlineModel ScopusModel ProQuestModel.
Import ListNotations.
Local Open Scope list_scope.

(** ** Where the databases have what a common name stands for *)
Definition medline_field : list (str * str) :=
  [($"authorsShort", $"AU"); ($"authorsFull", $"FAU"); ($"title", $"TI"); ($"journal", $"JT"); ($"j9", $"TA"); ($"keywords", $"OT"); ($"abstract", $"AB")].
Definition scopus_field : list (str * str) :=
  [($"authorsShort", $"Authors"); ($"authorsFull", $"Authors"); ($"title", $"Title"); ($"year", $"Year"); ($"journal", $"Source title"); ($"j9", $"Abbreviated Source Title");
   ($"volume", $"Volume"); ($"beginningPage", $"Page start"); ($"keywords", $"Index Keywords"); ($"abstract", $"Abstract")].
Definition proquest_field : list (str * str) :=
  [($"authorsShort", $"Author"); ($"title", $"Title"); ($"year", $"Degree date"); ($"keywords", $"Identifier / keyword"); ($"abstract", $"Abstract")].
(** what they do not have *)
Definition not_in_medline : list str := [$"citations"].
Definition not_in_proquest : list str := [$"citations"; $"journal"; $"j9"; $"volume"; $"DOI"].

(** ** What the texts of a field tell *)
(** Medline: authors and keywords one by one, other texts as they are *)
Definition medline_says (tag : str) (vs : list str) : list thing :=
  if mem tag [$"TI"; $"JT"; $"TA"; $"AB"] then map Words (firstn 1 vs) else map Words vs.
(** Scopus: authors are separated by a comma and a space, keywords by a semicolon and a space, the year is a number *)
Inductive scopus_says : str -> str -> list thing -> Prop :=
| ss_authors : forall items, items <> [] -> (forall s, In s items -> no_part $", " s) -> scopus_says $"Authors" (join $", " items) (map Words items)
| ss_keywords : forall items, items <> [] -> (forall s, In s items -> no_part $"; " s) -> scopus_says $"Index Keywords" (join $"; " items) (map Words items)
| ss_year : forall z, scopus_says $"Year" (dec_Z z) [Number z]
| ss_text : forall tag v, In tag [$"Title"; $"Source title"; $"Abbreviated Source Title"; $"Volume"; $"Page start"; $"Abstract"] -> scopus_says tag v [Words v].
(** ProQuest: keywords are separated by a comma and a space, abstracts are lines, the others texts *)
Inductive proquest_says : str -> list str -> list thing -> Prop :=
| ps_keywords : forall items vs, items <> [] -> (forall s, In s items -> no_part $", " s) -> proquest_says $"Identifier / keyword" (join $", " items :: vs) (map Words items)
| ps_abstract : forall vs, proquest_says $"Abstract" vs (map Words vs)
| ps_text : forall tag v vs, In tag [$"Author"; $"Title"; $"Degree date"] -> proquest_says tag (v :: vs) [Words v].
(** the date of publication of a Medline record starts with a year *)
Definition starts_with_year (y : Z) (s : str) : Prop :=
  (0 <= y <= 9999)%Z /\ exists rest, s = dec_Z y ++ rest /\ (rest = [] \/ (exists r, rest = $" " ++ r) \/ (exists r, rest = $"-" ++ r)).

(** ** What a record tells under a common name *)
Section Tells.
Variables upper lower : str -> str.
(** the record has no field that is itself called like that *)
Definition apart {Raw} (d : dict str Raw) (key : str) : Prop := ~ In key (dkeys d).
Definition any_tells (key : str) (r : anyrec) (ts : list thing) : Prop :=
  match r with
  | AnyWos r => tells upper lower key r ts
  | AnyMedline r => let d := MedlineModel.mdata r in apart d key /\
      ((exists tag, In (key, tag) medline_field /\ ((dget tag d = None /\ ts = []) \/ exists v vs, dget tag d = Some (v :: vs) /\ ts = medline_says tag (v :: vs)))
       \/ (key = $"year" /\ ((dget $"DP" d = None /\ ts = []) \/ exists y v vs, dget $"DP" d = Some (v :: vs) /\ starts_with_year y v /\ ts = [Number y]))
       \/ (In key not_in_medline /\ ts = []))
  | AnyScopus r => let d := ScopusModel.sdata r in apart d key /\
      exists tag, In (key, tag) scopus_field /\ ((dget tag d = None /\ ts = []) \/ exists v, dget tag d = Some v /\ scopus_says tag v ts)
  | AnyProQuest r => let d := ProQuestModel.pdata r in apart d key /\
      ((exists tag, In (key, tag) proquest_field /\ ((dget tag d = None /\ ts = []) \/ exists vs, dget tag d = Some vs /\ proquest_says tag vs ts))
       \/ (In key not_in_proquest /\ ts = []))
  end.
End Tells.
