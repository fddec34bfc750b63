(** The citations that stand for a Scopus record. *)
From Coq Require Import String.
From Verif Require Import Base PyStr Regex CitationModel ValuesModel.
Set Implicit Arguments.

Section Self.
(** \w and \d of python's re, int of such digits, str.upper *)
Variable word num : char -> bool.
Variable int_of : str -> Z.
Variable upper : str -> str.
(** scopus/recordScopus.py:151-155, 160-163: what a citation that is not usable gets; the flag and the identifier stay as they are.
    The year is that of the record as a number, 0 if there is none (:152, :161) *)
Definition patched (year : option Z) (r : selfrec) (c : scitation) : scitation :=
  if s_bad c
  then {| s_author := s_author c;
          s_year := Some (match year with Some y => y | None => 0%Z end);
          s_journal := Some (upper (match r_journal r with Some j => j | None => [] end));
          s_bad := true; s_id := s_id c;
          s_attributes := dset $"name" (Some (upper (match r_title r with Some t => t | None => [] end))) (s_attributes c) |}
  else c.
(** recordScopus.py:107-164: createCitation() *)
Definition create_citation (year : option Z) (r : selfrec) : scitation :=
  patched year r (scopus_citation word num int_of upper (scopus_self r)).
(** the same with multiCite = True *)
Definition create_citations (year : option Z) (r : selfrec) : list scitation :=
  map (fun t => patched year r (scopus_citation word num int_of upper t)) (scopus_selves r).
End Self.
