(** Specification for C94: what the lines of WOS records say, without looking fields up by their names. *)
From Coq Require Import List ZArith Bool Arith.
From Coq Require Import String.
From Verif Require Import Base PyStr CitationModel WosModel.
Import ListNotations.
Local Open Scope list_scope.

(** the lines under a tag, and the first of them *)
Definition lines_of (tag : str) (r : wrec) : list str := match dget tag (wfields r) with Some l => l | None => [] end.
Definition first_line (tag : str) (r : wrec) : str := hd [] (lines_of tag r).
(** a text after something, if there is one *)
Definition after (before s : str) : list str := match s with [] => [] | _ => [before ++ s] end.
Definition no_comma (s : str) : str := filter (fun x => negb (x =? 44)%N) s.
(** what a record is cited as: its first author, its year, the short name of its journal (or its title), volume, page and DOI *)
Definition reference_text (r : wrec) : str :=
  join $", " (match lines_of $"AU" r with [] => [] | a :: _ => [no_comma a] end ++ after [] (first_line $"PY" r)
    ++ after [] (match first_line $"J9" r with [] => join $" " (lines_of $"TI" r) | j => j end)
    ++ after $"V" (strip (first_line $"VL" r)) ++ after $"P" (strip (first_line $"BP" r)) ++ after $"DOI " (first_line $"DI" r)).
(** the year is missing or one of four digits *)
Definition year_ok (r : wrec) : Prop := lines_of $"PY" r = [] \/ exists y, (1000 <= y <= 9999)%Z /\ first_line $"PY" r = dec_Z y.

Section Ids.
Variables upper title : str -> str.
(** the ID of a citation, whether it is of the unknown *)
Definition id_of (s : str) : str := match wos_citation upper title s with Ok c => c_id c | Raise _ => [] end.
Definition unknown (s : str) : bool := match wos_citation upper title s with Ok c => is_anonymous c | Raise _ => false end.
(** the name under which a record is in networks, and the names of what it cites *)
Definition name_of_record (r : wrec) : str := id_of (reference_text r).
Definition refs (r : wrec) : list str := map id_of (lines_of $"CR" r).
Definition known_refs (r : wrec) : list str := map id_of (filter (fun s => negb (unknown s)) (lines_of $"CR" r)).
(** a record called [u] has a reference that is called [v] *)
Definition has_ref (rs : list wrec) (u v : str) : bool := existsb (fun r => eqb u (name_of_record r) && mem v (refs r)) rs.
End Ids.
