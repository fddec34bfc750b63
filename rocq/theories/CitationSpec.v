(** What a WOS citation string says, read from left to right. *)
From Coq Require Import String.
From Verif Require Import Base PyStr Span.
Set Implicit Arguments.

Definition is_comma (x : char) : bool := (x =? 44)%N.
Definition up_to_comma (s : str) : str := tw (fun x => negb (is_comma x)) s.
Definition from_comma (s : str) : str := dw (fun x => negb (is_comma x)) s.
Definition is_09 (x : char) : bool := ((48 <=? x) && (x <=? 57))%N.

(** the author: everything before the first comma, if that is at least two characters not starting with a digit *)
Definition read_author (s : str) : option str * str :=
  match s with
  | x :: y :: _ => if is_09 x || is_comma x || is_comma y then (None, s) else (Some (up_to_comma s), from_comma s)
  | _ => (None, s)
  end.
Definition skip_separator (s : str) : str := if starts_with $", " s then skipn 2 s else s.
(** the year: one to five digits, with or without a minus sign *)
Definition read_year (s : str) : option str * str :=
  let '(sign, t) := match s with x :: s' => if (x =? 45)%N then ([x], s') else ([], s) | [] => ([], s) end in
  match twn 5 is_09 t with
  | [] => (None, s)
  | ds => (Some (sign ++ ds), dwn 5 is_09 t)
  end.
(** the journal: everything before the next comma *)
Definition read_journal (s : str) : option str * str :=
  match up_to_comma s with [] => (None, s) | j => (Some j, from_comma s) end.
(** a volume or page: after a separator, a [mark] and at least one more character, up to the next comma *)
Definition read_marked (mark : char) (s : str) : option str * str :=
  if starts_with ($", " ++ [mark]) s
  then match up_to_comma (skipn 3 s) with [] => (None, s) | v => (Some (mark :: v), from_comma (skipn 3 s)) end
  else (None, s).
(** a DOI: what is left of the line after the separator and [DOI] *)
Definition read_doi (s : str) : option str :=
  if starts_with $", DOI " s
  then match tw (fun x => negb (x =? 10)%N) (skipn 6 s) with [] => None | d => Some d end
  else None.

Record parts := { p_author : option str; p_year : option str; p_journal : option str; p_volume : option str; p_page : option str; p_left : str }.
Definition read (s : str) : parts :=
  let '(a, s1) := read_author s in
  let '(y, s2) := read_year (skip_separator s1) in
  let '(j, s3) := read_journal (skip_separator s2) in
  let '(v, s4) := read_marked 86%N s3 in
  let '(p, s5) := read_marked 80%N s4 in
  {| p_author := a; p_year := y; p_journal := j; p_volume := v; p_page := p; p_left := s5 |}.
(** the DOI and the unexpected part of what is left: there is none if nothing is left or a DOI follows; otherwise it is one
    character, with a DOI if one follows it *)
Definition read_end (s : str) : option str * option str :=
  match s with
  | [] => (None, None)
  | x :: t =>
    match read_doi s with
    | Some d => (Some d, None)
    | None => match read_doi t with
              | Some d => (Some d, Some (x :: $", DOI " ++ d))
              | None => (None, Some [x])
              end
    end
  end.
(** the number written by decimal digits, with or without a minus sign *)
Definition digits_value (s : str) : Z := fold_left (fun a c => 10 * a + (Z.of_N c - 48))%Z s 0%Z.
Definition number (s : str) : Z := match s with x :: s' => if (x =? 45)%N then (- digits_value s')%Z else digits_value s | [] => 0%Z end.
