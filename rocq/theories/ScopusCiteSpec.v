(** How a Scopus reference is written, read from left to right. *)
From Coq Require Import String.
From Verif Require Import Base PyStr Span.
Set Implicit Arguments.

Section Spec.
Variables word num : char -> bool.
(** letters and digits are neither round brackets nor commas nor full stops, digits are not closing brackets *)
Definition plain_classes : Prop := Forall (fun x => word x = false) $"(),." /\ num 41%N = false.
Definition name_char (x : char) : bool := word x || (x =? 45)%N || (x =? 32)%N.
Definition initial_char (x : char) : bool := word x || (x =? 45)%N || (x =? 46)%N.
Definition code_char (x : char) : bool := word x || (x =? 45)%N.
(** a surname, perhaps a comma, a blank, initials, a full stop *)
Definition person (a : str) : Prop := exists u sep v, a = u ++ sep ++ $" " ++ v ++ $"." /\ u <> [] /\ forallb name_char u = true /\
  (sep = [] \/ sep = $",") /\ v <> [] /\ forallb initial_char v = true.
(** a text that begins with one more author *)
Definition goes_on (t : str) : Prop := exists a r, person a /\ t = a ++ $", " ++ r.
(** what stands between the first author and the year: nothing, or something that ends with a blank *)
Definition middle (t : str) : Prop := t = [] \/ exists t0, t = t0 ++ $" " /\ t0 <> [] /\ ~ In 40%N t.
Definition year_text (y : str) : Prop := 2 <= length y <= 5 /\ forallb num y = true.
(** AUTHOR, MIDDLE(YEAR) SOURCE *)
Definition reference (s author mid year source : str) : Prop :=
  s = author ++ $", " ++ mid ++ $"(" ++ year ++ $") " ++ source /\
  person author /\ middle mid /\ year_text year /\ (exists x r, source = x :: r /\ x <> 44%N).

(** the source: a journal up to the next comma *)
Definition up_to_comma (s : str) : str := tw (fun x => negb (x =? 44)%N) s.
Definition from_comma (s : str) : str := dw (fun x => negb (x =? 44)%N) s.
(** after a separator, a volume of letters, digits and hyphens *)
Definition read_volume (s : str) : option str * str :=
  if starts_with $", " s
  then match tw code_char (skipn 2 s) with [] => (None, s) | v => (Some v, dw code_char (skipn 2 s)) end
  else (None, s).
(** directly after the volume, an issue in brackets *)
Definition read_issue (s : str) : option str * str :=
  if starts_with $" (" s
  then match dw code_char (skipn 2 s) with x :: r => if (x =? 41)%N then (Some (tw code_char (skipn 2 s)), r) else (None, s) | [] => (None, s) end
  else (None, s).
(** after a separator and P. or PP., the pages *)
Definition read_page (s : str) : option str * str :=
  if starts_with $", PP. " s then (Some (tw code_char (skipn 6 s)), dw code_char (skipn 6 s))
  else if starts_with $", P. " s then (Some (tw code_char (skipn 5 s)), dw code_char (skipn 5 s))
  else (None, s).
Record source_parts := { q_journal : str; q_volume : option str; q_issue : option str; q_page : option str; q_misc : str }.
Definition read_source (s : str) : source_parts :=
  let '(v, s1) := read_volume (from_comma s) in
  let '(i, s2) := match v with Some _ => read_issue s1 | None => (None, s1) end in
  let '(p, s3) := read_page s2 in
  {| q_journal := up_to_comma s; q_volume := v; q_issue := i; q_page := p; q_misc := tw (fun x => negb (x =? 10)%N) s3 |}.
End Spec.
(** the source as it is usually written: JOURNAL, VOLUME (ISSUE), PP. PAGES and whatever else *)
Definition after (mark : str) (o : option str) (close : str) : str := match o with Some t => mark ++ t ++ close | None => [] end.
Definition written_source (j : str) (v i p : option str) (m : str) : str := j ++ after $", " v [] ++ after $" (" i $")" ++ after $", PP. " p [] ++ m.
(** further authors are each followed by a comma and a blank *)
Definition listed (l : list str) : str := concat (map (fun a => a ++ $", ") l).
