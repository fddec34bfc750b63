(** Specification for C100: what the lines under a tag of a WOS record say. *)
From Coq Require Import List ZArith Bool Arith.
From Coq Require Import String.
From Verif Require Import Base PyStr CitationModel TagNames WosModel WosNetSpec WosTagsModel.
Import ListNotations.
Local Open Scope list_scope.

(** a text, a number or the text of a reference *)
Inductive thing := Words (s : str) | Number (z : Z) | Reference (line : str).
(** how it is shown *)
Definition shown_as (t : thing) : str := match t with Words s => s | Number z => dec_Z z | Reference l => l end.
Definition no_part (t s : str) : Prop := forall a b, s <> a ++ t ++ b.

Section Says.
Variables upper lower title : str -> str.
(** what it is counted as: references are the same if their IDs are *)
Definition counted_as (t : thing) : atom :=
  match t with Words s => AText s | Number z => ANum z | Reference l => ACite (id_of upper title l) end.
(** the things that the lines under a tag tell *)
Inductive says : str -> list str -> list thing -> Prop :=
| says_names : forall tag ls, In tag [$"AF"; $"AU"; $"BA"; $"BF"; $"BE"; $"ED"] -> says tag ls (map Words ls)
| says_refs : forall ls, says $"CR" ls (map Reference ls)
| says_items : forall tag ls items, In tag [$"EM"; $"RI"; $"OI"; $"FU"; $"SC"; $"BN"; $"WC"] -> items <> [] -> (forall s, In s items -> no_part $"; " s) ->
    join $" " ls = join $"; " items -> says tag ls (map Words items)
| says_sponsors : forall ls items, items <> [] -> (forall s, In s items -> no_part $", " s) -> join $", " ls = join $", " items -> says $"SP" ls (map Words items)
| says_own_keywords : forall ls items, items <> [] -> (forall s, In s items -> no_part $"; " s) -> lower (join $" " ls) = join $"; " items -> says $"DE" ls (map Words items)
| says_keywords : forall ls items, items <> [] -> (forall s, In s items -> no_part $"; " s) -> upper (join $" " ls) = join $"; " items -> says $"ID" ls (map Words items)
| says_text : forall tag ls, In tag [$"TI"; $"SE"; $"BS"; $"CT"; $"HO"; $"CL"; $"FX"; $"PA"; $"SU"] -> says tag ls [Words (join $" " ls)]
| says_capitals : forall tag ls, In tag [$"SO"; $"JI"; $"PU"; $"PI"] -> says tag ls [Words (upper (join $" " ls))]
| says_abstract : forall ls, says $"AB" ls [Words (join [nl] ls)]
| says_language : forall ls, says $"LA" ls [Words (join $", " ls)]
| says_first : forall tag l ls, In tag [$"PT"; $"GP"; $"CA"; $"DT"; $"CY"; $"RP"; $"SN"; $"EI"; $"J9"; $"IS"; $"SI"; $"AR"; $"DI"; $"D2"; $"GA"; $"UT"; $"PM"; $"PN"; $"MA"] ->
    says tag (l :: ls) [Words l]
| says_stripped : forall tag l ls, In tag [$"VL"; $"BP"; $"EP"] -> says tag (l :: ls) [Words (strip l)]
| says_number : forall tag z ls, In tag [$"NR"; $"TC"; $"Z9"; $"PG"] -> says tag (dec_Z z :: ls) [Number z]
| says_year : forall y ls, (1000 <= y <= 9999)%Z -> says $"PY" (dec_Z y :: ls) [Number y].
(** a tag and its long name *)
Definition called_tag (tag key : str) : Prop := key = tag \/ dget tag wos_tags = Some key.
(** what a record tells under a key; nothing if it has no lines there *)
Definition tells (key : str) (r : wrec) (ts : list thing) : Prop :=
  exists tag, called_tag tag key /\ ((lines_of tag r = [] /\ dhas tag wos_tags = true /\ ts = []) \/ (lines_of tag r <> [] /\ says tag (lines_of tag r) ts)).
End Says.
(** the record is of the year [y] *)
Definition of_year (y : Z) (r : wrec) : bool := eqb (first_line $"PY" r) (dec_Z y).
