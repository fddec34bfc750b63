(** Specification for C39 - C43, C45 and C48: what the analyses of a collection should give. *)
From Coq Require Import List ZArith Lia Bool Permutation.
From Coq Require Import String.
From Verif Require Import Base PyStr PyInt SeriesSpec RecordView CitationModel AnalysisModel.
Import ListNotations.
Local Open Scope list_scope.
Set Implicit Arguments.

(** ** C39 *)
Section Years.
Context {R : Type}.
Variable year : R -> option yearval.
Definition dated_in (a b : Z) (r : R) : Prop := exists y, year r = Some (YNum y) /\ (a <= y <= b)%Z.
Definition dated (r : R) : Prop := exists y, year r = Some (YNum y).
End Years.

(** ** C40, C41 *)
(** the key of a citation under a key type, if it has one *)
Definition part {A} (mk : A -> ckey) (a : attr A) : option ckey := match a with Has x => Some (mk x) | _ => None end.
Inductive key_type := ByCitation | ByJournal | ByYear | ByAuthor.
Definition key_name (t : key_type) : str :=
  match t with ByCitation => $"citation" | ByJournal => $"journal" | ByYear => $"year" | ByAuthor => $"author" end.
Definition key_of (t : key_type) (c : cite) : option ckey :=
  match t with
  | ByCitation => Some (KCite (q_id c))
  | ByJournal => part KText (q_journal c)
  | ByYear => part KYear (q_year c)
  | ByAuthor => part KText (q_author c)
  end.
(** the object has the attribute, be it None *)
Definition has_attr {A} (a : attr A) : Prop := match a with Lacks => False | _ => True end.
Definition key_exists (t : key_type) (c : cite) : Prop :=
  match t with ByCitation => True | ByJournal => has_attr (q_journal c) | ByYear => has_attr (q_year c) | ByAuthor => has_attr (q_author c) end.
Section Cites.
Context {R : Type}.
Variable cites : R -> option (list cite).
Definition refs (r : R) : list cite := match cites r with Some cs => cs | None => [] end.
Definition citations (rs : list R) : list cite := flat_map refs rs.
(** the number of citations with the key *)
Definition key_count (t : key_type) (k : ckey) (rs : list R) : nat :=
  length (filter (fun c => match key_of t c with Some k' => eqb k k' | None => false end) (citations rs)).
Definition keyed (t : key_type) (rs : list R) : nat :=
  length (filter (fun c => match key_of t c with Some _ => true | None => false end) (citations rs)).
(** the record has a citation with the same ID as [c] *)
Definition refers_to (c : cite) (r : R) : Prop := exists d, In d (refs r) /\ q_id d = q_id c.

(** ** C42 *)
Variable upper : str -> str.
Definition inside (k s : str) : Prop := exists a b, s = a ++ k ++ b.
(** the citation matches the key in the field, as documented: without regard to case, but for 'all' with caseSensitive;
    a citation that could not be read, and has no author then, passes for anonymous (which is not documented, see C42_unread_refuted) *)
Inductive answers (k : str) : str -> bool -> cite -> Prop :=
| A_all c : inside (upper k) (upper (q_original c)) -> answers k $"all" false c
| A_all_case c : inside k (q_original c) -> answers k $"all" true c
| A_author b c s : q_author c = Has s -> inside (upper k) (upper s) -> answers k $"author" b c
| A_journal b c s : q_journal c = Has s -> inside (upper k) s -> answers k $"journal" b c
| A_year b c y : q_year c = Has y -> py_int k = Some y -> answers k $"year" b c
| A_V b c s : q_V c = Has s -> inside (upper k) s -> answers k $"V" b c
| A_P b c s : q_P c = Has s -> inside (upper k) s -> answers k $"P" b c
| A_misc b c s : q_misc c = Has s -> inside (upper k) s -> answers k $"misc" b c
| A_anonymous b c : q_author c = Has $"[Anonymous]" -> answers k $"anonymous" b c
| A_unread b c : q_author c = Lacks -> answers k $"anonymous" b c
| A_bad b c : q_bad c = true -> answers k $"bad" b c.
(** the part searched for is None *)
Inductive blank : str -> cite -> Prop :=
| B_journal c : q_journal c = Empty -> blank $"journal" c
| B_V c : q_V c = Empty -> blank $"V" c
| B_P c : q_P c = Empty -> blank $"P" c
| B_misc c : q_misc c = Empty -> blank $"misc" c.
(** a year is searched for with something that is not a number *)
Definition bad_year (k field : str) (rs : list R) : Prop := field = $"year" /\ py_int k = None /\ citations rs <> [].
End Cites.

(** ** C43 *)
Section Rpys.
Context {R : Type}.
Variable cites : R -> option (list cite).
Variable year : R -> option yearval.
(** the citation is to year [y] and at least two years older than the record; of a record without a year all are counted *)
Definition counts_for (y : Z) (r : R) (c : cite) : bool :=
  match q_year c with
  | Has z => Z.eqb z y && match year r with Some (YNum q) => (z + 2 <=? q)%Z | _ => true end
  | _ => false
  end.
Definition cited_count (rs : list R) (y : Z) : nat := total (fun r => length (filter (counts_for y r) (refs cites r))) rs.
(** the middle one of five numbers: it is one of them, three are not greater, three are not smaller *)
Definition median5 (m : Z) (l : list Z) : Prop :=
  length l = 5 /\ In m l /\ 3 <= length (filter (fun x => (x <=? m)%Z) l) /\ 3 <= length (filter (fun x => (m <=? x)%Z) l).
Definition window (rs : list R) (y : Z) : list Z := map (fun i => Z.of_nat (cited_count rs (y + i))) [-2; -1; 0; 1; 2]%Z.
(** [y] was cited (and counted) *)
Definition ever_cited (rs : list R) (y : Z) : Prop := 0 < cited_count rs y.
Definition not_text (rs : list R) : Prop := forall r s, In r rs -> year r <> Some (YText s).
(** years given by the caller bound what is counted, with two more years on each side *)
Definition counted (rs : list R) (lo hi : option Z) (y : Z) : Prop :=
  ever_cited rs y /\ (forall l, lo = Some l -> (l - 2 <= y)%Z) /\ (forall h, hi = Some h -> (y <= h + 2)%Z).
(** the first and the last year of the table *)
Definition first_year (rs : list R) (lo hi : option Z) (a : Z) : Prop :=
  match lo with Some l => a = l | None => (1000 < a)%Z /\ counted rs lo hi a /\ forall y, counted rs lo hi y -> (a <= y)%Z end.
Definition last_year (rs : list R) (lo hi : option Z) (b : Z) : Prop :=
  match hi with Some l => b = l | None => (b < 2100)%Z /\ counted rs lo hi b /\ forall y, counted rs lo hi y -> (y <= b)%Z end.
Definition dropped (dy : drop) (y : Z) : Prop := match dy with DropMany l => In y l | DropOne z => y = z | DropNone => False end.
End Rpys.

(** ** C45 *)
Section Genders.
Context {R : Type}.
Variable full_names : R -> list str.
Variable gender_of : str -> gender.
(** the number of different names of one gender over all records *)
Definition names_of (g : gender) (rs : list R) : nat := total (fun r => length (filter (fun n => eqb (gender_of n) g) (first_seen (full_names r)))) rs.
End Genders.

(** ** C48 *)
Section MakeDict.
Context {R V : Type}.
Variable keys : R -> list str.
Variable get : R -> str -> option V.
Variable authors : R -> nat.
Variable genders : R -> nat * nat * nat.
Variable to_tag to_full : dict str str.
(** a tag is asked for, by its short or its long name; or all tags of the records are *)
Definition chosen (rs : list R) (only : list str) (t : str) : Prop :=
  match only with [] => exists r, In r rs /\ In t (keys r) | _ => exists u, In u only /\ t = match dget u to_tag with Some t' => t' | None => u end end.
(** the name of its column *)
Definition column (rs : list R) (only : list str) (long : bool) (k : str) : Prop :=
  exists t, chosen rs only t /\ if long then dget t to_full = Some k else k = t.
Definition extra_columns (num gend : bool) : list str :=
  (if num then [$"num-Authors"] else []) ++ (if gend then [$"num-Male"; $"num-Female"; $"num-Unknown"] else []).
(** the entry of a record in a column *)
Definition entry (num gend : bool) (k : str) (r : R) : cell V :=
  let '(m, f, u) := genders r in
  if num && eqb k $"num-Authors" then CNum (authors r)
  else if gend && eqb k $"num-Male" then CNum m
  else if gend && eqb k $"num-Female" then CNum f
  else if gend && eqb k $"num-Unknown" then CNum u
  else CVal (get r k).
End MakeDict.
