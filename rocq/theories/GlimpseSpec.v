(** Specification for C49: what the tables of a glimpse show. *)
From Coq Require Import List ZArith Lia Bool Arith.
From Coq Require Import String.
From Verif Require Import Base PyStr RecordView SeriesSpec TextSpec.
Import ListNotations.
Local Open Scope list_scope.

(** the number of lines left for entries in a terminal of this size *)
Definition table_height (cols rows : Z) : Z := (if (cols <? 76)%Z then rows - 7 else rows - 6)%Z.
(** the title in the middle of the hyphens that fill the column *)
Definition centred (w : Z) (title h : str) : Prop :=
  wide w h /\ exists a b, h = repeat 45%N a ++ title ++ repeat 45%N b /\ (b = a \/ b = S a).
(** the rank at the left, in at least two places; at the right the value, or as much of it as fits and a point *)
Definition cell (w : Z) (v : str) (rank : Z) (c : str) : Prop :=
  wide w c /\ exists gap, 2 <= length (dec_Z rank) + gap /\
   (c = dec_Z rank ++ repeat 32%N gap ++ v
    \/ (w < 2 + Z.of_nat (length v))%Z /\ length (dec_Z rank) + gap = 2 /\
       exists cut rest, v = cut ++ rest /\ rest <> [] /\ c = dec_Z rank ++ repeat 32%N gap ++ cut ++ $".").
(** the entry of a column in a line, NA if it has none left *)
Definition entry_at (i : nat) (entries : list (str * Z)) : str * Z := nth i entries ($"NA", (-1)%Z).
(** the widths of the columns: they fill the terminal and differ by one at most *)
Definition even_widths (width : Z) (ws : list Z) : Prop :=
  fold_right Z.add (Z.of_nat (length ws) + 1)%Z ws = width /\ forall x y, In x ws -> In y ws -> (x <= y + 1)%Z.
(** the table under the header: one line with the titles and [height] lines with cells *)
Definition table_shows (values : list (str * list (str * Z))) (width : Z) (height : nat) (ls : list str) : Prop :=
  exists ws, length ws = length values /\ even_widths width ws /\ length ls = S height /\
   (exists heads, nth 0 ls [] = $"|" ++ join $"+" heads ++ $"|" /\ Forall2 (fun x h => centred (fst x) (fst (snd x)) h) (combine ws values) heads) /\
   forall i, i < height -> exists cells, nth (S i) ls [] = $"|" ++ join $"|" cells ++ $"|" /\
     Forall2 (fun x c => cell (fst x) (fst (entry_at i (snd (snd x)))) (snd (entry_at i (snd (snd x)))) c) (combine ws values) cells.
(** the lines above the table *)
Definition filled (s l : str) : Prop := exists n, l = s ++ repeat 43%N n.
Definition boxed (s l : str) : Prop := exists n, l = $"|" ++ s ++ repeat 43%N n ++ $"|".
Definition header_shows (first second : str) (width : Z) (ls : list str) : Prop :=
  exists a b ds, ls = a :: b :: ds /\ filled ($"+" ++ first) a /\ boxed second b /\
   if (width <? 78)%Z then Forall2 boxed [$"Columns are ranked by num. of occurrences"; $"and are independent of one another"] ds
   else Forall2 boxed [$"Columns are ranked by num. of occurrences and are independent of one another"] ds.
(** a line of the plain table: the rank and the value, cut at the edge of the terminal *)
Definition plain_line (width : Z) (e : str * Z) (l : str) : Prop :=
  exists cut rest, fst e = cut ++ rest /\ l = dec_Z (snd e) ++ $" " ++ cut /\ (rest = [] \/ wide width l).
Inductive plain_table (width : Z) (take : list (str * Z) -> list (str * Z)) : list (str * list (str * Z)) -> list str -> Prop :=
| plain_none : plain_table width take [] []
| plain_some : forall title entries vs ls more, Forall2 (plain_line width) (take entries) ls -> plain_table width take vs more ->
    plain_table width take ((title, entries) :: vs) ([] :: title :: ls ++ more).

(** the values of the records under a tag from the most frequent one, with dense ranks *)
Definition ranking {R V : Type} `{EqDec V} (lookup : R -> str -> res (fval V)) (tag : str) (rs : list R) (l : list (V * nat)) : Prop :=
  NoDup (map fst l) /\
  (forall v k, In (v, k) l <-> 0 < occurrences lookup tag rs v /\ k = dense_rank (map (occurrences lookup tag rs) (map fst l)) (occurrences lookup tag rs v)) /\
  (forall x y, before l x y -> occurrences lookup tag rs (fst y) <= occurrences lookup tag rs (fst x)).
(** the columns asked for: each tag once under its own name, or the usual three *)
Definition asked (tags : list str) : list (str * str) :=
  match tags with
  | [] => [($"Top Authors", $"authorsFull"); ($"Top Journals", $"journal"); ($"Top Cited", $"citations")]
  | _ => map (fun t => (t, t)) (first_seen tags)
  end.
