(** Model of the analyses of a record collection:
    metaknowledge/recordCollection.py (makeDict 698-753, rpys 755-869, genderStats 871-897,
    yearSplit 1362-1397, localCiteStats 1399-1457, localCitesOf 1459-1501, citeFilter 1503-1615),
    metaknowledge/mkRecord.py (subDict 591-613, authGenders 660-695),
    metaknowledge/genders/nameGender.py (nameStringGender) and metaknowledge/mkCollection.py (getID 469-487). *)
From Coq Require Import List ZArith Lia Bool Arith.
From Coq Require Import String.
From Verif Require Import Base PyStr PyInt SeriesSpec RecordView CitationModel.
Import ListNotations.
Local Open Scope list_scope.

(** ** What is read of a citation *)
(** An attribute of an object: it does not exist, it is None, or it has a value.
    A Scopus citation that does not match the expression of citation.py:63 has none of the parts
    (citation.py:98-104), a WOS one has all, some of them None. *)
Inductive attr (A : Type) := Lacks | Empty | Has (a : A).
Arguments Lacks {A}. Arguments Empty {A}. Arguments Has {A} a.
Record cite := {
  q_original : str; q_id : str; q_author : attr str; q_journal : attr str; q_year : attr Z;
  q_V : attr str; q_P : attr str; q_misc : attr str; q_bad : bool }.
Definition attr_opt {A} (o : option A) : attr A := match o with Some a => Has a | None => Empty end.
(** the citation made by citation.py:105-152 *)
Definition of_wos (c : citation) : cite :=
  {| q_original := c_original c; q_id := c_id c; q_author := attr_opt (c_author c); q_journal := attr_opt (c_journal c);
     q_year := attr_opt (c_year c); q_V := attr_opt (c_V c); q_P := attr_opt (c_P c); q_misc := attr_opt (c_misc c); q_bad := c_bad c |}.
Definition attr_of (k : str) (a : attributes) : attr str := match dget k a with Some o => attr_opt o | None => Lacks end.
(** the citation made by citation.py:74-104 *)
Definition of_scopus (original : str) (s : scitation) : cite :=
  let a := s_attributes s in
  {| q_original := original; q_id := s_id s; q_author := attr_of $"author" a; q_journal := attr_of $"journal" a;
     q_year := match a with [] => Lacks | _ => attr_opt (s_year s) end;
     q_V := attr_of $"V" a; q_P := attr_of $"P" a; q_misc := attr_of $"misc" a; q_bad := s_bad s |}.
(** citation.py:174-183: equality compares the hashes of the IDs; hashes of different IDs are taken to differ *)
Definition same_cite (c d : cite) : bool := eqb (q_id c) (q_id d).
(** citation.py:193-206; without the attribute the AttributeError makes it True *)
Definition anonymous (c : cite) : bool := match q_author c with Has a => eqb a $"[Anonymous]" | Empty => false | Lacks => true end.

(** the value of the field year: a number, or a text where the file has no number *)
Inductive yearval := YNum (z : Z) | YText (s : str).

(** ** Years *)
Section Years.
Context {R : Type}.
Variable year : R -> option yearval.
(** recordCollection.py:1385-1395; the set of records is the list in the order of the additions *)
Fixpoint year_split (rs : list R) (a b : Z) (drop_missing : bool) : res (list R) :=
  match rs with
  | [] => Ok []
  | r :: rs' =>
    match year r with
    | Some (YNum y) =>
      let* rest := year_split rs' a b drop_missing in
      Ok (if (a <=? y)%Z && (y <=? b)%Z then r :: rest else rest)
    | _ => if drop_missing then year_split rs' a b drop_missing else Raise TypeError
    end
  end.
End Years.

(** ** Citations of the records *)
(** what localCiteStats counts *)
Inductive ckey := KCite (id : str) | KText (s : str) | KYear (z : Z).
Global Instance dec_ckey : EqDec ckey.
Proof. intros [a|a|a] [b|b|b]; try (right; discriminate); destruct (eq_dec a b) as [->|H]; try (left; reflexivity); right; congruence. Defined.

(** the argument of localCitesOf *)
Inductive cited (R : Type) := CRecord (r : R) | CString (s : str) | CCitation (c : cite) | COther.
Arguments CRecord {R} r. Arguments CString {R} s. Arguments CCitation {R} c. Arguments COther {R}.

Section Cites.
Context {R : Type} `{EqDec R}.
(** R.get('citations'), R.id, R.createCitation() *)
Variable cites : R -> option (list cite).
Variable rid : R -> str.
Variable as_cite : R -> cite.
(** str.upper *)
Variable upper : str -> str.

(** the loop of recordCollection.py:1437-1445 over one record's citations *)
Fixpoint stats_loop (key : cite -> res (option ckey)) (cs : list cite) (d : dict ckey nat) : res (dict ckey nat) :=
  match cs with
  | [] => Ok d
  | c :: cs' =>
    let* k := key c in
    stats_loop key cs' (match k with None => d | Some k => match dget k d with Some n => dset k (S n) d | None => dset k 1 d end end)
  end.
Fixpoint stats_records (key : cite -> res (option ckey)) (rs : list R) (d : dict ckey nat) : res (dict ckey nat) :=
  match rs with
  | [] => Ok d
  | r :: rs' => let* d' := stats_loop key (match cites r with Some cs => cs | None => [] end) d in stats_records key rs' d'
  end.
(** getattr(c, keyType) *)
Definition read_attr {A} (mk : A -> ckey) (a : attr A) : res (option ckey) :=
  match a with Lacks => Raise AttributeError | Empty => Ok None | Has x => Ok (Some (mk x)) end.
(** recordCollection.py:1425-1457 *)
Definition local_cite_stats (rs : list R) (key_type : str) : res (dict ckey nat) :=
  if eqb key_type $"citation" then stats_records (fun c => Ok (Some (KCite (q_id c)))) rs []
  else if eqb key_type $"journal" then stats_records (fun c => read_attr KText (q_journal c)) rs []
  else if eqb key_type $"year" then stats_records (fun c => read_attr KYear (q_year c)) rs []
  else if eqb key_type $"author" then stats_records (fun c => read_attr KText (q_author c)) rs []
  else Raise TypeError.
(** recordCollection.py:1448-1455: the lists Citations and Counts *)
Definition local_cite_lists (d : dict ckey nat) : list ckey * list nat :=
  fold_left (fun '(ks, ns) '(k, n) => (ks ++ [k], ns ++ [n])) d ([], []).

(** mkCollection.py:469-487 *)
Fixpoint get_id (rs : list R) (i : str) : option R :=
  match rs with [] => None | r :: rs' => if eqb i (rid r) then Some r else get_id rs' i end.
(** recordCollection.py:1492-1499 *)
Fixpoint citing (rs : list R) (c : cite) : list R :=
  match rs with
  | [] => []
  | r :: rs' =>
    let rest := citing rs' c in
    match cites r with Some cs => if existsb (same_cite c) cs then r :: rest else rest | None => rest end
  end.
(** recordCollection.py:1474-1501. The first test, for a Record, sets recCite, but the next one is not an elif,
    so that a Record reaches the last else *)
Definition local_cites_of (rs : list R) (x : cited R) : res (list R) :=
  match x with
  | CString s => match get_id rs s with None => Ok [] | Some r => Ok (citing rs (as_cite r)) end
  | CCitation c => Ok (citing rs c)
  | CRecord _ | COther => Raise ValueError
  end.

(** the four places of citeFilter with keyString.upper() in cite.X: a missing attribute is passed over,
    None in the place of a string raises TypeError, which leaves the loop (recordCollection.py:1558, 1574, 1582, 1590) *)
Inductive hit := Yes | No | Stop.
Definition in_attr (k : str) (a : attr str) : hit := match a with Lacks => No | Empty => Stop | Has s => if contains k s then Yes else No end.
Definition in_author (k : str) (a : attr str) : hit := match a with Has s => if contains k (upper s) then Yes else No | _ => No end.
Definition yes_no (b : bool) : hit := if b then Yes else No.
(** one loop over the citations of a record: true when the record is appended *)
Fixpoint some_hit (test : cite -> hit) (cs : list cite) : bool :=
  match cs with [] => false | c :: cs' => match test c with Yes => true | No => some_hit test cs' | Stop => false end end.
(** recordCollection.py:1534-1606, a record; R.get('citations') is None for a record without citations: TypeError, passed over *)
Definition cite_match (k field : str) (case_sensitive : bool) (r : R) : res bool :=
  match cites r with
  | None => Ok false
  | Some cs =>
    if eqb field $"all" then Ok (some_hit (fun c => yes_no (if case_sensitive then contains k (q_original c) else contains (upper k) (upper (q_original c)))) cs)
    else if eqb field $"author" then Ok (some_hit (fun c => in_author (upper k) (q_author c)) cs)
    else if eqb field $"journal" then Ok (some_hit (fun c => in_attr (upper k) (q_journal c)) cs)
    else if eqb field $"year" then
      match cs, py_int k with
      | [], _ => Ok false
      | _, None => Raise ValueError
      | _, Some y => Ok (some_hit (fun c => match q_year c with Has z => yes_no (Z.eqb y z) | _ => No end) cs)
      end
    else if eqb field $"V" then Ok (some_hit (fun c => in_attr (upper k) (q_V c)) cs)
    else if eqb field $"P" then Ok (some_hit (fun c => in_attr (upper k) (q_P c)) cs)
    else if eqb field $"misc" then Ok (some_hit (fun c => in_attr (upper k) (q_misc c)) cs)
    else if eqb field $"anonymous" then Ok (some_hit (fun c => yes_no (anonymous c)) cs)
    else if eqb field $"bad" then Ok (some_hit (fun c => yes_no (q_bad c)) cs)
    else Ok false
  end.
Fixpoint matching (k field : str) (case_sensitive : bool) (rs : list R) : res (list R) :=
  match rs with
  | [] => Ok []
  | r :: rs' =>
    let* m := cite_match k field case_sensitive r in
    let* rest := matching k field case_sensitive rs' in
    Ok (if m then r :: rest else rest)
  end.
(** recordCollection.py:1532-1615 *)
Definition cite_filter (rs : list R) (k field : str) (reverse case_sensitive : bool) : res (list R) :=
  let* found := matching k field case_sensitive rs in
  Ok (if reverse then filter (fun r => negb (mem r found)) rs else found).
End Cites.

(** ** Referenced publication years *)
(** the argument dropYears: a number or a collection of numbers *)
Inductive drop := DropNone | DropOne (y : Z) | DropMany (l : list Z).
(** range(a, b) *)
Definition zrange (a b : Z) : list Z := map (fun i => (a + Z.of_nat i)%Z) (seq 0 (Z.to_nat (b - a))).
Section Rpys.
Context {R : Type}.
Variable cites : R -> option (list cite).
Variable year : R -> option yearval.
(** the order in which a python set of years is iterated *)
Variable order : list Z -> list Z.
(** recordCollection.py:821-838, one citation; [ry] is the year of the record, None for infinity *)
Definition rpys_cite (lo hi : option Z) (ry : option yearval) (d : dict Z nat) (c : cite) : res (dict Z nat) :=
  match q_year c with
  | Has y =>
    if match hi with Some h => (h + 2 <? y)%Z | None => false end || match lo with Some l => (y <? l - 2)%Z | None => false end then Ok d
    else match ry with
         | Some (YText _) => Raise TypeError
         | Some (YNum r) => if (r <? y + 2)%Z then Ok d else Ok (dincr y d)
         | None => Ok (dincr y d)
         end
  | _ => Ok d
  end.
Fixpoint rpys_cites (lo hi : option Z) (ry : option yearval) (cs : list cite) (d : dict Z nat) : res (dict Z nat) :=
  match cs with [] => Ok d | c :: cs' => let* d' := rpys_cite lo hi ry d c in rpys_cites lo hi ry cs' d' end.
Fixpoint rpys_counts (lo hi : option Z) (rs : list R) (d : dict Z nat) : res (dict Z nat) :=
  match rs with
  | [] => Ok d
  | r :: rs' => let* d' := match cites r with None => Ok d | Some cs => rpys_cites lo hi (year r) cs d end in rpys_counts lo hi rs' d'
  end.
(** recordCollection.py:796-805 *)
Definition count_at (d : dict Z nat) (y : Z) : Z := match dget y d with Some n => Z.of_nat n | None => 0%Z end.
Definition zsort : list Z -> list Z := ssort (fun x => x) Z.leb.
Definition deviation (d : dict Z nat) (y : Z) : Z :=
  (count_at d y - nth 2 (zsort (count_at d y :: map (fun dy => count_at d (y + dy)) [-2; -1; 1; 2]%Z)) 0)%Z.
Fixpoint zmin (x : Z) (l : list Z) : Z := match l with [] => x | y :: l' => zmin (Z.min x y) l' end.
Fixpoint zmax (x : Z) (l : list Z) : Z := match l with [] => x | y :: l' => zmax (Z.max x y) l' end.
(** recordCollection.py:840-847: a bound that is still None makes range raise TypeError *)
Definition lower_bound (lo : option Z) (ys : list Z) : res Z :=
  match lo with
  | Some l => Ok l
  | None => match ys with [] => Raise ValueError | y :: ys' => let m := zmin y ys' in if (1000 <? m)%Z then Ok m else Raise TypeError end
  end.
Definition upper_bound (hi : option Z) (ys : list Z) : res Z :=
  match hi with
  | Some l => Ok l
  | None => match ys with [] => Raise ValueError | y :: ys' => let m := zmax y ys' in if (m <? 2100)%Z then Ok m else Raise TypeError end
  end.
(** recordCollection.py:849: i in dropYears raises TypeError for a number *)
Definition targets (dy : drop) (ys : list Z) : res (list Z) :=
  match dy, ys with
  | DropNone, _ => Ok ys
  | DropMany l, _ => Ok (filter (fun y => negb (mem y l)) ys)
  | DropOne _, [] => Ok []
  | DropOne _, _ => Raise TypeError
  end.
Fixpoint enumerate_ranks (l : list (Z * Z)) (i : nat) (d : dict Z nat) : dict Z nat :=
  match l with [] => d | (y, _) :: l' => enumerate_ranks l' (S i) (dset y i d) end.
Record row := { w_year : Z; w_count : Z; w_deviation : Z; w_rank : nat }.
(** recordCollection.py:807-869; the four columns are given as rows, each column is a field of them in order *)
Definition rpys (rs : list R) (lo hi : option Z) (dy : drop) (rank_empty : bool) : res (list row) :=
  let* d := rpys_counts lo hi rs [] in
  let* a := lower_bound lo (dkeys d) in
  let* b := upper_bound hi (dkeys d) in
  let* ys := targets dy (zrange a (b + 1)) in
  let ty := order ys in
  let devs := map (fun y => (y, deviation d y)) ty in
  let ranks := enumerate_ranks (ssort snd Z.leb devs) 1 [] in
  Ok (map (fun y => {| w_year := y; w_count := count_at d y; w_deviation := deviation d y;
                       w_rank := if Z.eqb (count_at d y) 0 && negb rank_empty then 0 else match dget y ranks with Some r => r | None => 0 end |}) ty).
End Rpys.

(** ** Genders *)
Inductive gender := Male | Female | Unknown | OtherGender.
Global Instance dec_gender : EqDec gender.
Proof. intros x y. decide equality. Defined.
Section Genders.
(** str.title; the mapping read from the name file (nameGender.py) *)
Variable title : str -> str.
Variable mapping : dict str gender.
(** s.split(sep) for a separator of two characters *)
Fixpoint cut2 (a b : char) (s : str) : list str :=
  match s with
  | [] => [[]]
  | x :: s' =>
    match s' with
    | y :: s'' => if eqb x a && eqb y b then [] :: cut2 a b s'' else match cut2 a b s' with w :: ws => (x :: w) :: ws | [] => [[x]] end
    | [] => [[x]]
    end
  end.
(** nameGender.py, nameStringGender(s, noExcept = True) *)
Definition name_gender (s : str) : gender :=
  match cut2 44%N sp s with
  | _ :: given :: _ => match dget (title (match split_char sp given with w :: _ => w | [] => [] end)) mapping with Some g => g | None => Unknown end
  | _ => Unknown
  end.
Context {R : Type}.
(** R.get('authorsFull', []) *)
Variable full_names : R -> list str.
(** mkRecord.py:677-681: the dictionary from names to genders *)
Definition record_genders (r : R) : dict str gender := fold_left (fun d n => dset n (name_gender n) d) (full_names r) [].
(** mkRecord.py:682-686, _countsTuple *)
Definition tally (g : gender) (d : dict str gender) : nat := count_occ eq_dec (dvals d) g.
Definition gender_counts (r : R) : nat * nat * nat :=
  let d := record_genders r in (tally Male d, tally Female d, tally Unknown d).
(** recordCollection.py:885-892 *)
Definition gender_stats (rs : list R) : nat * nat * nat :=
  fold_left (fun '(m, f, u) r => let '(m', f', u') := gender_counts r in (m + m', f + f', u + u')) rs (0, 0, 0).
(** recordCollection.py:893-896: numerators and the common denominator; the floats of python are not modelled *)
Definition gender_fractions (rs : list R) : res ((nat * nat * nat) * nat) :=
  let '(m, f, u) := gender_stats rs in
  match m + f + u with 0 => Raise ZeroDivisionError | tot => Ok ((m, f, u), tot) end.
End Genders.

(** ** makeDict *)
Inductive cell (V : Type) := CVal (v : option V) | CNum (n : nat).
Arguments CVal {V} v. Arguments CNum {V} n.
Section MakeDict.
Context {R V : Type}.
(** the tags a record has, and R.get(tag, raw = raw) *)
Variable keys : R -> list str.
Variable get : R -> str -> option V.
(** len(R.get('authorsShort', [])) and R.authGenders(_countsTuple = True) *)
Variable authors : R -> nat.
Variable genders : R -> nat * nat * nat.
Variable to_tag to_full : dict str str.
(** recordCollection.py:719-722, also the list of the caller after the call *)
Definition normal_tags (l : list str) : list str := map (fun t => match dget t to_tag with Some t' => t' | None => t end) l.
(** recordCollection.py:724-727 *)
Definition all_tags (rs : list R) : list str := fold_left (fun f r => f ++ filter (fun t => negb (mem t f)) (keys r)) rs [].
Fixpoint long_names (l : list str) : res (list str) :=
  match l with
  | [] => Ok []
  | t :: l' => match dget t to_full with None => Raise KeyError | Some n => let* r := long_names l' in Ok (n :: r) end
  end.
(** mkRecord.py:591-613 *)
Definition sub_dict (r : R) (tags : list str) : dict str (option V) := fold_left (fun d t => dset t (get r t) d) tags [].
Definition table := dict str (list (cell V)).
(** retDict[k].append(v) *)
Definition push (k : str) (c : cell V) (t : table) : res table :=
  match dget k t with Some l => Ok (dset k (l ++ [c]) t) | None => Raise KeyError end.
Fixpoint push_all (l : list (str * cell V)) (t : table) : res table :=
  match l with [] => Ok t | (k, c) :: l' => let* t' := push k c t in push_all l' t' end.
Definition record_cells (fields : list str) (num gend : bool) (r : R) : list (str * cell V) :=
  (if num then [($"num-Authors", CNum (authors r))] else [])
  ++ (if gend then let '(m, f, u) := genders r in [($"num-Male", CNum m); ($"num-Female", CNum f); ($"num-Unknown", CNum u)] else [])
  ++ map (fun '(k, v) => (k, CVal v)) (sub_dict r fields).
Fixpoint push_records (fields : list str) (num gend : bool) (rs : list R) (t : table) : res table :=
  match rs with [] => Ok t | r :: rs' => let* t' := push_all (record_cells fields num gend r) t in push_records fields num gend rs' t' end.
(** recordCollection.py:719-753; an empty list of tags is taken for none given *)
Definition make_dict (rs : list R) (only : list str) (long num gend : bool) : res table :=
  let fields := match only with [] => all_tags rs | _ => normal_tags only end in
  let* fields := if long then long_names fields else Ok fields in
  let t := fold_left (fun t k => dset k [] t) fields [] in
  let t := if num then dset $"num-Authors" [] t else t in
  let t := if gend then fold_left (fun t k => dset k [] t) [$"num-Male"; $"num-Female"; $"num-Unknown"] t else t in
  push_records fields num gend rs t.
End MakeDict.
