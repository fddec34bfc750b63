(** The tables of diffusionCount(pandasFriendly = True), metaknowledge/diffusion.py:276-344: a dict from the names of the
    columns to the columns.  [DiffusionModel.count_table] has the columns for a tag, here they get their names, and the
    table for the type 'raw' is added.
    For 'raw' the keys of the counts are records ([V]): [fields] are the tags a record has ([R.keys()],
    mkRecord.py:115-118), [field] is [R.get(tag)] ([subDict], mkRecord.py:591-613) and [authors] the number of its
    short author names, [None] if [R.get('authorsShort')] is [None].  An [extraValue] is not the empty string. *)
From Coq Require Import String.
From Verif Require Import Base PyStr RecordView NetModel DiffusionModel.
Set Implicit Arguments.

Definition TargetCount := $"TargetCount".
Definition SourceCount := $"SourceCount".
Definition numAuthors_ := $"numAuthors".

Section Tables.
Context {V C E F : Type} `{EqDec V} `{EqDec C} `{EqDec E}.
Variable truthy : V -> bool.
Variable letters : V -> option (list V).
Variable fields : V -> list str.
Variable field : V -> str -> option F.
Variable authors : V -> option nat.

Inductive cell := CKey (k : fval V) | CExtra (x : option E) | CNum (n : nat) | CField (f : option F).
Definition table := dict str (list cell).

(** lines 338-344: the names given to the columns of a tag's table *)
Definition name_columns (sourceType : str) (extra : option str) (compare : bool) (c : columns (V:=V) (E:=E)) : table :=
  match c with
  | (rs, es, ns, ls) =>
    let t := dset TargetCount (map CNum ns) (dset sourceType (map CKey rs) []) in
    let t := if compare then dset SourceCount (map CNum ls) t else t in
    match extra with Some e => dset e (map CExtra es) t | None => t end
  end.
Definition tag_table (allAuthors compare : bool) (sourceType : str) (extra : option str) (tag : option E) (emap : E -> E)
    (src tgt : list (drec V C E)) : res table :=
  let* c := diffusion_table truthy letters allAuthors (match extra with Some _ => true | None => false end) compare tag emap src tgt in
  Ok (name_columns sourceType extra compare c).

(** lines 277-283 *)
Definition first_columns (numAuthors compare : bool) (extra : option str) : table :=
  let t := dset TargetCount [] [] in
  let t := if numAuthors then dset numAuthors_ [] t else t in
  let t := if compare then dset SourceCount [] t else t in
  match extra with Some e => dset e [] t | None => t end.
(** lines 285-289 *)
Definition retrieved (rs : list V) : list str :=
  fold_left (fun acc r => acc ++ filter (fun t => negb (mem t acc)) (fields r)) rs [].
(** [retDict[name].append(c)] *)
Definition append (nc : str * cell) (t : table) : res table :=
  match dget (fst nc) t with Some l => Ok (dset (fst nc) (l ++ [snd nc]) t) | None => Raise KeyError end.
(** lines 294-306, 308-315: one row; [loc] is what is appended to the source counts *)
Definition raw_row (numAuthors : bool) (extra : option str) (tags : list str) (r : V) (x : option E) (n : nat) (loc : option nat) (t : table) : res table :=
  let* na := if numAuthors then match authors r with Some k => Ok [(numAuthors_, CNum k)] | None => Raise TypeError end else Ok [] in
  iter append ((match extra with Some e => [(e, CExtra x)] | None => [] end)
               ++ na ++ map (fun tag => (tag, CField (field r tag))) tags ++ [(TargetCount, CNum n)]
               ++ (match loc with Some m => [(SourceCount, CNum m)] | None => [] end)) t.
(** lines 292-315 for one source; a key that is not a record has no [subDict] *)
Definition raw_rows (numAuthors compare : bool) (extra : option str) (tags : list str) (loc : dict (fval V) (counts (E:=E)))
    (kc : fval V * counts (E:=E)) (t : table) : res table :=
  match fst kc with
  | Many _ => Raise AttributeError
  | One r =>
    match extra with
    | Some _ =>
      iter (fun en t => raw_row numAuthors extra tags r (fst en) (snd en)
              (if compare then Some (match dget (One r) loc with                                   (* 302-306 *)
                                     | Some cs => match dget (fst en) cs with Some m => m | None => 0 end
                                     | None => 0
                                     end)
               else None) t) (snd kc) t
    | None =>
      match dget None (snd kc) with
      | None => Raise KeyError
      | Some n =>
        let* m := if compare then match dget (One r) loc with                                      (* 314-315 *)
                                  | Some cs => match dget None cs with Some m => Ok (Some m) | None => Raise KeyError end
                                  | None => Raise KeyError
                                  end
                  else Ok None in
        raw_row numAuthors extra tags r None n m t
      end
    end
  end.
(** lines 284-315 *)
Definition raw_records (d : dict (fval V) (counts (E:=E))) : list V := flat_map (fun kc => match fst kc with One r => [r] | Many _ => [] end) d.
Definition raw_table (allAuthors numAuthors compare : bool) (extra : option str) (emap : E -> E) (src tgt : list (drec V C E)) : res table :=
  let b := match extra with Some _ => true | None => false end in
  let* d := diffusion_count truthy letters allAuthors true b emap src tgt in
  let* loc := if compare then diffusion_count truthy letters true true b (fun e => e) src src else Ok [] in
  let tags := retrieved (raw_records d) in
  iter (raw_rows numAuthors compare extra tags loc) d
       (fold_left (fun t tag => dset tag [] t) tags (first_columns numAuthors compare extra)).
End Tables.
Arguments cell : clear implicits.
Arguments table : clear implicits.
