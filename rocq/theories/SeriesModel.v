(** metaknowledge/mkCollection.py: rankedSeries, timeSeries, cooccurrenceCounts.
    A collection is the list of its members in iteration order; [R] is the type of members, [V] of the (hashable)
    values.  [lookup r t] is [r[t]].  The csv files written with [outputFile] are in TableFileModel.v. *)
From Coq Require Import String.
From Verif Require Import Base PyStr RecordView.
Set Implicit Arguments.

Section Series.
Context {R V : Type} `{EqDec V}.
Variable lookup : R -> str -> res (fval V).

(** lines 620, 719: [limitTo] is used if it is given and not empty *)
Definition allowed (limit : list V) (v : V) : bool := match limit with [] => true | _ => mem v limit end.

(** rankedSeries, the counting loop, lines 611-625 *)
Fixpoint count_values (tag : str) (limit : list V) (rs : list R) (d : dict V nat) : res (dict V nat) :=
  match rs with
  | [] => Ok d
  | r :: rs' =>
    match lookup r tag with
    | Raise KeyError => count_values tag limit rs' d
    | Raise e => Raise e
    | Ok f => count_values tag limit rs' (fold_left (fun d v => if allowed limit v then dincr v d else d) (entries f) d)
    end
  end.
(** line 626 *)
Definition by_count (greatest : bool) (l : dict V nat) : list (V * nat) :=
  ssort snd (if greatest then (fun a b => b <=? a) else (fun a b => a <=? b)) l.
(** the ranking loop, lines 640-655 *)
Fixpoint rank_loop (rank cur : nat) (l : list (V * nat)) : list (V * nat * nat) :=
  match l with
  | [] => []
  | (v, c) :: l' => if c <? cur then (v, c, rank + 1) :: rank_loop (rank + 1) c l' else (v, c, rank) :: rank_loop rank cur l'
  end.
Definition ranked (l : list (V * nat)) : list (V * nat * nat) :=
  match l with [] => [] | (_, c) :: _ => rank_loop 1 c l end.

Inductive series :=
| SCounts (l : list (V * nat))                                  (* giveCounts *)
| SRanks (l : list (V * nat))                                   (* giveRanks *)
| SPandas (entry : list V) (cnt : list nat) (rank : list nat)    (* pandasMode *)
| SValues (l : list V).

(** rankedSeries, lines 569-663 *)
Definition ranked_series (tag : str) (give_counts give_ranks greatest pandas : bool) (limit : list V) (rs : list R) : res series :=
  if give_ranks && give_counts then Raise MkException                             (* 608 *)
  else
    let* d := count_values tag limit rs [] in
    let sl := by_count greatest d in
    if give_counts && negb pandas then Ok (SCounts sl)                              (* 632 *)
    else if give_ranks || pandas then                                                (* 634 *)
      let sl' := if greatest then sl else rev sl in                                   (* 635 *)
      let rl := ranked sl' in
      if pandas then Ok (SPandas (map (fun x => fst (fst x)) rl) (map (fun x => snd (fst x)) rl) (map snd rl))
      else let ret := map (fun x => (fst (fst x), snd x)) rl in
           Ok (SRanks (if greatest then ret else rev ret))                               (* 656 *)
    else Ok (SValues (map fst sl)).

(** timeSeries with a tag, lines 703-727.  [year_of r] is [r['year']], a number when present. *)
Variable year_of : R -> res Z.
Definition add_year (y : Z) (d : dict V (dict Z nat)) (v : V) : dict V (dict Z nat) :=
  match dget v d with
  | Some yd => dset v (dincr y yd) d
  | None => dset v [(y, 1)] d
  end.
Fixpoint count_years (tag : str) (limit : list V) (rs : list R) (d : dict V (dict Z nat)) : res (dict V (dict Z nat)) :=
  match rs with
  | [] => Ok d
  | r :: rs' =>
    match year_of r with
    | Raise KeyError => count_years tag limit rs' d
    | Raise e => Raise e
    | Ok y =>
      match lookup r tag with
      | Raise KeyError => count_years tag limit rs' d
      | Raise e => Raise e
      | Ok f => count_years tag limit rs' (fold_left (fun d v => if allowed limit v then add_year y d v else d) (entries f) d)
      end
    end
  end.
(** lines 728-731 *)
Definition by_year {E : Type} (greatest : bool) (d : dict E (dict Z nat)) : list (E * Z) :=
  ssort snd (if greatest then (fun a b => (b <=? a)%Z) else (fun a b => (a <=? b)%Z))
        (flat_map (fun ev => map (fun y => (fst ev, y)) (dkeys (snd ev))) d).
Inductive tseries (E : Type) :=
| TPandas (entry : list E) (year : list Z) (cnt : list nat)
| TYears (l : list (E * Z))
| TValues (l : list E).
Arguments TPandas {E} entry year cnt.
Arguments TYears {E} l.
Arguments TValues {E} l.
(** lines 737-747 *)
Definition time_output {E : Type} `{EqDec E} (give_years greatest pandas : bool) (d : dict E (dict Z nat)) : tseries E :=
  let sl := by_year greatest d in
  if pandas then
    TPandas (map fst sl) (map snd sl)
            (map (fun ey => match dget (fst ey) d with
                            | Some yd => match dget (snd ey) yd with Some n => n | None => 0 end
                            | None => 0 end) sl)
  else if give_years then TYears sl
  else TValues (map fst sl).
Definition time_series (tag : str) (give_years greatest pandas : bool) (limit : list V) (rs : list R) : res (tseries V) :=
  let* d := count_years tag limit rs [] in Ok (time_output give_years greatest pandas d).
(** timeSeries without a tag: the members themselves, line 710; [limitTo] is not looked at *)
Fixpoint record_years `{EqDec R} (rs : list R) (d : dict R (dict Z nat)) : res (dict R (dict Z nat)) :=
  match rs with
  | [] => Ok d
  | r :: rs' =>
    match year_of r with
    | Raise KeyError => record_years rs' d
    | Raise e => Raise e
    | Ok y => record_years rs' (dset r [(y, 1)] d)
    end
  end.
Definition time_series_records `{EqDec R} (give_years greatest pandas : bool) (rs : list R) : res (tseries R) :=
  let* d := record_years rs [] in Ok (time_output give_years greatest pandas d).

(** cooccurrenceCounts, lines 749-806.  [R.get(t)] gives None for a missing tag, and None values are skipped too;
    [none] is python's None. *)
Variable none : V.
Definition get_list (r : R) (t : str) : res (option (list V)) :=
  match lookup r t with
  | Raise KeyError => Ok None
  | Raise e => Raise e
  | Ok (One v) => Ok (if eqb v none then None else Some [v])
  | Ok (Many l) => Ok (Some l)
  end.
Definition occ := dict V (dict V nat).
(** lines 801-804.  [occurenceDict[key][val] += 1] fails with KeyError for a missing inner key only: the outer
    ones were all made at 790-792. *)
Definition occ_incr (key v : V) (d : occ) : res occ :=
  match dget key d with
  | Some inner => Ok (dset key (dincr v inner) d)
  | None => Raise KeyError
  end.
Fixpoint occ_keys (keys : list V) (v : V) (d : occ) : res occ :=
  match keys with [] => Ok d | k :: ks => let* d' := occ_incr k v d in occ_keys ks v d' end.
Fixpoint occ_vals (keys vals : list V) (d : occ) : res occ :=
  match vals with [] => Ok d | v :: vs => let* d' := occ_keys keys v d in occ_vals keys vs d' end.
Fixpoint occ_tags (keys : list V) (r : R) (tags : list str) (d : occ) : res occ :=
  match tags with
  | [] => Ok d
  | t :: ts =>
    let* o := get_list r t in
    match o with
    | None => occ_tags keys r ts d
    | Some vals => let* d' := occ_vals keys vals d in occ_tags keys r ts d'
    end
  end.
Definition occ_init (keys : list V) (d : occ) : occ :=
  fold_left (fun (d : occ) k => if dhas k d then d else dset k ([] : dict V nat) d) keys d.               (* 790-792 *)
Fixpoint occ_records (keyTag : str) (tags : list str) (rs : list R) (d : occ) : res occ :=
  match rs with
  | [] => Ok d
  | r :: rs' =>
    let* o := get_list r keyTag in
    match o with
    | None => occ_records keyTag tags rs' d
    | Some keys => let* d' := occ_tags keys r tags (occ_init keys d) in occ_records keyTag tags rs' d'
    end
  end.
Definition cooccurrence_counts (keyTag : str) (tags : list str) (rs : list R) : res occ := occ_records keyTag tags rs [].
End Series.
Arguments TPandas {E} entry year cnt.
Arguments TYears {E} l.
Arguments TValues {E} l.
