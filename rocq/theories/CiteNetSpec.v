(** Specification for C17 - C20: who is listed, what is cited, under which names.  No graph is built here. *)
From Coq Require Import String.
From Verif Require Import Base PyStr Nx SeriesSpec NetSpec CiteNetModel.
Set Implicit Arguments.

Section Authors.
Context {I : Type} `{EqDec I}.
(** the sum of the positions (from [k]) at which [n] is listed *)
Fixpoint positions_from (k : nat) (n : I) (l : list I) : nat :=
  match l with [] => 0 | x :: l' => (if eqb n x then k else 0) + positions_from (S k) n l' end.
End Authors.

(** whole citations as nodes; the texts of citations as nodes are as particular *)
Definition whole (t : ntype) : bool := match t with Full => true | Original | Journal | Author | Year => false end.
Definition particular (t : ntype) : bool := match t with Full | Original => true | Journal | Author | Year => false end.
Definition commas_out (s : str) : str := filter (fun c => negb (c =? 44)%N) s.

Section Spec.
Context {I C R : Type} `{EqDec I}.
Variable api : cite_api C I.
Variable rapi : rec_api R C.
Variable upper : str -> str.
Variable o : opts.

(** the node a citation belongs to, for the kind of nodes asked for *)
Definition name_of (c : C) : option I := match o_type o with Full => Some (cid api c) | t => cattr api t c end.
(** the citation is a record of the collection *)
Definition in_collection (rs : list R) (c : C) : bool := existsb (fun r => eqb (cid api c) (cid api (own rapi r))) rs.
(** the citation passes the filters *)
Definition selected (rs : list R) (c : C) : bool :=
  (whole (o_type o) || match cattr api (o_type o) c with Some i => truthy_id api i | None => true end)
  && (negb (o_journals o) || is_journal api c)
  && (negb (o_anon o) || negb (is_anon api c))
  && (negb (o_core o) || in_collection rs c)
  && forallb (fun k => negb (contains (upper k) (upper (cstr api c)))) (o_words o).
Definition cited (rs : list R) (r : R) : list C := filter (selected rs) (cites rapi r).
(** the names of a list of citations *)
Definition names_of (l : list C) : list I := flat_map (fun c => match name_of c with Some i => [i] | None => [] end) l.
Definition cited_names (rs : list R) (r : R) : list I := names_of (cited rs r).

(** the record takes part in the citation network *)
Definition citing (rs : list R) (r : R) : bool := selected rs (own rapi r) && negb (length (cites rapi r) =? 0).
Definition head_names (r : R) : list I := names_of [own rapi r].
(** the years are so many years apart; None if one of them is unknown *)
Definition years_apart (c c' : C) : val :=
  match cyear api c, cyear api c' with Some (Some a), Some (Some b) => VInt (Z.abs (a - b)) | _, _ => VNone end.

(** the record a citation stands for: the last one with that citation *)
Definition record_of (rs : list R) (c : C) : option R := find (fun r => eqb (cid api c) (cid api (own rapi r))) (rev rs).
(** the information asked for cannot be shown: one of the fields of the record is an empty list *)
Definition no_info (rs : list R) (c : C) : Prop :=
  o_info o = true /\ o_type o = Full /\ o_detailed o = false /\
  exists r t, record_of rs c = Some r /\ In t (o_values o) /\ rget rapi r t = TList [].
(** the citation can be made a node *)
Definition usable (rs : list R) (c : C) : Prop := name_of c <> None /\ ~ no_info rs c.

(** the text under which a field is shown *)
Definition field_text (t : tval) : option str :=
  match t with TStr s => Some (commas_out s) | TList (s :: _) => Some (commas_out s) | _ => None end.
Definition field_texts (r : R) : list str := flat_map (fun t => match field_text (rget rapi r t) with Some s => [s] | None => [] end) (o_values o).
(** the attributes of the node [i] made from the citation [c], other than its count *)
Definition node_shows (rs : list R) (c : C) (i : I) (k : str) : option val :=
  if o_full o && eqb k $"fullCite" then Some (VStr (cstr api c))
  else if negb (o_info o) then None
  else match o_type o with
  | Full =>
    if length (o_values o) =? 0 then (if eqb k $"info" then Some (VStr (all_but_doi api c)) else None)
    else if o_cr o && eqb k $"citations" then
      Some (VStr (match record_of rs c with Some r => join $"|" (map (cstr api) (cites rapi r)) | None => [] end))
    else if eqb k $"inCore" then Some (VBool (in_collection rs c))
    else match record_of rs c with
      | Some r =>
        if o_detailed o then
          (if mem k (o_values o) then Some (detail_val (rget rapi r k)) else if eqb k $"MK-ID" then Some (VStr (rid rapi r)) else None)
        else if eqb k $"info" then Some (VStr (join $", " (field_texts r)))
        else if eqb k $"MK-ID" then Some (VStr (rid rapi r)) else None
      | None =>
        if eqb k $"info" then Some (VStr (all_but_doi api c)) else if eqb k $"MK-ID" then Some (VStr $"None") else None
      end
  | Journal => if eqb k $"info" then Some (VStr (if is_journal api c then full_journal api c else $"None")) else None
  | Original => if eqb k $"info" then Some (VStr (cstr api c)) else None
  | Author | Year => if eqb k $"info" then Some (id_val api i) else None
  end.

(** pairs of the record's own name and the name of something it cites; [forward]: from the record to what it cites *)
Definition arcs (directed forward : bool) (rs : list R) (r : R) (u v : I) : nat :=
  if directed then (if forward then pairs_from_to u v (head_names r) (cited_names rs r) else pairs_from_to v u (head_names r) (cited_names rs r))
  else pairs_between u v (head_names r) (cited_names rs r).
(** a record and a citation of it that are behind the edge from [u] to [v] *)
Definition behind (directed forward : bool) (rs : list R) (u v : I) (r : R) (c : C) : Prop :=
  In r rs /\ citing rs r = true /\ In c (cited rs r) /\
  let from_to x y := name_of (own rapi r) = Some x /\ name_of c = Some y in
  if directed then (if forward then from_to u v else from_to v u) else (from_to u v \/ from_to v u).
(** the works that [u] cites: [u] is the name of a record of the collection *)
Definition cites_work (rs : list R) (u n : I) : bool := existsb (fun r => mem u (head_names r) && mem n (cited_names rs r)) rs.
(** the number of different works cited both by [u] and by [v] *)
Definition shared_works (rs : list R) (u v : I) : nat :=
  length (filter (fun n => cites_work rs u n && cites_work rs v n) (first_seen (flat_map (cited_names rs) rs))).
End Spec.
