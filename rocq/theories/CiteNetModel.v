(** metaknowledge/recordCollection.py: networkCoAuthor, networkCoCitation, networkCitation, networkBibCoupling and the
    helpers addToNetwork, makeID, makeNodeTuple, filterCites.
    A collection is the list of its records in iteration order.  Records [R] and citations [C] are seen through the
    functions below; two citations are equal when their [ID()] are (citation.py 176-190; equality compares the hashes of
    the ids, a hash collision is not modelled).  [I] is the type of the node names.
    Not modelled: progress bars, [expandedCore], [citeProfile], a falsy [nodeType] argument check. *)
From Coq Require Import String.
From Verif Require Import Base PyStr Nx RecordView NetModel.
Set Implicit Arguments.

Inductive ntype := Full | Original | Author | Journal | Year.
Definition is_full (t : ntype) : bool := match t with Full => true | _ => false end.
Definition is_exact (t : ntype) : bool := match t with Full | Original => true | _ => false end.
(** what [R.get(tag)] gives: a string, a list of strings or something else ([None] if missing) *)
Inductive tval := TStr (s : str) | TList (l : list str) | TVal (v : val).
Definition no_commas (s : str) : str := filter (fun c => negb (eqb c (44%N : char))) s.
(** the order of python strings *)
Fixpoint str_le (a b : str) : bool :=
  match a, b with
  | [], _ => true
  | _, [] => false
  | x :: a', y :: b' => if eqb x y then str_le a' b' else N.ltb x y
  end.
Definition year_diff := $"yearDiff".

Section Authors.
Context {I R : Type} `{EqDec I}.
(** lines 1035-1042: see an author; [a] is [attributeMaker(R)] *)
Definition see_author (cnt : bool) (a : attrs) (n : I) (g : graph I) : res (graph I) :=
  if negb (has_node g n) then Ok (add_node n a g)
  else if cnt then node_incr n cnt_ (VInt 1) g
  else Ok g.
(** lines 1051-1056, and 1337-1342 in networkBibCoupling *)
Definition join_two (weighted : bool) (u v : I) (g : graph I) : res (graph I) :=
  if has_edge g u v && weighted then edge_incr u v weight (VInt 1) g
  else if weighted then Ok (add_edge u v [(weight, VInt 1)] g)
  else Ok (add_edge u v [] g).
(** lines 1027-1056 *)
Fixpoint author_list (cnt weighted : bool) (a : attrs) (l : list I) (g : graph I) : res (graph I) :=
  match l with
  | [] => Ok g
  | n1 :: rest =>
    let* g1 := see_author cnt a n1 g in
    let* g2 := iter (fun n2 g => let* g' := see_author cnt a n2 g in join_two weighted n1 n2 g') rest g1 in
    author_list cnt weighted a rest g2
  end.
(** lines 983-1009: [details r] are the attributes asked for with [detailedInfo] (none by default) *)
Definition author_attrs (cnt : bool) (details : R -> attrs) (r : R) : attrs :=
  if cnt then dset cnt_ (VInt 1) (details r) else details r.
(** [authors r] is [R.get('authorsFull', [])] or the short ones, [journal r] is [R.createCitation().isJournal()] *)
Definition co_author (authors : R -> list I) (journal : R -> bool) (details : R -> attrs)
           (weighted dropNonJournals cnt : bool) (rs : list R) : res (graph I) :=
  iter (fun r g => if dropNonJournals && negb (journal r) then Ok g
                   else author_list cnt weighted (author_attrs cnt details r) (authors r) g)
       rs (empty_graph false).
End Authors.

(** what is read of a citation *)
Record cite_api (C I : Type) := {
  cid : C -> I;                          (* ID() *)
  cattr : ntype -> C -> option I;        (* getattr(c, nodeType), None if there is no such attribute *)
  truthy_id : I -> bool;                 (* bool(id) *)
  id_val : I -> val;                     (* the id as an attribute value *)
  cyear : C -> option (option Z);        (* the attribute year: missing, None or a number *)
  is_journal : C -> bool;
  full_journal : C -> str;               (* str(FullJournalName()) *)
  is_anon : C -> bool;
  cstr : C -> str;                       (* str(c) *)
  all_but_doi : C -> str
}.
(** what is read of a record *)
Record rec_api (R C : Type) := {
  own : R -> C;                          (* createCitation() *)
  cites : R -> list C;                   (* get('citations'), [] if missing *)
  rid : R -> str;
  rget : R -> str -> tval
}.
(** the options of the network methods *)
Record opts := {
  o_type : ntype;
  o_anon : bool;                         (* dropAnon *)
  o_journals : bool;                     (* dropNonJournals *)
  o_words : list str;                    (* keyWords; a single string is a list of one, none and the empty string are [] *)
  o_core : bool;                         (* coreOnly *)
  o_info : bool;                         (* nodeInfo *)
  o_full : bool;                         (* fullInfo *)
  o_values : list str;                   (* the tags of detailedCore; [] if it is false *)
  o_detailed : bool;                     (* detailedCoreAttributes *)
  o_cr : bool;                           (* addCR *)
  o_count : bool;
  o_weighted : bool
}.

Section Cites.
Context {I C R : Type} `{EqDec I}.
Variable api : cite_api C I.
Variable rapi : rec_api R C.
Variable upper : str -> str.
Variable o : opts.

(** makeID, lines 1700-1705 *)
Definition make_id (c : C) : res I :=
  match o_type o with
  | Full => Ok (cid api c)
  | t => match cattr api t c with Some i => Ok i | None => Raise AttributeError end
  end.

(** coreCitesDict, lines 1159, 1271 *)
Definition core_dict (rs : list R) : dict I R :=
  fold_left (fun d r => dset (cid api (own rapi r)) r d) rs [].

(** filterCites, lines 1764-1789; [core] is coreCitesDict *)
Definition keep (core : dict I R) (c : C) : bool :=
  if negb (is_full (o_type o)) && (match cattr api (o_type o) c with Some i => negb (truthy_id api i) | None => false end) then false
  else if o_journals o && negb (is_journal api c) then false
  else if o_anon o && is_anon api c then false
  else if o_core o && negb (dhas (cid api c) core) then false
  else match o_words o with
       | [] => true
       | ws => negb (existsb (fun k => contains (upper k) (upper (cstr api c))) ws)
       end.
Definition filter_cites (core : dict I R) (l : list C) : list C := filter (keep core) l.

(** lines 1718-1728 *)
Fixpoint info_vals (r : R) (tags : list str) : res (list str) :=
  match tags with
  | [] => Ok []
  | t :: ts =>
    match rget rapi r t with
    | TStr s => let* l := info_vals r ts in Ok (no_commas s :: l)
    | TList [] => Raise IndexError
    | TList (s :: _) => let* l := info_vals r ts in Ok (no_commas s :: l)
    | TVal _ => info_vals r ts
    end
  end.
(** lines 1729-1735 *)
Definition detail_val (t : tval) : val :=
  match t with TStr s => VStr s | TList l => VStr (join $"|" (ssort (fun x => x) str_le l)) | TVal v => v end.
(** makeNodeTuple, lines 1709-1761 without the count *)
Definition node_info (core : dict I R) (c : C) (i : I) : res attrs :=
  let* d :=
    if o_info o then
      match o_type o with
      | Full =>
        match o_values o with
        | [] => Ok [($"info", VStr (all_but_doi api c))]
        | tags =>
          match dget (cid api c) core with
          | Some r =>
            let d := [($"MK-ID", VStr (rid rapi r))] in
            let* d := if negb (o_detailed o) then let* l := info_vals r tags in Ok (dset $"info" (VStr (join $", " l)) d)
                      else Ok (fold_left (fun d t => dset t (detail_val (rget rapi r t)) d) tags d) in
            let d := dset $"inCore" (VBool true) d in
            Ok (if o_cr o then dset $"citations" (VStr (join $"|" (map (cstr api) (cites rapi r)))) d else d)
          | None =>
            let d := [($"MK-ID", VStr $"None"); ($"info", VStr (all_but_doi api c)); ($"inCore", VBool false)] in
            Ok (if o_cr o then d ++ [($"citations", VStr [])] else d)
          end
        end
      | Journal => Ok [($"info", VStr (if is_journal api c then full_journal api c else $"None"))]
      | Original => Ok [($"info", VStr (cstr api c))]
      | _ => Ok [($"info", id_val api i)]
      end
    else Ok [] in
  Ok (if o_full o then dset $"fullCite" (VStr (cstr api c)) d else d).
Definition node_dat (core : dict I R) (c : C) (i : I) : res attrs :=
  let* d := node_info core c i in Ok (if o_count o then dset cnt_ (VInt 1) d else d).

(** lines 1627-1629 *)
Definition see_head (core : dict I R) (c : C) (i : I) (g : graph I) : res (graph I) :=
  if has_node g i then Ok g else let* d := node_dat core c i in Ok (add_node i d g).
(** lines 1634-1649 *)
Definition see_cite (core : dict I R) (c : C) (i : I) (g : graph I) : res (graph I) :=
  if negb (has_node g i) then let* d := node_dat core c i in Ok (add_node i d g)
  else if o_count o then node_incr i cnt_ (VInt 1) g
  else Ok g.
(** the loop, lines 1634-1650: idList, with the citations for their years *)
Fixpoint see_all (core : dict I R) (l : list C) (g : graph I) : res (list (I * C) * graph I) :=
  match l with
  | [] => Ok ([], g)
  | c :: l' =>
    let* i := make_id c in
    let* g1 := see_cite core c i g in
    let* (ids, g2) := see_all core l' g1 in
    Ok ((i, c) :: ids, g2)
  end.
(** [grph[u][v]['weight'] += 1], or [grph.add_edge(x, y, weight = 1, ...)] *)
Definition weigh (u v x y : I) (extra : attrs) (g : graph I) : res (graph I) :=
  match edge_incr u v weight (VInt 1) g with
  | Raise KeyError => Ok (add_edge x y ((weight, VInt 1) :: extra) g)
  | r => r
  end.
(** lines 1657-1660 *)
Definition diff (hy : option Z) (c : C) : val :=
  match hy, cyear api c with Some a, Some (Some b) => VInt (Z.abs (a - b)) | _, _ => VNone end.
(** lines 1654-1688: the edges of a record with its own citation; the second result is addedEdges *)
Fixpoint head_edges (recordToCite : bool) (h : I) (hy : option Z) (ids : list (I * C)) (g : graph I) : res (list (I * I) * graph I) :=
  match ids with
  | [] => Ok ([], g)
  | (n, c) :: ids' =>
    if o_weighted o then
      let* g1 :=
        if is_exact (o_type o) then
          let x := [(year_diff, diff hy c)] in
          if recordToCite then weigh h n h n x g else weigh n h n h x g
        else if recordToCite then weigh h n h n [] g else weigh n h h n [] g     (* 1683-1686: both branches the same *)
      in head_edges recordToCite h hy ids' g1
    else if has_edge g h n then head_edges recordToCite h hy ids' g
    else if is_exact (o_type o) then
      let* (l, g1) := head_edges recordToCite h hy ids' g in Ok ((h, n) :: l, g1)
    else Raise UnboundLocalError                                                   (* 1688: yearDiff was never set *)
  end.
(** lines 1690-1697: the inner and the outer loop *)
Fixpoint pair_inner (u : I) (vs : list I) (g : graph I) : res (list (I * I) * graph I) :=
  match vs with
  | [] => Ok ([], g)
  | v :: vs' =>
    if o_weighted o then let* g' := weigh u v u v [] g in pair_inner u vs' g'
    else if has_edge g u v then pair_inner u vs' g
    else let* (l, g') := pair_inner u vs' g in Ok ((u, v) :: l, g')
  end.
Fixpoint pair_edges (ids : list I) (g : graph I) : res (list (I * I) * graph I) :=
  match ids with
  | [] => Ok ([], g)
  | u :: rest =>
    let* (l1, g1) := pair_inner u rest g in
    let* (l2, g2) := pair_edges rest g1 in
    Ok (l1 ++ l2, g2)
  end.
Definition add_edges_from (l : list (I * I)) (g : graph I) : graph I := fold_left (fun g e => add_edge (fst e) (snd e) [] g) l g.

(** addToNetwork, lines 1618-1698 *)
Definition add_to_network (core : dict I R) (recordToCite : bool) (head : option C) (l : list C) (g : graph I) : res (graph I) :=
  let* (h, g0) :=
    match head with
    | None => Ok (None, g)
    | Some c =>
      let* i := make_id c in
      let* y := if is_exact (o_type o) then (match cyear api c with Some y => Ok y | None => Raise AttributeError end) else Ok None in
      let* g0 := see_head core c i g in
      Ok (Some (i, y), g0)
    end in
  let* (ids, g1) := see_all core l g0 in
  let* (added, g2) :=
    match (match h with Some (i, y) => if truthy_id api i then Some (i, y) else None | None => None end) with
    | Some (i, y) => head_edges recordToCite i y ids g1
    | None => if 1 <? length ids then pair_edges (map fst ids) g1 else Ok ([], g1)
    end in
  Ok (add_edges_from added g2).

(** networkCoCitation, lines 1139-1185.  [coreValues] or [coreOnly] makes the table of the core; without them it is not
    looked at (1719 and 1772 test for that). *)
Definition co_citation (rs : list R) : res (graph I) :=
  let core := core_dict rs in
  iter (fun r g => match cites rapi r with
                   | [] => Ok g
                   | l => add_to_network core true None (filter_cites core l) g
                   end) rs (empty_graph false).
(** networkCitation, lines 1247-1300 *)
Definition citation (directed recordToCite : bool) (rs : list R) : res (graph I) :=
  let core := core_dict rs in
  iter (fun r g => match filter_cites core [own rapi r] with
                   | [] => Ok g
                   | _ => match cites rapi r with
                          | [] => Ok g
                          | l => add_to_network core recordToCite (Some (own rapi r)) (filter_cites core l) g
                          end
                   end) rs (empty_graph directed).
End Cites.

(** networkBibCoupling, lines 1319-1347.  The options given to networkCitation (1320): *)
Definition coupling_opts (fullInfo addCR : bool) : opts :=
  {| o_type := Full; o_anon := false; o_journals := false; o_words := []; o_core := false; o_info := true; o_full := fullInfo;
     o_values := [$"id"; $"authorsFull"; $"year"; $"title"; $"journal"; $"volume"; $"beginningPage"]; o_detailed := false; o_cr := addCR;
     o_count := false; o_weighted := false |}.
Section Coupling.
Context {I : Type} `{EqDec I}.
(** lines 1325-1331: [d['inCore']] *)
Definition copy_core (cg : graph I) (n : I) (g : graph I) : res (graph I) :=
  match nd cg n with
  | None => Raise KeyError
  | Some a => match dget $"inCore" a with
              | None => Raise KeyError
              | Some (VBool true) => Ok (add_node n a g)
              | Some _ => Ok g
              end
  end.
(** lines 1335-1346, the citing nodes of one node *)
Fixpoint couple (weighted : bool) (l : list I) (g : graph I) : res (graph I) :=
  match l with
  | [] => Ok g
  | u :: rest => let* g1 := iter (join_two weighted u) rest g in couple weighted rest g1
  end.
(** [sources n] is the list of the nodes with an edge to [n], in the order of [in_edges]; [order] is the order of the
    set couplingSet of the nodes with a positive in-degree. *)
Definition bib_coupling (weighted : bool) (cg : graph I) (sources : I -> list I) (order : list I) : res (graph I) :=
  let* g := iter (copy_core cg) (nodes cg) (empty_graph false) in
  iter (fun n => couple weighted (sources n)) order g.
End Coupling.
