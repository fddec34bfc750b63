(** metaknowledge/recordCollection.py: networkCoAuthor with citeProfile (983-1070). *)
From Coq Require Import String.
From Verif Require Import Base PyStr Nx NetModel CiteNetModel.
Set Implicit Arguments.

Section Profile.
Context {I R C J : Type} `{EqDec I} `{EqDec J}.
(** ID() and str() of a citation; citations are equal when their IDs are (CiteNetModel.v) *)
Variable cite_id : C -> J.
Variable cite_str : C -> str.
(** a dictionary from citations to counts: under the ID, the citation that is its key and the count *)
Definition profile := dict J (C * nat).
(** lines 1040-1043 and 1053-1056 *)
Definition bump_cite (d : profile) (c : C) : profile :=
  match dget (cite_id c) d with
  | Some (c0, n) => dset (cite_id c) (c0, S n) d
  | None => dset (cite_id c) (c, 1) d
  end.
(** The attribute citeProfile of a node is a reference to a dictionary: attributeMaker makes one for each record (989-1011, 1029)
    and [detailedInfo.copy()] (1034, 1047) does not copy it.  [p_ref] has the references of the nodes, [p_heap] the
    dictionaries; one that is not there yet is empty. *)
Record pstate := mkP { p_graph : graph I; p_ref : dict I nat; p_heap : dict nat profile }.
(** lines 1033-1043, 1046-1056 *)
Definition see_profile (cnt : bool) (a : attrs) (k : nat) (cs : list C) (n : I) (s : pstate) : res pstate :=
  let* g := see_author cnt a n (p_graph s) in
  let refs := if has_node (p_graph s) n then p_ref s else dset n k (p_ref s) in
  match dget n refs with
  | None => Raise KeyError
  | Some q => Ok (mkP g refs (dset q (fold_left bump_cite cs (match dget q (p_heap s) with Some d => d | None => [] end)) (p_heap s)))
  end.
(** lines 1032-1062 *)
Fixpoint author_profiles (cnt weighted : bool) (a : attrs) (k : nat) (cs : list C) (l : list I) (s : pstate) : res pstate :=
  match l with
  | [] => Ok s
  | n1 :: rest =>
    let* s1 := see_profile cnt a k cs n1 s in
    let* s2 := iter (fun n2 s => let* s' := see_profile cnt a k cs n2 s in let* g := join_two weighted n1 n2 (p_graph s') in Ok (mkP g (p_ref s') (p_heap s'))) rest s1 in
    author_profiles cnt weighted a k cs rest s2
  end.
(** lines 1015-1062; [k] is the number of dictionaries made so far *)
Fixpoint all_profiles (authors : R -> list I) (journal : R -> bool) (details : R -> attrs) (cites : R -> list C)
         (weighted dropNonJournals cnt : bool) (k : nat) (rs : list R) (s : pstate) : res pstate :=
  match rs with
  | [] => Ok s
  | r :: rs' =>
    if dropNonJournals && negb (journal r) then all_profiles authors journal details cites weighted dropNonJournals cnt k rs' s
    else let* s' := author_profiles cnt weighted (author_attrs cnt details r) k (cites r) (authors r) s in
         all_profiles authors journal details cites weighted dropNonJournals cnt (S k) rs' s'
  end.
(** lines 1063-1075, for one node; an empty dictionary gives empty texts (1069-1070) *)
Definition show_profile (s : pstate) (n : I) (g : graph I) : res (graph I) :=
  match dget n (p_ref s) with
  | None => Raise KeyError
  | Some q =>
    let d := match dget q (p_heap s) with Some d => d | None => [] end in
    let* g1 := node_set n $"citeProfileCites" (VStr (join $"|" (map (fun e => cite_str (fst (snd e))) d))) g in
    node_set n $"citeProfileCounts" (VStr (join $"|" (map (fun e => dec_nat (snd (snd e))) d))) g1
  end.
(** networkCoAuthor(citeProfile = True) *)
Definition co_author_profiles (authors : R -> list I) (journal : R -> bool) (details : R -> attrs) (cites : R -> list C)
           (weighted dropNonJournals cnt : bool) (rs : list R) : res (graph I) :=
  let* s := all_profiles authors journal details cites weighted dropNonJournals cnt 0 rs (mkP (empty_graph false) [] []) in
  iter (show_profile s) (nodes (p_graph s)) (p_graph s).
End Profile.
