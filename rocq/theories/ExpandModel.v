(** metaknowledge/recordCollection.py: expandRecs, called by networkCoCitation and networkCitation with [expandedCore].
    [ids r] are the names of the nodes for the citations [Rec.createCitation(multiCite = True)], one for each author (line 1795), or what makeID raises. *)
From Coq Require Import String.
From Verif Require Import Base PyStr Nx NetModel.
Set Implicit Arguments.

Section Expand.
Context {I : Type} `{EqDec I}.
(** lines 1811-1812: the edges of [c1] are gone through while edges are added; networkx reads their attributes when it gets to them, and python raises a
    RuntimeError if the row of [c1] has grown *)
Definition copy_edges (c1 c2 : I) (g : graph I) : res (graph I) :=
  let row := fun g => match dget c1 (gadj g) with Some r => dkeys r | None => [] end in
  let g' := fold_left (fun g e2 => match ed g c1 e2 with Some d => add_edge c2 e2 d g | None => g end) (row g) g in
  if length (row g') =? length (row g) then Ok g' else Raise RuntimeError.
(** lines 1800-1812 *)
Definition expand_pair (weighted : bool) (c1 c2 : I) (g : graph I) : res (graph I) :=
  let* g1 :=
    match nd g c2 with
    | None => Ok (add_edge c1 c2 (if weighted then [(weight, VInt 1)] else []) (add_node c2 (match nd g c1 with Some a => a | None => [] end) g))
    | Some _ => if weighted then touch true c1 c2 g else Ok g
    end in
  copy_edges c1 c2 g1.
(** lines 1796-1812; with one citation only nothing is done *)
Fixpoint expand_record (weighted : bool) (l : list I) (g : graph I) : res (graph I) :=
  match l with
  | [] => Ok g
  | c1 :: rest =>
    let* g1 := if has_node g c1 then iter (expand_pair weighted c1) rest g else Ok g in
    expand_record weighted rest g1
  end.
(** lines 1792-1812 *)
Definition expand_recs {R} (ids : R -> res (list I)) (weighted : bool) (rs : list R) (g : graph I) : res (graph I) :=
  iter (fun r g => let* l := ids r in expand_record weighted l g) rs g.
End Expand.
