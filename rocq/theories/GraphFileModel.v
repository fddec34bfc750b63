(** metaknowledge/graphHelpers.py: readGraph, writeEdgeList, writeNodeAttributeFile, writeGraph.
    Node ids are strings.  Texts are the contents of the files; file names (lines 139-163) and the
    [overwrite] test are in GraphSaveModel.v; progress bars and the fallback for encodings that cannot hold a character
    (lines 248-251, 325-328) are not modelled. *)
From Coq Require Import String.
From Verif Require Import Base PyStr Nx CsvModel.
Set Implicit Arguments.

Definition g_id := $"ID".
Definition g_src := $"Source".
Definition g_dst := $"Target".

(** lines 218-226 and 310-318: the set of all attribute names that occur *)
Definition extra_attribs (l : list attrs) : list str := uniq_acc [] (flat_map (@dkeys _ _) l).

(** [order] is python's iteration order over a set of attribute names: any permutation. *)
Section Writers.
Variable order : list str -> list str.

(** writeNodeAttributeFile, lines 269-342, with [allSameAttribute = False] *)
Definition write_nodes (g : graph str) : res str :=
  if length (gnodes g) <? 1 then Ok ($"ID" ++ [nl])                               (* 300-303 *)
  else csv_file (g_id :: order (extra_attribs (map snd (gnodes g))))              (* 310-319 *)
         (map (fun na => dset g_id (VStr (fst na)) (snd na)) (gnodes g)).          (* 325-332 *)
(** writeEdgeList, lines 172-267, with [extraInfo = True], [allSameAttribute = False] *)
Definition write_edges (g : graph str) : res str :=
  if length (edges g) <? 1
  then Ok ([quote] ++ $"Source" ++ [quote; comma; quote] ++ $"Target" ++ [quote; nl])      (* 207-210 *)
  else csv_file (g_src :: g_dst :: order (extra_attribs (map snd (edges g))))               (* 218-227 *)
         (map (fun e => dset g_dst (VStr (snd (fst e))) (dset g_src (VStr (fst (fst e))) (snd e))) (edges g)).    (* 236-244 *)
(** writeEdgeList with [extraInfo = False] on a graph with edges: line 256 sets a key of [eDict], which
    nothing has bound; with [allSameAttribute = True] line 216 calls [__next__] of a view *)
Definition write_edges_opts (extra same : bool) (g : graph str) : res str :=
  if length (edges g) <? 1 then write_edges g
  else if extra then if same then Raise AttributeError else write_edges g
  else Raise UnboundLocalError.
End Writers.

(** readGraph, lines 11-94 *)
Fixpoint read_nodes (rows : list (dict str val)) (g : graph str) : res (graph str) :=
  match rows with
  | [] => Ok g
  | vals :: rows' =>
    match dget g_id vals with
    | None => Raise KeyError                                                        (* 69 *)
    | Some VNone | Some (VInt _) | Some (VBool _) => Raise ValueError               (* a row with no value at all: skipped by csv *)
    | Some (VStr n) => read_nodes rows' (add_node n (ddel g_id vals) g)             (* 70-74 *)
    end
  end.
Fixpoint read_edges (rows : list (dict str val)) (g : graph str) : res (graph str) :=
  match rows with
  | [] => Ok g
  | vals :: rows' =>
    match dget g_src vals, dget g_dst vals with
    | Some (VStr u), Some (VStr v) =>
      read_edges rows' (add_edge u v (ddel g_dst (ddel g_src vals)) g)              (* 85-90 *)
    | Some _, Some _ => Raise ValueError                                            (* networkx: None cannot be a node *)
    | _, _ => Raise KeyError                                                        (* 81-82 *)
    end
  end.
Definition read_graph (directed : bool) (edge_text : str) (node_text : option str) : res (graph str) :=
  let* g := match node_text with
            | None => Ok (empty_graph directed)
            | Some t => let* rows := dict_reader t in read_nodes rows (empty_graph directed)
            end in
  let* rows := dict_reader edge_text in read_edges rows g.
