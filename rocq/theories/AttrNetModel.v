(** metaknowledge/mkCollection.py: networkMultiLevel and networkOneMode with a [nodeAttribute].
    The list nodeVals of a record (line 867) is an object. The nodes met for the first time get that very list (lines 917, 934), the others get the
    values they do not have yet appended to the list they have (lines 919-920, 936-937). Lists are cells of a heap, one for each record, so that nodes
    that share a list share what is appended.
    Simplified: the attribute is kept beside the graph (it is never the tag count), and the steps of a record on it come after those on the graph,
    which never look at it. *)
From Coq Require Import String.
From Verif Require Import Base PyStr Nx RecordView NetModel.
Set Implicit Arguments.

Section Attr.
Context {N A : Type} `{EqDec N} `{EqDec A}.
(** the list each node refers to, and the lists *)
Record lists := mkL { refs : dict N nat; cells : list (list A) }.
(** [for nodeValue in (n for n in nodeVals if n not in currentAttrib): currentAttrib.append(nodeValue)]: the test is made after the values before it were appended *)
Fixpoint append_missing (vals cur : list A) : list A :=
  match vals with [] => cur | v :: vals' => append_missing vals' (if mem v cur then cur else cur ++ [v]) end.
Fixpoint set_cell (j : nat) (l : list A) (h : list (list A)) : list (list A) :=
  match h, j with [], _ => [] | _ :: h', 0 => l :: h' | x :: h', S j' => x :: set_cell j' l h' end.
(** lines 913-920 and 930-937, [i] being the list of the record *)
Definition note_attr (i : nat) (n : N) (s : lists) : lists :=
  match dget n (refs s) with
  | None => mkL (dset n i (refs s)) (cells s)
  | Some j => mkL (refs s) (set_cell j (append_missing (nth i (cells s) []) (nth j (cells s) [])) (cells s))
  end.
(** all nodes of a record with the values [vals] *)
Definition attr_record (vals : list A) (ns : list N) (s : lists) : lists :=
  fold_left (fun s n => note_attr (length (cells s) - 1) n s) ns (mkL (refs s) (cells s ++ [vals])).
(** grph.node[n][nodeAttribute] *)
Definition attribute_of (s : lists) (n : N) : option (list A) := match dget n (refs s) with Some j => nth_error (cells s) j | None => None end.
End Attr.
Arguments lists N A : clear implicits.

Section Collections.
Context {N A R V : Type} `{EqDec N} `{EqDec A}.
Variables (get : R -> str -> option (fval V)) (str_of : V -> N).
(** [text] is str; [iterate] is what comes of iterating over a value that is not a list: the characters of a str, a TypeError for a number *)
Variables (text : V -> A) (iterate : V -> res (list A)).
(** line 867 *)
Definition node_vals (attribute : str) (r : R) : res (list A) :=
  match get r attribute with None => Ok [] | Some (Many l) => Ok (map text l) | Some (One v) => iterate v end.
(** lines 855-938 *)
Definition multi_level_a (modes : list str) (attribute : str) (nodeCount edgeWeight : bool) (rs : list R) : res (graph N * lists N A) :=
  iter (fun r gs =>
    let* vals := node_vals attribute r in
    let* g := level_record nodeCount edgeWeight (level_contents get str_of modes r) (fst gs) in
    Ok (g, attr_record vals (level_contents get str_of modes r) (snd gs))) rs (empty_graph false, mkL [] []).
End Collections.
