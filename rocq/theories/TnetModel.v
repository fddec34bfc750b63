(** writeTnetFile, graphHelpers.py:344-445: the text of the file, and [timeString].
    [GraphHelpersModel.write_tnet] has the lines as values; here they are written out (437-444).  With [timeString] the
    edges are asked for with their keys, which only a multigraph has; a multigraph is here its nodes (a [graph] whose own
    edges are not looked at) and the list of its edges, as [grph.edges(data = True, keys = True)] gives it, a key being
    its text. *)
From Coq Require Import String.
From Verif Require Import Base PyStr Nx GraphHelpersModel.
Set Implicit Arguments.

(** [str(v)] *)
Definition word_of (v : val) : str :=
  match v with
  | VInt z => dec_Z z
  | VStr s => s
  | VBool b => if b then $"True" else $"False"
  | VNone => $"None"
  end.
(** lines 437-444 *)
Definition line_text (time : option str) (l : tnet_line) : str :=
  match l with
  | (i, j, w) =>
    (match time with Some k => $"""" ++ k ++ $""" " | None => [] end)
    ++ word_of i ++ $" " ++ word_of j ++ (match w with Some x => $" " ++ word_of x | None => [] end) ++ [nl]
  end.

Section Tnet.
Context {V : Type} `{EqDec V}.
(** the whole function for [timeString = None]: the graph, the text of the file ([None]: it was not opened) and the
    exception *)
Definition tnet_file (weighted : bool) (mk ik wk : str) (source : option val) (g : graph V) : graph V * option str * option exn :=
  match write_tnet weighted mk ik wk source g with
  | (g', ls, e) => (g', option_map (fun ls => concat (map (line_text None) ls)) ls, e)
  end.

(** an edge of a multigraph: its ends, its key and its data *)
Definition medge := (V * V * str * attrs)%type.
Definition unkeyed (e : medge) : V * V * attrs := match e with (u, v, k, a) => (u, v, a) end.
Definition key_of (e : medge) : str := match e with (u, v, k, a) => k end.
(** lines 423-444: the lines are those of the edges without keys, each with its key first *)
Definition timed_edges (weighted : bool) (ik wk : str) (mode1 : list V) (g : graph V) (es : list medge) : list (str * tnet_line) * option exn :=
  let (ls, e) := tnet_edges weighted ik wk mode1 g (map unkeyed es) in (combine (map key_of es) ls, e).
(** the whole function with a [timeString], whose value is never looked at; [multi] tells whether the graph is a multigraph
    ([edges] of a simple graph takes no [keys]: TypeError, when the file is open already) *)
Definition tnet_timed (multi weighted : bool) (mk ik wk timeString : str) (source : option val) (g : graph V) (es : list medge)
  : graph V * option str * option exn :=
  match tnet_nodes mk ik 1 (gnodes g) (match source with Some m => [m] | None => [] end) [] g with
  | (g', Raise e) => (g', None, Some e)
  | (g', Ok (modes, mode1)) =>
    if length modes =? 2 then
      if multi then
        let (ls, e) := timed_edges weighted ik wk mode1 g' es in (g', Some (concat (map (fun kl => line_text (Some (fst kl)) (snd kl)) ls)), e)
      else (g', Some [], Some TypeError)
    else (g', None, Some RCValueError)
  end.
End Tnet.
