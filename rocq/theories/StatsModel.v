(** graphStats: metaknowledge/graphHelpers.py lines 734-842, with the networkx functions it calls
    (isolates, selfloop_edges, density, transitivity as of networkx 2.0-2.3). *)
From Coq Require Import List ZArith Lia Bool Arith QArith.
From Coq Require Import String.
From Verif Require Import Base PyStr Nx.
Import ListNotations.
Local Open Scope list_scope.
Local Open Scope nat_scope.
Set Implicit Arguments.

(** a number of python: an int, or the float nearest to a quotient of two ints, for which the exact quotient is kept
    (simplification: the rounding of float division is left out) *)
Inductive number := Int (n : nat) | Float (q : Q).

(** [p / q] on ints *)
Definition py_div (p q : nat) : res number :=
  match q with
  | O => Raise ZeroDivisionError
  | S _ => Ok (Float (Z.of_nat p # Pos.of_nat q))
  end.

Section Networkx.
  Context {V : Type} `{EqDec V}.

  (** [G.degree()] of a node with row [r]: a loop counts twice; in a directed graph the edges leaving and the edges arriving *)
  Definition degree_of (g : graph V) (n : V) (r : dict V attrs) : nat :=
    if gdir g then length r + length (filter (fun ur => dhas n (snd ur)) (gadj g))
    else length r + (if dhas n r then 1 else 0).
  (** [list(nx.isolates(G))] *)
  Definition isolates (g : graph V) : list V :=
    map fst (filter (fun ur => degree_of g (fst ur) (snd ur) =? 0) (gadj g)).
  (** [nx.density(G)]; its number_of_edges, half the sum of the degrees, is the length of [G.edges()] *)
  Definition density (g : graph V) : res number :=
    let n := length (nodes g) in
    let m := length (edges g) in
    if (m =? 0) || (n <=? 1) then Ok (Int 0)
    else py_div (if gdir g then m else 2 * m) (n * (n - 1)).
  (** the neighbours of a node other than the node *)
  Definition others (v : V) (r : dict V attrs) : list V := filter (fun w => negb (eqb w v)) (dkeys r).
  Definition row_of (g : graph V) (w : V) : dict V attrs := match dget w (gadj g) with Some r => r | None => [] end.
  (** _triangles_and_degree_iter: the number of neighbours and the number of triangles of the node [v] with row [r];
      the Counter of the sizes of the intersections only regroups the sum *)
  Definition common (l m : list V) : nat := length (filter (fun x => mem x m) l).
  Definition triangles_of (g : graph V) (v : V) (r : dict V attrs) : nat :=
    let vs := others v r in
    list_sum (map (fun w => common vs (others w (row_of g w))) vs).
  (** [nx.transitivity(G)] *)
  Definition transitivity (g : graph V) : res number :=
    let triangles := list_sum (map (fun vr => triangles_of g (fst vr) (snd vr)) (gadj g)) in
    let contri := list_sum (map (fun vr => let d := length (others (fst vr) (snd vr)) in d * (d - 1)) (gadj g)) in
    if triangles =? 0 then Ok (Int 0) else py_div triangles contri.
End Networkx.

(** ** ["{:G}".format(n)] for an int: six significant digits, rounded half to even; scientific notation from a million on.
    Simplification: the conversion of the int to a float is taken to be exact, as it is below 2^53. *)
Fixpoint strip_zeros (l : list char) : list char :=      (* drops leading zeros; used on reversed digits *)
  match l with c :: l' => if eqb c 48%N then strip_zeros l' else l | [] => [] end.
Definition format_G (n : N) : str :=
  let ds := dec_N n in
  if length ds <=? 6 then ds
  else
    let k := N.of_nat (length ds - 6) in
    let p := (10 ^ k)%N in
    let q := (n / p)%N in
    let r := (n mod p)%N in
    let up := ((p <? 2 * r) || ((p =? 2 * r) && N.odd q))%N in
    let m := if up then (q + 1)%N else q in
    let e := if (m =? 1000000)%N then (k + 6)%N else (k + 5)%N in
    let digits := rev (strip_zeros (rev (dec_N m))) in
    firstn 1 digits ++ (match skipn 1 digits with [] => [] | f => $"." ++ f end)
    ++ $"E+" ++ (if (e <? 10)%N then $"0" ++ dec_N e else dec_N e).

Section Stats.
  Context {V : Type} `{EqDec V}.
  (** ["{:G}".format(x)] for a float *)
  Variable float_G : Q -> str.
  Definition shown_G (x : number) : str := match x with Int n => format_G (N.of_nat n) | Float q => float_G q end.

  Definition stat_names : list str := [$"nodes"; $"edges"; $"isolates"; $"loops"; $"density"; $"transitivity"].   (* 773 *)

  Inductive answer := Text (s : str) | Tuple (l : list number).

  (** one of the six blocks, 779-826: the data gathered so far is a list of strings and a dictionary,
      of which the code fills one *)
  Definition block (stats : list str) (makeString sentence : bool) (name before after line : str) (value : res number)
    (data : res (list str * dict str number)) : res (list str * dict str number) :=
    let* (texts, values) := data in
    if mem name stats then
      let* x := value in
      if makeString then
        Ok (texts ++ [if sentence then before ++ shown_G x ++ after else line ++ shown_G x], values)
      else Ok (texts, dset name x values)
    else Ok (texts, values).

  Fixpoint gather (values : dict str number) (stats : list str) : res (list number) :=    (* 838-842 *)
    match stats with
    | [] => Ok []
    | s :: rest => match dget s values with
                   | None => Raise KeyError
                   | Some x => let* l := gather values rest in Ok (x :: l)
                   end
    end.

  (** graphStats, 734-842 *)
  Definition graph_stats (g : graph V) (stats : list str) (makeString sentence : bool) : res answer :=
    if forallb (fun s => mem s stat_names) stats then
      let data := Ok ([], []) in
      let data := block stats makeString sentence $"nodes" [] $" nodes" $"Nodes: " (Ok (Int (length (nodes g)))) data in
      let data := block stats makeString sentence $"edges" [] $" edges" $"Edges: " (Ok (Int (length (edges g)))) data in
      let data := block stats makeString sentence $"isolates" [] $" isolates" $"Isolates: " (Ok (Int (length (isolates g)))) data in
      let data := block stats makeString sentence $"loops" [] $" self loops" $"Self loops: " (Ok (Int (length (selfloops g)))) data in
      let data := block stats makeString sentence $"density" $"a density of " [] $"Density: " (density g) data in
      let data := block stats makeString sentence $"transitivity" $"a transitivity of " [] $"Transitivity: " (transitivity g) data in
      let* (texts, values) := data in
      if makeString then
        if sentence then                                                         (* 828-835 *)
          match texts with
          | [] => Ok (Text $"The graph has ")
          | [t] => Ok (Text ($"The graph has " ++ t))
          | _ => Ok (Text ($"The graph has " ++ join $", " (removelast texts) ++ $" and " ++ last texts []))
          end
        else Ok (Text (join [nl] texts))                                          (* 836 *)
      else let* l := gather values stats in Ok (Tuple l)
    else Raise RuntimeError.                                                      (* 772-774 *)
End Stats.
