(** What a user of the command line program relies on, in terms of the lines typed, the questions answered and the files written. *)
From Coq Require Import List ZArith Bool.
From Coq Require Import String.
From Verif Require Import Base PyStr Nx GraphHelpersModel GraphHelpersSpec CliModel.
Import ListNotations.
Local Open Scope list_scope.

(** [s] is the first of the lines [ls] that is accepted, [rest] are those after it *)
Definition first_accepted (accepted : str -> Prop) (ls : list str) (s : str) (rest : list str) : Prop :=
  exists refused, ls = refused ++ s :: rest /\ accepted s /\ forall x, In x refused -> ~ accepted x.
(** ... none is accepted *)
Definition none_accepted (accepted : str -> Prop) (ls : list str) : Prop := forall x, In x ls -> ~ accepted x.

(** ** Files *)
Definition overwrite_question (f : str) : str := f ++ $" already exists overwrite (y/n)? ".
Definition graph_question : str := $"{}, overwrite (y/n)? ".
(** what has happened just before an existing file [f] is overwritten: the user has said yes; for the two files of a graph the question is asked once *)
Definition confirmed (before : list event) (k : kind) (f : str) : Prop :=
  exists earlier,
    before = earlier ++ [Asked (overwrite_question f) true] \/
    (k = EdgeFile /\ before = earlier ++ [Asked graph_question true]) \/
    (k = NodeFile /\ exists f' o, before = earlier ++ [Asked graph_question true; Wrote EdgeFile f' o]).
Definition careful (l : list event) : Prop := forall before k f after, l = before ++ Wrote k f true :: after -> confirmed before k f.
(** the log tells which files were there: those there at the beginning and those written since *)
Definition written (l : list event) (f : str) : Prop := exists k o, In (Wrote k f o) l.
Definition truthful (fs0 : list str) (l : list event) : Prop :=
  forall before k f o after, l = before ++ Wrote k f o :: after -> (o = true <-> In f fs0 \/ written before f).

(** ** Filters: what the menu says of them. [x] is the number that was typed *)
Definition keeps_nodes (g g' : graph str) : Prop := forall n, nd g' n = nd g n.
Definition keeps_edges_that (P : str -> str -> attrs -> Prop) (g g' : graph str) : Prop := forall u v a, ed g' u v = Some a <-> ed g u v = Some a /\ P u v a.
Definition keeps_nodes_that (P : str -> Prop) (g g' : graph str) : Prop :=
  (forall n a, nd g' n = Some a <-> nd g n = Some a /\ P n) /\ keeps_edges_that (fun u v _ => P u /\ P v) g g'.
Definition weighs (a : attrs) (lo hi : ext) : Prop := exists z, int_attr $"weight" a z /\ in_range lo z hi.
Definition weighted_degree (g : graph str) (n : str) : Z := zsum (map (weight_or_1 $"weight") (filter (touches n) (edges g))).
Definition all_positive (g : graph str) : Prop := forall e, In e (edges g) -> (1 <= weight_or_1 $"weight" e)%Z.
Inductive filter_by := NoIsolates | NoLoops | EdgesFrom (x : ext) | EdgesTo (x : ext) | NodesFrom (x : ext) | NodesTo (x : ext).
Definition as_announced (f : filter_by) (g g' : graph str) : Prop :=
  match f with
  | NoIsolates => all_positive g -> keeps_nodes_that (fun n => exists e, In e (edges g) /\ touches n e = true) g g'
  | NoLoops => keeps_nodes g g' /\ keeps_edges_that (fun u v _ => u <> v) g g'
  | EdgesFrom x => keeps_nodes g g' /\ (x <> MInf -> keeps_edges_that (fun _ _ a => weighs a x PInf) g g')
  | EdgesTo x => keeps_nodes g g' /\ keeps_edges_that (fun _ _ a => weighs a MInf x) g g'
  | NodesFrom x => keeps_nodes_that (fun n => in_range x (weighted_degree g n) PInf) g g'
  | NodesTo x => keeps_nodes_that (fun n => in_range MInf (weighted_degree g n) x) g g'
  end.
Fixpoint one_after_another (fs : list filter_by) (g g' : graph str) : Prop :=
  match fs with [] => g' = g | f :: r => exists g1, as_announced f g g1 /\ one_after_another r g1 g' end.
Definition a_maximum (f : filter_by) : Prop := match f with EdgesTo _ | NodesTo _ => True | _ => False end.
Section Typed.
Variable to_number : str -> option ext.
(** the lines the menu takes: a number of an option, q and i *)
Definition menu_line (options : list str) (s : str) : Prop := In s options \/ s = $"q" \/ s = $"i".
Definition filter_options : list str := [$"0"; $"1"; $"2"; $"3"; $"4"; $"5"; $"6"].
Definition typed_number (ls : list str) (x : ext) (rest : list str) : Prop := exists s, first_accepted (fun s => to_number s <> None) ls s rest /\ to_number s = Some x.
(** the filters that lines ask for, up to the line that ends them *)
Inductive asks_for : list str -> list filter_by -> list str -> Prop :=
| a_end ls rest : first_accepted (menu_line filter_options) ls $"0" rest -> asks_for ls [] rest
| a_isolates ls r fs rest : first_accepted (menu_line filter_options) ls $"1" r -> asks_for r fs rest -> asks_for ls (NoIsolates :: fs) rest
| a_loops ls r fs rest : first_accepted (menu_line filter_options) ls $"2" r -> asks_for r fs rest -> asks_for ls (NoLoops :: fs) rest
| a_edges_from ls r x r' fs rest : first_accepted (menu_line filter_options) ls $"3" r -> typed_number r x r' -> asks_for r' fs rest -> asks_for ls (EdgesFrom x :: fs) rest
| a_edges_to ls r x r' fs rest : first_accepted (menu_line filter_options) ls $"4" r -> typed_number r x r' -> asks_for r' fs rest -> asks_for ls (EdgesTo x :: fs) rest
| a_nodes_from ls r x r' fs rest : first_accepted (menu_line filter_options) ls $"5" r -> typed_number r x r' -> asks_for r' fs rest -> asks_for ls (NodesFrom x :: fs) rest
| a_nodes_to ls r x r' fs rest : first_accepted (menu_line filter_options) ls $"6" r -> typed_number r x r' -> asks_for r' fs rest -> asks_for ls (NodesTo x :: fs) rest.
End Typed.

(** ** The network that lines ask for *)
Section Asked.
Variable upper : str -> str.
Variable tags : list str.
Definition request_options : list str := [$"1"; $"2"; $"3"; $"4"; $"5"; $"6"].
(** a tag of the collection is typed, in any case *)
Definition typed_tag (ls : list str) (t : str) (rest : list str) : Prop := exists s, first_accepted (fun s => In (upper s) tags) ls s rest /\ t = upper s.
(** tags are typed until an empty line *)
Inductive typed_tags : list str -> list str -> list str -> Prop :=
| t_end ls s rest : first_accepted (fun s => In (upper s) tags \/ upper s = []) ls s rest -> upper s = [] -> typed_tags ls [] rest
| t_more ls s r ts rest : first_accepted (fun s => In (upper s) tags \/ upper s = []) ls s r -> upper s <> [] -> typed_tags r ts rest -> typed_tags ls (upper s :: ts) rest.
Inductive asks_for_network : list str -> request -> list str -> Prop :=
| n_one ls r t rest : first_accepted (menu_line request_options) ls $"1" r -> typed_tag r t rest -> asks_for_network ls (OneMode t) rest
| n_two ls r t1 r' t2 rest : first_accepted (menu_line request_options) ls $"2" r -> typed_tag r t1 r' -> typed_tag r' t2 rest -> asks_for_network ls (TwoMode t1 t2) rest
| n_multi ls r t r' ts rest : first_accepted (menu_line request_options) ls $"3" r -> typed_tag r t r' -> typed_tags r' ts rest -> asks_for_network ls (MultiMode (t :: ts)) rest
| n_cite ls rest : first_accepted (menu_line request_options) ls $"4" rest -> asks_for_network ls CitationNet rest
| n_cocite ls rest : first_accepted (menu_line request_options) ls $"5" rest -> asks_for_network ls CoCitation rest
| n_coauth ls rest : first_accepted (menu_line request_options) ls $"6" rest -> asks_for_network ls CoAuthor rest.
End Asked.

(** ** What a session leaves *)
Definition files_written (l : list event) : list (kind * str) := flat_map (fun e => match e with Wrote k f _ => [(k, f)] | _ => [] end) l.
Definition named_after (suffix f : str) : Prop := exists s, f = s ++ suffix.
(** what each choice of the first menu writes before a network is made, or instead *)
Definition first_files (k : str) (l : list (kind * str)) : Prop :=
  (k = $"1" /\ l = []) \/ ((k = $"2" \/ k = $"3") /\ exists f, named_after $".txt" f /\ l = [(RecordsFile, f)]) \/
  ((k = $"4" \/ k = $"5") /\ exists f, named_after $".csv" f /\ l = [(TableFile, f)]) \/ (k = $"6" /\ exists f, named_after $".csv" f /\ l = [(CitesFile, f)]) \/ (k = $"7" /\ l = []).
(** what each choice of the last menu writes *)
Definition last_files (k : str) (l : list (kind * str)) : Prop :=
  (k = $"1" /\ exists s, l = [(EdgeFile, graph_name $"edgeList" s); (NodeFile, graph_name $"nodeAttributes" s)]) \/ (k = $"2" /\ exists f, named_after $".csv" f /\ l = [(EdgeFile, f)]) \/
  (k = $"3" /\ exists f, named_after $".csv" f /\ l = [(NodeFile, f)]) \/ (k = $"4" /\ exists f, named_after $".graphml" f /\ l = [(GraphmlFile, f)]).
Definition task_options : list str := [$"1"; $"2"; $"3"; $"4"; $"5"; $"6"; $"7"].
(** the choices of the last menu up to the one that writes: each 0 shows the network *)
Inductive chosen_output (contour : bool) : list str -> str -> list str -> Prop :=
| o_last ls k rest : k <> $"0" -> first_accepted (menu_line ((if contour then [$"0"] else []) ++ [$"1"; $"2"; $"3"; $"4"])) ls k rest -> chosen_output contour ls k rest
| o_show ls r k rest : contour = true -> first_accepted (menu_line [$"0"; $"1"; $"2"; $"3"; $"4"]) ls $"0" r -> chosen_output contour r k rest -> chosen_output contour ls k rest.
