(** writeGraph on a disk: metaknowledge/graphHelpers.py 137-170, with the files of writeEdgeList and writeNodeAttributeFile opened and written as
    in lines 207-210, 231-235, 260-266, 300-303, 322-342.
    A disk is the texts of its files by name; the directory in which the program runs stays the same and there are no links. What is done
    to the disk is a list of events, so that one can look at it after each of them. A file that is still open when an exception ends the
    call is taken to have what was written to it. The progress bar and the fallback for encodings are left out. *)
From Coq Require Import List ZArith Lia Bool Arith.
From Coq Require Import String.
From Verif Require Import Base PyStr JournalModel Nx CsvModel GraphFileModel.
From Verif Require CliModel.
Import ListNotations.
Local Open Scope list_scope.

(** ** Python's os.path (library, POSIX) *)
Definition slash : char := 47%N.
(** s without the slashes at its end *)
Fixpoint drop_slashes (r : str) : str := match r with c :: r' => if eqb c slash then drop_slashes r' else r | [] => [] end.
Definition rstrip_slash (s : str) : str := rev (drop_slashes (rev s)).
(** os.path.split: up to the last slash and after it; slashes at the end of the first go unless it is all slashes *)
Definition head_of (p : str) : str := match removelast (split_char slash p) with [] => [] | ps => join [slash] ps ++ [slash] end.
Definition path_split (p : str) : str * str :=
  let h := head_of p in
  let t := last (split_char slash p) [] in
  (match rstrip_slash h with [] => h | h' => h' end, t).
(** os.path.join of two *)
Definition path_join (a b : str) : str := match a with [] => b | _ => if eqb (last a 0%N) slash then a ++ b else a ++ [slash] ++ b end.
(** os.path.expanduser; [home u]: the home directory of the user u, of the user themselves for the empty name *)
Definition expand_user (home : str -> option str) (p : str) : str :=
  match p with
  | 126%N :: p' =>
    let u := hd [] (split_char slash p') in
    match home u with
    | None => p
    | Some h => match rstrip_slash h ++ skipn (length u) p' with [] => [slash] | r => r end
    end
  | _ => p
  end.

Inductive event := Open (file : str) | Put (file text : str).
Definition disk := dict str str.
(** open(file, 'w') makes the file empty; text is appended *)
Definition happen (d : disk) (e : event) : disk :=
  match e with
  | Open f => dset f [] d
  | Put f t => dset f (match dget f d with Some o => o ++ t | None => t end) d
  end.

Section Save.
(** whether open(file, 'w') would work: the directory exists, the file is no directory, there is permission *)
Variable can_open : str -> bool.
Variable home : str -> option str.
Variable order : list str -> list str.
(** the file is opened and its text written *)
Definition whole (f : str) (t : res str) : list event * res unit :=
  if can_open f then match t with Ok t => ([Open f; Put f t], Ok tt) | Raise e => ([Open f], Raise e) end else ([], Raise OSError).
(** writeEdgeList: with allSameAttribute line 216 fails before the file is opened (231), without extraInfo line 256 fails after the header is written (234) *)
Definition save_edges (extra same : bool) (g : graph str) (f : str) : list event * res unit :=
  if length (edges g) <? 1 then whole f (write_edges order g)
  else if extra then if same then ([], Raise AttributeError) else whole f (write_edges order g)
  else if can_open f then ([Open f; Put f (csv_row (map VStr [g_src; g_dst]))], Raise UnboundLocalError) else ([], Raise OSError).
(** writeNodeAttributeFile: with allSameAttribute line 307 fails before the file is opened (322) *)
Definition save_nodes (same : bool) (g : graph str) (f : str) : list event * res unit :=
  if length (gnodes g) <? 1 then whole f (write_nodes order g)
  else if same then ([], Raise AttributeError) else whole f (write_nodes order g).
(** lines 144-150 *)
Definition graph_type (typing directed : bool) : str := if typing then if directed then $"_directed" else $"_undirected" else [].
(** lines 151-163: the name of one of the files; [what] is edgeList or nodeAttributes *)
Definition file_name (what typ suffix name : str) : str :=
  let rest := what ++ typ ++ $"." ++ suffix in
  match path_split (expand_user home (CliModel.normpath name)) with
  | ([], []) => rest
  | ([], t) => t ++ $"_" ++ rest
  | (h, []) => path_join h rest
  | (h, t) => path_join h (t ++ $"_" ++ rest)
  end.
(** lines 137-170 *)
Definition save_graph (g : graph str) (name : str) (edge_info typing : bool) (suffix : str) (overwrite same : bool) (d : disk) : list event * res unit :=
  let e := file_name $"edgeList" (graph_type typing (gdir g)) suffix name in
  let n := file_name $"nodeAttributes" (graph_type typing (gdir g)) suffix name in
  if negb overwrite && dhas e d then ([], Raise OSError)
  else if negb overwrite && dhas n d then ([], Raise OSError)
  else
    let '(es, r) := save_edges edge_info same g e in
    match r with
    | Raise x => (es, Raise x)
    | Ok _ => let '(ns, r) := save_nodes same g n in (es ++ ns, r)
    end.
End Save.
(** the disk after the call *)
Definition after (d : disk) (evs : list event) : disk := fold_left happen evs d.
