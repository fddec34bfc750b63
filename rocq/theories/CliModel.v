(** The dialogue of the command line program: metaknowledge/bin/metaknowledgeCLI.py, with the names and the overwrite test of metaknowledge/graphHelpers.py:94-165 (writeGraph).

    What the user types is a list of lines; input() raises EOFError when there are none left. A file system is the list of the files that exist. Simplifications: what is printed is left
    out, only questions that are answered with yes or no are kept; writing a file never fails; what is written is C22 to C25, C36, C68; making a network from records is a parameter (C14 to C20);
    os.path functions are parameters except in names of graph files, where paths with ~ are left out; files and directories are not distinguished; str.upper and float() are parameters;
    numbers are integers or infinities; interrupts are left out. *)
From Coq Require Import List ZArith Lia Bool Arith.
From Coq Require Import String.
From Verif Require Import Base PyStr Nx GraphHelpersModel.
Import ListNotations.
Local Open Scope list_scope.

Inductive kind := RecordsFile | TableFile | CitesFile | EdgeFile | NodeFile | GraphmlFile.
(** what happens: a question with its answer, a file written and whether it was there before, a journal marked in a database, a graph shown *)
Inductive event := Asked (prompt : str) (answer : bool) | Wrote (k : kind) (file : str) (over : bool) | Marked (db journal : str) (as_journal : bool) | Shown.
Record world := World { typed : list str; files : list str; events : list event }.
(** what a function ends with: a value, sys.exit() or an exception *)
Inductive outcome (A : Type) := Ret (a : A) | Quit | Err (e : exn).
Arguments Ret {A}. Arguments Quit {A}. Arguments Err {A}.
Definition io (A : Type) := world -> outcome A * world.
Definition ret {A} (a : A) : io A := fun w => (Ret a, w).
Definition err {A} (e : exn) : io A := fun w => (Err e, w).
Definition andthen {A B} (m : io A) (k : A -> io B) : io B :=
  fun w => match m w with (Ret a, w') => k a w' | (Quit, w') => (Quit, w') | (Err e, w') => (Err e, w') end.
Notation "'do' x <- m ;; k" := (andthen m (fun x => k)) (at level 200, x name, m at level 100, k at level 200).
Definition note (e : event) : io unit := fun w => (Ret tt, World (typed w) (files w) (events w ++ [e])).
(** input(prompt) *)
Definition ask : io str := fun w => match typed w with [] => (Err EOFError, w) | s :: r => (Ret s, World r (files w) (events w)) end.
(** os.path.lexists, os.path.isfile *)
Definition there (f : str) : io bool := fun w => (Ret (mem f (files w)), w).
(** opening a file for writing *)
Definition write (k : kind) (f : str) : io unit :=
  fun w => (Ret tt, World (typed w) (if mem f (files w) then files w else files w ++ [f]) (events w ++ [Wrote k f (mem f (files w))])).
(** a loop that reads at least one line in each turn *)
Definition turns {A} (f : nat -> io A) : io A := fun w => f (S (length (typed w))) w.

Section Cli.
Variable upper : str -> str.
(** lines 30-38 *)
Fixpoint yes_no_from (ls : list str) : option bool * list str :=
  match ls with
  | [] => (None, [])
  | s :: r => if eqb (upper s) $"Y" || eqb (upper s) [] then (Some true, r) else if eqb (upper s) $"N" then (Some false, r) else yes_no_from r
  end.
Definition yes_no (prompt : str) : io bool := fun w =>
  match yes_no_from (typed w) with
  | (Some b, r) => (Ret b, World r (files w) (events w ++ [Asked prompt b]))
  | (None, r) => (Err EOFError, World r (files w) (events w))
  end.
(** lines 40-69; extraOptions is not passed on *)
Inductive selection := Selected (k : str) | Console | Leave | NoMore.
Fixpoint menu_from (options : list str) (extra : bool) (ls : list str) : selection * list str :=
  match ls with
  | [] => (NoMore, [])
  | s :: r => if mem s options then (Selected s, r) else if extra && eqb s $"q" then (Leave, r) else if extra && eqb s $"i" then (Console, r) else menu_from options true r
  end.
(** int(inputMenu(...)): after the console inputMenu returns None; the options are numbers *)
Definition menu (options : list str) : io str := fun w =>
  let (s, r) := menu_from options true (typed w) in
  (match s with Selected k => Ret k | Leave => Quit | Console => Err TypeError | NoMore => Err EOFError end, World r (files w) (events w)).

(** ** The options of the command line *)
Variable arg_name : option str.        (* --name; False or an empty text is None *)
Variable arg_files : list str.
(** lines 71-87; checking is not passed on *)
Fixpoint name_loop (suffix : str) (n : nat) (checking : bool) : io str :=
  match arg_name, n with
  | Some nm, _ => ret (nm ++ suffix)
  | None, O => err EOFError
  | None, S n' =>
    do s0 <- ask ;;
    let s := s0 ++ suffix in
    match s with
    | [] => name_loop suffix n' true
    | _ => do e <- there s ;;
           if e && checking then do b <- yes_no (s ++ $" already exists overwrite (y/n)? ") ;; if b then ret s else name_loop suffix n' true
           else ret s
    end
  end.
Definition output_name (suffix : str) (checking : bool) : io str := turns (fun n => name_loop suffix n checking).
(** lines 89-98 *)
Fixpoint tag_from (tags : list str) (nmode : bool) (ls : list str) : option (option str) * list str :=
  match ls with
  | [] => (None, [])
  | s :: r => if mem (upper s) tags then (Some (Some (upper s)), r) else if nmode && eqb (upper s) [] then (Some None, r) else tag_from tags nmode r
  end.
Variable tags : list str.              (* inRC.tags() *)
(** None is False *)
Definition tag_or_blank (nmode : bool) : io (option str) := fun w =>
  match tag_from tags nmode (typed w) with
  | (Some t, r) => (Ret t, World r (files w) (events w))
  | (None, r) => (Err EOFError, World r (files w) (events w))
  end.
(** without nMode False is never returned *)
Definition tag : io str := do t <- tag_or_blank false ;; match t with Some x => ret x | None => err TypeError end.
(** lines 100-106 *)
Variable to_number : str -> option ext.
Fixpoint number_from (ls : list str) : option ext * list str :=
  match ls with [] => (None, []) | s :: r => match to_number s with Some x => (Some x, r) | None => number_from r end end.
Definition number : io ext := fun w =>
  match number_from (typed w) with
  | (Some x, r) => (Ret x, World r (files w) (events w))
  | (None, r) => (Err EOFError, World r (files w) (events w))
  end.

(** ** lines 108-139: the paths that are read *)
Variable absolute : str -> str.        (* os.path.abspath(os.path.expanduser(f)) *)
Fixpoint all_there (fs : list str) (paths : list str) : res (list str) :=
  match paths with
  | [] => Ok []
  | f :: r => if mem (absolute f) fs then let* x := all_there fs r in Ok (absolute f :: x) else Raise TypeError
  end.
Fixpoint paths_from (fs : list str) (ls : list str) : option (list str) * list str :=
  match ls with
  | [] => (None, [])
  | s :: r => let paths := map absolute (split_char 32%N s) in
              if forallb (fun p => mem p fs) paths then (Some paths, r) else paths_from fs r
  end.
Definition get_files : io (list str) := fun w =>
  let done (paths : list str) (r : list str) := (match all_there (files w) paths with Ok l => Ret l | Raise e => Err e end, World r (files w) (events w)) in
  match arg_files with
  | _ :: _ => done arg_files (typed w)
  | [] => match paths_from (files w) (typed w) with
          | (Some paths, r) => done paths r
          | (None, r) => (Err EOFError, World r (files w) (events w))
          end
  end.

(** ** lines 141-211 *)
(** a citation: its journal if it has the attribute; what isJournal and isJournal with checkIfExcluded say, which depends on what was marked before *)
Variable cite : Type.
Variable journal : cite -> option str.
Variable in_db excluded : str -> list event -> cite -> bool.
Variable cites : list cite.
Definition default_db : str := $"manualj9Abbreviations".
(** lines 190-204: marking a journal to be skipped does not use the database that was chosen *)
Fixpoint go_over (db : str) (cs : list cite) : io unit :=
  match cs with
  | [] => ret tt
  | c :: r =>
    match journal c with
    | None => go_over db r
    | Some j => fun w =>
      if in_db db (events w) c then go_over db r w
      else if excluded db (events w) c then go_over db r w
      else (do b <- yes_no ($"add as a journal (y/n)? ") ;; do _ <- note (if b then Marked db j true else Marked default_db j false) ;; go_over db r) w
    end
  end.
Definition what_to_do : io bool :=
  do k <- menu [$"1"; $"2"; $"3"; $"4"; $"5"; $"6"; $"7"] ;;
  if eqb k $"1" then ret true
  else if eqb k $"2" || eqb k $"3" then do f <- output_name $".txt" true ;; do _ <- write RecordsFile f ;; ret (negb (eqb k $"2"))
  else if eqb k $"4" || eqb k $"5" then do f <- output_name $".csv" true ;; do _ <- write TableFile f ;; ret (negb (eqb k $"4"))
  else if eqb k $"6" then do drop <- yes_no $"Write only journals (y/n)? " ;; do f <- output_name $".csv" true ;; do _ <- write CitesFile f ;; ret false
  else do db <- ask ;; do _ <- go_over (if eqb db [] then default_db else db) cites ;; ret false.

(** ** lines 215-250 *)
Inductive request := OneMode (t : str) | TwoMode (t1 t2 : str) | MultiMode (ts : list str) | CitationNet | CoCitation | CoAuthor.
(** the loop of lines 237-239 *)
Fixpoint more_tags (n : nat) : io (list str) :=
  match n with
  | O => err EOFError
  | S n' => do t <- tag_or_blank true ;; match t with Some (x :: s) => do r <- more_tags n' ;; ret ((x :: s) :: r) | _ => ret [] end
  end.
Definition get_request : io request :=
  do k <- menu [$"1"; $"2"; $"3"; $"4"; $"5"; $"6"] ;;
  if eqb k $"1" then do t <- tag ;; ret (OneMode t)
  else if eqb k $"2" then do t1 <- tag ;; do t2 <- tag ;; ret (TwoMode t1 t2)
  else if eqb k $"3" then do t <- tag ;; do r <- turns more_tags ;; ret (MultiMode (t :: r))
  else if eqb k $"4" then ret CitationNet
  else if eqb k $"5" then ret CoCitation
  else ret CoAuthor.
Variable make : request -> res (graph str).
Definition get_network : io (graph str) := do r <- get_request ;; match make r with Ok g => ret g | Raise e => err e end.

(** ** lines 252-283; the defaults of dropEdges and dropNodesByDegree: graphHelpers.py:497, 563 *)
Definition lift (o : out str) : io (graph str) := match o with (g, None) => ret g | (_, Some e) => err e end.
Definition by_edge (lo : ext) (loops : bool) : graph str -> out str := drop_edges lo PInf $"weight" false loops.
Definition by_degree (lo : ext) : graph str -> out str := drop_nodes_by_degree lo PInf true $"weight" true.
Fixpoint thresholds_loop (n : nat) (g : graph str) : io (graph str) :=
  match n with
  | O => err EOFError
  | S n' =>
    do k <- menu [$"0"; $"1"; $"2"; $"3"; $"4"; $"5"; $"6"] ;;
    if eqb k $"0" then ret g
    else if eqb k $"1" then do g' <- lift (by_degree (Fin 1) g) ;; thresholds_loop n' g'
    else if eqb k $"2" then do g' <- lift (by_edge MInf true g) ;; thresholds_loop n' g'
    else if eqb k $"3" then do x <- number ;; do g' <- lift (by_edge x false g) ;; thresholds_loop n' g'
    else if eqb k $"4" then do x <- number ;; do g' <- lift (by_edge x false g) ;; thresholds_loop n' g'
    else if eqb k $"5" then do x <- number ;; do g' <- lift (by_degree x g) ;; thresholds_loop n' g'
    else do x <- number ;; do g' <- lift (by_degree x g) ;; thresholds_loop n' g'
  end.
Definition thresholds (g : graph str) : io (graph str) := turns (fun n => thresholds_loop n g).

(** ** graphHelpers.py:140-165: the names of the two files. os.path.normpath: empty parts and single dots go, two dots take the part before with them *)
Fixpoint norm_parts (abs : bool) (acc : list str) (ps : list str) : list str :=
  match ps with
  | [] => rev acc
  | p :: r =>
    if eqb p [] || eqb p $"." then norm_parts abs acc r
    else if eqb p $".." then match acc with
                             | [] => norm_parts abs (if abs then [] else [p]) r
                             | q :: acc' => if eqb q $".." then norm_parts abs (p :: acc) r else norm_parts abs acc' r
                             end
    else norm_parts abs (p :: acc) r
  end.
(** at most two slashes are kept at the beginning, two only if there are exactly two *)
Definition lead (s : str) : str :=
  match s with
  | c1 :: c2 :: c3 :: _ => if eqb c1 47%N then if eqb c2 47%N && negb (eqb c3 47%N) then $"//" else $"/" else []
  | [c1; c2] => if eqb c1 47%N then if eqb c2 47%N then $"//" else $"/" else []
  | [c1] => if eqb c1 47%N then $"/" else []
  | [] => []
  end.
Definition normpath (s : str) : str :=
  match lead s ++ join $"/" (norm_parts (negb (eqb (lead s) [])) [] (split_char 47%N s)) with [] => $"." | r => r end.
(** the name of a file is put after the last part of the path; a path that is only slashes has an empty last part *)
Definition graph_name (what s : str) : str :=
  let p := normpath s in
  match last (split_char 47%N p) [] with [] => p ++ what ++ $".csv" | _ => p ++ $"_" ++ what ++ $".csv" end.
(** writeGraph with typing = False and suffix = 'csv' *)
Definition write_graph (s : str) (overwrite : bool) : io (res unit) :=
  let e := graph_name $"edgeList" s in
  let n := graph_name $"nodeAttributes" s in
  do te <- there e ;; do tn <- there n ;;
  if negb overwrite && (te || tn) then ret (Raise OSError)
  else do _ <- write EdgeFile e ;; do _ <- write NodeFile n ;; ret (Ok tt).

(** ** lines 285-333; [contour] is whether the module can be imported *)
Variable contour : bool.
Fixpoint graph_out (n : nat) : io unit :=
  match n with
  | O => err EOFError
  | S n' =>
    do f <- output_name [] false ;;
    do r <- write_graph f false ;;
    match r with
    | Ok _ => ret tt
    | Raise _ =>
      match arg_name with
      | Some _ => do _ <- write_graph f true ;; ret tt
      | None => do b <- yes_no $"{}, overwrite (y/n)? " ;; if b then do _ <- write_graph f true ;; ret tt else graph_out n'
      end
    end
  end.
Fixpoint output_loop (n : nat) : io unit :=
  match n with
  | O => err EOFError
  | S n' =>
    do k <- menu ((if contour then [$"0"] else []) ++ [$"1"; $"2"; $"3"; $"4"]) ;;
    if eqb k $"0" then do _ <- note Shown ;; output_loop n'
    else if eqb k $"1" then turns graph_out
    else if eqb k $"2" then do f <- output_name $".csv" true ;; write EdgeFile f
    else if eqb k $"3" then do f <- output_name $".csv" true ;; write NodeFile f
    else do f <- output_name $".graphml" true ;; write GraphmlFile f
  end.

(** ** lines 335-359 *)
Definition session : io unit :=
  do _ <- get_files ;;
  do b <- what_to_do ;;
  if b then do g <- get_network ;; do _ <- thresholds g ;; turns output_loop else ret tt.
(** setup.py:46-47: the exit status is sys.exit(mkCLI()), where mkCLI() gives 1 at its end and the exception if there is one (printed, status 1); sys.exit() gives 0 *)
Definition exit_status (o : outcome unit) : Z := match o with Ret _ => 1 | Quit => 0 | Err _ => 1 end.
End Cli.
