(** Specification for diffusion.py (C37, C38, C58): who cites what. *)
From Coq Require Import String.
From Verif Require Import Base RecordView Nx NetModel SeriesSpec NetSpec DiffusionModel.
Set Implicit Arguments.

Section Spec.
Context {V C E : Type} `{EqDec V} `{EqDec C} `{EqDec E}.
Variable truthy : V -> bool.
(** a record takes part if it has a value that is not empty *)
Definition present (r : drec V C E) : bool :=
  match d_id r with None => false | Some (Many []) => false | Some (Many _) => true | Some (One v) => truthy v end.
(** the reference list of a target *)
Definition refs (t : drec V C E) : list C := match d_cites t with Some l => l | None => [] end.
(** the citations naming a source *)
Definition names (all : bool) (s : drec V C E) : list C := if all then d_all s else [d_first s].
(** the source a citation is taken to name: the last one of the collection that takes part and is named so *)
Definition cited (all : bool) (src : list (drec V C E)) (c : C) : option (drec V C E) :=
  find (fun s => present s && mem c (names all s)) (rev src).
(** no citation names two sources with different values *)
Definition unambiguous (all : bool) (src : list (drec V C E)) : Prop :=
  forall s s' c, In s src -> In s' src -> present s = true -> present s' = true ->
    In c (names all s) -> In c (names all s') -> d_id s = d_id s'.
(** the type asked for is a list for all records, or for none *)
Definition lists_only (src : list (drec V C E)) : Prop := forall s f, In s src -> d_id s = Some f -> exists l, f = Many l.
Definition lone_only (src : list (drec V C E)) : Prop := forall s f, In s src -> d_id s = Some f -> exists v, f = One v.
(** the entries of a record's value *)
Definition entries_of (r : drec V C E) : list V := match d_id r with Some (Many l) => l | Some (One v) => [v] | None => [] end.
(** how often source value [v] is cited in [t]: each reference counts once for each time [v] is in the cited source *)
Definition cited_in (all : bool) (src : list (drec V C E)) (v : V) (t : drec V C E) : nat :=
  total (fun c => match cited all src c with Some s => count v (entries_of s) | None => 0 end) (refs t).
(** how often the extra value [e] is there *)
Definition extra_in (emap : E -> E) (e : E) (t : drec V C E) : nat :=
  count e (map emap (match d_extra t with None => [] | Some (One x) => [x] | Some (Many l) => l end)).
(** what is read from the result *)
Definition total_for (d : dict (fval V) (dict (option E) nat)) (v : V) : option nat :=
  match dget (One v) d with Some cs => dget None cs | None => None end.
Definition extra_for (d : dict (fval V) (dict (option E) nat)) (v : V) (e : E) : nat :=
  match dget (One v) d with Some cs => match dget (Some e) cs with Some n => n | None => 0 end | None => 0 end.

(** what iterating a record's value gives *)
Variable letters : V -> option (list V).
Definition parts (r : drec V C E) : list V :=
  if present r then match d_id r with Some (Many l) => l | Some (One v) => match letters v with Some l => l | None => [] end | None => [] end else [].
Definition iterable (rs : list (drec V C E)) : Prop := forall r v, In r rs -> d_id r = Some (One v) -> truthy v = true -> letters v <> None.
(** the number of times target part [v] cites source part [u] *)
Definition citings (src : list (drec V C E)) (tgt : list (drec V C E)) (u v : V) : nat :=
  total (fun t => count v (parts t) * total (fun c => match cited false src c with Some s => count u (parts s) | None => 0 end) (refs t)) tgt.
End Spec.
