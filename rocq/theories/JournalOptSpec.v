(** What the chosen databases say of an abbreviation. *)
From Coq Require Import String.
From Verif Require Import Base PyStr JournalSpec.
Set Implicit Arguments.

Definition file (n : str) (d : dict str (dict str str)) : dict str str := match dget n d with Some x => x | None => [] end.
(** the text of [j]: from both databases the manual one comes first; from any other choice there is none *)
Definition chosen (returnDict dbname manualDB : str) (d : dict str (dict str str)) (j : str) : option str :=
  if eqb returnDict $"both" then said (file dbname d) (dget manualDB d) j
  else if eqb returnDict $"WOS" then dget j (file dbname d)
  else if eqb returnDict $"manual" then dget j (file manualDB d)
  else None.
(** the full name; none of the empty abbreviation, of an unknown one, or when the name is empty *)
Definition name_by (said : str -> option str) (j : option str) : option str :=
  match j with
  | Some (x :: t) => match said (x :: t) with Some text => match first_name text with [] => None | n => Some n end | None => None end
  | _ => None
  end.
(** an abbreviation is excluded when it is known and its name is empty *)
Definition excluded_by (said : str -> option str) (j : option str) : bool :=
  match j with
  | Some (x :: t) => match said (x :: t) with Some text => match first_name text with [] => true | _ => false end | None => false end
  | _ => false
  end.
(** the databases that the choice needs are there *)
Definition there (returnDict dbname manualDB : str) (d : dict str (dict str str)) : Prop :=
  (returnDict = $"both" \/ returnDict = $"WOS" -> file dbname d <> []) /\ (returnDict = $"manual" -> dget manualDB d <> None).
Definition files_ok (d : dict str (dict str str)) : Prop := forall n db, dget n d = Some db -> NoDup (dkeys db).
