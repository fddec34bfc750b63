(** Words for the statements about directories of grant files. *)
From Coq Require Import List ZArith Bool.
From Coq Require Import String.
From Verif Require Import Base PyStr SeriesSpec GrantModel GrantSpec GrantFileModel GrantFileSpec GrantDirModel.
Import ListNotations.
Local Open Scope list_scope.

(** grants that a set holds once only: of one kind, and with the same identifier, or bad with the same values and error *)
Definition same_grant (g h : grant) : Prop :=
  g_kind g = g_kind h /\ ((g_bad g = false /\ g_bad h = false /\ g_id g = g_id h) \/ (g_bad g = true /\ g_bad h = true /\ map snd (g_data g) = map snd (g_data h) /\ g_err g = g_err h)).
(** the files of a directory that are read, in the order in which the directory is listed *)
Inductive are_read (ext : str) : list dentry -> list gfile -> Prop :=
| read_none : are_read ext [] []
| read_it f es fs : ends_with ext (fname f) -> are_read ext es fs -> are_read ext ((true, f) :: es) (f :: fs)
| other_name b f es fs : ~ ends_with ext (fname f) -> are_read ext es fs -> are_read ext ((b, f) :: es) fs
| no_file f es fs : are_read ext es fs -> are_read ext ((false, f) :: es) fs.
(** what each file gives when it is read alone; None for a file of no known kind, which is all right if no extension is given *)
Definition each_alone (pep479 : bool) (hash : str -> Z) (ext : str) : list gfile -> list (option collected) -> Prop :=
  Forall2 (fun f o => match o with Some c => from_file pep479 hash ext f = Ok c | None => ext = [] /\ from_file pep479 hash ext f = Raise BadInputFile end).
Definition known (os : list (option collected)) : list collected := flat_map (fun o => match o with Some c => [c] | None => [] end) os.
(** [k] has the first of those in [l] that are the same *)
Inductive first_of_each : list grant -> list grant -> Prop :=
| first_nil : first_of_each [] []
| first_new l k g : first_of_each l k -> (forall h, In h k -> ~ same_grant h g) -> first_of_each (l ++ [g]) (k ++ [g])
| first_old l k g h : first_of_each l k -> In h k -> same_grant h g -> first_of_each (l ++ [g]) k.
Definition grants_of (c : collected) : list grant := map m_grant (c_grants c).
Definition nserc_of (c : collected) : list grant := filter (fun g => eqb (g_kind g) NSERCG) (grants_of c).
Definition others_of (c : collected) : list grant := filter (fun g => negb (eqb (g_kind g) NSERCG)) (grants_of c).
(** a grant whose fields are texts, and that has no error *)
Definition plain_grant (g : grant) : Prop := g_bad g = false /\ g_err g = None /\ NoDup (dkeys (g_data g)) /\ forall f v, In (f, v) (g_data g) -> exists s, v = GText s.
(** [gs] has one good grant for each identifier in [given], in the order of first occurrence; its fields have the texts of all grants in [given] with the identifier, in order *)
Definition merged_grants (given gs : list grant) : Prop :=
  Forall2 (fun i g => g_kind g = NSERCG /\ g_id g = i /\ g_bad g = false /\
    forall f, text_of f (g_data g) = merged f (map g_data (filter (fun x => eqb (g_id x) i) given))) (first_seen (map g_id given)) gs.
