(** Records as mappings: metaknowledge/mkRecord.py 114-121 (__iter__, __len__), 402-443 (values, items, on top of collections.abc.Mapping),
    533-545 (title, authors), 591-613 (subDict), on top of the lookups of RecordModel.v. *)
From Coq Require Import String.
From Verif Require Import Base PyStr RecordModel.
Set Implicit Arguments.

Section Map.
Context {Raw V : Type}.
Variable cl : rclass Raw V.
Variable fd : dict str Raw.
(** "Untitled record" as a value, and whether a value is None *)
Variable untitled : V.
Variable is_none : V -> bool.
(** collections.abc.ItemsView: for key in R: yield (key, R[key]); what is yielded and the exception that ends it *)
Fixpoint walk (n : nat) (tags : list str) (c : dict str V) : option (list (str * V) * option exn * dict str V) :=
  match tags with
  | [] => Some ([], None, c)
  | t :: ts =>
    match getitem cl fd n t c with
    | Some (Ok v, c') => match walk n ts c' with Some (l, e, c'') => Some ((t, v) :: l, e, c'') | None => None end
    | Some (Raise e, c') => Some ([], Some e, c')
    | None => None
    end
  end.
(** mkRecord.py:609-613 (subDict); None stands for python's None *)
Fixpoint sub_dict (n : nat) (tags : list str) (d : dict str (option V)) (c : dict str V) : option (res (dict str (option V)) * dict str V) :=
  match tags with
  | [] => Some (Ok d, c)
  | t :: ts =>
    match get cl fd n t c with
    | Some (Ok v, c') => sub_dict n ts (dset t v d) c'
    | Some (Raise e, c') => Some (Raise e, c')
    | None => None
    end
  end.
Definition sub_raw (tags : list str) : dict str (option Raw) := fold_left (fun d t => dset t (get_raw cl fd t) d) tags [].
(** mkRecord.py:533-535 *)
Definition title_of (n : nat) (c : dict str V) : option (res V * dict str V) :=
  match get cl fd n $"title" c with
  | Some (Ok (Some v), c') => Some (Ok v, c')
  | Some (Ok None, c') => Some (Ok untitled, c')
  | Some (Raise e, c') => Some (Raise e, c')
  | None => None
  end.
(** mkRecord.py:537-543 *)
Definition authors_of (n : nat) (c : dict str V) : option (res (option V) * dict str V) :=
  match get cl fd n $"authorsFull" c with
  | Some (Ok a, c') => if match a with None => true | Some v => is_none v end then get cl fd n $"authorsShort" c' else Some (Ok a, c')
  | Some (Raise e, c') => Some (Raise e, c')
  | None => None
  end.

(** What a user can do: the lookups of RecordModel.v, list(R), len(R), list(R.items()), list(R.values()), the same with raw = True, R.subDict, R.title, R.authors *)
Inductive mact := One (a : act) | Tags | Len | Items | Values | RawItems | RawValues | Sub (tags : list str) | SubRaw (tags : list str) | Title | Authors.
Inductive mshown := MOne (x : @shown Raw V) | MTags (l : list str) | MLen (n : nat) | MItems (l : list (str * V)) (e : option exn) | MValues (l : list V) (e : option exn)
  | MRawItems (l : list (str * Raw)) | MRawValues (l : list Raw) | MSub (r : res (dict str (option V))) | MSubRaw (d : dict str (option Raw)) | MTitle (r : res V) | MAuthors (r : res (option V)).
Definition mperform (n : nat) (a : mact) (c : dict str V) : option (mshown * dict str V) :=
  match a with
  | One a => match perform cl fd n a c with Some (x, c') => Some (MOne x, c') | None => None end
  | Tags => Some (MTags (dkeys fd), c)
  | Len => Some (MLen (length fd), c)
  | Items => match walk n (dkeys fd) c with Some (l, e, c') => Some (MItems l e, c') | None => None end
  | Values => match walk n (dkeys fd) c with Some (l, e, c') => Some (MValues (map snd l) e, c') | None => None end
  | RawItems => Some (MRawItems fd, c)
  | RawValues => Some (MRawValues (dvals fd), c)
  | Sub tags => match sub_dict n tags [] c with Some (r, c') => Some (MSub r, c') | None => None end
  | SubRaw tags => Some (MSubRaw (sub_raw tags), c)
  | Title => match title_of n c with Some (r, c') => Some (MTitle r, c') | None => None end
  | Authors => match authors_of n c with Some (r, c') => Some (MAuthors r, c') | None => None end
  end.
Fixpoint mperform_all (n : nat) (l : list mact) (c : dict str V) : option (list mshown) :=
  match l with
  | [] => Some []
  | a :: l' => match mperform n a c with
               | Some (x, c') => match mperform_all n l' c' with Some xs => Some (x :: xs) | None => None end
               | None => None
               end
  end.
End Map.
