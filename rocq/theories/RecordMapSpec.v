(** C99: what the mapping methods of a record show, from what single lookups give. *)
From Coq Require Import String.
From Verif Require Import Base PyStr RecordModel RecordMapModel.
Set Implicit Arguments.

Section Spec.
Context {Raw V : Type}.
(** the record's raw fields in the order of the file, and what R[k] gives for each key *)
Variable fd : dict str Raw.
Variable item : str -> res V.
Variable raw : str -> option Raw.
Variables (untitled : V) (is_none : V -> bool).
(** the tags with their values, up to the first tag that cannot be read *)
Inductive pairs : list str -> list (str * V) -> option exn -> Prop :=
| PNil : pairs [] [] None
| PStop t ts e : item t = Raise e -> pairs (t :: ts) [] (Some e)
| PCons t ts v l x : item t = Ok v -> pairs ts l x -> pairs (t :: ts) ((t, v) :: l) x.
(** R.get(k): None if there is no such key *)
Definition got (k : str) (r : res (option V)) : Prop :=
  match item k with Ok v => r = Ok (Some v) | Raise KeyError => r = Ok None | Raise e => r = Raise e end.
(** the dictionary of R.get for the tags asked for: its keys are these tags, once each in order *)
Definition sub_is (tags : list str) (r : res (dict str (option V))) : Prop :=
  match r with
  | Ok d => (forall k, In k (dkeys d) <-> In k tags) /\ NoDup (dkeys d) /\ forall k v, dget k d = Some v -> got k (Ok v)
  | Raise e => exists before t after, tags = (before ++ t :: after)%list /\ got t (Raise e) /\ forall k, In k before -> exists v, got k (Ok v)
  end.
Definition sub_raw_is (tags : list str) (d : dict str (option Raw)) : Prop :=
  (forall k, In k (dkeys d) <-> In k tags) /\ NoDup (dkeys d) /\ forall k v, dget k d = Some v -> v = raw k.
Definition shows (a : mact) (x : @mshown Raw V) : Prop :=
  match a, x with
  | Tags, MTags l => l = dkeys fd
  | Len, MLen n => n = length (dkeys fd)
  | Items, MItems l e => pairs (dkeys fd) l e
  | Values, MValues vs e => exists l, pairs (dkeys fd) l e /\ vs = map snd l
  | RawItems, MRawItems l => l = fd
  | RawValues, MRawValues l => l = map snd fd
  | Sub tags, MSub r => sub_is tags r
  | SubRaw tags, MSubRaw d => sub_raw_is tags d
  | Title, MTitle r => match item $"title" with Ok v => r = Ok v | Raise KeyError => r = Ok untitled | Raise e => r = Raise e end
  | Authors, MAuthors r =>
    match item $"authorsFull" with
    | Ok v => if is_none v then got $"authorsShort" r else r = Ok (Some v)
    | Raise KeyError => got $"authorsShort" r
    | Raise e => r = Raise e
    end
  | _, _ => False
  end.
End Spec.
