(** Model of records as objects: copies of records and grants, and the objects that lookups hand out (mkRecord.py 192-213, 337-363, 389-395, 446-452; grants/baseGrant.py 23-29, 96-101).

    The values of the fields are objects in a heap, a record has a dict of references to them and one to the values it has computed. A caller changes an object it has
    been given by assigning it a new value. Simplifications: the functions of the tags do not raise; a special function reads the raw fields, not the values
    remembered from earlier lookups, and remembers nothing but its own value. *)
From Coq Require Import List ZArith Lia Bool Arith.
From Coq Require Import String.
From Verif Require Import Base TagNames.
Import ListNotations.
Local Open Scope list_scope.

(** what a kind of record defines; a function of a tag gives back the list it is given (None) or makes a new object *)
Record kind (V : Type) := mkKind { altname : str -> option str; func : str -> option (V -> V); special : str -> option (dict str V -> option V); remembers : bool }.
Arguments mkKind {V}. Arguments altname {V}. Arguments func {V}. Arguments special {V}. Arguments remembers {V}.
Record obj := mkObj { fields : dict str nat; computed : dict str nat }.
(** the heap, the records, and what each call so far has returned *)
Record world (V : Type) := mkWorld { heap : list V; objs : list obj; given : list (option nat) }.
Arguments mkWorld {V}. Arguments heap {V}. Arguments objs {V}. Arguments given {V}.
Inductive call (V : Type) :=
| Copy (r : nat)                      (* r.copy(); the new record is the last one *)
| Get (r : nat) (key : str)           (* r[key] *)
| Raw (r : nat) (key : str)           (* r.get(key, raw = True) *)
| Change (i : nat) (v : V)            (* the object that call number i returned is changed *)
| Store (r : nat) (key : str) (v : V) (* g[key] = v, with a new object *)
| Delete (r : nat) (key : str)        (* del g[key] *)
| Update (r q : nat).                 (* g.update(h) *)
Arguments Copy {V}. Arguments Get {V}. Arguments Raw {V}. Arguments Change {V}. Arguments Store {V}. Arguments Delete {V}. Arguments Update {V}.

Section Copies.
Context {V : Type}.
Variable k : kind V.
Fixpoint put {A} (n : nat) (x : A) (l : list A) : list A :=
  match l, n with [], _ => [] | _ :: l', 0 => x :: l' | y :: l', S n' => y :: put n' x l' end.
(** mkRecord.py:346-349 and 390-393 *)
Definition stands_for (o : obj) (key : str) : option (str * nat) :=
  match dget key (fields o) with
  | Some l => Some (key, l)
  | None => match altname k key with
            | Some a => match dget a (fields o) with Some l => Some (a, l) | None => None end
            | None => None
            end
  end.
(** mkRecord.py:357-360; Record has no memory, mkRecord.py:108-113 *)
Definition remember (key : str) (l : nat) (o : obj) : obj :=
  if remembers k then
    let c := dset key l (computed o) in
    mkObj (fields o) (match altname k key with Some a => dset a l c | None => c end)
  else o.
(** the raw fields *)
Definition contents (w : world V) (o : obj) : dict str V := flat_map (fun e => match nth_error (heap w) (snd e) with Some v => [(fst e, v)] | None => [] end) (fields o).
(** mkRecord.py:337-361 for strings: the object returned, None for KeyError *)
Definition getitem (w : world V) (r : nat) (key : str) : world V * option nat :=
  match nth_error (objs w) r with
  | None => (w, None)
  | Some o =>
    match (if remembers k then dget key (computed o) else None) with
    | Some l => (w, Some l)
    | None =>
      match stands_for o key with
      | Some (t, l) =>
        match func k t with
        | None => (mkWorld (heap w) (put r (remember t l o) (objs w)) (given w), Some l)
        | Some f =>
          match nth_error (heap w) l with
          | Some v => let n := length (heap w) in (mkWorld (heap w ++ [f v]) (put r (remember t n o) (objs w)) (given w), Some n)
          | None => (w, None)
          end
        end
      | None =>
        match special k key with
        | Some f => match f (contents w o) with
                    | Some v => let n := length (heap w) in (mkWorld (heap w ++ [v]) (put r (remember key n o) (objs w)) (given w), Some n)
                    | None => (w, None)
                    end
        | None => (w, None)
        end
      end
    end
  end.
Definition returns (x : world V * option nat) : world V := mkWorld (heap (fst x)) (objs (fst x)) (given (fst x) ++ [snd x]).
Definition step (w : world V) (c : call V) : world V :=
  match c with
  (* copy.copy with __getstate__ and __setstate__, mkRecord.py:192-213 and 446-452: a new dict with the same objects, and no computed values *)
  | Copy r => returns (match nth_error (objs w) r with Some o => mkWorld (heap w) (objs w ++ [mkObj (fields o) []]) (given w) | None => w end, None)
  | Get r key => returns (getitem w r key)
  (* mkRecord.py:389-395 *)
  | Raw r key => returns (w, match nth_error (objs w) r with Some o => option_map snd (stands_for o key) | None => None end)
  | Change i v => returns (match nth_error (given w) i with Some (Some l) => mkWorld (put l v (heap w)) (objs w) (given w) | _ => w end, None)
  (* baseGrant.py:23-29 *)
  | Store r key v => returns (match nth_error (objs w) r with Some o => mkWorld (heap w ++ [v]) (put r (mkObj (dset key (length (heap w)) (fields o)) (computed o)) (objs w)) (given w) | None => w end, None)
  | Delete r key => returns (match nth_error (objs w) r with Some o => mkWorld (heap w) (put r (mkObj (ddel key (fields o)) (computed o)) (objs w)) (given w) | None => w end, None)
  (* baseGrant.py:96-101 *)
  | Update r q => returns (match nth_error (objs w) r, nth_error (objs w) q with Some o, Some p => mkWorld (heap w) (put r (mkObj (dupdate (fields o) (fields p)) (computed o)) (objs w)) (given w) | _, _ => w end, None)
  end.
Definition run (cs : list (call V)) (w : world V) : world V := fold_left step cs w.
(** a record that has just been made *)
Fixpoint numbered (n : nat) (fd : dict str V) : dict str nat := match fd with [] => [] | (t, _) :: fd' => (t, n) :: numbered (S n) fd' end.
Definition fresh (fd : dict str V) : world V := mkWorld (map snd fd) [mkObj (numbered 0 fd) []] [].
(** the value that r[key] shows, and the raw fields *)
Definition shown (w : world V) (r : nat) (key : str) : option V := let (w', l) := getitem w r key in match l with Some n => nth_error (heap w') n | None => None end.
Definition raw_fields (w : world V) (r : nat) : option (dict str V) := option_map (contents w) (nth_error (objs w) r).
End Copies.

(** WOS/tagProcessing/tagFunctions.py:29-48, 71-90, 92-111, 113-132, 134-153, 197-216: the functions that return the list they are given *)
Definition wos_same : list str := [$"authorsFull"; $"editedBy"; $"authorsShort"; $"bookAuthor"; $"bookAuthorFull"; $"editors"].
(** recordWOS.py:96-112; f are the other functions of WOS/tagProcessing/tagFunctions.py:1293-1355, cite makes the citation of the record *)
Definition wos_kind {V} (f : str -> V -> V) (cite : dict str V -> option V) (own_id no_grants : V) : kind V :=
  mkKind wos_alt
    (fun tag => match dget tag wos_tags with Some n => if mem n wos_same then None else Some (f tag) | None => None end)
    (fun key => if eqb key $"selfCitation" then Some cite else if eqb key $"id" then Some (fun _ => Some own_id) else if eqb key $"grants" then Some (fun _ => Some no_grants) else None)
    true.
(** mkRecord.py:108-113 and grants/baseGrant.py: a field is its value *)
Definition grant_kind {V} : kind V := mkKind (fun _ => None) (fun _ => None) (fun _ => None) false.
