(** Model of [Collection] and the ID part of [CollectionWithIDs]
    (metaknowledge/mkCollection.py) and of the way [RecordCollection] is built
    from an iterable (metaknowledge/recordCollection.py).

    A python [set] is a list in the (unspecified) iteration order of the run.
    Membership is python [==]/[hash]: two elements with the same [key] are one
    element, e.g. two Records with the same id (mkRecord.py 90-104, 128-146).
    Both operands of a binary operator are of the same class: the
    [type(self) != type(other)] tests (NotImplemented) are not modelled. *)
From Coq Require Import String.
From Verif Require Import Base.
Set Implicit Arguments.

(** What a collection sees of an object: its equality key (mkRecord.py 90-104,
    128-146: the hash of the id), [type(elem).__name__], whether it passes
    [isinstance(elem, self._allowedTypes)], its [id] and its [bad] flag. *)
Class Elem (E K : Type) := {
  key : E -> K;
  tyname : E -> str;
  allowed : E -> bool;
  ident : E -> str;
  ebad : E -> bool }.

Section Coll.
Context {E K : Type} {HK : EqDec K} {EL : Elem E K}.

(** ** python sets of objects *)
(* x == y for elements *)
Definition same (x y : E) : bool := eqb (key x) (key y).
(* x in s *)
Definition smem (x : E) (s : list E) : bool := existsb (same x) s.
(* s.add(x): an equal element already present is kept *)
Definition sadd (x : E) (s : list E) : list E := if smem x s then s else s ++ [x].
(* s.discard(x) *)
Definition sdiscard (x : E) (s : list E) : list E := filter (fun y => negb (same x y)) s.
(* set(iterable) *)
Definition set_of (l : list E) : list E := fold_left (fun s x => sadd x s) l [].
(* a | b and a |= b *)
Definition sor (a b : list E) : list E := fold_left (fun s x => sadd x s) b a.
(* a & b and a &= b: CPython walks the smaller operand and keeps its objects *)
Definition sand (a b : list E) : list E :=
  if length a <? length b then filter (fun x => smem x b) a else filter (fun x => smem x a) b.
(* a - b and a -= b *)
Definition ssub (a b : list E) : list E := filter (fun x => negb (smem x b)) a.
(* a ^ b and a ^= b *)
Definition sxor (a b : list E) : list E := ssub a b ++ ssub b a.
(* a == b: same size and every element of a in b *)
Definition seq_set (a b : list E) : bool :=
  (length a =? length b) && forallb (fun x => smem x b) a.

(** sets of type names *)
Definition tadd (t : str) (s : list str) : list str := if mem t s then s else s ++ [t].
Definition tor (a b : list str) : list str := fold_left (fun s t => tadd t s) b a.

(** ** The object: mkCollection.py 73-81 (the set of allowed types is [allowed]) *)
Record coll := mkColl {
  members : list E;            (* _collection *)
  ctypes : list str;           (* _collectedTypes *)
  cname : str;                 (* name *)
  cbad : bool;                 (* bad *)
  cerrors : dict str str }.    (* errors: file name -> error *)

Definition set_members (c : coll) (m : list E) : coll :=
  mkColl m (ctypes c) (cname c) (cbad c) (cerrors c).

(** An iterable given to the constructor: a list or a set can be walked again,
    a generator only once. *)
Inductive iterable := Reiterable (l : list E) | OneShot (l : list E).
Definition first_walk (it : iterable) : list E := match it with Reiterable l | OneShot l => l end.
Definition second_walk (it : iterable) : list E := match it with Reiterable l => l | OneShot _ => [] end.

(** recordCollection.py 71-81, 152-160: RecordCollection(inCollection, name = ...)
    for an iterable that is not a str.  The types seen are not collected
    (recordTypes stays the empty set of line 81). *)
Definition from_iterable (it : iterable) (name : str) : res coll :=
  if forallb allowed (first_walk it) then
    Ok (mkColl (set_of (second_walk it)) [] name false [])
  else Raise RCTypeError.

(** recordCollection.py 84-88: RecordCollection(name = ...) *)
Definition empty_coll (name : str) : coll :=
  mkColl [] [] (match name with [] => $"Empty" | _ => name end) false [].

(** ** Observers *)
(* 90-94 *)
Definition coll_le (a b : coll) : bool := length (members a) <=? length (members b).
(* 96-100 *)
Definition coll_ge (a b : coll) : bool := length (members b) <=? length (members a).
(* 102-106 *)
Definition coll_eq (a b : coll) : bool := seq_set (members a) (members b).
(* 108-109 *)
Definition coll_len (a : coll) : nat := length (members a).
(* 115-116 *)
Definition coll_contains (x : E) (a : coll) : bool := smem x (members a).
(* 295-307 *)
Definition coll_peek (a : coll) : option E :=
  match members a with [] => None | x :: _ => Some x end.
(* 85-86, with [h] the hash of the elements, which python computes from the same data as their
   equality (mkRecord.py 90-104, 146), and [hi] the hash of an int *)
Definition coll_hash (h : K -> Z) (hi : Z -> Z) (a : coll) : Z :=
  hi (fold_right Z.add 0%Z (map (fun x => h (key x)) (members a))).

(** ** Mutators of one collection *)
(* 120-133 *)
Definition coll_add (x : E) (a : coll) : res coll :=
  if allowed x then
    Ok (mkColl (sadd x (members a)) (tadd (tyname x) (ctypes a)) (cname a) (cbad a) (cerrors a))
  else Raise CollectionTypeError.
(* 135-145 *)
Definition coll_discard (x : E) (a : coll) : coll := set_members a (sdiscard x (members a)).
(* 147-159 *)
Definition coll_remove (x : E) (a : coll) : res coll :=
  if smem x (members a) then Ok (set_members a (sdiscard x (members a))) else Raise KeyError.
(* 161-166 *)
Definition coll_clear (a : coll) : coll := mkColl [] (ctypes a) (cname a) false [].
(* 168-180: an arbitrary element, here the first of the (arbitrary) order *)
Definition coll_pop (a : coll) : res (E * coll) :=
  match members a with
  | [] => Raise KeyError
  | x :: m => Ok (x, set_members a m)
  end.

(** ** In-place operators, 182-228: they differ in the set operation and the name *)
Definition inplace (f : list E -> list E -> list E) (opname : str) (a b : coll) : coll :=
  let bad := cbad b || cbad a in
  mkColl (f (members a) (members b)) (tor (ctypes a) (ctypes b))
         (cname a ++ opname ++ cname b)
         (if bad then true else cbad a)
         (if bad then dupdate (cerrors a) (cerrors b) else cerrors a).
(* 182-192 *)
Definition coll_ior := inplace sor $" |= ".
(* 194-204 *)
Definition coll_iand := inplace sand $" &= ".
(* 206-216 *)
Definition coll_ixor := inplace sxor $" ^= ".
(* 218-228 *)
Definition coll_isub := inplace ssub $" -= ".

(** ** Binary operators, 233-271: a new collection is constructed from the set *)
Definition binary (f : list E -> list E -> list E) (opname : str) (a b : coll) : res coll :=
  let* r := from_iterable (Reiterable (f (members a) (members b))) (cname a ++ opname ++ cname b) in
  Ok (if cbad b || cbad a
      then mkColl (members r) (ctypes r) (cname r) true (dupdate (cerrors r) (cerrors b))
      else r).
(* 233-241 *)
Definition coll_or := binary sor $" | ".
(* 243-251 *)
Definition coll_and := binary sand $" & ".
(* 253-261 *)
Definition coll_sub := binary ssub $" - ".
(* 263-271 *)
Definition coll_xor := binary sxor $" ^ ".

(** recordCollection.py 179-190: a + b *)
Fixpoint add_all (l : list E) (a : coll) : res coll :=
  match l with
  | [] => Ok a
  | x :: l' => let* a' := coll_add x a in add_all l' a'
  end.
Definition coll_plus (a b : coll) : res coll :=
  let* c := add_all (members a) (empty_coll (cname a ++ $" " ++ cname b)) in
  add_all (members b) c.

(** ** chunk and split *)
(* 'Chunk-{}-of-{}'.format(len(chunks), self.name) *)
Definition chunk_name (i : nat) (name : str) : str :=
  $"Chunk-" ++ dec_nat i ++ $"-of-" ++ name.
(* chunks[-1].add(i) *)
Fixpoint add_last (x : E) (cs : list coll) : res (list coll) :=
  match cs with
  | [] => Raise IndexError
  | [c] => let* c' := coll_add x c in Ok [c']
  | c :: cs' => let* r := add_last x cs' in Ok (c :: r)
  end.
(* 327-334: [l] is what is left to iterate, [cur] is currentSize *)
Fixpoint chunk_loop (maxSize cur : Z) (name : str) (l : list E) (chunks : list coll) : res (list coll) :=
  match l with
  | [] => Ok chunks
  | i :: l' =>
    if (maxSize <=? cur)%Z then
      let* c := from_iterable (Reiterable [i]) (chunk_name (length chunks) name) in
      chunk_loop maxSize (0 + 1) name l' (chunks ++ [c])
    else
      let* chunks' := add_last i chunks in
      chunk_loop maxSize (cur + 1) name l' chunks'
  end.
(* 309-334 *)
Definition coll_chunk (maxSize : Z) (a : coll) : res (list coll) :=
  chunk_loop maxSize (maxSize + 1) (cname a) (members a) [].
(* 353-364: self.pop() walks the members in pop order [l]; its KeyError ends the loop *)
Fixpoint split_loop (maxSize cur : Z) (a : coll) (l : list E) (chunks : list coll) : res (list coll * coll) :=
  match l with
  | [] =>
    let a' := coll_clear a in
    Ok (chunks, mkColl (members a') (ctypes a') ($"Emptied-" ++ cname a') (cbad a') (cerrors a'))
  | i :: l' =>
    if (maxSize <=? cur)%Z then
      let* c := from_iterable (Reiterable [i]) (chunk_name (length chunks) (cname a)) in
      split_loop maxSize (0 + 1) (set_members a l') l' (chunks ++ [c])
    else
      let* chunks' := add_last i chunks in
      split_loop maxSize (cur + 1) (set_members a l') l' chunks'
  end.
(* 336-364 *)
Definition coll_split (maxSize : Z) (a : coll) : res (list coll * coll) :=
  split_loop maxSize (maxSize + 1) a (members a) [].

(** ** CollectionWithIDs *)
(* 420-438 *)
Fixpoint contains_id (i : str) (l : list E) : bool :=
  match l with
  | [] => false
  | x :: l' => if eqb (ident x) i then true else contains_id i l'
  end.
Definition coll_containsID (i : str) (a : coll) : bool := contains_id i (members a).
(* 469-487 *)
Fixpoint get_id (i : str) (l : list E) : option E :=
  match l with
  | [] => None
  | x :: l' => if eqb (ident x) i then Some x else get_id i l'
  end.
Definition coll_getID (i : str) (a : coll) : option E := get_id i (members a).
(* 440-452: the first hit of the iteration is discarded and the loop left *)
Definition coll_discardID (i : str) (a : coll) : coll :=
  match get_id i (members a) with
  | Some x => set_members a (sdiscard x (members a))
  | None => a
  end.
(* 454-467 *)
Definition coll_removeID (i : str) (a : coll) : res coll :=
  match get_id i (members a) with
  | Some x => if smem x (members a) then Ok (set_members a (sdiscard x (members a))) else Raise KeyError
  | None => Raise KeyError
  end.
(* 489-502 *)
Definition coll_badEntries (a : coll) : res coll :=
  from_iterable (Reiterable (fold_left (fun s x => if ebad x then sadd x s else s) (members a) [])) [].
(* 504-509 *)
Definition coll_dropBadEntries (a : coll) : coll :=
  mkColl (set_of (filter (fun x => negb (ebad x)) (members a))) (ctypes a) (cname a) false [].

(** ** Histories *)
Inductive op :=
| OAdd (x : E) | ODiscard (x : E) | ORemove (x : E) | OPop | OClear
| OIor (b : coll) | OIand (b : coll) | OIxor (b : coll) | OIsub (b : coll)
| ODiscardID (i : str) | ORemoveID (i : str) | ODropBad.
(* what the caller sees: nothing, an object, or an exception *)
Inductive outcome := Done | Got (x : E) | Failed (e : exn).

Definition run_op (o : op) (a : coll) : outcome * coll :=
  match o with
  | OAdd x => match coll_add x a with Ok a' => (Done, a') | Raise e => (Failed e, a) end
  | ODiscard x => (Done, coll_discard x a)
  | ORemove x => match coll_remove x a with Ok a' => (Done, a') | Raise e => (Failed e, a) end
  | OPop => match coll_pop a with Ok (x, a') => (Got x, a') | Raise e => (Failed e, a) end
  | OClear => (Done, coll_clear a)
  | OIor b => (Done, coll_ior a b)
  | OIand b => (Done, coll_iand a b)
  | OIxor b => (Done, coll_ixor a b)
  | OIsub b => (Done, coll_isub a b)
  | ODiscardID i => (Done, coll_discardID i a)
  | ORemoveID i => match coll_removeID i a with Ok a' => (Done, a') | Raise e => (Failed e, a) end
  | ODropBad => (Done, coll_dropBadEntries a)
  end.

(** The iteration order of a python set may be anything at any moment: before
    every operation the members may be permuted arbitrarily. *)
Inductive runs : coll -> list (op * outcome) -> coll -> Prop :=
| runs_nil c : runs c [] c
| runs_step c l o out c1 h c2 :
    Permutation (members c) l ->
    run_op o (set_members c l) = (out, c1) ->
    runs c1 h c2 ->
    runs c ((o, out) :: h) c2.
End Coll.
Arguments coll E : clear implicits.
Arguments op E : clear implicits.
Arguments outcome E : clear implicits.
Arguments iterable E : clear implicits.
