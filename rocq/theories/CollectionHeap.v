(** The collection methods at the level of python references: an object holds
    references to a set, a set of type names and an error dict; methods mutate
    those in place or rebind the attribute to a new one, exactly as the source
    lines cited do.  Used for the properties about independence of collections
    (aliasing), which the value-level model of CollectionModel.v cannot see. *)
From Coq Require Import String.
From Verif Require Import Base CollectionModel.
Set Implicit Arguments.

Section Heap.
Context {E K : Type} {HK : EqDec K} {EL : Elem E K}.

(* mkCollection.py 75-81 *)
Record obj := mkObj {
  o_set : nat;      (* self._collection *)
  o_types : nat;    (* self._collectedTypes *)
  o_errs : nat;     (* self.errors *)
  o_name : str;     (* self.name: immutable str *)
  o_bad : bool }.   (* self.bad *)

Record heap := mkHeap {
  sets : nat -> list E;
  tsets : nat -> list str;
  dicts : nat -> dict str str;
  nxt : nat;                      (* next unused reference *)
  objs : list obj }.              (* the collections the program holds *)

Definition fupd {A} (f : nat -> A) (n : nat) (a : A) : nat -> A :=
  fun m => if Nat.eqb m n then a else f m.
Fixpoint lupd {A} (l : list A) (n : nat) (a : A) : list A :=
  match l, n with
  | [], _ => []
  | _ :: l', O => a :: l'
  | x :: l', S n' => x :: lupd l' n' a
  end.

(* a new set object *)
Definition new_set (s : list E) (h : heap) : nat * heap :=
  (nxt h, mkHeap (fupd (sets h) (nxt h) s) (tsets h) (dicts h) (S (nxt h)) (objs h)).
Definition new_tset (s : list str) (h : heap) : nat * heap :=
  (nxt h, mkHeap (sets h) (fupd (tsets h) (nxt h) s) (dicts h) (S (nxt h)) (objs h)).
Definition new_dict (d : dict str str) (h : heap) : nat * heap :=
  (nxt h, mkHeap (sets h) (tsets h) (fupd (dicts h) (nxt h) d) (S (nxt h)) (objs h)).
(* mutation of an existing one *)
Definition put_set (r : nat) (s : list E) (h : heap) : heap :=
  mkHeap (fupd (sets h) r s) (tsets h) (dicts h) (nxt h) (objs h).
Definition put_tset (r : nat) (s : list str) (h : heap) : heap :=
  mkHeap (sets h) (fupd (tsets h) r s) (dicts h) (nxt h) (objs h).
Definition put_dict (r : nat) (d : dict str str) (h : heap) : heap :=
  mkHeap (sets h) (tsets h) (fupd (dicts h) r d) (nxt h) (objs h).
(* rebinding attributes of object i / a new object *)
Definition put_obj (i : nat) (o : obj) (h : heap) : heap :=
  mkHeap (sets h) (tsets h) (dicts h) (nxt h) (lupd (objs h) i o).
Definition push_obj (o : obj) (h : heap) : heap :=
  mkHeap (sets h) (tsets h) (dicts h) (nxt h) (objs h ++ [o]).

(** what the program can see of an object *)
Definition view (h : heap) (o : obj) : coll E :=
  mkColl (sets h (o_set o)) (tsets h (o_types o)) (o_name o) (o_bad o) (dicts h (o_errs o)).
Definition views (h : heap) : list (coll E) := map (view h) (objs h).

(** recordCollection.py 71-81, 152-160: set(inCollection), a new empty set, a new dict *)
Definition h_new (it : iterable E) (name : str) (h : heap) : res heap :=
  if forallb allowed (first_walk it) then
    let (s, h1) := new_set (set_of (second_walk it)) h in
    let (t, h2) := new_tset [] h1 in
    let (e, h3) := new_dict [] h2 in
    Ok (push_obj (mkObj s t e name false) h3)
  else Raise RCTypeError.

(** mkCollection.py 288-293; note that line 290 gives a new type-name set to [self], not to the copy *)
Definition h_copy (i : nat) (o : obj) (h : heap) : heap :=
  let (s, h1) := new_set (sets h (o_set o)) h in                       (* 289 *)
  let (t, h2) := new_tset (tsets h1 (o_types o)) h1 in                 (* 290 *)
  let h3 := put_obj i (mkObj (o_set o) t (o_errs o) (o_name o) (o_bad o)) h2 in
  let (e, h4) := new_dict (dicts h3 (o_errs o)) h3 in                  (* 292 *)
  push_obj (mkObj s (o_types o) e (o_name o) (o_bad o)) h4.            (* 288, 293 *)

(* 129-133 *)
Definition h_add (o : obj) (x : E) (h : heap) : res heap :=
  if allowed x then
    let h1 := put_set (o_set o) (sadd x (sets h (o_set o))) h in
    Ok (put_tset (o_types o) (tadd (tyname x) (tsets h1 (o_types o))) h1)
  else Raise CollectionTypeError.
(* 145 *)
Definition h_discard (o : obj) (x : E) (h : heap) : heap :=
  put_set (o_set o) (sdiscard x (sets h (o_set o))) h.
(* 164-166 *)
Definition h_clear (i : nat) (o : obj) (h : heap) : heap :=
  let (e, h1) := new_dict [] h in
  let h2 := put_obj i (mkObj (o_set o) (o_types o) e (o_name o) false) h1 in
  put_set (o_set o) [] h2.
(* 507-509 *)
Definition h_dropBad (i : nat) (o : obj) (h : heap) : heap :=
  let (s, h1) := new_set (set_of (filter (fun x => negb (ebad x)) (sets h (o_set o)))) h in
  let (e, h2) := new_dict [] h1 in
  put_obj i (mkObj s (o_types o) e (o_name o) false) h2.
(* 186-192 and the three siblings *)
Definition h_inplace (f : list E -> list E -> list E) (nm : str) (i : nat) (o p : obj) (h : heap) : heap :=
  let h1 := put_set (o_set o) (f (sets h (o_set o)) (sets h (o_set p))) h in
  let h2 := put_tset (o_types o) (tor (tsets h1 (o_types o)) (tsets h1 (o_types p))) h1 in
  let name := o_name o ++ nm ++ o_name p in
  if o_bad p || o_bad o then
    let h3 := put_obj i (mkObj (o_set o) (o_types o) (o_errs o) name true) h2 in
    put_dict (o_errs o) (dupdate (dicts h3 (o_errs o)) (dicts h3 (o_errs p))) h3
  else put_obj i (mkObj (o_set o) (o_types o) (o_errs o) name (o_bad o)) h2.
(* 237-241 and the three siblings *)
Definition h_binary (f : list E -> list E -> list E) (nm : str) (o p : obj) (h : heap) : res heap :=
  let* h1 := h_new (Reiterable (f (sets h (o_set o)) (sets h (o_set p)))) (o_name o ++ nm ++ o_name p) h in
  match nth_error (objs h1) (length (objs h)) with
  | None => Raise NameError
  | Some r =>
    if o_bad p || o_bad o then
      let h2 := put_obj (length (objs h)) (mkObj (o_set r) (o_types r) (o_errs r) (o_name r) true) h1 in
      Ok (put_dict (o_errs r) (dupdate (dicts h2 (o_errs r)) (dicts h2 (o_errs p))) h2)
    else Ok h1
  end.

(** A program holding any number of collections.  Object numbers out of range are a NameError. *)
Inductive setop := SOr | SAnd | SXor | SSub.
Definition fun_of (s : setop) : list E -> list E -> list E :=
  match s with SOr => sor | SAnd => sand | SXor => sxor | SSub => ssub end.
Definition iname (s : setop) : str :=
  match s with SOr => $" |= " | SAnd => $" &= " | SXor => $" ^= " | SSub => $" -= " end.
Definition bname (s : setop) : str :=
  match s with SOr => $" | " | SAnd => $" & " | SXor => $" ^ " | SSub => $" - " end.
Inductive cmd :=
| CNew (l : list E) (name : str)
| CCopy (i : nat)
| CAdd (i : nat) (x : E)
| CDiscard (i : nat) (x : E)
| CClear (i : nat)
| CDropBad (i : nat)
| CInplace (s : setop) (i j : nat)
| CBinary (s : setop) (i j : nat).

Definition exec (c : cmd) (h : heap) : res heap :=
  match c with
  | CNew l name => h_new (Reiterable l) name h
  | CCopy i => match nth_error (objs h) i with Some o => Ok (h_copy i o h) | None => Raise NameError end
  | CAdd i x => match nth_error (objs h) i with Some o => h_add o x h | None => Raise NameError end
  | CDiscard i x => match nth_error (objs h) i with Some o => Ok (h_discard o x h) | None => Raise NameError end
  | CClear i => match nth_error (objs h) i with Some o => Ok (h_clear i o h) | None => Raise NameError end
  | CDropBad i => match nth_error (objs h) i with Some o => Ok (h_dropBad i o h) | None => Raise NameError end
  | CInplace s i j =>
    match nth_error (objs h) i, nth_error (objs h) j with
    | Some o, Some p => Ok (h_inplace (fun_of s) (iname s) i o p h)
    | _, _ => Raise NameError
    end
  | CBinary s i j =>
    match nth_error (objs h) i, nth_error (objs h) j with
    | Some o, Some p => h_binary (fun_of s) (bname s) o p h
    | _, _ => Raise NameError
    end
  end.
(* an exception is caught by the caller; the methods above raise before changing anything *)
Definition exec' (c : cmd) (h : heap) : heap := match exec c h with Ok h' => h' | Raise _ => h end.
Definition run (cs : list cmd) (h : heap) : heap := fold_left (fun h c => exec' c h) cs h.

Definition heap0 : heap := mkHeap (fun _ => []) (fun _ => []) (fun _ => []) 0 [].

(** The same program over values: collections cannot share anything. *)
Definition vexec (c : cmd) (vs : list (coll E)) : res (list (coll E)) :=
  match c with
  | CNew l name => let* r := from_iterable (Reiterable l) name in Ok (vs ++ [r])
  | CCopy i => match nth_error vs i with Some v => Ok (vs ++ [v]) | None => Raise NameError end
  | CAdd i x => match nth_error vs i with Some v => let* v' := coll_add x v in Ok (lupd vs i v') | None => Raise NameError end
  | CDiscard i x => match nth_error vs i with Some v => Ok (lupd vs i (coll_discard x v)) | None => Raise NameError end
  | CClear i => match nth_error vs i with Some v => Ok (lupd vs i (coll_clear v)) | None => Raise NameError end
  | CDropBad i => match nth_error vs i with Some v => Ok (lupd vs i (coll_dropBadEntries v)) | None => Raise NameError end
  | CInplace s i j =>
    match nth_error vs i, nth_error vs j with
    | Some v, Some w => Ok (lupd vs i (inplace (fun_of s) (iname s) v w))
    | _, _ => Raise NameError
    end
  | CBinary s i j =>
    match nth_error vs i, nth_error vs j with
    | Some v, Some w => let* r := binary (fun_of s) (bname s) v w in Ok (vs ++ [r])
    | _, _ => Raise NameError
    end
  end.
Definition vexec' (c : cmd) (vs : list (coll E)) : list (coll E) :=
  match vexec c vs with Ok vs' => vs' | Raise _ => vs end.
Definition vrun (cs : list cmd) (vs : list (coll E)) : list (coll E) := fold_left (fun vs c => vexec' c vs) cs vs.

(** the objects a command may change *)
Definition targets (c : cmd) : list nat :=
  match c with
  | CAdd i _ | CDiscard i _ | CClear i | CDropBad i | CInplace _ i _ => [i]
  | CNew _ _ | CCopy _ | CBinary _ _ _ => []
  end.
End Heap.
Arguments heap E : clear implicits.
Arguments cmd E : clear implicits.
