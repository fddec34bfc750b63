(** What a collection should do, stated on its visible parts only:
    its members (objects and their equality keys), its type names, name, bad
    flag and errors.  Uses the record fields of the model, the objects'
    attributes and plain logic; none of the model's set functions. *)
From Coq Require Import String.
From Verif Require Import Base CollectionModel.
Set Implicit Arguments.

Section Spec.
Context {E K : Type} {HK : EqDec K} {EL : Elem E K}.

(** the collection has an element equal to one with key [k] *)
Definition Mem (k : K) (c : coll E) : Prop := exists x, In x (members c) /\ key x = k.
(** no element twice *)
Definition Distinct (c : coll E) : Prop := NoDup (map key (members c)).
Definition AllAllowed (c : coll E) : Prop := forall x, In x (members c) -> allowed x = true.
(** what every reachable collection satisfies; errors is a python dict *)
Definition WF (c : coll E) : Prop :=
  Distinct c /\ AllAllowed c /\ NoDup (map fst (cerrors c)) /\ NoDup (ctypes c).

Definition same_objects (c c' : coll E) : Prop := forall y, In y (members c') <-> In y (members c).
Definition same_frame (c c' : coll E) : Prop :=
  ctypes c' = ctypes c /\ cname c' = cname c /\ cbad c' = cbad c /\ cerrors c' = cerrors c.
Definition has_error (c : coll E) (f e : str) : Prop := In (f, e) (cerrors c).

(** bookkeeping of [a op= b] *)
Definition inplace_frame (opname : str) (a b c' : coll E) : Prop :=
  (forall t, In t (ctypes c') <-> In t (ctypes a) \/ In t (ctypes b)) /\
  cname c' = cname a ++ opname ++ cname b /\
  (cbad c' = true <-> cbad a = true \/ cbad b = true) /\
  (cbad a = false -> cbad b = false -> cerrors c' = cerrors a) /\
  (cbad c' = true -> forall f e,
     has_error c' f e <->
     has_error b f e \/ (has_error a f e /\ ~ exists e', has_error b f e')).

(** one operation: [c] before, [c'] after, [out] what the caller sees *)
Definition spec_step (o : op E) (out : outcome E) (c c' : coll E) : Prop :=
  match o with
  | OAdd x =>
      (allowed x = true /\ out = Done /\
       (forall y, In y (members c') <-> In y (members c) \/ (y = x /\ ~ Mem (key x) c)) /\
       (forall t, In t (ctypes c') <-> In t (ctypes c) \/ t = tyname x) /\
       cname c' = cname c /\ cbad c' = cbad c /\ cerrors c' = cerrors c)
      \/ (allowed x = false /\ out = Failed CollectionTypeError /\ same_objects c c' /\ same_frame c c')
  | ODiscard x =>
      out = Done /\ (forall y, In y (members c') <-> In y (members c) /\ key y <> key x) /\ same_frame c c'
  | ORemove x =>
      (Mem (key x) c /\ out = Done /\
       (forall y, In y (members c') <-> In y (members c) /\ key y <> key x) /\ same_frame c c')
      \/ (~ Mem (key x) c /\ out = Failed KeyError /\ same_objects c c' /\ same_frame c c')
  | OPop =>
      (exists x, In x (members c) /\ out = Got x /\
       (forall y, In y (members c') <-> In y (members c) /\ key y <> key x) /\ same_frame c c')
      \/ ((forall k, ~ Mem k c) /\ out = Failed KeyError /\ same_objects c c' /\ same_frame c c')
  | OClear =>
      out = Done /\ (forall y, ~ In y (members c')) /\
      ctypes c' = ctypes c /\ cname c' = cname c /\ cbad c' = false /\ cerrors c' = []
  | OIor b =>
      out = Done /\ inplace_frame $" |= " c b c' /\
      (forall y, In y (members c') <-> In y (members c) \/ (In y (members b) /\ ~ Mem (key y) c))
  | OIand b =>
      out = Done /\ inplace_frame $" &= " c b c' /\
      (forall k, Mem k c' <-> Mem k c /\ Mem k b) /\
      (forall y, In y (members c') -> In y (members c) \/ In y (members b))
  | OIxor b =>
      out = Done /\ inplace_frame $" ^= " c b c' /\
      (forall y, In y (members c') <->
         (In y (members c) /\ ~ Mem (key y) b) \/ (In y (members b) /\ ~ Mem (key y) c))
  | OIsub b =>
      out = Done /\ inplace_frame $" -= " c b c' /\
      (forall y, In y (members c') <-> In y (members c) /\ ~ Mem (key y) b)
  | ODiscardID i =>
      out = Done /\ same_frame c c' /\
      ((exists x, In x (members c) /\ ident x = i /\
         forall y, In y (members c') <-> In y (members c) /\ key y <> key x)
       \/ ((forall x, In x (members c) -> ident x <> i) /\ same_objects c c'))
  | ORemoveID i =>
      same_frame c c' /\
      ((out = Done /\ exists x, In x (members c) /\ ident x = i /\
         forall y, In y (members c') <-> In y (members c) /\ key y <> key x)
       \/ (out = Failed KeyError /\ (forall x, In x (members c) -> ident x <> i) /\ same_objects c c'))
  | ODropBad =>
      out = Done /\ (forall y, In y (members c') <-> In y (members c) /\ ebad y = false) /\
      ctypes c' = ctypes c /\ cname c' = cname c /\ cbad c' = false /\ cerrors c' = []
  end.

Inductive spec_runs : coll E -> list (op E * outcome E) -> coll E -> Prop :=
| spec_nil c : spec_runs c [] c
| spec_cons c o out c1 h c2 :
    spec_step o out c c1 -> spec_runs c1 h c2 -> spec_runs c ((o, out) :: h) c2.

(** the operand of an in-place operator is itself a proper collection *)
Definition op_ok (o : op E) : Prop :=
  match o with OIor b | OIand b | OIxor b | OIsub b => WF b | _ => True end.
Definition hist_ok (h : list (op E * outcome E)) : Prop := forall o out, In (o, out) h -> op_ok o.

(** list of pieces of a whole, in order, each of size [m] but the last, which may be smaller *)
Definition even_pieces {A} (m : nat) (whole : list A) (ps : list (list A)) : Prop :=
  concat ps = whole /\
  (forall i p, nth_error ps i = Some p -> S i < length ps -> length p = m) /\
  (forall p, In p ps -> 1 <= length p <= m).
End Spec.
