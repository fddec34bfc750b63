(** Words for the statements about copies: the value a record with given fields has under a key, and histories in which a record is left alone. *)
From Coq Require Import List ZArith Bool.
From Coq Require Import String.
From Verif Require Import Base TagNames CopyModel.
Import ListNotations.
Local Open Scope list_scope.

Section Spec.
Context {V : Type}.
Variables (f : str -> V -> V) (cite : dict str V -> option V) (own_id no_grants : V).
(** tag t of the fields is meant by the key: it is the key, or its other name if the key is no field *)
Definition meant (fd : dict str V) (key t : str) : Prop := In t (dkeys fd) /\ (key = t \/ (~ In key (dkeys fd) /\ wos_alt key = Some t)).
(** functions of these tags, and of tags that are unknown, return the lines as they are *)
Definition unprocessed (t : str) : Prop := (forall n, ~ In (t, n) wos_tags) \/ In t [$"AF"; $"BE"; $"AU"; $"BA"; $"BF"; $"ED"].
(** the value of a WOS record with these fields *)
Inductive wos_value (fd : dict str V) (key : str) : option V -> Prop :=
| VRaw t v : meant fd key t -> dget t fd = Some v -> unprocessed t -> wos_value fd key (Some v)
| VNew t v : meant fd key t -> dget t fd = Some v -> ~ unprocessed t -> wos_value fd key (Some (f t v))
| VCite : (forall t, ~ meant fd key t) -> key = $"selfCitation" -> wos_value fd key (cite fd)
| VId : (forall t, ~ meant fd key t) -> key = $"id" -> wos_value fd key (Some own_id)
| VGrants : (forall t, ~ meant fd key t) -> key = $"grants" -> wos_value fd key (Some no_grants)
| VNone : (forall t, ~ meant fd key t) -> ~ In key [$"selfCitation"; $"id"; $"grants"] -> wos_value fd key None.
(** the lookup makes an object of its own *)
Definition processed (fd : dict str V) (key : str) : Prop := (exists t, meant fd key t /\ ~ unprocessed t) \/ (forall t, ~ meant fd key t).
(** lookups, copies, and changes of objects that lookups of processed values of records other than r have returned *)
Definition leaves_alone (fd : dict str V) (r : nat) (cs : list (call V)) : Prop :=
  forall c, In c cs -> match c with
    | Copy _ | Get _ _ | Raw _ _ => True
    | Change i v => exists q key, nth_error cs i = Some (Get q key) /\ q <> r /\ processed fd key
    | Store _ _ _ | Delete _ _ | Update _ _ => False
    end.
End Spec.
