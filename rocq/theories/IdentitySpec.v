(** Specification for C107. *)
From Coq Require Import List ZArith Bool Arith.
From Coq Require Import String.
From Verif Require Import Base IdentityModel.
Import ListNotations.
Local Open Scope list_scope.

(** classes of which one is derived from the other *)
Definition related (c d : cls) : Prop :=
  c = d \/ c = RecordC \/ d = RecordC \/
  (c = GrantC /\ In d [MedlineGC; ScopusGC; NsercC; NsfC; CihrC; FallbackC]) \/ (d = GrantC /\ In c [MedlineGC; ScopusGC; NsercC; NsfC; CihrC; FallbackC]).
(** the classes that files are read into *)
Definition from_files (c : cls) : Prop := In c [WosC; ScopusC; ProQuestC; MedlineC; MedlineGC; ScopusGC; NsercC; NsfC; CihrC; FallbackC].
Section Spec.
Context {V : Type}.
(** the objects number i and j have the same class and id *)
Definition same (l : list (@obj V)) (i j : nat) : bool :=
  match nth_error l i, nth_error l j with Some x, Some y => eqb (o_cls x) (o_cls y) && eqb (o_id x) (o_id y) | _, _ => false end.
(** something with the class and id of the object number r has been added and not been discarded since; nothing else matters *)
Definition inside (l : list obj) (h : list (@action V)) (r : nat) : bool :=
  fold_left (fun b a => match a with Add q => b || same l q r | Discard q => b && negb (same l q r) | _ => b end) h false.
End Spec.
