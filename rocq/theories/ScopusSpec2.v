(** Specification for C25: records and files. *)
From Coq Require Import List Lia Bool Arith.
From Coq Require Import String.
From Verif Require Import Base PyStr ScopusModel ScopusSpec.
Import ListNotations.
Local Open Scope list_scope.

(** the value of a column, empty if there is none *)
Definition column (k : str) (d : sfields) : str := match dget k d with Some v => v | None => [] end.
(** every column of Scopus and no other, with the same values, the missing ones empty *)
Definition filled (d d' : sfields) : Prop := forall k, dget k d' = if in_dec eq_dec k scopus_header then Some (column k d) else None.
(** a record that can be written and read again *)
Definition swritable (r : srec) : Prop :=
  sbad r = false /\ serr r = None /\ (exists e, dget $"EID" (sdata r) = Some e /\ sid r = Some ($"EID:" ++ e)) /\
  forall k, In k scopus_header -> value_ok (column k (sdata r)).
Definition one_line (r : srec) : Prop := forall k, In k scopus_header -> ~ In nl (column k (sdata r)) /\ ~ In cr (column k (sdata r)).
Definition same_srec (r s : srec) : Prop := sid r = sid s /\ sbad r = sbad s /\ serr r = serr s /\ filled (sdata s) (sdata r).
