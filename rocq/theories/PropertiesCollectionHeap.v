(** Property theorems about the independence of collections (C03, C06). *)
From Coq Require Import String.
From Verif Require Import Base CollectionModel CollectionHeap CollectionHeapProofs CollectionExamples.

(** C06, C03: whatever a program does, starting from nothing, with any number of collections it makes, copies,
    combines and changes: collections that are not the target of a command keep everything visible
    (members, type names, name, bad flag, errors). *)
Theorem C06_no_command_changes_another_collection :
  forall (E K : Type) (HK : EqDec K) (EL : Elem E K) (before after : list (cmd E)) (i : nat) (v : coll E),
    nth_error (views (run before heap0)) i = Some v ->
    (forall c, In c after -> ~ In i (targets c)) ->
    nth_error (views (run after (run before heap0))) i = Some v.
Proof.
  intros E K HK EL before after i v.
  exact (isolation after (run before heap0) i v (proj1 (run_sim before heap0 Sep0))).
Qed.
Print Assumptions C06_no_command_changes_another_collection.
(** C06: a copy starts with everything the original has. *)
Theorem C06_copy_is_equal :
  forall (E K : Type) (HK : EqDec K) (EL : Elem E K) (before : list (cmd E)) (i : nat) (v : coll E),
    nth_error (views (run before heap0)) i = Some v ->
    views (run [CCopy i] (run before heap0)) = views (run before heap0) ++ [v].
Proof.
  intros E K HK EL before i v H.
  rewrite (proj2 (run_sim [CCopy i] (run before heap0) (proj1 (run_sim before heap0 Sep0)))).
  cbn. unfold vexec'; cbn. rewrite H; reflexivity.
Qed.
Print Assumptions C06_copy_is_equal.
(** C06: references never show: every program over references has the results of the same program over values. *)
Theorem C06_references_are_invisible :
  forall (E K : Type) (HK : EqDec K) (EL : Elem E K) (cs : list (cmd E)),
    views (run cs heap0) = vrun cs [].
Proof. intros E K HK EL cs; exact (proj2 (run_sim cs heap0 Sep0)). Qed.
Print Assumptions C06_references_are_invisible.

(** a program in which a copy is changed in every way and the original is not *)
Definition prog1 : list (cmd rec) := [CNew [r1; r2] $"A"; CAdd 0 r3].
Definition prog2 : list (cmd rec) :=
  [CCopy 0; CNew [r1'] $"B"; CDropBad 1; CInplace SSub 1 2; CBinary SOr 0 1; CClear 1; CInplace SOr 1 0; CDiscard 1 r3].
Example C06_example :
  nth_error (views (run prog1 heap0)) 0 = Some (mkColl [r1; r2; r3] [$"MedlineRecord"] $"A" false []) /\
  (forall c, In c prog2 -> ~ In 0 (targets c)) /\
  nth_error (views (run prog2 (run prog1 heap0))) 1 = Some (mkColl [r1; r2] [$"MedlineRecord"] $"A -= B |= A" false []).
Proof.
  split; [vm_compute; reflexivity|]. split; [|vm_compute; reflexivity].
  intros c I N. cbn in I. repeat destruct I as [<-|I]; cbn in N; try (destruct N as [N|[]]; discriminate N); try destruct N; destruct I.
Qed.
