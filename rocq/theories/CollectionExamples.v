(** Concrete collections used to show that the hypotheses of the collection theorems are met. *)
From Coq Require Import String.
From Verif Require Import Base CollectionModel CollectionSpec.

Record rec := { rid : str; rtype : str; rbad : bool; rrecord : bool }.
#[global] Instance RecElem : Elem rec str := {
  key := rid; tyname := rtype; allowed := rrecord; ident := rid; ebad := rbad }.

Definition r1 := {| rid := $"WOS:1"; rtype := $"WOSRecord"; rbad := false; rrecord := true |}.
Definition r2 := {| rid := $"WOS:2"; rtype := $"WOSRecord"; rbad := true; rrecord := true |}.
Definition r3 := {| rid := $"PMID:3"; rtype := $"MedlineRecord"; rbad := false; rrecord := true |}.
Definition r1' := {| rid := $"WOS:1"; rtype := $"WOSRecord"; rbad := true; rrecord := true |}.
Definition notrec := {| rid := $"x"; rtype := $"str"; rbad := false; rrecord := false |}.

Definition c12 : coll rec := mkColl [r1; r2] [$"WOSRecord"] $"A" true [($"f.txt", $"bad file")].
Definition c13 : coll rec := mkColl [r3; r1'] [$"WOSRecord"; $"MedlineRecord"] $"B" false [].
Definition c123 : coll rec := mkColl [r1; r2; r3] [] $"C" false [].

Ltac nodup := apply nodupb_NoDup; vm_compute; reflexivity.
Lemma wf_by_check (c : coll rec) :
  nodupb (map key (members c)) && forallb allowed (members c) && nodupb (map fst (cerrors c)) && nodupb (ctypes c) = true ->
  WF c.
Proof.
  rewrite !andb_true_iff, forallb_forall. intros (((D & A) & ER) & T).
  split; [|split; [exact A|split]]; apply nodupb_NoDup; assumption.
Qed.
Ltac wf := apply wf_by_check; vm_compute; reflexivity.
Lemma c12_wf : WF c12. Proof. wf. Qed.
Lemma c13_wf : WF c13. Proof. wf. Qed.
Lemma c123_wf : WF c123. Proof. wf. Qed.

(** a history with every kind of outcome, the set reordered before the second operation *)
Definition hist : list (op rec * outcome rec) :=
  [ (OAdd r3, Done); (ORemove r2, Done); (ORemove r2, Failed KeyError); (OAdd notrec, Failed CollectionTypeError);
    (OIxor c13, Done); (OPop, Failed KeyError); (OAdd r1, Done); (OPop, Got r1) ].
Definition hist_end : coll rec :=
  mkColl [] [$"WOSRecord"; $"MedlineRecord"] ($"A" ++ $" ^= " ++ $"B") true [($"f.txt", $"bad file")].
Lemma hist_runs : runs c12 hist hist_end.
Proof.
  unfold hist.
  eapply runs_step; [apply Permutation_refl | reflexivity |].
  eapply runs_step with (l := [r3; r2; r1]); [| reflexivity |].
  { change (Permutation [r1; r2; r3] (rev [r1; r2; r3])); apply Permutation_rev. }
  do 6 (eapply runs_step; [apply Permutation_refl | reflexivity |]).
  constructor.
Qed.
Lemma hist_hist_ok : hist_ok hist.
Proof.
  intros o out I. unfold hist in I. cbn in I.
  repeat destruct I as [I|I]; try (inversion I; subst; cbn; trivial; apply c13_wf).
Qed.
