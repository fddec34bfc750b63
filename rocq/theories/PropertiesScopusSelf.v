(** * C72, C73: the citations that stand for a Scopus record; fields that a Medline record does not have. *)
From Coq Require Import String Lia.
From Verif Require Import Base PyStr Span TagNames Regex RegexSem CitationModel ValuesModel ScopusCiteSpec ScopusCiteProofs PropertiesScopusCite ScopusSelfModel.
Set Implicit Arguments.

(** C72: a citation that stands for a Scopus record always tells the year and the journal of the record where its text could not be read: it is usable,
    or it has the year of the record (0 if there is none), its journal and its title in capitals; ... *)
Theorem C72_scopus_filled : forall word num int_of upper year r c,
  c = create_citation word num int_of upper year r \/ In c (create_citations word num int_of upper year r) -> s_bad c = true ->
  (forall y, year = Some y -> s_year c = Some y) /\ (year = None -> s_year c = Some 0%Z) /\
  (forall j, r_journal r = Some j -> s_journal c = Some (upper j)) /\ (r_journal r = None -> s_journal c = Some (upper [])) /\
  (forall t, r_title r = Some t -> dget $"name" (s_attributes c) = Some (Some (upper t))) /\ (r_title r = None -> dget $"name" (s_attributes c) = Some (Some (upper []))).
Proof.
  intros word num int_of upper year r c H B.
  assert (P : exists s, c = patched upper year r (scopus_citation word num int_of upper s)).
  { destruct H as [->|H]; [eexists; reflexivity|]. unfold create_citations in H. apply in_map_iff in H as (t & <- & _). exists t. reflexivity. }
  destruct P as [s ->]. unfold patched in *. destruct (s_bad (scopus_citation word num int_of upper s)) eqn:E; [|congruence].
  cbn [s_year s_journal s_attributes]. rewrite dget_dset, eqb_refl.
  split; [intros y ->; reflexivity|]. split; [intros ->; reflexivity|]. split; [intros j ->; reflexivity|]. split; [intros ->; reflexivity|]. split; [intros t ->; reflexivity|intros ->; reflexivity].
Qed.
(** ... it is only then that the record is asked: a usable citation is what the text says; ... *)
Theorem C72_scopus_read : forall word num int_of upper year year' r, s_bad (create_citation word num int_of upper year r) = false ->
  create_citation word num int_of upper year' r = create_citation word num int_of upper year r.
Proof.
  intros word num int_of upper year year' r B. unfold create_citation, patched in *. destruct (s_bad (scopus_citation word num int_of upper (scopus_self r))) eqn:E; [|reflexivity]. cbn in B. discriminate.
Qed.
(** ... with multiCite there is one citation for each author, and one if there are none: the same as without; ... *)
Theorem C72_scopus_multi : forall word num int_of upper year r,
  (forall l, r_authors r = Some (NList l) -> l <> [] -> length (create_citations word num int_of upper year r) = length l) /\
  (r_authors r = None \/ r_authors r = Some (NList []) -> create_citations word num int_of upper year r = [create_citation word num int_of upper year r]).
Proof.
  intros word num int_of upper year r. unfold create_citations, create_citation, scopus_selves, scopus_self, authors_of. split.
  - intros l -> N. rewrite map_length. cbn [name_list]. destruct l as [|a l]; [congruence|]. cbn [map]. cbn [length]. rewrite !map_length. reflexivity.
  - intros [->| ->]; reflexivity.
Qed.

Lemma no_comma_before (A : Type) (a b u v : list A) (x z : A) : a ++ x :: b = u ++ z :: v -> ~ In x u -> x <> z -> exists w, a = u ++ z :: w.
Proof.
  revert a. induction u as [|y u IH]; intros a E NX NE.
  - destruct a as [|q a]; [cbn in E; congruence|]. cbn in E. injection E as -> E. exists a. reflexivity.
  - destruct a as [|q a]; [cbn in E; injection E as -> _; exfalso; apply NX; left; reflexivity|]. cbn in E. injection E as -> E.
    destruct (IH a E ltac:(intros I1; apply NX; right; exact I1) NE) as [w ->]. exists w. reflexivity.
Qed.
(** ... but the separator between the author and the title is left out then: none of these citations is usable if neither the authors nor the title
    have a comma in them, whatever else the record has. *)
Theorem C72_scopus_multi_refuted : forall (word num : char -> bool) int_of (up : char -> str) year r l t y, plain_classes word num -> (forall c, In c $" ()" -> up c = [c]) ->
  let upper := flat_map up in
  r_authors r = Some (NList l) -> r_title r = Some t -> r_year r = Some y -> ~ In 44%N (upper (without $"()" t)) ->
  Forall (fun a => ~ In 44%N (upper (without $"," a))) l ->
  Forall (fun c => s_bad c = true) (create_citations word num int_of upper year r).
Proof.
  intros word num int_of up year r l t y PC K upper RA RT RY NT NA. apply Forall_forall. intros c Ic. unfold create_citations in Ic. apply in_map_iff in Ic as (s & <- & Is).
  unfold patched. destruct (s_bad (scopus_citation word num int_of upper s)) eqn:B; [reflexivity|exfalso].
  apply (proj1 (@C84_bad word num int_of upper PC s)) in B; destruct B as (a & T & y' & J & (RE & PA & MT & _) & _).
  assert (UA : forall s t, upper (s ++ t) = upper s ++ upper t) by (intros; apply flat_map_app).
  assert (NB : forall t, filter (fun c => negb (eqb c 40%N || eqb c 41%N)) t = without $"()" t).
  { intros t'. unfold without. apply filter_ext. intros x. cbn. rewrite orb_false_r. destruct (N.eqb_spec x 40) as [->|N]; [reflexivity|]. rewrite (neq_eqb N). destruct (N.eqb_spec x 41) as [->|N']; [reflexivity|]. rewrite (neq_eqb N'). reflexivity. }
  assert (NC : forall a, no_commas a = without $"," a). { intros a'. unfold no_commas, without. apply filter_ext. intros x. cbn. rewrite orb_false_r. destruct (N.eqb_spec x 44) as [->|N]; [reflexivity|]. rewrite neq_eqb by exact N. reflexivity. }
  assert (U5 : upper $" " = $" ") by (change (up 32%N ++ [] = [32%N]); rewrite K by (cbn; auto); reflexivity).
  assert (U2 : upper $"(" = $"(") by (change (up 40%N ++ [] = [40%N]); rewrite K by (cbn; auto); reflexivity).
  assert (S : exists A rest, upper s = (A ++ upper (without $"()" t) ++ $" ") ++ 40%N :: rest /\ ~ In 44%N A).
  { unfold scopus_selves, authors_of in Is. rewrite RA in Is. cbn [name_list] in Is. destruct l as [|a0 l0].
    - cbn [map] in Is. destruct Is as [<-|[]]. unfold scopus_rest. rewrite RT, RY, NB. exists []. eexists. split; [|intros []]. rewrite !UA, U5, U2. cbn [app]. rewrite <- !app_assoc. reflexivity.
    - cbn [map] in Is. change (In s (map (fun a => a ++ scopus_rest r) (map no_commas (a0 :: l0)))) in Is. rewrite map_map in Is. apply in_map_iff in Is as (b & <- & Ib).
      unfold scopus_rest. rewrite RT, RY, NB, NC. exists (upper (without $"," b)). eexists. split; [|exact (proj1 (Forall_forall _ _) NA b Ib)]. rewrite !UA, U5, U2. rewrite <- !app_assoc. reflexivity. }
  destruct S as (A & rest & ES & NCA). rewrite ES in RE.
  assert (NP : ~ In 40%N a).
  { destruct PA as (u & sep & v & -> & _ & FU & SE & _ & FV). destruct PC as [PW _]. pose proof (proj1 (Forall_forall _ _) PW 40%N ltac:(cbn; auto)) as W40.
    rewrite !in_app_iff. intros [I1|[I1|[I1|[I1|I1]]]].
    - rewrite forallb_forall in FU. specialize (FU _ I1). unfold name_char in FU. rewrite W40 in FU. discriminate.
    - destruct SE as [->| ->]; cbn in I1; intuition discriminate.
    - cbn in I1; intuition discriminate.
    - rewrite forallb_forall in FV. specialize (FV _ I1). unfold initial_char in FV. rewrite W40 in FV. discriminate.
    - cbn in I1; intuition discriminate. }
  change ($", " ++ T ++ $"(" ++ y' ++ $") " ++ J) with (44%N :: ($" " ++ T ++ $"(" ++ y' ++ $") " ++ J)) in RE.
  destruct (no_comma_before _ _ _ _ RE NP ltac:(discriminate)) as [w EW].
  assert (I44 : In 44%N (A ++ upper (without $"()" t) ++ $" ")) by (rewrite EW, in_app_iff; right; left; reflexivity).
  rewrite !in_app_iff in I44. destruct I44 as [I1|[I1|I1]]; [exact (NCA I1)|exact (NT I1)|cbn in I1; intuition discriminate].
Qed.
Definition a_record := {| r_authors := Some (NList [$"Doe, J."; $"Roe K."]); r_year := Some $"1999"; r_j9 := None; r_title := Some $"On (some) things"; r_journal := Some $"Nature"; r_volume := Some $"4"; r_page := Some $"12"; r_doi := None |}.
(** the identifier of such a citation stays the text it was made of, so it is not the citation that others have of the record *)
Theorem C72_scopus_other_refuted : exists year r a c, r_authors r = Some (NList [a]) /\ create_citations ascii_word (in_range 48 57) digits_int ascii_upper year r = [c] /\
  s_year c = s_year (create_citation ascii_word (in_range 48 57) digits_int ascii_upper year r) /\ s_journal c = s_journal (create_citation ascii_word (in_range 48 57) digits_int ascii_upper year r) /\
  s_id (create_citation ascii_word (in_range 48 57) digits_int ascii_upper year r) = $"DOE J., 1999, NATURE" /\ s_id c = $"Doe J.On things (1999) Nature, ".
Proof.
  exists (Some 1999%Z), {| r_authors := Some (NList [$"Doe, J."]); r_year := Some $"1999"; r_j9 := None; r_title := Some $"On things"; r_journal := Some $"Nature"; r_volume := None; r_page := None; r_doi := None |}, $"Doe, J.".
  eexists. split; [reflexivity|]. split; [vm_compute; reflexivity|]. vm_compute. auto.
Qed.
Example C72_scopus_multi_ex :
  let l := create_citations ascii_word (in_range 48 57) digits_int ascii_upper (Some 1999%Z) a_record in
  map s_bad l = [true; true] /\ map s_year l = [Some 1999%Z; Some 1999%Z] /\ map s_journal l = [Some $"NATURE"; Some $"NATURE"] /\ s_bad (create_citation ascii_word (in_range 48 57) digits_int ascii_upper (Some 1999%Z) a_record) = false.
Proof. vm_compute. auto. Qed.
Print Assumptions C72_scopus_filled.
Print Assumptions C72_scopus_read.
Print Assumptions C72_scopus_multi.
Print Assumptions C72_scopus_multi_refuted.
Print Assumptions C72_scopus_other_refuted.

(** ** C73 *)
(** C73: a value that is made of a field the record does not have is not made up: asking for it raises KeyError. *)
Theorem C73_missing : forall upper all_digits (d : fields),
  (~ In $"DP" (dkeys d) -> m_year d = Raise KeyError /\ m_month upper all_digits d = Raise KeyError) /\
  (~ In $"VI" (dkeys d) -> m_volume d = Raise KeyError) /\ (~ In $"PG" (dkeys d) -> m_page d = Raise KeyError) /\
  (~ In $"AID" (dkeys d) -> m_doi d = Raise KeyError) /\ (~ In $"AD" (dkeys d) \/ ~ In $"AU" (dkeys d) -> m_main_address d = Raise KeyError).
Proof.
  intros upper all_digits d. assert (M : forall k, ~ In k (dkeys d) -> raw_field d k = Raise KeyError).
  { intros k N. unfold raw_field. destruct (dget k d) as [v|] eqn:E; [|reflexivity]. exfalso. apply N. apply dget_In in E. unfold dkeys. apply in_map_iff. exists (k, v). auto. }
  unfold m_year, m_month, m_volume, m_page, m_doi, m_main_address, one_text. split; [|split; [|split; [|split]]].
  - intros N. rewrite (M _ N). split; reflexivity.
  - intros N. rewrite (M _ N). reflexivity.
  - intros N. rewrite (M _ N). reflexivity.
  - intros N. rewrite (M _ N). reflexivity.
  - intros [N|N]; [rewrite (M _ N); reflexivity|]. destruct (raw_field d $"AD") as [ad|e] eqn:E; cbn [bind]; [rewrite (M _ N); reflexivity|].
    unfold raw_field in E. destruct (dget $"AD" d); congruence.
Qed.
Example C73_missing_ex : m_year [($"VI", [$"4 Pt 1"])] = Raise KeyError /\ m_volume [($"VI", [$"4 Pt 1"])] = Ok $"4" /\ m_doi [($"AID", [$"S1 [pii]"])] = Raise KeyError.
Proof. vm_compute. auto. Qed.
Print Assumptions C73_missing.
