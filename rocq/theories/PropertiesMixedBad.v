(** * C108: citeFilter for bad and anonymous references over several databases. *)
From Coq Require Import List ZArith Lia Bool Arith Permutation.
From Coq Require Import String.
From Verif Require Import Base PyStr PyInt CitationModel CitationSpec TagNames RecordModel GrantModel ValuesModel PropertiesCitation PropertiesValues WosModel WosNetModel WosNetSpec WosNetProofs
  PropertiesWosNet Nx NxFacts SeriesSpec NetSpec NetFacts WosTagsModel WosTagsSpec WosTagsProofs MixedModel MixedSpec MixedProofs PropertiesMixed MixedNetModel MixedNetSpec MixedNetProofs PropertiesMoreWosNet PropertiesMixedNet PropertiesMoreMixedNet
  AnalysisModel MixedCiteModel PropertiesMixedCite PropertiesMixedFilter.
From Verif Require MedlineModel ScopusModel ProQuestModel ScopusCiteSpec ScopusCiteProofs Regex AnalysisSpec AnalysisProofs PropertiesAnalysis.
Import ListNotations.
Local Open Scope list_scope.

Section Bad.
Variables upper lower title : str -> str.
Variable all_digits : str -> bool.
Variables word num : char -> bool.
Variable int_of : str -> Z.
Variable text : anyrec -> str.
Variable refs : anyrec -> list str.
Notation described := (described text refs).
Notation is_cite := (is_cite upper title word num int_of).
Notation holds := (holds upper title word num int_of refs).
Notation call := (any_cite_filter upper lower title all_digits word num int_of).
Notation scopus_cite := (CitationModel.scopus_citation word num int_of upper).

(** ** What the claim speaks of *)
(** a reference of WOS style is bad if something is left over, or author, year or journal are missing; one of Scopus if it is not of the form of ScopusCiteSpec.v or its year is 0 *)
Definition bad_ref (r : anyrec) (l : str) : Prop :=
  let said := read (upper l) in
  match r with
  | AnyScopus _ => ~ exists a T y J, ScopusCiteSpec.reference word num (upper l) a T y J /\ int_of y <> 0%Z
  | _ => snd (read_end (p_left said)) <> None \/ p_author said = None \/ p_year said = None \/ p_journal said = None
  end.
(** a reference is anonymous if its author is given so, and one of Scopus also if it is not of that form *)
Definition anonymous_ref (r : anyrec) (l : str) : Prop :=
  match r with
  | AnyScopus _ => (~ exists a T y J, ScopusCiteSpec.reference word num (upper l) a T y J) \/ exists T y J, ScopusCiteSpec.reference word num (upper l) $"[Anonymous]" T y J
  | _ => exists a, p_author (read (upper l)) = Some a /\ title (without_dots a) = $"[Anonymous]"
  end.

Lemma readable l : ScopusCiteSpec.plain_classes word num -> (exists a T y J, ScopusCiteSpec.reference word num (upper l) a T y J) \/ (s_attributes (scopus_cite l) = [] /\ s_bad (scopus_cite l) = true).
Proof.
  intros PC. destruct (Regex.re_match (scopus_cite_regex word num) (upper l)) as [g|] eqn:G; [left; apply (ScopusCiteProofs.match_only PC _ G)|right; unfold CitationModel.scopus_citation; rewrite G; auto].
Qed.
Lemma scopus_bad l a T y J : ScopusCiteSpec.plain_classes word num -> ScopusCiteSpec.reference word num (upper l) a T y J -> s_bad (scopus_cite l) = Z.eqb (int_of y) 0.
Proof.
  intros PC R. destruct (scopus_kept upper word num int_of l a T y J PC R) as (A & Q & Y). cbv zeta in A, Q, Y. destruct R as (_ & P & _ & _ & x & s & -> & NX).
  assert (NA : a <> []) by (destruct P as (u & sep & v & -> & NU & _); destruct u; [congruence|discriminate]).
  assert (NJ : ScopusCiteSpec.q_journal (ScopusCiteSpec.read_source word (x :: s)) <> []).
  { unfold ScopusCiteSpec.read_source. repeat match goal with |- context [let (_, _) := ?e in _] => destruct e end. cbn [ScopusCiteSpec.q_journal]. unfold ScopusCiteSpec.up_to_comma. cbn [Span.tw]. destruct (N.eqb_spec x 44); [congruence|discriminate]. }
  revert A Q Y. unfold CitationModel.scopus_citation. destruct (Regex.re_match (scopus_cite_regex word num) (upper l)) as [g|]; [|discriminate]. cbv zeta.
  set (yr := match g 5 with Some y0 => int_of y0 | None => 0%Z end). clearbody yr.
  destruct (g 1) as [[|a0 a1]|]; cbn [given]; [destruct (given (g 6)) as [|? [|]]; intros A; cbn in A; congruence| |destruct (given (g 6)) as [|? [|]]; intros A; cbn in A; congruence].
  destruct (g 6) as [[|j0 j1]|]; cbn [given]; destruct (Z.eqb yr 0) eqn:Z0; cbn; intros _ Q Y; try congruence; injection Y as <-; cbn; congruence.
Qed.
Lemma bad_any r l c : ScopusCiteSpec.plain_classes word num -> is_cite r l c -> (q_bad (to_cite c) = true <-> bad_ref r l).
Proof.
  intros PC H. destruct (is_scopus r) eqn:IS.
  - destruct r as [ | |s| ]; try discriminate IS. cbn [MixedNetProofs.is_cite] in H. subst c. unfold scopus_of. cbn [to_cite]. unfold of_scopus. cbn [q_bad bad_ref]. split.
    + intros B (a & T & y & J & R & NZ). rewrite (scopus_bad l a T y J PC R) in B. apply Z.eqb_eq in B. contradiction.
    + intros N. destruct (readable l PC) as [(a & T & y & J & R)|(_ & B)]; [|exact B]. rewrite (scopus_bad l a T y J PC R). apply Z.eqb_eq. destruct (Z.eq_dec (int_of y) 0) as [Q|Q]; [exact Q|]. exfalso. apply N. eauto 6.
  - assert (H' : exists c', c = CWos c' /\ wos_citation upper title l = Ok c') by (destruct r; try discriminate IS; exact H). destruct H' as (c' & -> & W). clear H.
    destruct (C28_parse upper title l) as (c & E & A & Y & J & _ & _ & D & _ & B). rewrite W in E. injection E as <-. cbn [to_cite]. unfold of_wos. cbn [q_bad]. rewrite B, A, Y, J. replace (c_misc c') with (snd (read_end (p_left (read (upper l))))) by (rewrite <- D; reflexivity).
    assert (X : forall {A B} (f : A -> B) o, option_map f o = None <-> o = None) by (intros A0 B0 f []; cbn; split; congruence). rewrite !X. destruct r; try discriminate IS; reflexivity.
Qed.
Lemma anonymous_any r l c : ScopusCiteSpec.plain_classes word num -> is_cite r l c -> (q_author (to_cite c) = Has $"[Anonymous]" \/ q_author (to_cite c) = Lacks <-> anonymous_ref r l).
Proof.
  intros PC H. destruct (is_scopus r) eqn:IS.
  - destruct r as [ | |s| ]; try discriminate IS. cbn [MixedNetProofs.is_cite] in H. subst c. unfold scopus_of. cbn [to_cite]. unfold of_scopus. cbn [q_author anonymous_ref].
    assert (K : forall a T y J, ScopusCiteSpec.reference word num (upper l) a T y J -> attr_of $"author" (s_attributes (scopus_cite l)) = Has a).
    { intros a T y J R. destruct (scopus_kept upper word num int_of l a T y J PC R) as (Q & _). cbv zeta in Q. unfold attr_of. rewrite Q. reflexivity. }
    destruct (readable l PC) as [(a & T & y & J & R)|(N & _)].
    + rewrite (K a T y J R). split.
      * intros [Q|Q]; [|discriminate Q]. injection Q as ->. right. eauto.
      * intros [N|(T' & y' & J' & R')]; [exfalso; apply N; eauto|]. left. rewrite <- (K _ _ _ _ R), (K _ _ _ _ R'). reflexivity.
    + rewrite N. split; [|intros _; right; reflexivity]. intros _. left. intros (a & T & y & J & R). specialize (K a T y J R). rewrite N in K. discriminate K.
  - assert (H' : exists c', c = CWos c' /\ wos_citation upper title l = Ok c') by (destruct r; try discriminate IS; exact H). destruct H' as (c' & -> & W). clear H.
    destruct (C28_parse upper title l) as (c & E & A & _). rewrite W in E. injection E as <-. cbn [to_cite]. unfold of_wos. cbn [q_author]. rewrite A.
    assert (AR : anonymous_ref r l <-> exists a, p_author (read (upper l)) = Some a /\ title (without_dots a) = $"[Anonymous]") by (destruct r; try discriminate IS; reflexivity). rewrite AR.
    destruct (p_author (read (upper l))) as [a|]; cbn [option_map attr_opt]; split.
    + intros [Q|Q]; [injection Q as Q; eauto|discriminate Q].
    + intros (a' & Q & X). injection Q as ->. left. rewrite X. reflexivity.
    + intros [Q|Q]; discriminate Q.
    + intros (a' & Q & _). discriminate Q.
Qed.
Lemma hit_any k field cs (P : anyrec -> str -> Prop) : (forall r l c, is_cite r l c -> (AnalysisProofs.test_of upper k field cs (to_cite c) = Yes <-> P r l)) -> (forall c, AnalysisProofs.test_of upper k field cs c <> Stop) ->
  forall r h, holds r h -> some_hit (AnalysisProofs.test_of upper k field cs) (AnalysisSpec.refs held_cites h) = true <-> exists t, In t (refs r) /\ P r t.
Proof.
  intros T S r h (_ & FC). rewrite AnalysisProofs.some_hit_stop. unfold AnalysisSpec.refs, held_cites. split.
  - intros (pre & c & post & Q & Y & _). assert (I : In c (map to_cite (snd h))) by (rewrite Q; apply in_or_app; right; left; reflexivity). apply in_map_iff in I. destruct I as (d & <- & I).
    destruct (F2_in_r _ _ _ _ FC I) as (t & J & H). exists t. split; [exact J|]. apply (T r t d H), Y.
  - intros (t & J & X). destruct (F2_in_l _ _ _ _ FC J) as (d & I & H). apply (T r t d H) in X. apply (in_map to_cite), in_split in I. destruct I as (pre & post & Q). exists pre, (to_cite d), post. auto.
Qed.
(** C108: citeFilter for bad references gives the records with one, with reverse the records without; ... *)
Theorem C108_bad : forall rs (k : str) (case_sensitive : bool), ScopusCiteSpec.plain_classes word num -> (forall r, In r rs -> described r) -> NoDup (map own_id rs) ->
  exists l l', call rs k $"bad" false case_sensitive = Ok l /\ call rs k $"bad" true case_sensitive = Ok l' /\
    (forall r, In r l <-> In r rs /\ exists t, In t (refs r) /\ bad_ref r t) /\ (forall r, In r l' <-> In r rs /\ ~ exists t, In t (refs r) /\ bad_ref r t).
Proof.
  intros rs k cs PC U ND. apply (filter_any upper lower title all_digits word num int_of text refs); [exact U|exact ND|discriminate|]. apply hit_any.
  - intros r l c H. rewrite AnalysisProofs.test_yes, <- (bad_any r l c PC H). split; [intros A; inversion A; assumption|intros Q; constructor; exact Q].
  - intros c Q. apply AnalysisProofs.test_stop in Q. inversion Q.
Qed.
(** ... for anonymous ones likewise. *)
Theorem C108_anonymous : forall rs (k : str) (case_sensitive : bool), ScopusCiteSpec.plain_classes word num -> (forall r, In r rs -> described r) -> NoDup (map own_id rs) ->
  exists l l', call rs k $"anonymous" false case_sensitive = Ok l /\ call rs k $"anonymous" true case_sensitive = Ok l' /\
    (forall r, In r l <-> In r rs /\ exists t, In t (refs r) /\ anonymous_ref r t) /\ (forall r, In r l' <-> In r rs /\ ~ exists t, In t (refs r) /\ anonymous_ref r t).
Proof.
  intros rs k cs PC U ND. apply (filter_any upper lower title all_digits word num int_of text refs); [exact U|exact ND|discriminate|]. apply hit_any.
  - intros r l c H. rewrite AnalysisProofs.test_yes, <- (anonymous_any r l c PC H). split; [intros A; inversion A; auto|intros [Q|Q]; [apply AnalysisSpec.A_anonymous|apply AnalysisSpec.A_unread]; exact Q].
  - intros c Q. apply AnalysisProofs.test_stop in Q. inversion Q.
Qed.
End Bad.
(** the records of C103_ex: the record of WOS has a reference without journal; one of the references of Scopus cannot be read, and so is bad and taken for anonymous *)
Notation ex_filter := (any_cite_filter mixnet_up mix_id mix_id (forallb digit09) mix_word digit09 mixnet_int).
Example C108_bad_ex : exists w m, wos_parse mixnet_wos = ([w], None) /\ MedlineModel.medline_file mix_alpha mixnet_medline = Ok ([m], false) /\
  let rs := [AnyWos w; AnyMedline m; AnyScopus mixnet_scopus; AnyProQuest mixnet_proquest] in
  (forall r, In r rs -> described mixnet_text mixnet_refs r) /\ ScopusCiteSpec.plain_classes mix_word digit09 /\ NoDup (map own_id rs) /\
  ex_filter rs [] $"bad" false false = Ok [AnyWos w; AnyScopus mixnet_scopus] /\ ex_filter rs [] $"bad" true false = Ok [AnyMedline m; AnyProQuest mixnet_proquest] /\
  ex_filter rs [] $"anonymous" false false = Ok [AnyScopus mixnet_scopus] /\ ex_filter rs [] $"anonymous" true false = Ok [AnyWos w; AnyMedline m; AnyProQuest mixnet_proquest].
Proof.
  destruct C103_ex as (w & m & E & M & D & PC & _). exists w, m. split; [exact E|]. split; [exact M|]. cbv zeta. split; [intros r I; apply (D r I)|]. split; [exact PC|]. clear D.
  destruct (wos_parse mixnet_wos) as [l e] eqn:E'. vm_compute in E'. injection E' as <- <-. injection E as <-.
  destruct (MedlineModel.medline_file mix_alpha mixnet_medline) as [[l' e']|] eqn:M'; vm_compute in M'; [|discriminate M']. injection M' as <- <-. injection M as <-.
  split; [apply nodupb_NoDup; vm_compute; reflexivity|]. repeat split; vm_compute; reflexivity.
Qed.
Print Assumptions C108_bad.
Print Assumptions C108_anonymous.
