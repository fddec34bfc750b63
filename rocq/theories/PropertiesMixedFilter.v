(** * C108: citeFilter by journal, and for works without an author, over several databases. *)
From Coq Require Import List ZArith Lia Bool Arith Permutation.
From Coq Require Import String.
From Verif Require Import Base PyStr PyInt CitationModel CitationSpec TagNames RecordModel GrantModel ValuesModel PropertiesCitation PropertiesValues WosModel WosNetModel WosNetSpec WosNetProofs
  PropertiesWosNet Nx NxFacts SeriesSpec NetSpec NetFacts WosTagsModel WosTagsSpec WosTagsProofs MixedModel MixedSpec MixedProofs PropertiesMixed MixedNetModel MixedNetSpec MixedNetProofs PropertiesMoreWosNet PropertiesMixedNet PropertiesMoreMixedNet
  AnalysisModel MixedCiteModel PropertiesMixedCite.
From Verif Require MedlineModel ScopusModel ProQuestModel ScopusCiteSpec ScopusCiteProofs Regex AnalysisSpec AnalysisProofs PropertiesAnalysis.
Import ListNotations.
Local Open Scope list_scope.

Section Filter.
Variables upper lower title : str -> str.
Variable all_digits : str -> bool.
Variables word num : char -> bool.
Variable int_of : str -> Z.
Variable text : anyrec -> str.
Variable refs : anyrec -> list str.
Notation described := (described text refs).
Notation is_cite := (is_cite upper title word num int_of).
Notation holds := (holds upper title word num int_of refs).
Notation call := (any_cite_filter upper lower title all_digits word num int_of).

Lemma filter_any rs k field cs (P : anyrec -> Prop) : (forall r, In r rs -> described r) -> NoDup (map own_id rs) -> (field = $"year" -> py_int k <> None) ->
  (forall r h, holds r h -> some_hit (AnalysisProofs.test_of upper k field cs) (AnalysisSpec.refs held_cites h) = true <-> P r) ->
  exists l l', call rs k field false cs = Ok l /\ call rs k field true cs = Ok l' /\ (forall r, In r l <-> In r rs /\ P r) /\ (forall r, In r l' <-> In r rs /\ ~ P r).
Proof.
  intros U ND PY PP. destruct (hold_all upper lower title all_digits word num int_of text refs rs U) as (hs & E & F). unfold any_cite_filter. rewrite E. cbn [bind]. rewrite AnalysisProofs.matching_ok by (intros (Q1 & Q2 & _); exact (PY Q1 Q2)). cbn [bind].
  set (p := fun h : held => some_hit (AnalysisProofs.test_of upper k field cs) (AnalysisSpec.refs held_cites h)) in *. eexists _, _. split; [reflexivity|]. split; [reflexivity|].
  assert (IDS : map held_id hs = map own_id rs). { clear - F. induction F as [|r h rs hs H F IH]; [reflexivity|]. cbn [map]. rewrite IH. f_equal. unfold held_id. destruct H as (-> & _). apply id_is. }
  split.
  - intros r. rewrite in_map_iff. split.
    + intros (h & <- & I). apply filter_In in I. destruct I as (I & Q). destruct (F2_in_r _ _ _ _ F I) as (r & J & H). pose proof H as (HF & _). rewrite HF. split; [exact J|]. apply (PP r h H), Q.
    + intros (J & Q). destruct (F2_in_l _ _ _ _ F J) as (h & I & H). exists h. split; [apply H|]. apply filter_In. split; [exact I|]. apply (PP r h H), Q.
  - assert (M : forall h, In h hs -> mem (held_id h) (map held_id (filter p hs)) = p h).
    { intros h I. rewrite <- IDS in ND. destruct (p h) eqn:PH; [apply mem_In, in_map, filter_In; auto|]. apply mem_not_In. intros J. apply in_map_iff in J. destruct J as (h' & Q & J). apply filter_In in J. destruct J as (J & PH'). assert (h' = h); [|congruence].
      clear - ND I J Q. induction hs as [|x hs IH]; [destruct I|]. cbn [map] in ND. apply NoDup_cons_iff in ND as [N1 N2]. destruct I as [->|I], J as [->|J]; [reflexivity| | |apply IH; assumption]; exfalso; apply N1; [rewrite <- Q|rewrite Q]; apply in_map; assumption. }
    intros r. rewrite in_map_iff. split.
    + intros (h & <- & I). apply filter_In in I. destruct I as (I & Q). rewrite M in Q by exact I. destruct (F2_in_r _ _ _ _ F I) as (r & J & H). pose proof H as (HF & _). rewrite HF. split; [exact J|]. intros A. assert (X : p h = true) by (apply (PP r h H), A). rewrite X in Q. discriminate Q.
    + intros (J & Q). destruct (F2_in_l _ _ _ _ F J) as (h & I & H). exists h. split; [apply H|]. apply filter_In. split; [exact I|]. rewrite M by exact I. destruct (p h) eqn:PH; [|reflexivity]. apply (PP r h H) in PH. contradiction.
Qed.
(** the journal that a reference says; a reference of WOS without one has None there *)
Definition journal_ref (r : anyrec) (l j : str) : Prop :=
  match r with AnyScopus _ => exists a T y J, ScopusCiteSpec.reference word num (upper l) a T y J /\ j = ScopusCiteSpec.q_journal (ScopusCiteSpec.read_source word J) | _ => p_journal (read (upper l)) = Some j end.
Definition no_journal (r : anyrec) (l : str) : Prop := is_scopus r = false /\ p_journal (read (upper l)) = None.
Lemma journal_any r l c : ScopusCiteSpec.plain_classes word num -> is_cite r l c ->
  (forall j, q_journal (to_cite c) = Has j <-> journal_ref r l j) /\ (q_journal (to_cite c) = Empty <-> no_journal r l).
Proof.
  intros PC H. unfold no_journal. destruct (is_scopus r) eqn:IS.
  - destruct r as [ | |s| ]; try discriminate IS. cbn [MixedNetProofs.is_cite] in H. subst c. unfold scopus_of. cbn [to_cite]. unfold of_scopus. cbn [q_journal].
    assert (D : (exists a T y J, ScopusCiteSpec.reference word num (upper l) a T y J) \/ s_attributes (CitationModel.scopus_citation word num int_of upper l) = []).
    { destruct (Regex.re_match (scopus_cite_regex word num) (upper l)) as [g|] eqn:G; [left; apply (ScopusCiteProofs.match_only PC _ G)|right; unfold CitationModel.scopus_citation; rewrite G; reflexivity]. }
    assert (K : forall a T y J, ScopusCiteSpec.reference word num (upper l) a T y J -> attr_of $"journal" (s_attributes (CitationModel.scopus_citation word num int_of upper l)) = Has (ScopusCiteSpec.q_journal (ScopusCiteSpec.read_source word J))).
    { intros a T y J R. destruct (scopus_kept upper word num int_of l a T y J PC R) as (_ & Q & _). cbv zeta in Q. unfold attr_of. rewrite Q. reflexivity. }
    split.
    + intros j. cbn [journal_ref]. split.
      * intros Q. destruct D as [(a' & T & y & J & R)|N]; [|rewrite N in Q; discriminate Q]. rewrite (K a' T y J R) in Q. injection Q as <-. exists a', T, y, J. auto.
      * intros (a & T & y & J & R & ->). apply (K a T y J R).
    + split; [|intros (Q & _); discriminate Q]. intros Q. destruct D as [(a' & T & y & J & R)|N]; [rewrite (K a' T y J R) in Q; discriminate Q|rewrite N in Q; discriminate Q].
  - assert (H' : exists c', c = CWos c' /\ wos_citation upper title l = Ok c') by (destruct r; try discriminate IS; exact H). destruct H' as (c' & -> & W). clear H.
    destruct (C28_parse upper title l) as (c & E & _ & _ & J & _). rewrite W in E. injection E as <-. cbn [to_cite]. unfold of_wos. cbn [q_journal]. rewrite J.
    assert (JR : forall j, journal_ref r l j <-> p_journal (read (upper l)) = Some j) by (intros j; destruct r; try discriminate IS; reflexivity).
    split; [intros j; rewrite JR; destruct (p_journal (read (upper l))); cbn [attr_opt]; split; congruence|destruct (p_journal (read (upper l))); cbn [attr_opt]; split; [discriminate|intros (_ & Q); discriminate Q|auto|auto]].
Qed.
(** C108: citeFilter by journal gives the records with a reference whose journal has the text in it (in capitals), provided no reference of WOS style without a journal comes before it in the
    record; with reverse the others. *)
Theorem C108_journal_partial : forall rs (k : str) (case_sensitive : bool), ScopusCiteSpec.plain_classes word num -> (forall r, In r rs -> described r) -> NoDup (map own_id rs) ->
  let found r := exists before t after j, refs r = before ++ t :: after /\ journal_ref r t j /\ (exists a b, j = a ++ upper k ++ b) /\ forall q, In q before -> ~ no_journal r q in
  exists l l', call rs k $"journal" false case_sensitive = Ok l /\ call rs k $"journal" true case_sensitive = Ok l' /\ (forall r, In r l <-> In r rs /\ found r) /\ (forall r, In r l' <-> In r rs /\ ~ found r).
Proof.
  intros rs k cs PC U ND found. apply filter_any; [exact U|exact ND|discriminate|]. intros r h (_ & FC). rewrite AnalysisProofs.some_hit_stop. unfold AnalysisSpec.refs, held_cites.
  assert (T : forall c, AnalysisProofs.test_of upper k $"journal" cs c = Yes <-> exists j, q_journal c = Has j /\ exists a b, j = a ++ upper k ++ b).
  { intros c. rewrite AnalysisProofs.test_yes. split; [intros A; inversion A; subst; eauto|intros (j & Q & I); exact (@AnalysisSpec.A_journal upper k cs c j Q I)]. }
  assert (S : forall c, AnalysisProofs.test_of upper k $"journal" cs c = Stop <-> q_journal c = Empty).
  { intros c. rewrite AnalysisProofs.test_stop. split; [intros B; inversion B; assumption|intros Q; constructor; exact Q]. }
  unfold found. generalize dependent (snd h). generalize (refs r). clear - PC T S. intros ls cs0 FC. split.
  - intros (pre & c & post & Q & Y & N). revert ls cs0 FC Q. induction pre as [|x pre IH]; intros ls cs0 FC Q.
    + destruct FC as [|l d ls ds H FC]; [discriminate Q|]. cbn [map app] in Q. injection Q as Q1 Q2. apply T in Y. destruct Y as (j & QJ & IN). rewrite <- Q1 in QJ. apply (journal_any r l d PC H) in QJ. exists [], l, ls, j. split; [reflexivity|]. split; [exact QJ|]. split; [exact IN|intros q []].
    + destruct FC as [|l d ls ds H FC]; [discriminate Q|]. cbn [map app] in Q. injection Q as Q1 Q2. destruct (IH (fun q J => N q (or_intror J)) ls ds FC Q2) as (b & t & a & j & E & JR & IN & NB). exists (l :: b), t, a, j. split; [rewrite E; reflexivity|]. split; [exact JR|]. split; [exact IN|].
      intros q [<-|J] NJ; [|exact (NB q J NJ)]. apply (N x (or_introl eq_refl)), S. rewrite <- Q1. apply (journal_any r l d PC H), NJ.
  - intros (b & t & a & j & E & JR & IN & NB). revert ls cs0 FC E. induction b as [|x b IH]; intros ls cs0 FC E.
    + destruct FC as [|l d ls ds H FC]; [discriminate E|]. cbn [app] in E. injection E as E1 E2. subst l. exists [], (to_cite d), (map to_cite ds). split; [reflexivity|]. split; [|intros q []]. apply T. exists j. split; [apply (journal_any r t d PC H), JR|exact IN].
    + destruct FC as [|l d ls ds H FC]; [discriminate E|]. cbn [app] in E. injection E as E1 E2. destruct (IH (fun q J => NB q (or_intror J)) ls ds FC E2) as (pre & c & post & Q & Y & N). exists (to_cite d :: pre), c, post. split; [cbn [map app]; rewrite Q; reflexivity|]. split; [exact Y|].
      intros q [<-|J] ST; [|exact (N q J ST)]. apply (NB x (or_introl eq_refl)). subst l. apply (journal_any r x d PC H), S, ST.
Qed.
(** C108: localCitesOf of a citation made from a text gives the records with a reference named like it, in the order of the collection; two texts of the same name give the same. *)
Theorem C108_to : forall rs l, (forall r, In r rs -> described r) -> let id := id_of upper title l in
  exists c found, wos_citation upper title l = Ok c /\ any_local_cites_to upper lower title all_digits word num int_of rs (CWos c) = Ok found /\
    (forall q, In q found <-> In q rs /\ exists t, In t (refs q) /\ named upper title word num int_of q t = id) /\ (exists keep, found = filter keep rs).
Proof.
  intros rs l U id. destruct (C28_parse upper title l) as (c & E & _). destruct (hold_all upper lower title all_digits word num int_of text refs rs U) as (hs & H & F).
  unfold any_local_cites_to. rewrite H. cbn [bind]. exists c, (map fst (citing held_cites hs (to_cite (CWos c)))). split; [exact E|]. split; [reflexivity|]. rewrite (citing_any upper title word num int_of refs rs hs _ F). split; [|eexists; reflexivity].
  assert (I : q_id (to_cite (CWos c)) = id) by (unfold id, id_of; rewrite E; reflexivity). intros q. rewrite filter_In, existsb_exists, I.
  split; intros (J & t & T & Q); (split; [exact J|]; exists t; split; [exact T|]); [apply eqb_eq in Q; symmetry; exact Q|rewrite Q; apply eqb_refl].
Qed.
End Filter.
(** the records of C103_ex; the reference ANON of the record of WOS has no journal, it is the last one *)
Example C108_journal_ex : exists w m, wos_parse mixnet_wos = ([w], None) /\ MedlineModel.medline_file mix_alpha mixnet_medline = Ok ([m], false) /\
  let rs := [AnyWos w; AnyMedline m; AnyScopus mixnet_scopus; AnyProQuest mixnet_proquest] in
  any_cite_filter mixnet_up mix_id mix_id (forallb digit09) mix_word digit09 mixnet_int rs $"sci" $"journal" false false = Ok [AnyWos w; AnyScopus mixnet_scopus] /\
  any_cite_filter mixnet_up mix_id mix_id (forallb digit09) mix_word digit09 mixnet_int rs $"cell" $"journal" true false = Ok [AnyMedline m; AnyScopus mixnet_scopus; AnyProQuest mixnet_proquest] /\
  no_journal mixnet_up (AnyWos w) $"ANON" /\ journal_ref mixnet_up mix_word digit09 (AnyWos w) $"DOE J, 1999, CELL" $"CELL".
Proof.
  destruct (wos_parse mixnet_wos) as [l e] eqn:E. vm_compute in E. injection E as <- <-. destruct (MedlineModel.medline_file mix_alpha mixnet_medline) as [[l' e']|] eqn:M; vm_compute in M; [|discriminate M]. injection M as <- <-.
  match goal with |- exists w m, ([?a], None) = _ /\ Ok ([?b], false) = _ /\ _ => exists a, b end. split; [reflexivity|]. split; [reflexivity|]. cbv zeta. split; [vm_compute; reflexivity|]. split; [vm_compute; reflexivity|]. split; [split; vm_compute; reflexivity|vm_compute; reflexivity].
Qed.
Example C108_to_ex : exists w m, wos_parse mixnet_wos = ([w], None) /\ MedlineModel.medline_file mix_alpha mixnet_medline = Ok ([m], false) /\ exists c, wos_citation mixnet_up mix_id $"Smith A, 1990, SCIENCE" = Ok c /\
  any_local_cites_to mixnet_up mix_id mix_id (forallb digit09) mix_word digit09 mixnet_int [AnyWos w; AnyMedline m; AnyScopus mixnet_scopus] (CWos c) = Ok [AnyWos w].
Proof.
  destruct (wos_parse mixnet_wos) as [l e] eqn:E. vm_compute in E. injection E as <- <-. destruct (MedlineModel.medline_file mix_alpha mixnet_medline) as [[l' e']|] eqn:M; vm_compute in M; [|discriminate M]. injection M as <- <-.
  match goal with |- exists w m, ([?a], None) = _ /\ Ok ([?b], false) = _ /\ _ => exists a, b end. split; [reflexivity|]. split; [reflexivity|].
  destruct (wos_citation mixnet_up mix_id $"Smith A, 1990, SCIENCE") as [c|] eqn:C; vm_compute in C; [|discriminate C]. injection C as <-. eexists. split; [reflexivity|]. vm_compute. reflexivity.
Qed.
Print Assumptions C108_to.
Print Assumptions C108_journal_partial.
