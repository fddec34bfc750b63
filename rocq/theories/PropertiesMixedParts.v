(** * C108: citeFilter by volume, page and what is left over, over several databases. *)
From Coq Require Import List ZArith Lia Bool Arith Permutation.
From Coq Require Import String.
From Verif Require Import Base PyStr PyInt CitationModel CitationSpec TagNames RecordModel GrantModel ValuesModel PropertiesCitation PropertiesValues WosModel WosNetModel WosNetSpec WosNetProofs
  PropertiesWosNet Nx NxFacts SeriesSpec NetSpec NetFacts WosTagsModel WosTagsSpec WosTagsProofs MixedModel MixedSpec MixedProofs PropertiesMixed MixedNetModel MixedNetSpec MixedNetProofs PropertiesMoreWosNet PropertiesMixedNet PropertiesMoreMixedNet
  AnalysisModel MixedCiteModel PropertiesMixedCite PropertiesMixedFilter PropertiesMixedBad.
From Verif Require MedlineModel ScopusModel ProQuestModel ScopusCiteSpec ScopusCiteProofs PropertiesScopusCite Regex AnalysisSpec AnalysisProofs PropertiesAnalysis.
Import ListNotations.
Local Open Scope list_scope.

(** ** What the claim speaks of *)
(** the parts of a reference, and the fields of citeFilter for them *)
Inductive part := Volume | Page | Rest.
Definition field_of (p : part) : str := match p with Volume => $"V" | Page => $"P" | Rest => $"misc" end.

Section Parts.
Variables upper lower title : str -> str.
Variable all_digits : str -> bool.
Variables word num : char -> bool.
Variable int_of : str -> Z.
Variable text : anyrec -> str.
Variable refs : anyrec -> list str.
Notation described := (described text refs).
Notation is_cite := (is_cite upper title word num int_of).
Notation call := (any_cite_filter upper lower title all_digits word num int_of).
Notation scopus_cite := (CitationModel.scopus_citation word num int_of upper).

(** the part of a reference in the style of WOS (CitationSpec.v) or of Scopus (ScopusCiteSpec.v) is [o], None if it is not there; a reference of Scopus that cannot be read says nothing *)
Definition part_ref (p : part) (r : anyrec) (l : str) (o : option str) : Prop :=
  match r with
  | AnyScopus _ => exists a T y J, ScopusCiteSpec.reference word num (upper l) a T y J /\
      let q := ScopusCiteSpec.read_source word J in o = match p with Volume => ScopusCiteSpec.q_volume q | Page => ScopusCiteSpec.q_page q | Rest => Some (ScopusCiteSpec.q_misc q) end
  | _ => let said := read (upper l) in o = match p with Volume => p_volume said | Page => p_page said | Rest => snd (read_end (p_left said)) end
  end.
Definition attr_part (p : part) (c : cite) : attr str := match p with Volume => q_V c | Page => q_P c | Rest => q_misc c end.

Lemma part_any p r l c : ScopusCiteSpec.plain_classes word num -> is_cite r l c -> forall o, attr_part p (to_cite c) = attr_opt o <-> part_ref p r l o.
Proof.
  intros PC H o. assert (INJ : forall x y : option str, attr_opt x = attr_opt y -> x = y) by (intros [x|] [y|] Q; cbn in Q; congruence). destruct (is_scopus r) eqn:IS.
  - destruct r as [ | |s| ]; try discriminate IS. cbn [MixedNetProofs.is_cite] in H. subst c. unfold scopus_of. cbn [to_cite]. unfold of_scopus.
    assert (K : forall a T y J, ScopusCiteSpec.reference word num (upper l) a T y J -> let q := ScopusCiteSpec.read_source word J in
      attr_part p (of_scopus l (scopus_cite l)) = attr_opt (match p with Volume => ScopusCiteSpec.q_volume q | Page => ScopusCiteSpec.q_page q | Rest => Some (ScopusCiteSpec.q_misc q) end)).
    { intros a T y J R q. destruct (@PropertiesScopusCite.C84_fields word num int_of upper PC l a T y J R) as (_ & _ & _ & V & _ & P & M & _). fold q in V, P, M. unfold of_scopus. destruct p; cbn [attr_part q_V q_P q_misc]; unfold attr_of; [rewrite V|rewrite P|rewrite M]; reflexivity. }
    cbn [part_ref]. unfold of_scopus in K. split.
    + intros Q. destruct (readable upper word num int_of l PC) as [(a & T & y & J & R)|(N & _)].
      * exists a, T, y, J. split; [exact R|]. cbv zeta. apply INJ. rewrite <- (K a T y J R). symmetry. exact Q.
      * exfalso. rewrite N in Q. destruct p, o; discriminate Q.
    + intros (a & T & y & J & R & ->). apply (K a T y J R).
  - assert (H' : exists c', c = CWos c' /\ wos_citation upper title l = Ok c') by (destruct r; try discriminate IS; exact H). destruct H' as (c' & -> & W). clear H.
    destruct (C28_parse upper title l) as (c & E & _ & _ & _ & V & P & D & _). rewrite W in E. injection E as <-. cbn [to_cite]. unfold of_wos.
    assert (M : c_misc c' = snd (read_end (p_left (read (upper l))))) by (rewrite <- D; reflexivity).
    assert (PR : part_ref p r l o <-> o = match p with Volume => c_V c' | Page => c_P c' | Rest => c_misc c' end) by (rewrite V, P, M; destruct r; try discriminate IS; reflexivity).
    rewrite PR. destruct p; cbn [attr_part q_V q_P q_misc]; (split; [intros Q; symmetry; apply INJ, Q|intros ->; reflexivity]).
Qed.
(** C108: citeFilter by volume, page or what is left over gives the records with a reference in which that part has the text in it (in capitals), provided no reference that can be read but lacks
    the part comes before it in the record; with reverse the others. *)
Theorem C108_parts_partial : forall p rs (k : str) (case_sensitive : bool), ScopusCiteSpec.plain_classes word num -> (forall r, In r rs -> described r) -> NoDup (map own_id rs) ->
  let found r := exists before t after v, refs r = before ++ t :: after /\ part_ref p r t (Some v) /\ (exists a b, v = a ++ upper k ++ b) /\ forall q, In q before -> ~ part_ref p r q None in
  exists l l', call rs k (field_of p) false case_sensitive = Ok l /\ call rs k (field_of p) true case_sensitive = Ok l' /\ (forall r, In r l <-> In r rs /\ found r) /\ (forall r, In r l' <-> In r rs /\ ~ found r).
Proof.
  intros p rs k cs PC U ND found. apply (filter_any upper lower title all_digits word num int_of text refs); [exact U|exact ND|destruct p; discriminate|]. intros r h (_ & FC). rewrite AnalysisProofs.some_hit_stop. unfold AnalysisSpec.refs, held_cites.
  assert (T : forall c, AnalysisProofs.test_of upper k (field_of p) cs c = Yes <-> exists v, attr_part p c = attr_opt (Some v) /\ exists a b, v = a ++ upper k ++ b).
  { intros c. rewrite AnalysisProofs.test_yes. cbn [attr_opt]. destruct p; cbn [field_of attr_part]; (split; [intros A; inversion A; subst; eauto|intros (v & Q & I)]).
    - exact (@AnalysisSpec.A_V upper k cs c v Q I).
    - exact (@AnalysisSpec.A_P upper k cs c v Q I).
    - exact (@AnalysisSpec.A_misc upper k cs c v Q I). }
  assert (S : forall c, AnalysisProofs.test_of upper k (field_of p) cs c = Stop <-> attr_part p c = attr_opt None).
  { intros c. rewrite AnalysisProofs.test_stop. cbn [attr_opt]. destruct p; cbn [field_of attr_part]; (split; [intros B; inversion B; assumption|intros Q; constructor; exact Q]). }
  unfold found. generalize dependent (snd h). generalize (refs r). clear - PC T S. intros ls cs0 FC. split.
  - intros (pre & c & post & Q & Y & N). revert ls cs0 FC Q. induction pre as [|x pre IH]; intros ls cs0 FC Q.
    + destruct FC as [|l d ls ds H FC]; [discriminate Q|]. cbn [map app] in Q. injection Q as Q1 Q2. apply T in Y. destruct Y as (v & QV & IN). rewrite <- Q1 in QV. apply (part_any p r l d PC H) in QV. exists [], l, ls, v. split; [reflexivity|]. split; [exact QV|]. split; [exact IN|intros q []].
    + destruct FC as [|l d ls ds H FC]; [discriminate Q|]. cbn [map app] in Q. injection Q as Q1 Q2. destruct (IH (fun q J => N q (or_intror J)) ls ds FC Q2) as (b & t & a & v & E & JR & IN & NB). exists (l :: b), t, a, v. split; [rewrite E; reflexivity|]. split; [exact JR|]. split; [exact IN|].
      intros q [<-|J] NJ; [|exact (NB q J NJ)]. apply (N x (or_introl eq_refl)), S. rewrite <- Q1. apply (part_any p r l d PC H), NJ.
  - intros (b & t & a & v & E & JR & IN & NB). revert ls cs0 FC E. induction b as [|x b IH]; intros ls cs0 FC E.
    + destruct FC as [|l d ls ds H FC]; [discriminate E|]. cbn [app] in E. injection E as E1 E2. subst l. exists [], (to_cite d), (map to_cite ds). split; [reflexivity|]. split; [|intros q []]. apply T. exists v. split; [apply (part_any p r t d PC H), JR|exact IN].
    + destruct FC as [|l d ls ds H FC]; [discriminate E|]. cbn [app] in E. injection E as E1 E2. destruct (IH (fun q J => NB q (or_intror J)) ls ds FC E2) as (pre & c & post & Q & Y & N). exists (to_cite d :: pre), c, post. split; [cbn [map app]; rewrite Q; reflexivity|]. split; [exact Y|].
      intros q [<-|J] ST; [|exact (N q J ST)]. apply (NB x (or_introl eq_refl)). subst l. apply (part_any p r x d PC H), S, ST.
Qed.
End Parts.
(** the records of C108_bad_ex, where the hypotheses are shown *)
Example C108_parts_ex : exists w m, wos_parse mixnet_wos = ([w], None) /\ MedlineModel.medline_file mix_alpha mixnet_medline = Ok ([m], false) /\
  let rs := [AnyWos w; AnyMedline m; AnyScopus mixnet_scopus; AnyProQuest mixnet_proquest] in
  ex_filter rs $"1" (field_of Volume) false false = Ok [AnyWos w; AnyScopus mixnet_scopus] /\ ex_filter rs $"v1" (field_of Volume) true false = Ok [AnyMedline m; AnyScopus mixnet_scopus; AnyProQuest mixnet_proquest] /\
  part_ref mixnet_up mix_word digit09 Volume (AnyWos w) $"Smith A, 1990, SCIENCE, V1" (Some $"V1") /\ part_ref mixnet_up mix_word digit09 Volume (AnyWos w) $"DOE J, 1999, CELL" None.
Proof.
  destruct (wos_parse mixnet_wos) as [l e] eqn:E. vm_compute in E. injection E as <- <-. destruct (MedlineModel.medline_file mix_alpha mixnet_medline) as [[l' e']|] eqn:M; vm_compute in M; [|discriminate M]. injection M as <- <-.
  match goal with |- exists w m, ([?a], None) = _ /\ Ok ([?b], false) = _ /\ _ => exists a, b end. split; [reflexivity|]. split; [reflexivity|]. cbv zeta. repeat split; vm_compute; reflexivity.
Qed.
Print Assumptions C108_parts_partial.
