(** C94, C103: networks of co-citations with dropNonJournals. *)
From Coq Require Import List ZArith Lia Bool Arith Permutation.
From Coq Require Import String.
From Verif Require Import Base PyStr CitationModel CitationSpec TagNames RecordModel GrantModel ValuesModel PropertiesCitation PropertiesValues WosModel WosNetModel WosNetSpec WosNetProofs
  PropertiesWosNet Nx NxFacts SeriesSpec NetSpec NetFacts WosTagsModel WosTagsSpec WosTagsProofs MixedModel MixedSpec MixedProofs PropertiesMixed MixedNetModel MixedNetSpec MixedNetProofs PropertiesMoreWosNet PropertiesMixedNet PropertiesMoreMixedNet.
From Verif Require CiteNetModel CiteNetSpec PropertiesCite MedlineModel ScopusModel ProQuestModel ScopusCiteSpec PropertiesScopusCite Regex ScopusCiteProofs.
Import ListNotations.
Local Open Scope list_scope.

(** dropNonJournals = True, the other options as they are *)
Definition only_journals (dropAnon : bool) : CiteNetModel.opts :=
  {| CiteNetModel.o_type := CiteNetModel.Full; CiteNetModel.o_anon := dropAnon; CiteNetModel.o_journals := true; CiteNetModel.o_words := []; CiteNetModel.o_core := false; CiteNetModel.o_info := true;
     CiteNetModel.o_full := false; CiteNetModel.o_values := [$"id"; $"authorsFull"; $"year"; $"title"; $"journal"; $"volume"; $"beginningPage"];
     CiteNetModel.o_detailed := false; CiteNetModel.o_cr := false; CiteNetModel.o_count := true; CiteNetModel.o_weighted := true |}.
Section Mixed.
Variables upper lower title : str -> str.
Variable all_digits : str -> bool.
Variables word num : char -> bool.
Variable int_of : str -> Z.
(** the full name of a journal that is in the database of journals, None for one that is not *)
Variable journal : option str -> option str.
Notation api := (any_api journal).
Notation rapi := (any_rapi upper lower title all_digits word num int_of).
Notation named := (named upper title word num int_of).
Notation nobody := (nobody upper title word num int_of).
Notation is_cite := (is_cite upper title word num int_of).
Variable text : anyrec -> str.
Variable refs : anyrec -> list str.
Notation described := (described text refs).
Notation sees_any := (sees_any upper lower title all_digits word num int_of text refs).
Notation see_all := (see_all upper lower title all_digits word num int_of text refs).
Notation always_info := (always_info upper lower title all_digits word num int_of journal text refs).
(** a reference says a journal, and it is in the database *)
Definition in_journal (r : anyrec) (l : str) : Prop :=
  match r with
  | AnyScopus _ => exists a T y J, ScopusCiteSpec.reference word num (upper l) a T y J /\ journal (Some (ScopusCiteSpec.q_journal (ScopusCiteSpec.read_source word J))) <> None
  | _ => exists j, journal_said upper l = Some j /\ journal (Some j) <> None
  end.
Lemma journal_any r l c : ScopusCiteSpec.plain_classes word num -> journal None = None -> is_cite r l c -> (CiteNetModel.is_journal api c = true <-> in_journal r l).
Proof.
  intros PC JN H. cbn [CiteNetModel.is_journal any_api]. destruct (is_scopus r) eqn:IS.
  - destruct r as [ | |s| ]; try discriminate IS. cbn [is_cite] in H. subst c. cbn [in_journal]. split.
    + intros J. destruct (Regex.re_match (scopus_cite_regex word num) (upper l)) as [g|] eqn:G.
      * destruct (ScopusCiteProofs.match_only PC _ G) as (a & T & y & K & R). exists a, T, y, K. split; [exact R|]. destruct (scopus_kept upper word num int_of l a T y K PC R) as (_ & Q & _).
        unfold a_journal, scopus_of in J. cbn [a_attributes] in J. rewrite Q in J. intros Z. rewrite Z in J. discriminate J.
      * exfalso. unfold a_journal, scopus_of in J. cbn [a_attributes] in J. unfold CitationModel.scopus_citation in J. rewrite G in J. cbn in J. rewrite JN in J. discriminate J.
    + intros (a & T & y & K & R & J). destruct (scopus_kept upper word num int_of l a T y K PC R) as (_ & Q & _). unfold a_journal, scopus_of. cbn [a_attributes]. rewrite Q. match goal with |- context [match ?x with Some _ => _ | None => _ end] => destruct x end; [reflexivity|congruence].
  - assert (H' : exists c', c = CWos c' /\ wos_citation upper title l = Ok c') by (destruct r; try discriminate IS; exact H). destruct H' as (c' & -> & W). clear H.
    assert (IJ : in_journal r l <-> exists j, journal_said upper l = Some j /\ journal (Some j) <> None) by (destruct r; try discriminate IS; reflexivity). rewrite IJ. clear IJ.
    destruct (C28_parse upper title l) as (c & E & _ & _ & J & _). rewrite W in E. injection E as <-. unfold journal_said. rewrite <- J.
    assert (A : a_journal (CWos c') = c_journal c') by (unfold a_journal, a_attributes, wos_attributes; destruct c'; cbn; repeat match goal with |- context [match ?x with _ => _ end] => destruct x end; reflexivity).
    rewrite A. split.
    + destruct (c_journal c') as [j|]; [|rewrite JN; discriminate]. intros Q. exists j. split; [reflexivity|]. intros Z. rewrite Z in Q. discriminate Q.
    + intros (j & -> & Q). destruct (journal (Some j)); [reflexivity|congruence].
Qed.
Definition kept (listed : anyrec -> str -> bool) (da : bool) (r : anyrec) : list str := map (named r) (filter (fun l => listed r l && (negb da || negb (nobody r l))) (refs r)).
Lemma selected_journals da ss r l c listed : ScopusCiteSpec.plain_classes word num -> journal None = None -> is_cite r l c -> (listed r l = true <-> in_journal r l) ->
  CiteNetSpec.selected api rapi upper (only_journals da) ss c = (listed r l && (negb da || negb (nobody r l)))%bool.
Proof.
  intros PC JN H L. rewrite <- (journal_any r l c PC JN H) in L. unfold CiteNetSpec.selected.
  cbn [CiteNetModel.o_type CiteNetModel.o_anon CiteNetModel.o_journals CiteNetModel.o_words CiteNetModel.o_core only_journals negb orb andb forallb]. rewrite <- (cite_nobody upper lower title all_digits word num int_of r l c PC H).
  cbn [CiteNetModel.is_anon any_api CiteNetSpec.name_of CiteNetModel.o_type only_journals CiteNetSpec.whole orb].
  destruct (CiteNetModel.is_journal _ c), (listed r l); try reflexivity; try (cbn; rewrite ?andb_true_r, ?andb_false_r; reflexivity); exfalso; intuition discriminate.
Qed.
Lemma kept_names da ss r s listed : ScopusCiteSpec.plain_classes word num -> journal None = None -> (forall l, In l (refs r) -> (listed r l = true <-> in_journal r l)) -> sees_any r s ->
  CiteNetSpec.cited_names api rapi upper (only_journals da) ss s = map IText (kept listed da r).
Proof.
  intros PC JN K (_ & _ & _ & F & _). unfold CiteNetSpec.cited_names, CiteNetSpec.cited, CiteNetSpec.names_of, kept. cbn [CiteNetModel.cites any_rapi].
  induction F as [|l c ls cs H F IH]; [reflexivity|]. cbn [filter]. specialize (IH (fun l I => K l (or_intror I))). rewrite (selected_journals da ss r l c listed PC JN H (K l (or_introl eq_refl))).
  destruct (listed r l && _)%bool; [|exact IH]. cbn [flat_map map]. rewrite IH. cbn [app CiteNetSpec.name_of CiteNetModel.o_type only_journals CiteNetModel.cid any_api]. rewrite (cite_named _ _ _ _ _ _ _ _ H). reflexivity.
Qed.
(** C103: with dropNonJournals the nodes of the network of co-citations of a collection with records of several databases are the references that say a journal of the database, and, with
    dropAnon, an author; counts and weights are those of the references that are left. *)
Theorem C103_journals_partial : forall (dropAnon : bool) (listed : anyrec -> str -> bool) rs, ScopusCiteSpec.plain_classes word num -> journal None = None ->
  (forall r, In r rs -> described r) -> (forall r l, In r rs -> In l (refs r) -> (listed r l = true <-> in_journal r l)) ->
  exists g, any_co_citation upper lower title all_digits word num int_of journal (only_journals dropAnon) rs = Ok g /\ gdir g = false /\
    (forall n, is_node g n <-> exists r l, In r rs /\ In l (refs r) /\ in_journal r l /\ (dropAnon = true -> nobody r l = false) /\ n = IText (named r l)) /\
    (forall n, node_attr g (IText n) $"count" = positive_count (total (fun r => count n (kept listed dropAnon r)) rs)) /\
    (forall u v, ed g (IText u) (IText v) = edge_value true (total (fun r => pairs_within u v (kept listed dropAnon r)) rs)).
Proof.
  intros da listed rs PC JN U LI. destruct (see_all rs U) as (ss & E & F). unfold any_co_citation. rewrite E. cbn [bind].
  assert (V : forall s, In s ss -> exists r, In r rs /\ sees_any r s) by (intros s I; apply (F2_in_r _ _ _ _ F I)).
  assert (V' : forall s, In s ss -> exists r, sees_any r s) by (intros s I; destruct (V s I) as (r & _ & S); eauto).
  assert (US : forall c, CiteNetSpec.usable api rapi (only_journals da) ss c).
  { intros c. split; [discriminate|]. intros (NI & FT & ND & r & k & H). apply (always_info da ss c V'). split; [exact NI|]. split; [reflexivity|]. split; [exact ND|]. exists r, k. exact H. }
  destruct (PropertiesCite.C18_made _ _ _ _ api rapi upper (only_journals da) ss (fun s c _ _ _ => US c)) as (g & Q). exists g. split; [exact Q|].
  destruct (PropertiesCite.C18_counts_and_weights _ _ _ _ _ _ _ _ _ _ Q) as (_ & D & N & CT & W). split; [exact D|]. split; [|split].
  - intros n. rewrite N. split.
    + intros (s & c & I & IC & SL & NM). destruct (V s I) as (r & J & S). pose proof S as (_ & _ & _ & F2 & _). destruct (F2_in_r _ _ _ _ F2 IC) as (l & IL & CL). exists r, l. split; [exact J|]. split; [exact IL|].
      rewrite (selected_journals da ss r l c listed PC JN CL (LI r l J IL)) in SL. apply andb_true_iff in SL as [S1 S2]. split; [apply (LI r l J IL), S1|]. split.
      * intros ->. cbn [negb orb] in S2. destruct (nobody r l); [discriminate|reflexivity].
      * injection NM as <-. cbn [CiteNetModel.cid any_api]. rewrite (cite_named _ _ _ _ _ _ _ _ CL). reflexivity.
    + intros (r & l & J & IL & IJ & UN & ->). destruct (F2_in_l _ _ _ _ F J) as (s & I & S). pose proof S as (_ & _ & _ & F2 & _). destruct (F2_in_l _ _ _ _ F2 IL) as (c & IC & CL). exists s, c. split; [exact I|]. split; [exact IC|].
      split; [|unfold CiteNetSpec.name_of; cbn [CiteNetModel.o_type only_journals CiteNetModel.cid any_api]; rewrite (cite_named _ _ _ _ _ _ _ _ CL); reflexivity].
      rewrite (selected_journals da ss r l c listed PC JN CL (LI r l J IL)). apply (LI r l J IL) in IJ. rewrite IJ. destruct da; [rewrite (UN eq_refl)|]; reflexivity.
  - intros n. rewrite (CT eq_refl). f_equal. unfold occurs. symmetry. apply (total_F2 sees_any _ _ _ _ F). intros r s J S. rewrite (kept_names da ss _ _ listed PC JN (fun l => LI r l J) S), count_text. reflexivity.
  - intros u v. rewrite W. f_equal. symmetry. apply (total_F2 sees_any _ _ _ _ F). intros r s J S. rewrite (kept_names da ss _ _ listed PC JN (fun l => LI r l J) S). unfold pairs_within. rewrite eqb_text, !count_text. reflexivity.
Qed.
End Mixed.

Section Wos.
Variables upper lower title : str -> str.
Variable all_digits : str -> bool.
Variable journal : option str -> option str.
Notation api := (wos_api journal).
Notation rapi := (wos_rapi upper lower title all_digits).
Notation ident := (id_of upper title).
Notation sees := (sees upper title).
Definition in_database (l : str) : bool := match journal (journal_said upper l) with Some _ => true | None => false end.
Definition kept_lines (da : bool) (r : wrec) : list str := map ident (filter (fun l => in_database l && (negb da || negb (unknown upper title l))) (lines_of $"CR" r)).
Lemma selected_lines da ss l c : wos_citation upper title l = Ok c -> CiteNetSpec.selected api rapi upper (only_journals da) ss c = (in_database l && (negb da || negb (unknown upper title l)))%bool.
Proof.
  intros H. destruct (C28_parse upper title l) as (c' & E & _ & _ & J & _). rewrite H in E. injection E as <-. unfold in_database, journal_said, unknown. rewrite H, <- J.
  unfold CiteNetSpec.selected. cbn [CiteNetModel.o_type CiteNetModel.o_anon CiteNetModel.o_journals CiteNetModel.o_words CiteNetModel.o_core only_journals negb orb andb forallb CiteNetModel.is_journal CiteNetModel.is_anon wos_api].
  cbn [CiteNetSpec.name_of CiteNetModel.o_type only_journals CiteNetSpec.whole orb]. destruct (journal _), (is_anonymous c), da; reflexivity.
Qed.
Lemma kept_texts da ss r s : sees r s -> CiteNetSpec.cited_names api rapi upper (only_journals da) ss s = map IText (kept_lines da r).
Proof.
  intros (_ & _ & _ & _ & F). unfold CiteNetSpec.cited_names, CiteNetSpec.cited, CiteNetSpec.names_of, kept_lines. cbn [CiteNetModel.cites wos_rapi].
  induction F as [|l c ls cs H F IH]; [reflexivity|]. cbn [filter]. rewrite (selected_lines da ss l c H). destruct (in_database l && _)%bool; [|exact IH]. cbn [flat_map map]. rewrite IH. cbn [app CiteNetSpec.name_of CiteNetModel.o_type only_journals CiteNetModel.cid wos_api].
  unfold id_of. rewrite H. reflexivity.
Qed.
(** C94: the same of collections of WOS records. *)
Theorem C94_journals : forall (dropAnon : bool) rs, (forall r, In r rs -> usable_record r) ->
  exists g, wos_co_citation upper lower title all_digits journal (only_journals dropAnon) rs = Ok g /\ gdir g = false /\
    (forall n, is_node g n <-> exists r l, In r rs /\ In l (lines_of $"CR" r) /\ journal (journal_said upper l) <> None /\ (dropAnon = true -> unknown upper title l = false) /\ n = IText (ident l)) /\
    (forall n, node_attr g (IText n) $"count" = positive_count (total (fun r => count n (kept_lines dropAnon r)) rs)) /\
    (forall u v, ed g (IText u) (IText v) = edge_value true (total (fun r => pairs_within u v (kept_lines dropAnon r)) rs)).
Proof.
  intros da rs U. destruct (PropertiesWosNet.see_all upper lower title all_digits rs U) as (ss & E & F). unfold wos_co_citation. rewrite E. cbn [bind].
  assert (V : forall s, In s ss -> exists r, In r rs /\ sees r s) by (intros s I; apply (F2_in_r _ _ _ _ F I)).
  assert (V' : forall s, In s ss -> exists r, sees r s) by (intros s I; destruct (V s I) as (r & _ & S); eauto).
  assert (US : forall c, CiteNetSpec.usable api rapi (only_journals da) ss c).
  { intros c. split; [discriminate|]. intros (NI & FT & ND & r & k & H). apply (PropertiesWosNet.always_info upper lower title all_digits journal da ss c V'). split; [exact NI|]. split; [reflexivity|]. split; [exact ND|]. exists r, k. exact H. }
  destruct (PropertiesCite.C18_made _ _ _ _ api rapi upper (only_journals da) ss (fun s c _ _ _ => US c)) as (g & Q). exists g. split; [exact Q|].
  destruct (PropertiesCite.C18_counts_and_weights _ _ _ _ _ _ _ _ _ _ Q) as (_ & D & N & CT & W). split; [exact D|].
  assert (ID : forall l c, wos_citation upper title l = Ok c -> c_id c = ident l) by (intros l c H; unfold id_of; rewrite H; reflexivity). split; [|split].
  - intros n. rewrite N. split.
    + intros (s & c & I & IC & SL & NM). destruct (V s I) as (r & J & S). pose proof S as (_ & _ & _ & _ & F2). destruct (F2_in_r _ _ _ _ F2 IC) as (l & IL & CL). exists r, l. split; [exact J|]. split; [exact IL|].
      rewrite (selected_lines da ss l c CL) in SL. apply andb_true_iff in SL as [S1 S2]. split; [unfold in_database in S1; destruct (journal _); [discriminate|discriminate S1]|]. split.
      * intros ->. cbn [negb orb] in S2. destruct (unknown upper title l); [discriminate|reflexivity].
      * injection NM as <-. cbn [CiteNetModel.cid wos_api]. rewrite (ID l c CL). reflexivity.
    + intros (r & l & J & IL & IJ & UN & ->). destruct (F2_in_l _ _ _ _ F J) as (s & I & S). pose proof S as (_ & _ & _ & _ & F2). destruct (F2_in_l _ _ _ _ F2 IL) as (c & IC & CL). exists s, c. split; [exact I|]. split; [exact IC|].
      split; [|unfold CiteNetSpec.name_of; cbn [CiteNetModel.o_type only_journals CiteNetModel.cid wos_api]; rewrite (ID l c CL); reflexivity].
      rewrite (selected_lines da ss l c CL). unfold in_database. destruct (journal _); [|congruence]. destruct da; [rewrite (UN eq_refl)|]; reflexivity.
  - intros n. rewrite (CT eq_refl). f_equal. unfold occurs. symmetry. apply (total_F2 sees _ _ _ _ F). intros r s J S. rewrite (kept_texts da ss _ _ S), count_text. reflexivity.
  - intros u v. rewrite W. f_equal. symmetry. apply (total_F2 sees _ _ _ _ F). intros r s J S. rewrite (kept_texts da ss _ _ S). unfold pairs_within. rewrite eqb_text, !count_text. reflexivity.
Qed.
End Wos.
(** a database with one journal: references to it are kept, those to other journals and those that say none are not *)
Definition one_journal (o : option str) : option str := match o with Some s => if eqb s $"SCIENCE" then Some $"Science" else None | None => None end.
Example C94_journals_ex : one_journal None = None /\
  (forall l, In l [$"POE B, 1990, SCIENCE"] -> in_database (fun s => s) one_journal l = true) /\ in_database (fun s => s) one_journal $"POE B, 1990, CELL" = false /\ in_database (fun s => s) one_journal $"POE B" = false /\
  exists g, wos_co_citation (flat_map ex_up) ex_id ex_id (forallb digit09) one_journal (only_journals true) ex_recs = Ok g /\ is_node g (IText $"POE B, 1990, SCIENCE") /\ ~ is_node g (IText $"DOE J, 1999, NATURE").
Proof.
  split; [reflexivity|]. split; [intros l [<-|[]]; vm_compute; reflexivity|]. split; [vm_compute; reflexivity|]. split; [vm_compute; reflexivity|].
  destruct (wos_co_citation _ _ _ _ _ _ _) as [g|] eqn:E; vm_compute in E; [|discriminate]. injection E as <-. eexists. split; [reflexivity|]. unfold is_node. cbn. split; [left; reflexivity|]. intros [Q|[]]. discriminate Q.
Qed.
Example C103_journals_ex : exists g, any_co_citation mixnet_up mix_id mix_id (forallb digit09) mix_word digit09 mixnet_int one_journal (only_journals true) [AnyScopus read_scopus] = Ok g /\
  is_node g (IText $"SMITH A., 1990, SCIENCE") /\ ~ is_node g (IText $"POE B., 1991, NATURE").
Proof.
  destruct (any_co_citation _ _ _ _ _ _ _ _ _ _) as [g|] eqn:E; vm_compute in E; [|discriminate]. injection E as <-. eexists. split; [reflexivity|]. unfold is_node. cbn. split; [left; reflexivity|]. intros [Q|[]]. discriminate Q.
Qed.
Print Assumptions C103_journals_partial.
Print Assumptions C94_journals.
