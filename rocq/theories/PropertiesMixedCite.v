(** * C108: who cites what, in collections with records of several databases. *)
From Coq Require Import List ZArith Lia Bool Arith Permutation.
From Coq Require Import String.
From Verif Require Import Base PyStr PyInt CitationModel CitationSpec TagNames RecordModel GrantModel ValuesModel PropertiesCitation PropertiesValues WosModel WosNetModel WosNetSpec WosNetProofs
  PropertiesWosNet Nx NxFacts SeriesSpec NetSpec NetFacts WosTagsModel WosTagsSpec WosTagsProofs MixedModel MixedSpec MixedProofs PropertiesMixed MixedNetModel MixedNetSpec MixedNetProofs PropertiesMoreWosNet PropertiesMixedNet PropertiesMoreMixedNet
  AnalysisModel MixedCiteModel.
From Verif Require CiteNetModel CiteNetSpec PropertiesCite MedlineModel ScopusModel ProQuestModel ScopusCiteSpec ScopusCiteProofs Regex AnalysisSpec AnalysisProofs PropertiesAnalysis.
Import ListNotations.
Local Open Scope list_scope.

Section Cites.
Variables upper lower title : str -> str.
Variable all_digits : str -> bool.
Variables word num : char -> bool.
Variable int_of : str -> Z.
Variable journal : option str -> option str.
Notation named := (named upper title word num int_of).
Notation is_cite := (is_cite upper title word num int_of).
Variable text : anyrec -> str.
Variable refs : anyrec -> list str.
Notation described := (described text refs).
Notation name := (name upper title word num int_of text).
Notation cited := (PropertiesMixedNet.cited upper title word num int_of refs).
Notation hold := (hold upper lower title all_digits word num int_of).

Definition holds (r : anyrec) (h : held) : Prop := fst h = r /\ Forall2 (is_cite r) (refs r) (snd h).
Lemma hold_all rs : (forall r, In r rs -> described r) -> exists hs, hold rs = Ok hs /\ Forall2 holds rs hs.
Proof.
  induction rs as [|r rs IH]; intros U; [exists []; split; [reflexivity|constructor]|]. destruct (U r (or_introl eq_refl)) as (RF & O & RE). destruct IH as (hs & E & F); [intros; apply U; right; assumption|].
  destruct (cites_named upper lower title all_digits word num int_of r _ _ RF O RE) as (cs & CS & FS). exists ((r, cs) :: hs). split; [cbn [MixedCiteModel.hold]; rewrite CS; cbn [bind]; rewrite E; reflexivity|]. constructor; [split; [reflexivity|exact FS]|exact F].
Qed.
(** the author and the year that a reference says *)
Definition author_ref (r : anyrec) (l a : str) : Prop :=
  match r with AnyScopus _ => exists T y J, ScopusCiteSpec.reference word num (upper l) a T y J | _ => author_said upper title l = Some a end.
Definition year_ref (r : anyrec) (l : str) (z : Z) : Prop :=
  match r with AnyScopus _ => exists a T y J, ScopusCiteSpec.reference word num (upper l) a T y J /\ z = int_of y | _ => year_said upper l = Some z end.
Lemma parts_any r l c : ScopusCiteSpec.plain_classes word num -> is_cite r l c ->
  q_original (to_cite c) = l /\ (forall a, q_author (to_cite c) = Has a <-> author_ref r l a) /\ (forall z, q_year (to_cite c) = Has z <-> year_ref r l z).
Proof.
  intros PC H. destruct (is_scopus r) eqn:IS.
  - destruct r as [ | |s| ]; try discriminate IS. cbn [is_cite] in H. subst c. unfold scopus_of. cbn [to_cite]. unfold of_scopus. cbn [q_original q_author q_year]. split; [reflexivity|].
    assert (K : forall a T y J, ScopusCiteSpec.reference word num (upper l) a T y J -> let c := CitationModel.scopus_citation word num int_of upper l in
      attr_of $"author" (s_attributes c) = Has a /\ match s_attributes c with [] => Lacks | _ => attr_opt (s_year c) end = Has (int_of y)).
    { intros a T y J R c. destruct (scopus_kept upper word num int_of l a T y J PC R) as (A & _ & Y). fold c in A, Y. cbv zeta in A, Y. unfold attr_of. rewrite A. split; [reflexivity|]. destruct (s_attributes c); [discriminate A|]. rewrite Y. reflexivity. }
    assert (D : (exists a T y J, ScopusCiteSpec.reference word num (upper l) a T y J) \/ s_attributes (CitationModel.scopus_citation word num int_of upper l) = []).
    { destruct (Regex.re_match (scopus_cite_regex word num) (upper l)) as [g|] eqn:G; [left; apply (ScopusCiteProofs.match_only PC _ G)|right; unfold CitationModel.scopus_citation; rewrite G; reflexivity]. }
    split.
    + intros a. cbn [author_ref]. split.
      * intros Q. destruct D as [(a' & T & y & J & R)|N]; [|rewrite N in Q; discriminate Q]. destruct (K a' T y J R) as (A & _). rewrite A in Q. injection Q as <-. eauto.
      * intros (T & y & J & R). apply (K a T y J R).
    + intros z. cbn [year_ref]. split.
      * intros Q. destruct D as [(a' & T & y & J & R)|N]; [|rewrite N in Q; discriminate Q]. destruct (K a' T y J R) as (_ & Y). rewrite Y in Q. injection Q as <-. exists a', T, y, J. auto.
      * intros (a & T & y & J & R & ->). apply (K a T y J R).
  - assert (H' : exists c', c = CWos c' /\ wos_citation upper title l = Ok c') by (destruct r; try discriminate IS; exact H). destruct H' as (c' & -> & W). clear H.
    destruct (C28_parse upper title l) as (c & E & A & Y & _ & _ & _ & _ & O & _). rewrite W in E. injection E as <-. cbn [to_cite]. unfold of_wos. cbn [q_original q_author q_year]. split; [exact O|].
    assert (AR : forall a, author_ref r l a <-> c_author c' = Some a) by (intros a; rewrite A; destruct r; try discriminate IS; reflexivity).
    assert (YR : forall z, year_ref r l z <-> c_year c' = Some z) by (intros z; rewrite Y; destruct r; try discriminate IS; reflexivity).
    split; [intros a; rewrite AR; destruct (c_author c'); cbn [attr_opt]; split; congruence|intros z; rewrite YR; destruct (c_year c'); cbn [attr_opt]; split; congruence].
Qed.
Lemma id_any r l c : is_cite r l c -> q_id (to_cite c) = named r l.
Proof. intros H. rewrite <- (cite_named _ _ _ _ _ _ _ _ H). destruct c; reflexivity. Qed.
Lemma ids_any r h : holds r h -> map q_id (AnalysisSpec.refs held_cites h) = cited r.
Proof.
  intros (_ & F). unfold AnalysisSpec.refs, held_cites, PropertiesMixedNet.cited. rewrite map_map. induction F as [|l c ls cs H F IH]; [reflexivity|]. cbn [map]. rewrite IH, (id_any _ _ _ H). reflexivity.
Qed.
Lemma citing_any rs hs c : Forall2 holds rs hs -> map fst (AnalysisModel.citing held_cites hs c) = filter (fun q => existsb (fun t => eqb (q_id c) (named q t)) (refs q)) rs.
Proof.
  intros F. rewrite AnalysisProofs.citing_filter. induction F as [|r h rs' hs' H F IH]; [reflexivity|]. cbn [filter].
  assert (E : existsb (same_cite c) (AnalysisSpec.refs held_cites h) = existsb (fun t => eqb (q_id c) (named r t)) (refs r)).
  { destruct H as (_ & FC). unfold AnalysisSpec.refs, held_cites. induction FC as [|l d ls ds HC FC IHC]; [reflexivity|]. cbn [map existsb]. rewrite IHC. unfold same_cite at 1. rewrite (id_any _ _ _ HC). reflexivity. }
  rewrite E. clear E. destruct (existsb (fun t => eqb (q_id c) (named r t)) (refs r)); [|exact IH]. cbn [map]. rewrite IH. destruct H as (-> & _). reflexivity.
Qed.
Lemma id_is r : any_id r = own_id r.
Proof. destruct r; reflexivity. Qed.

(** C108: localCitesOf of the ID of a record of the collection gives the records that have a reference named like it, in the order of the collection; of any other text, none. *)
Theorem C108_local : forall rs, (forall r, In r rs -> described r) -> NoDup (map own_id rs) ->
  (forall r, In r rs -> exists l, any_local_cites_of upper lower title all_digits word num int_of rs (own_id r) = Ok l /\ (NoDup rs -> NoDup l) /\
    forall q, In q l <-> In q rs /\ exists t, In t (refs q) /\ named q t = name r) /\
  (forall s, ~ In s (map own_id rs) -> any_local_cites_of upper lower title all_digits word num int_of rs s = Ok []).
Proof.
  intros rs U ND. destruct (hold_all rs U) as (hs & E & F). unfold any_local_cites_of. rewrite E. cbn [bind].
  assert (IDS : map held_id hs = map own_id rs). { clear - F. induction F as [|r h rs hs H F IH]; [reflexivity|]. cbn [map]. rewrite IH. f_equal. unfold held_id. destruct H as (-> & _). apply id_is. }
  split.
  - intros r I. destruct (F2_in_l _ _ _ _ F I) as (h & J & H). assert (G : get_id held_id hs (own_id r) = Some h).
    { assert (Q : held_id h = own_id r) by (unfold held_id; destruct H as (-> & _); apply id_is). rewrite <- Q. rewrite <- IDS in ND. clear - J ND. induction hs as [|x hs IH]; [destruct J|]. cbn [get_id]. cbn [map] in ND. apply NoDup_cons_iff in ND as [N1 N2]. destruct J as [->|J]; [rewrite eqb_refl; reflexivity|].
      destruct (eqb_spec (held_id h) (held_id x)) as [Q|Q]; [exfalso; apply N1; rewrite <- Q; apply in_map, J|apply IH; assumption]. }
    rewrite G. destruct (U r I) as (RF & O & _). destruct H as (HF & _). rewrite HF. destruct (own_named upper lower title all_digits word num int_of r _ RF O) as (c & C & N & _). rewrite C. cbn [bind]. eexists. split; [reflexivity|].
    rewrite (citing_any rs hs _ F). split; [apply NoDup_filter|]. intros q. rewrite filter_In, existsb_exists.
    assert (QI : q_id (to_cite c) = name r) by (unfold PropertiesMixedNet.name; rewrite <- N; destruct c; reflexivity). rewrite QI.
    split; intros (J' & t & T & Q); (split; [exact J'|]; exists t; split; [exact T|]); [apply eqb_eq in Q; symmetry; exact Q|rewrite Q; apply eqb_refl].
  - intros s N. rewrite <- IDS in N. assert (G : get_id held_id hs s = None).
    { clear - N. induction hs as [|x hs IH]; [reflexivity|]. cbn [get_id]. rewrite neq_eqb by (intros ->; apply N; left; reflexivity). apply IH. intros J. apply N. right. exact J. }
    rewrite G. reflexivity.
Qed.
(** C108: localCitesOf and networkCitation agree: when the names of the records are different, a record cites another one if and only if there is an edge between them. *)
Theorem C108_network : forall rs, (forall r, In r rs -> described r /\ name r <> []) -> NoDup (map own_id rs) -> NoDup (map name rs) ->
  exists g, any_citation upper lower title all_digits word num int_of journal (default_opts false) true true rs = Ok g /\
  forall r, In r rs -> exists l, any_local_cites_of upper lower title all_digits word num int_of rs (own_id r) = Ok l /\
    forall q, In q rs -> (In q l <-> is_edge g (IText (name q)) (IText (name r))).
Proof.
  intros rs U ND NN. destruct (C103_citation_partial upper lower title all_digits word num int_of journal text refs rs U) as (g & G & _ & _ & ED & _). exists g. split; [exact G|]. intros r I.
  destruct (C108_local rs (fun r I => proj1 (U r I)) ND) as (A & _). destruct (A r I) as (l & L & _ & S). exists l. split; [exact L|]. intros q J. rewrite S, ED. split.
  - intros (_ & t & T & Q). exists q, t. split; [exact J|]. split; [exact T|]. split; [reflexivity|]. rewrite Q. reflexivity.
  - intros (q' & t & J' & T & Q1 & Q2). injection Q1 as Q1. injection Q2 as Q2. split; [exact J|]. assert (q' = q).
    { clear - NN J J' Q1. induction rs as [|x rs IH]; [destruct J|]. cbn [map] in NN. apply NoDup_cons_iff in NN as [N1 N2]. destruct J as [->|J], J' as [->|J']; [reflexivity| | |apply IH; assumption]; exfalso; apply N1; [rewrite Q1|rewrite <- Q1]; apply in_map; assumption. }
    subst q'. exists t. split; [exact T|]. symmetry. exact Q2.
Qed.
(** C108: localCiteStats gives each name the number of references under which it is cited, and no others. *)
Theorem C108_stats : forall rs, (forall r, In r rs -> described r) ->
  exists d, any_local_cite_stats upper lower title all_digits word num int_of rs $"citation" = Ok d /\ NoDup (dkeys d) /\
    (forall n, dget (KCite n) d = let k := total (fun r => count n (cited r)) rs in if k =? 0 then None else Some k) /\ total snd d = total (fun r => length (refs r)) rs.
Proof.
  intros rs U. destruct (hold_all rs U) as (hs & E & F). unfold any_local_cite_stats. rewrite E. cbn [bind].
  destruct (PropertiesAnalysis.C40_counts_partial held_cites hs AnalysisSpec.ByCitation (fun c _ => Logic.I)) as (d & D & N & K & T). exists d. split; [exact D|]. split; [exact N|].
  assert (L : forall n, AnalysisSpec.key_count held_cites AnalysisSpec.ByCitation (KCite n) hs = total (fun r => count n (cited r)) rs).
  { intros n. unfold AnalysisSpec.key_count, AnalysisSpec.citations. clear - F. induction F as [|r h rs hs H F IH]; [reflexivity|]. cbn [flat_map]. rewrite filter_app, app_length, IH. unfold total. cbn [map fold_right]. f_equal.
    rewrite <- (ids_any r h H). clear. induction (AnalysisSpec.refs held_cites h) as [|c l IH]; [reflexivity|]. cbn [AnalysisSpec.key_of] in IH. cbn [filter map count AnalysisSpec.key_of].
    assert (EQ : eqb (KCite n) (KCite (q_id c)) = eqb n (q_id c)) by (destruct (eqb_spec n (q_id c)) as [->|NE]; [apply eqb_refl|apply neq_eqb; congruence]). rewrite EQ. destruct (eqb n (q_id c)); cbn [length]; rewrite IH; reflexivity. }
  split; [intros n; rewrite K, L; reflexivity|]. rewrite T. unfold AnalysisSpec.keyed, AnalysisSpec.citations. clear - F. induction F as [|r h rs hs H F IH]; [reflexivity|]. cbn [flat_map]. rewrite filter_app, app_length, IH. unfold total. cbn [map fold_right]. f_equal.
  transitivity (length (map q_id (AnalysisSpec.refs held_cites h))); [|rewrite (ids_any r h H); unfold PropertiesMixedNet.cited; apply map_length]. rewrite map_length. f_equal. cbn [AnalysisSpec.key_of]. apply filter_all.
Qed.
(** what citeFilter asks of a reference *)
Definition answers_ref (k field : str) (case_sensitive : bool) (r : anyrec) (l : str) : Prop :=
  (field = $"all" /\ case_sensitive = true /\ exists a b, l = a ++ k ++ b) \/
  (field = $"all" /\ case_sensitive = false /\ exists a b, upper l = a ++ upper k ++ b) \/
  (field = $"author" /\ exists who a b, author_ref r l who /\ upper who = a ++ upper k ++ b) \/
  (field = $"year" /\ exists z, year_ref r l z /\ py_int k = Some z).
Lemma answers_any r l c k field cs : ScopusCiteSpec.plain_classes word num -> In field [$"all"; $"author"; $"year"] -> is_cite r l c -> (AnalysisSpec.answers upper k field cs (to_cite c) <-> answers_ref k field cs r l).
Proof.
  intros PC IN H. destruct (parts_any r l c PC H) as (O & A & Y). unfold answers_ref. split.
  - intros Q. destruct Q as [d Q|d Q|b d s E Q|b d s E Q|b d y E Q|b d s E Q|b d s E Q|b d s E Q|b d E|b d E|b d E]; try (exfalso; cbn in IN; intuition discriminate); unfold AnalysisSpec.inside in *.
    + right. left. rewrite O in Q. auto.
    + left. rewrite O in Q. auto.
    + right. right. left. split; [reflexivity|]. destruct Q as (x & y & Q). exists s, x, y. split; [apply A, E|exact Q].
    + right. right. right. split; [reflexivity|]. exists y. split; [apply Y, E|exact Q].
  - intros [(-> & -> & Q)|[(-> & -> & Q)|[(-> & who & a & b & W & Q)|(-> & z & W & Q)]]].
    + apply AnalysisSpec.A_all_case. rewrite O. exact Q.
    + apply AnalysisSpec.A_all. rewrite O. exact Q.
    + apply (@AnalysisSpec.A_author upper k cs (to_cite c) who); [apply A, W|exists a, b; exact Q].
    + apply (@AnalysisSpec.A_year upper k cs (to_cite c) z); [apply Y, W|exact Q].
Qed.
(** C108: citeFilter by text, author or year gives the records with a reference that answers, and with reverse the others. Missing: the other fields, and a year that is not a number, see C42. *)
Theorem C108_filter_partial : forall rs (k field : str) (case_sensitive : bool), ScopusCiteSpec.plain_classes word num -> (forall r, In r rs -> described r) -> NoDup (map own_id rs) ->
  In field [$"all"; $"author"; $"year"] -> (field = $"year" -> py_int k <> None) ->
  exists l l', any_cite_filter upper lower title all_digits word num int_of rs k field false case_sensitive = Ok l /\ any_cite_filter upper lower title all_digits word num int_of rs k field true case_sensitive = Ok l' /\
    (forall r, In r l <-> In r rs /\ exists t, In t (refs r) /\ answers_ref k field case_sensitive r t) /\
    (forall r, In r l' <-> In r rs /\ forall t, In t (refs r) -> ~ answers_ref k field case_sensitive r t).
Proof.
  intros rs k field cs PC U ND IN PY. destruct (hold_all rs U) as (hs & E & F). unfold any_cite_filter. rewrite E. cbn [bind]. rewrite AnalysisProofs.matching_ok by (intros (Q1 & Q2 & _); exact (PY Q1 Q2)). cbn [bind].
  set (p := fun h : held => some_hit (AnalysisProofs.test_of upper k field cs) (AnalysisSpec.refs held_cites h)). eexists _, _. split; [reflexivity|]. split; [reflexivity|].
  assert (P : forall r h, holds r h -> p h = true <-> exists t, In t (refs r) /\ answers_ref k field cs r t).
  { intros r h (_ & FC). unfold p. rewrite AnalysisProofs.some_hit_stop. unfold AnalysisSpec.refs, held_cites. split.
    - intros (pre & c & post & Q & T & _). assert (I : In c (map to_cite (snd h))) by (rewrite Q; apply in_or_app; right; left; reflexivity). apply in_map_iff in I. destruct I as (d & <- & I). destruct (F2_in_r _ _ _ _ FC I) as (t & I2 & H). exists t. split; [exact I2|].
      apply (answers_any r t d k field cs PC IN H), AnalysisProofs.test_yes, T.
    - intros (t & I & A). destruct (F2_in_l _ _ _ _ FC I) as (d & I2 & H). apply (in_map to_cite) in I2. apply in_split in I2. destruct I2 as (pre & post & Q). exists pre, (to_cite d), post. split; [exact Q|]. split; [apply AnalysisProofs.test_yes, (answers_any r t d k field cs PC IN H), A|].
      intros q _ S. apply AnalysisProofs.test_stop in S. destruct S; cbn in IN; intuition discriminate. }
  assert (IDS : map held_id hs = map own_id rs). { clear - F. induction F as [|r h rs hs H F IH]; [reflexivity|]. cbn [map]. rewrite IH. f_equal. unfold held_id. destruct H as (-> & _). apply id_is. }
  split.
  - intros r. rewrite in_map_iff. split.
    + intros (h & <- & I). apply filter_In in I. destruct I as (I & Q). destruct (F2_in_r _ _ _ _ F I) as (r & J & H). pose proof H as (HF & _). rewrite HF. split; [exact J|]. apply (P r h H), Q.
    + intros (J & Q). destruct (F2_in_l _ _ _ _ F J) as (h & I & H). exists h. split; [apply H|]. apply filter_In. split; [exact I|]. apply (P r h H), Q.
  - assert (M : forall h, In h hs -> mem (held_id h) (map held_id (filter p hs)) = p h).
    { intros h I. rewrite <- IDS in ND. destruct (p h) eqn:PH; [apply mem_In, in_map, filter_In; auto|]. apply mem_not_In. intros J. apply in_map_iff in J. destruct J as (h' & Q & J). apply filter_In in J. destruct J as (J & PH'). assert (h' = h); [|congruence].
      clear - ND I J Q. induction hs as [|x hs IH]; [destruct I|]. cbn [map] in ND. apply NoDup_cons_iff in ND as [N1 N2]. destruct I as [->|I], J as [->|J]; [reflexivity| | |apply IH; assumption]; exfalso; apply N1; [rewrite <- Q|rewrite Q]; apply in_map; assumption. }
    intros r. rewrite in_map_iff. split.
    + intros (h & <- & I). apply filter_In in I. destruct I as (I & Q). rewrite M in Q by exact I. destruct (F2_in_r _ _ _ _ F I) as (r & J & H). pose proof H as (HF & _). rewrite HF. split; [exact J|]. intros t IT A. assert (X : p h = true) by (apply (P r h H); eauto). rewrite X in Q. discriminate Q.
    + intros (J & Q). destruct (F2_in_l _ _ _ _ F J) as (h & I & H). exists h. split; [apply H|]. apply filter_In. split; [exact I|]. rewrite M by exact I. destruct (p h) eqn:PH; [|reflexivity]. apply (P r h H) in PH. destruct PH as (t & IT & A). destruct (Q t IT A).
Qed.
End Cites.

(** By author, journal or year one reference of Scopus that cannot be read is enough for localCiteStats to fail. *)
Theorem C108_stats_refuted : exists r, described mixnet_text mixnet_refs r /\ forall key, In key [$"author"; $"journal"; $"year"] ->
  any_local_cite_stats mixnet_up mix_id mix_id (forallb digit09) mix_word digit09 mixnet_int [r] key = Raise AttributeError.
Proof.
  destruct C103_ex as (w & m & _ & _ & H). exists (AnyScopus mixnet_scopus). split; [apply H; right; right; left; reflexivity|]. intros key [<-|[<-|[<-|[]]]]; vm_compute; reflexivity.
Qed.
(** the records of C103_ex: that of WOS cites that of Medline; the records of Scopus cites one work twice *)
Example C108_ex : exists w m, wos_parse mixnet_wos = ([w], None) /\ MedlineModel.medline_file mix_alpha mixnet_medline = Ok ([m], false) /\
  let rs := [AnyWos w; AnyMedline m; AnyScopus mixnet_scopus; AnyProQuest mixnet_proquest] in
  NoDup (map own_id rs) /\ NoDup (map (name mixnet_up mix_id mix_word digit09 mixnet_int mixnet_text) rs) /\
  any_local_cites_of mixnet_up mix_id mix_id (forallb digit09) mix_word digit09 mixnet_int rs $"PMID:77" = Ok [AnyWos w] /\
  (exists d, any_local_cite_stats mixnet_up mix_id mix_id (forallb digit09) mix_word digit09 mixnet_int rs $"citation" = Ok d /\ dget (KCite $"SMITH A., 1990, SCIENCE") d = Some 2 /\ dget (KCite $"SMITH A, 1990, SCIENCE") d = Some 1) /\
  any_cite_filter mixnet_up mix_id mix_id (forallb digit09) mix_word digit09 mixnet_int rs $"smith" $"author" false false = Ok [AnyWos w; AnyScopus mixnet_scopus] /\
  any_cite_filter mixnet_up mix_id mix_id (forallb digit09) mix_word digit09 mixnet_int rs $"1999" $"year" true false = Ok [AnyMedline m; AnyScopus mixnet_scopus; AnyProQuest mixnet_proquest].
Proof.
  destruct (wos_parse mixnet_wos) as [l e] eqn:E. vm_compute in E. injection E as <- <-. destruct (MedlineModel.medline_file mix_alpha mixnet_medline) as [[l' e']|] eqn:M; vm_compute in M; [|discriminate M]. injection M as <- <-.
  match goal with |- exists w m, ([?a], None) = _ /\ Ok ([?b], false) = _ /\ _ => exists a, b end. split; [reflexivity|]. split; [reflexivity|]. cbv zeta.
  split; [cbn [map]; repeat (constructor; [vm_compute; intuition discriminate|]); constructor|]. split; [cbn [map]; repeat (constructor; [vm_compute; intuition discriminate|]); constructor|].
  split; [vm_compute; reflexivity|]. split; [|split; vm_compute; reflexivity].
  match goal with |- exists g, ?X = Ok g /\ _ => destruct X as [g|] eqn:C; vm_compute in C; [|discriminate C] end. injection C as <-. eexists. split; [reflexivity|]. split; vm_compute; reflexivity.
Qed.
Print Assumptions C108_local.
Print Assumptions C108_network.
Print Assumptions C108_stats.
Print Assumptions C108_filter_partial.
Print Assumptions C108_stats_refuted.
