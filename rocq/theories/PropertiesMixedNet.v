(** C103: networks of citations of collections with records of several databases. *)
From Coq Require Import List ZArith Lia Bool Arith Permutation.
From Coq Require Import String.
From Verif Require Import Base PyStr CitationModel CitationSpec TagNames RecordModel GrantModel ValuesModel PropertiesCitation PropertiesValues WosModel WosNetModel WosNetSpec WosNetProofs
  PropertiesWosNet Nx NxFacts SeriesSpec NetSpec NetFacts WosTagsModel WosTagsSpec WosTagsProofs MixedModel MixedSpec MixedProofs PropertiesMixed MixedNetModel MixedNetSpec MixedNetProofs.
From Verif Require CiteNetModel CiteNetSpec PropertiesCite MedlineModel ScopusModel ProQuestModel ScopusCiteSpec PropertiesScopusCite CitationProofs2 CsvProofs.
Import ListNotations.
Local Open Scope list_scope.

Section Networks.
Variables upper lower title : str -> str.
Variable all_digits : str -> bool.
Variables word num : char -> bool.
Variable int_of : str -> Z.
Variable journal : option str -> option str.
Notation look := (look upper lower title all_digits word num int_of).
Notation api := (any_api journal).
Notation rapi := (any_rapi upper lower title all_digits word num int_of).
Notation named := (named upper title word num int_of).
Notation nobody := (nobody upper title word num int_of).
Notation is_cite := (is_cite upper title word num int_of).

(** what is said of each record: the text that it would be cited as, and the texts of its references *)
Variable text : anyrec -> str.
Variable refs : anyrec -> list str.
Definition described (r : anyrec) : Prop := read_from_file r /\ own_text r (text r) /\ references r (refs r).
Definition name (r : anyrec) : str := named r (text r).
Definition cited (r : anyrec) : list str := map (named r) (refs r).

Definition sees_any (r : anyrec) (s : seen_any) : Prop :=
  fst (fst s) = r /\ a_id (snd (fst s)) = name r /\ a_year (snd (fst s)) <> None /\ Forall2 (is_cite r) (refs r) (snd s) /\
  forall k, In k [$"id"; $"authorsFull"; $"year"; $"title"; $"journal"; $"volume"; $"beginningPage"] -> look r k <> Ok (Some (FTexts [])).
Lemma see_all rs : (forall r, In r rs -> described r) -> exists ss, see_any upper lower title all_digits word num int_of rs = Ok ss /\ Forall2 sees_any rs ss.
Proof.
  induction rs as [|r rs IH]; intros U; [exists []; split; [reflexivity|constructor]|]. destruct (U r (or_introl eq_refl)) as (RF & O & RE). destruct IH as (ss & E & F); [intros; apply U; right; assumption|].
  destruct (own_named upper lower title all_digits word num int_of r _ RF O) as (c & C & N & Y). destruct (cites_named upper lower title all_digits word num int_of r _ _ RF O RE) as (cs & CS & FS).
  exists ((r, c, cs) :: ss). split; [cbn [see_any]; rewrite C; cbn [bind]; rewrite CS; cbn [bind]; rewrite E; reflexivity|]. constructor; [|exact F]. split; [reflexivity|]. split; [exact N|]. split; [exact Y|]. split; [exact FS|].
  intros k I. apply (never_void upper lower title all_digits word num int_of r _ k RF O I).
Qed.
Lemma sees_name r s : sees_any r s -> a_id (snd (fst s)) = name r.
Proof. intros (_ & N & _). exact N. Qed.
Lemma sees_refs r s : sees_any r s -> map a_id (snd s) = cited r.
Proof. intros (_ & _ & _ & F & _). unfold cited. induction F as [|l c ls cs H F IH]; [reflexivity|]. cbn [map]. rewrite IH. f_equal. apply (cite_named upper title word num int_of), H. Qed.
Lemma names_texts (cs : list acite) da : CiteNetSpec.names_of api (default_opts da) cs = map IText (map a_id cs).
Proof. unfold CiteNetSpec.names_of. induction cs as [|c cs IH]; [reflexivity|]. cbn [flat_map map]. rewrite IH. reflexivity. Qed.
Lemma all_selected rs c : CiteNetSpec.selected api rapi upper (default_opts false) rs c = true.
Proof. reflexivity. Qed.
Lemma cited_texts rs r s : sees_any r s -> CiteNetSpec.cited_names api rapi upper (default_opts false) rs s = map IText (cited r).
Proof.
  intros S. unfold CiteNetSpec.cited_names, CiteNetSpec.cited. rewrite (filter_ext _ (fun _ => true)) by (intros c; apply all_selected). rewrite filter_all, names_texts. cbn [CiteNetModel.cites any_rapi]. rewrite (sees_refs _ _ S). reflexivity.
Qed.
Lemma head_texts da r s : sees_any r s -> CiteNetSpec.head_names api rapi (default_opts da) s = [IText (name r)].
Proof. intros S. unfold CiteNetSpec.head_names. rewrite names_texts. cbn [map CiteNetModel.own any_rapi]. rewrite (sees_name _ _ S). reflexivity. Qed.
Lemma citing_some rs r s : sees_any r s -> CiteNetSpec.citing api rapi upper (default_opts false) rs s = negb (length (refs r) =? 0).
Proof. intros (_ & _ & _ & F & _). unfold CiteNetSpec.citing. rewrite all_selected. cbn [andb CiteNetModel.cites any_rapi]. rewrite (F2_length _ _ _ F). reflexivity. Qed.
Lemma always_info da ss c : (forall s, In s ss -> exists r, sees_any r s) -> ~ CiteNetSpec.no_info api rapi (default_opts da) ss c.
Proof.
  intros V (_ & _ & _ & s & t & F & I & G). apply find_some in F. destruct F as [F _]. apply in_rev in F. destruct (V s F) as (r & Q & _ & _ & _ & K).
  cbn [CiteNetModel.o_values default_opts] in I. cbn [CiteNetModel.rget any_rapi] in G. rewrite Q in G. specialize (K t I). destruct (look r t) as [[v|]|]; [|discriminate G|discriminate G]. destruct v; cbn [shown_value] in G; try discriminate G. injection G as ->. congruence.
Qed.
Lemma in_coll rs ss c : Forall2 sees_any rs ss -> CiteNetSpec.in_collection api rapi ss c = existsb (fun r => eqb (a_id c) (name r)) rs.
Proof. intros F. symmetry. unfold CiteNetSpec.in_collection. apply (F2_existsb sees_any _ _ _ _ F). intros r s S. cbn [CiteNetModel.cid CiteNetModel.own any_api any_rapi]. rewrite eqb_text, (sees_name _ _ S). reflexivity. Qed.
Lemma rec_of rs ss c : Forall2 sees_any rs ss -> option_map (fun s => any_id (fst (fst s))) (CiteNetSpec.record_of api rapi ss c) = option_map any_id (find (fun r => eqb (a_id c) (name r)) (rev rs)).
Proof.
  intros F. unfold CiteNetSpec.record_of. pose proof (F2_find sees_any (fun r => eqb (a_id c) (name r)) (fun s : seen_any => eqb (CiteNetModel.cid api c) (CiteNetModel.cid api (CiteNetModel.own rapi s))) _ _ (F2_rev _ _ _ F)) as Q.
  assert (K : forall a b, sees_any a b -> eqb (a_id c) (name a) = eqb (CiteNetModel.cid api c) (CiteNetModel.cid api (CiteNetModel.own rapi b))).
  { intros r s S. cbn [CiteNetModel.cid CiteNetModel.own any_api any_rapi]. rewrite eqb_text, (sees_name _ _ S). reflexivity. }
  specialize (Q K). destruct (find _ (rev rs)) as [r|], (find _ (rev ss)) as [s|]; try contradiction; [|reflexivity]. cbn [option_map]. destruct Q as (-> & _). reflexivity.
Qed.
(** what a node shows: whether a record of the collection has that name, and the id of the last such record *)
Definition shows_any (rs : list anyrec) (g : graph WosNetModel.name) : Prop :=
  forall n, is_node g (IText n) -> node_attr g (IText n) $"inCore" = Some (VBool (existsb (fun r => eqb n (name r)) rs)) /\
    node_attr g (IText n) $"MK-ID" = Some (VStr (match find (fun r => eqb n (name r)) (rev rs) with Some r => own_id r | None => $"None" end)).
Lemma shows da rs ss c n : Forall2 sees_any rs ss -> CiteNetSpec.name_of api (default_opts da) c = Some (IText n) ->
  CiteNetSpec.node_shows api rapi (default_opts da) ss c (IText n) $"inCore" = Some (VBool (existsb (fun r => eqb n (name r)) rs)) /\
  CiteNetSpec.node_shows api rapi (default_opts da) ss c (IText n) $"MK-ID" = Some (VStr (match find (fun r => eqb n (name r)) (rev rs) with Some r => own_id r | None => $"None" end)).
Proof.
  intros F N. injection N as <-. pose proof (in_coll rs ss c F) as IC. pose proof (rec_of rs ss c F) as RC. split.
  - transitivity (Some (VBool (CiteNetSpec.in_collection api rapi ss c))); [reflexivity|]. rewrite IC. reflexivity.
  - transitivity (match CiteNetSpec.record_of api rapi ss c with Some s => Some (VStr (any_id (fst (fst s)))) | None => Some (VStr $"None") end); [unfold CiteNetSpec.node_shows; destruct (CiteNetSpec.record_of api rapi ss c); reflexivity|].
    destruct (CiteNetSpec.record_of api rapi ss c) as [s|], (find _ (rev rs)) as [r|]; cbn [option_map] in RC; try discriminate; [|reflexivity]. injection RC as ->. reflexivity.
Qed.

(** C103: the citation network of described records that have names is made; its nodes are the records that cite something, and what they cite, each under the
    name that its own database gives it; the weight of an edge is the number of references under which the one is cited by the other. *)
Theorem C103_citation_partial : forall rs, (forall r, In r rs -> described r /\ name r <> []) ->
  exists g, any_citation upper lower title all_digits word num int_of journal (default_opts false) true true rs = Ok g /\ gdir g = true /\
    (forall n, is_node g n <-> exists r, In r rs /\ refs r <> [] /\ (n = IText (name r) \/ exists l, In l (refs r) /\ n = IText (named r l))) /\
    (forall u v, is_edge g u v <-> exists r l, In r rs /\ In l (refs r) /\ u = IText (name r) /\ v = IText (named r l)) /\
    (forall u v, edge_attr g (IText u) (IText v) $"weight" = positive_count (total (fun r => if eqb u (name r) then count v (cited r) else 0) rs)) /\
    shows_any rs g.
Proof.
  intros rs U. destruct (see_all rs (fun r I => proj1 (U r I))) as (ss & E & F). unfold any_citation. rewrite E. cbn [bind].
  assert (V : forall s, In s ss -> exists r, In r rs /\ sees_any r s) by (intros s I; apply (F2_in_r _ _ _ _ F I)).
  assert (V' : forall s, In s ss -> exists r, sees_any r s) by (intros s I; destruct (V s I) as (r & _ & S); eauto).
  assert (HN : forall s, In s ss -> exists h, CiteNetSpec.name_of api (default_opts false) (CiteNetModel.own rapi s) = Some h /\ CiteNetModel.truthy_id api h = true).
  { intros s I. destruct (V s I) as (r & J & S). eexists. split; [reflexivity|]. cbn [CiteNetModel.own any_rapi CiteNetModel.cid any_api CiteNetModel.truthy_id]. rewrite (sees_name _ _ S). destruct (U r J) as (_ & N). destruct (name r); [congruence|reflexivity]. }
  assert (US : forall c, CiteNetSpec.usable api rapi (default_opts false) ss c) by (intros c; split; [discriminate|apply always_info, V']).
  destruct (PropertiesCite.C19_made_partial _ _ _ _ api rapi upper (default_opts false) true true ss (or_introl eq_refl)) as (g & Q).
  { intros s I _. split; [apply HN, I|]. split; [apply US|]. split; [|intros c _ _; apply US]. intros _. destruct (V s I) as (r & _ & S). apply S. }
  exists g. split; [exact Q|].
  destruct (PropertiesCite.C19_edges_partial _ _ _ _ api rapi upper (default_opts false) true true ss g (or_introl eq_refl) (fun s I _ => HN s I) Q) as (_ & D & N & ED & _ & W & _).
  pose proof (PropertiesCite.C19_attributes_partial _ _ _ _ api rapi upper (default_opts false) true true ss g (or_introl eq_refl) (fun s I _ => conj (HN s I) (US _)) (fun s c _ _ _ _ => US c) Q) as AT.
  split; [exact D|]. split; [|split; [|split]].
  - intros n. rewrite N. split.
    + intros (s & I & H). apply filter_In in I. destruct I as [I CI]. destruct (V s I) as (r & J & S). rewrite (citing_some ss r s S) in CI. exists r. split; [exact J|]. split; [intros Z; rewrite Z in CI; discriminate CI|].
      rewrite (head_texts _ _ _ S), (cited_texts ss _ _ S) in H. destruct H as [[<-|[]]|H]; [left; reflexivity|]. right. unfold cited in H. rewrite map_map in H. apply in_map_iff in H. destruct H as (l & <- & H). eauto.
    + intros (r & J & NE & H). destruct (F2_in_l _ _ _ _ F J) as (s & I & S). exists s. split.
      * apply filter_In. split; [exact I|]. rewrite (citing_some ss r s S). destruct (refs r); [congruence|reflexivity].
      * rewrite (head_texts _ _ _ S), (cited_texts ss _ _ S). destruct H as [-> |(l & I' & ->)]; [left; left; reflexivity|]. right. apply in_map. apply (in_map (named r)) in I'. exact I'.
  - intros u v. rewrite ED. split.
    + intros (s & c & I & CI & IC & H). cbn [CiteNetSpec.whole] in H. destruct (V s I) as (r & J & S). unfold CiteNetSpec.cited in IC. apply filter_In in IC. destruct IC as [IC _]. cbn [CiteNetModel.cites any_rapi] in IC.
      pose proof S as (_ & _ & _ & F2 & _). destruct (F2_in_r _ _ _ _ F2 IC) as (l & IL & CL). exists r, l. split; [exact J|]. split; [exact IL|]. cbn [orb] in H. destruct H as (H1 & H2). injection H1 as <-. injection H2 as <-.
      cbn [CiteNetModel.cid CiteNetModel.own any_api any_rapi]. rewrite (sees_name _ _ S), (cite_named _ _ _ _ _ _ _ _ CL). auto.
    + intros (r & l & J & IL & -> & ->). destruct (F2_in_l _ _ _ _ F J) as (s & I & S). pose proof S as (_ & _ & _ & F2 & _). destruct (F2_in_l _ _ _ _ F2 IL) as (c & IC & CL). exists s, c. split; [exact I|].
      split; [rewrite (citing_some ss r s S); destruct (refs r); [destruct IL|reflexivity]|]. split; [apply filter_In; split; [exact IC|reflexivity]|]. cbn [orb]. unfold CiteNetSpec.name_of. cbn [CiteNetModel.o_type default_opts CiteNetModel.cid CiteNetModel.own any_api any_rapi].
      rewrite (sees_name _ _ S), (cite_named _ _ _ _ _ _ _ _ CL). auto.
  - intros u v. rewrite (W eq_refl). f_equal. cbn [orb CiteNetModel.o_weighted default_opts negb].
    rewrite total_filter.
    + symmetry. apply (total_F2 sees_any _ _ _ _ F). intros r s J S. unfold CiteNetSpec.arcs, pairs_from_to. rewrite (head_texts _ _ _ S), (cited_texts ss _ _ S). change [IText (name r)] with (map IText [name r]). rewrite !count_text. cbn [count]. destruct (eqb u (name r)); lia.
    + intros s CI. unfold CiteNetSpec.citing in CI. rewrite all_selected in CI. cbn [andb] in CI. unfold CiteNetSpec.arcs, pairs_from_to, CiteNetSpec.cited_names, CiteNetSpec.cited. destruct (CiteNetModel.cites rapi s); [cbn; lia|discriminate CI].
  - intros n IN. destruct (AT (IText n) IN) as (s & c & _ & _ & _ & NM & SH). rewrite !SH by discriminate. apply (shows _ _ _ _ _ F NM).
Qed.

(** ... and the network of co-citations, without the works of the unknown. *)
Definition known (r : anyrec) : list str := map (named r) (filter (fun l => negb (nobody r l)) (refs r)).
Lemma known_texts ss r s : ScopusCiteSpec.plain_classes word num -> sees_any r s -> CiteNetSpec.cited_names api rapi upper (default_opts true) ss s = map IText (known r).
Proof.
  intros PC (_ & _ & _ & F & _). unfold CiteNetSpec.cited_names, CiteNetSpec.cited. rewrite names_texts. f_equal. cbn [CiteNetModel.cites any_rapi]. unfold known.
  induction F as [|l c ls cs H F IH]; [reflexivity|]. cbn [filter]. assert (Q : CiteNetSpec.selected api rapi upper (default_opts true) ss c = negb (nobody r l)).
  { unfold CiteNetSpec.selected. rewrite <- (cite_nobody upper lower title all_digits word num int_of r l c PC H). cbn. rewrite !andb_true_r. reflexivity. }
  rewrite Q. destruct (negb (nobody r l)); [|exact IH]. cbn [map]. rewrite IH. f_equal. apply (cite_named upper title word num int_of), H.
Qed.
Theorem C103_cocitation_partial : forall rs, ScopusCiteSpec.plain_classes word num -> (forall r, In r rs -> described r) ->
  exists g, any_co_citation upper lower title all_digits word num int_of journal (default_opts true) rs = Ok g /\ gdir g = false /\
    (forall n, is_node g n <-> exists r l, In r rs /\ In l (refs r) /\ nobody r l = false /\ n = IText (named r l)) /\
    (forall n, node_attr g (IText n) $"count" = positive_count (total (fun r => count n (known r)) rs)) /\
    (forall u v, ed g (IText u) (IText v) = edge_value true (total (fun r => pairs_within u v (known r)) rs)) /\
    shows_any rs g.
Proof.
  intros rs PC U. destruct (see_all rs U) as (ss & E & F). unfold any_co_citation. rewrite E. cbn [bind].
  assert (V : forall s, In s ss -> exists r, In r rs /\ sees_any r s) by (intros s I; apply (F2_in_r _ _ _ _ F I)).
  assert (V' : forall s, In s ss -> exists r, sees_any r s) by (intros s I; destruct (V s I) as (r & _ & S); eauto).
  assert (US : forall c, CiteNetSpec.usable api rapi (default_opts true) ss c) by (intros c; split; [discriminate|apply always_info, V']).
  destruct (PropertiesCite.C18_made _ _ _ _ api rapi upper (default_opts true) ss (fun s c _ _ _ => US c)) as (g & Q). exists g. split; [exact Q|].
  destruct (PropertiesCite.C18_counts_and_weights _ _ _ _ _ _ _ _ _ _ Q) as (_ & D & N & CT & W). pose proof (PropertiesCite.C18_attributes _ _ _ _ api rapi upper (default_opts true) ss g (fun s c _ _ _ => US c) Q) as AT.
  split; [exact D|]. split; [|split; [|split]].
  - intros n. rewrite N. split.
    + intros (s & c & I & IC & SL & NM). destruct (V s I) as (r & J & S). pose proof S as (_ & _ & _ & F2 & _). destruct (F2_in_r _ _ _ _ F2 IC) as (l & IL & CL). exists r, l. split; [exact J|]. split; [exact IL|]. injection NM as <-.
      cbn [CiteNetModel.cid any_api]. rewrite (cite_named _ _ _ _ _ _ _ _ CL). split; [|reflexivity]. rewrite <- (cite_nobody upper lower title all_digits word num int_of r l c PC CL). unfold CiteNetSpec.selected in SL. cbn in SL. rewrite !andb_true_r in SL. destruct (a_anonymous c); [discriminate SL|reflexivity].
    + intros (r & l & J & IL & UN & ->). destruct (F2_in_l _ _ _ _ F J) as (s & I & S). pose proof S as (_ & _ & _ & F2 & _). destruct (F2_in_l _ _ _ _ F2 IL) as (c & IC & CL).
      exists s, c. split; [exact I|]. split; [exact IC|]. split; [|unfold CiteNetSpec.name_of; cbn [CiteNetModel.o_type default_opts CiteNetModel.cid any_api]; rewrite (cite_named _ _ _ _ _ _ _ _ CL); reflexivity].
      unfold CiteNetSpec.selected. cbn. rewrite (cite_nobody upper lower title all_digits word num int_of r l c PC CL), UN. reflexivity.
  - intros n. rewrite (CT eq_refl). f_equal. unfold occurs. symmetry. apply (total_F2 sees_any _ _ _ _ F). intros r s J S. rewrite (known_texts ss _ _ PC S), count_text. reflexivity.
  - intros u v. rewrite W. f_equal. symmetry. apply (total_F2 sees_any _ _ _ _ F). intros r s J S. rewrite (known_texts ss _ _ PC S). unfold pairs_within. rewrite eqb_text, !count_text. reflexivity.
  - intros n IN. destruct (AT (IText n) IN) as (s & c & _ & _ & _ & NM & SH). rewrite !SH by discriminate. apply (shows _ _ _ _ _ F NM).
Qed.
(** Works keep apart: what can be read in the references of Scopus never has a name that the other databases give. *)
Lemma before_last (P R X j : str) : P ++ 44%N :: R = X ++ 44%N :: j -> ~ In 44%N j -> exists t, X = P ++ t.
Proof.
  revert X. induction P as [|c P IH]; intros X E N; [exists X; reflexivity|]. destruct X as [|d X]; cbn [app] in E; injection E as E1 E2.
  - exfalso. apply N. rewrite <- E2. apply in_or_app. right. left. reflexivity.
  - subst d. destruct (IH X E2 N) as (t & ->). exists t. reflexivity.
Qed.
Lemma commas_app (a b : str) : count 44%N (a ++ b) = count 44%N a + count 44%N b.
Proof. apply count_app. Qed.
Lemma commas_none (a : str) : ~ In 44%N a -> count 44%N a = 0.
Proof. intros N. induction a as [|c a IH]; [reflexivity|]. cbn [count]. rewrite IH by (intros I; apply N; right; exact I). destruct (eqb_spec 44%N c) as [Q|Q]; [exfalso; apply N; left; congruence|reflexivity]. Qed.
Lemma wos_id_form s : (forall a c, c = 44%N \/ c = 46%N -> ~ In c a -> ~ In c (title a)) -> let i := id_of upper title s in
  count 44%N i <= 1 \/ exists X j, i = X ++ 44%N :: j /\ ~ In 44%N j /\ ~ In 46%N X.
Proof.
  intros T i. destruct (CitationProofs2.citation_parts upper title s) as (c & E & A & Y & J & _ & _ & _ & _ & G & B).
  assert (NA : forall a, c_author c = Some a -> ~ In 44%N a /\ ~ In 46%N a).
  { intros a Q. rewrite A in Q. destruct (p_author (read (upper s))) as [b|] eqn:PA; [|discriminate Q]. injection Q as <-. split; (apply T; [tauto|]); intros I; apply filter_In in I; destruct I as [I V]; [exact (CitationProofs2.author_no_comma _ PA I)|discriminate V]. }
  assert (NY : forall z, ~ In 44%N (dec_Z z) /\ ~ In 46%N (dec_Z z)).
  { intros z. split; [apply CitationProofs2.dec_Z_no_comma|]. unfold dec_Z. destruct (z <? 0)%Z; [intros [Q|I]; [discriminate Q|]|intros I]; apply CsvProofs.dec_N_chars in I; lia. }
  assert (NJ : forall j, c_journal c = Some j -> ~ In 44%N j).
  { intros j Q. rewrite J in Q. clear - Q. unfold read in Q. destruct (read_author (upper s)) as [a s1]. destruct (read_year _) as [y s2]. destruct (read_journal (skip_separator s2)) as [k s3] eqn:K. destruct (read_marked 86%N s3) as [v s4]. destruct (read_marked 80%N s4) as [p s5]. cbn [p_journal] in Q. subst k.
    unfold read_journal in K. destruct (CitationSpec.up_to_comma (skip_separator s2)) as [|x u] eqn:U; [discriminate K|]. injection K as <- _. rewrite <- U. intros I. apply CitationProofs2.up_to_comma_no in I. congruence. }
  assert (F : forall a y j, c_author c = Some a -> c_journal c = Some j -> exists X j', a ++ $", " ++ dec_Z y ++ $", " ++ j = X ++ 44%N :: j' /\ ~ In 44%N j' /\ ~ In 46%N X).
  { intros a y j QA QJ. exists (a ++ $", " ++ dec_Z y), (32%N :: j). split; [rewrite <- !app_assoc; reflexivity|]. split; [intros [Q|I]; [discriminate Q|exact (NJ j QJ I)]|].
    intros I. apply in_app_or in I. destruct I as [I|I]; [apply (NA a QA), I|]. destruct I as [Q|[Q|I]]; [discriminate Q|discriminate Q|]. apply (NY y), I. }
  unfold i, id_of. rewrite E. destruct (c_bad c) eqn:BD.
  - destruct (B eq_refl) as (_ & ->). unfold part_id.
    destruct (c_author c) as [[|x a]|] eqn:QA; destruct (c_year c) as [z|] eqn:QY; cbn [given given_year]; try (destruct (Z.eqb z 0)); destruct (c_journal c) as [[|w j]|] eqn:QJ; cbn [given app];
      try (right; apply (F _ z _ eq_refl eq_refl)); left; unfold join; cbn [fold_left];
      try rewrite (commas_none _ (proj1 (NA _ eq_refl))); try rewrite (commas_none _ (proj1 (NY z))); try rewrite (commas_none _ (NJ _ eq_refl)); try (cbn; lia).
    all: rewrite ?commas_app, ?(commas_none _ (proj1 (NY z))), ?(commas_none _ (proj1 (NA _ eq_refl))), ?(commas_none _ (NJ _ eq_refl)); cbn; lia.
  - destruct (G eq_refl) as (_ & a & y & j & QA & _ & QJ & ->). right. apply (F a y j QA QJ).
Qed.
Theorem C103_same_work_refuted : forall s l, ScopusCiteSpec.plain_classes word num -> (forall a c, c = 44%N \/ c = 46%N -> ~ In c a -> ~ In c (title a)) ->
  s_bad (CitationModel.scopus_citation word num int_of upper l) = false -> id_of upper title s <> scopus_id upper word num int_of l.
Proof.
  intros s l PC T B. apply (PropertiesScopusCite.C84_bad int_of upper PC) in B. destruct B as (a & M & y & J & R & NZ). destruct (PropertiesScopusCite.C84_fields int_of upper PC l R) as (_ & _ & _ & _ & _ & _ & _ & _ & I). unfold scopus_id. rewrite (I NZ).
  set (j := ScopusCiteSpec.q_journal _). destruct R as (_ & (u & sep & v & -> & UN & FU & SP & VN & FV) & _). intros Q.
  destruct (wos_id_form s T) as [C|(X & k & E & NK & NX)].
  - rewrite Q in C. rewrite !commas_app in C. change (count 44%N $", ") with 1 in C. lia.
  - rewrite Q in E. change ($", " ++ dec_Z (int_of y) ++ $", " ++ j) with (44%N :: 32%N :: dec_Z (int_of y) ++ $", " ++ j) in E.
    apply before_last in E; [|exact NK]. destruct E as (t & ->). apply NX. rewrite !in_app_iff. left. right. right. right. right. left. reflexivity.
Qed.
End Networks.

(** ** A record of each database, two of them with references *)
Definition mixnet_wos : str := join [nl] [$"FN Thomson"; $"VR 1.0"; $"PT J"; $"AU Doe, J"; $"   Roe, K"; $"TI On things"; $"J9 NATURE"; $"CR Smith A, 1990, SCIENCE, V1"; $"   DOE J, 1999, CELL"; $"   ANON"; $"PY 1999"; $"UT WOS:1"; $"ER"; []; $"EF"].
Definition mixnet_medline : str := join [nl] [[]; $"PMID- 77"; $"DP  - 1999 Mar"; $"TI  - On cells"; $"PG  - 12-15"; $"TA  - Cell"; $"AU  - Doe, J"; $"AU  - Poe, B"; []; []].
Definition mixnet_scopus : ScopusModel.srec :=
  ScopusModel.srec_of [($"EID", $"2"); ($"Authors", $"Roe K., Doe J."); ($"Title", $"On (all) stars"); ($"Year", $"2004"); ($"Source title", $"Stars"); ($"References", $"Smith A., On rocks (1990) Science, 1; Smith A., On rocks (1990) Science, 1; no author")].
Definition mixnet_proquest : ProQuestModel.prec := ProQuestModel.mkPrec $"PROQUEST:3" [($"Author", [$"Doe, J"]); ($"Title", [$"On things"]); ($"Degree date", [$"2001"])] false None.
Definition mixnet_text (r : anyrec) : str :=
  match r with AnyWos _ => $"Doe J, 1999, NATURE" | AnyMedline _ => $"Doe J, 1999, Cell, P12" | AnyScopus _ => $"Roe K., On all stars (2004) Stars, " | AnyProQuest _ => $"D, 2001, On things" end.
Definition mixnet_refs (r : anyrec) : list str :=
  match r with AnyWos _ => [$"Smith A, 1990, SCIENCE, V1"; $"DOE J, 1999, CELL"; $"ANON"] | AnyScopus _ => [$"Smith A., On rocks (1990) Science, 1"; $"Smith A., On rocks (1990) Science, 1"; $"no author"] | _ => [] end.
Definition mixnet_up (s : str) : str := map (fun c => if ((97 <=? c) && (c <=? 122))%N then (c - 32)%N else c) s.
Definition mixnet_int (s : str) : Z := match PyInt.py_int s with Some z => z | None => 0%Z end.
Notation mixnet f := (f mixnet_up mix_id mix_id (forallb digit09) mix_word digit09 mixnet_int (fun o : option str => o)).
Example C103_ex : exists w m, wos_parse mixnet_wos = ([w], None) /\ MedlineModel.medline_file mix_alpha mixnet_medline = Ok ([m], false) /\
  let rs := [AnyWos w; AnyMedline m; AnyScopus mixnet_scopus; AnyProQuest mixnet_proquest] in
  (forall r, In r rs -> described mixnet_text mixnet_refs r /\ name mixnet_up mix_id mix_word digit09 mixnet_int mixnet_text r <> []) /\ ScopusCiteSpec.plain_classes mix_word digit09 /\
  (exists g, mixnet any_citation (default_opts false) true true rs = Ok g /\ edge_attr g (IText $"ROE K., 2004, STARS") (IText $"SMITH A., 1990, SCIENCE") $"weight" = Some (VInt 2) /\
     node_attr g (IText $"DOE J, 1999, CELL") $"MK-ID" = Some (VStr $"PMID:77")) /\
  (exists g, mixnet any_co_citation (default_opts true) rs = Ok g /\ is_node g (IText $"SMITH A, 1990, SCIENCE") /\ ~ is_node g (IText $"no author")).
Proof.
  destruct (wos_parse mixnet_wos) as [l e] eqn:E. pose proof E as E'. vm_compute in E'. injection E' as <- <-.
  destruct (MedlineModel.medline_file mix_alpha mixnet_medline) as [[l' e']|] eqn:M; pose proof M as M'; vm_compute in M'; [|discriminate M']. injection M' as <- <-.
  eexists _, _. split; [reflexivity|]. split; [reflexivity|]. cbv zeta. match goal with |- (forall r, In r ?L -> _) /\ _ => set (rs := L) end.
  assert (AP : forall {Raw} (d : dict str Raw) k, mem k (dkeys d) = false -> apart d k) by (intros Raw d k N J; apply mem_In in J; congruence).
  assert (AA : forall {Raw} (d : dict str Raw), forallb (fun k => negb (mem k (dkeys d))) shared_names = true -> all_apart d).
  { intros Raw d H k I. apply AP. apply (proj1 (forallb_forall _ _) H) in I. apply negb_true_iff, I. }
  split; [|split; [|split]].
  - intros r I. destruct I as [<-|[<-|[<-|[<-|[]]]]]; (split; [split; [|split]|vm_compute; discriminate]); try exact Logic.I; try reflexivity.
    + split; [exists mixnet_wos; eexists _, _; split; [exact E|split; [left; reflexivity|reflexivity]]|]. split.
      * right. exists 1999%Z. split; [lia|vm_compute; reflexivity].
      * vm_compute. intuition discriminate.
    + split; [right; exists 1999%Z; split; [lia|vm_compute; reflexivity]|vm_compute; reflexivity].
    + eexists mix_alpha, mixnet_medline, _, _. split; [exact M|left; reflexivity].
    + split; [apply AA; vm_compute; reflexivity|]. split; [apply AP; vm_compute; reflexivity|]. split; [left; apply AP; vm_compute; reflexivity|].
      exists [$"Doe, J"; $"Poe, B"], (Some 1999%Z), $"Cell", $"On cells", [], $"12", []. split; [vm_compute; reflexivity|]. split; [unfold m_year_in; split; [discriminate|]; exists $"1999 Mar", []; split; [vm_compute; reflexivity|]; split; [lia|]; exists $" Mar"; split; [vm_compute; reflexivity|]; right; left; exists $"Mar"; reflexivity|].
      split; [right; exists []; vm_compute; reflexivity|]. split; [right; exists []; vm_compute; reflexivity|]. split; [left; split; vm_compute; reflexivity|].
      split; [right; exists [], $"-15", []; split; [vm_compute; reflexivity|]; do 3 (split; [vm_compute; intuition discriminate|]); split; [right; split; [reflexivity|discriminate]|right; right; left; exists $"15"; reflexivity]|].
      split; [left; split; vm_compute; reflexivity|]. vm_compute. reflexivity.
    + split; [apply AA; vm_compute; reflexivity|]. exists [$"Roe K."; $"Doe J."], $"On (all) stars", (Some 2004%Z), $"Stars", [], [].
      split; [right; split; [vm_compute; reflexivity|]; split; [discriminate|]; intros s J a b Q; assert (H : In 44%N s) by (rewrite Q; apply in_or_app; right; left; reflexivity); destruct J as [<-|[<-|[]]]; vm_compute in H; intuition discriminate|].
      split; [right; vm_compute; reflexivity|]. split; [split; [discriminate|vm_compute; reflexivity]|]. split; [right; vm_compute; reflexivity|]. split; [left; split; vm_compute; reflexivity|]. split; [left; split; vm_compute; reflexivity|]. vm_compute. reflexivity.
    + right. split; [vm_compute; reflexivity|]. split; [discriminate|]. intros s J a b Q; assert (H : In 59%N s) by (rewrite Q; apply in_or_app; right; left; reflexivity); destruct J as [<-|[<-|[<-|[]]]]; vm_compute in H; intuition discriminate.
    + split; [apply AA; vm_compute; reflexivity|]. split; [apply AP; vm_compute; reflexivity|]. exists $"Doe, J", $"2001", $"On things". do 3 (split; [right; exists []; vm_compute; reflexivity|]). vm_compute. reflexivity.
  - split; [repeat (constructor; [vm_compute; reflexivity|]); constructor|vm_compute; reflexivity].
  - clear. subst rs. match goal with |- exists g, ?W = _ /\ _ => destruct W as [g|] eqn:G; vm_compute in G; [|discriminate] end. injection G as <-. eexists. split; [reflexivity|]. split; vm_compute; reflexivity.
  - clear. subst rs. match goal with |- exists g, ?W = _ /\ _ => destruct W as [g|] eqn:G; vm_compute in G; [|discriminate] end. injection G as <-. eexists. split; [reflexivity|]. split; [vm_compute; tauto|]. vm_compute. intuition discriminate.
Qed.
Print Assumptions C103_citation_partial.
Print Assumptions C103_cocitation_partial.
Print Assumptions C103_same_work_refuted.
