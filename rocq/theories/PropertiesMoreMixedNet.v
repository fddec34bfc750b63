(** C103: the options of the networks of collections with records of several databases. *)
From Coq Require Import List ZArith Lia Bool Arith Permutation.
From Coq Require Import String.
From Verif Require Import Base PyStr CitationModel CitationSpec TagNames RecordModel GrantModel ValuesModel PropertiesCitation PropertiesValues WosModel WosNetModel WosNetSpec WosNetProofs
  PropertiesWosNet Nx NxFacts SeriesSpec NetSpec NetFacts WosTagsModel WosTagsSpec WosTagsProofs MixedModel MixedSpec MixedProofs PropertiesMixed MixedNetModel MixedNetSpec MixedNetProofs PropertiesMoreWosNet PropertiesMixedNet.
From Verif Require CiteNetModel CiteNetSpec PropertiesCite MedlineModel ScopusModel ProQuestModel ScopusCiteSpec PropertiesScopusCite CitationProofs2 CsvProofs Regex Span ScopusCiteProofs.
Import ListNotations.
Local Open Scope list_scope.

Definition is_scopus (r : anyrec) : bool := match r with AnyScopus _ => true | _ => false end.
Section Networks.
Variables upper lower title : str -> str.
Variable all_digits : str -> bool.
Variables word num : char -> bool.
Variable int_of : str -> Z.
Variable journal : option str -> option str.
Notation api := (any_api journal).
Notation rapi := (any_rapi upper lower title all_digits word num int_of).
Notation named := (named upper title word num int_of).
Notation nobody := (nobody upper title word num int_of).
Notation is_cite := (is_cite upper title word num int_of).
(** what is said of each record: the text that it would be cited as, and the texts of its references *)
Variable text : anyrec -> str.
Variable refs : anyrec -> list str.
Notation described := (described text refs).
Notation name := (name upper title word num int_of text).
Notation cited := (cited upper title word num int_of refs).
Notation sees_any := (sees_any upper lower title all_digits word num int_of text refs).
Notation see_all := (see_all upper lower title all_digits word num int_of text refs).
Notation sees_name := (sees_name upper lower title all_digits word num int_of text refs).
Notation citing_some := (citing_some upper lower title all_digits word num int_of journal text refs).
Notation head_texts := (head_texts upper lower title all_digits word num int_of journal text refs).
Notation cited_texts := (cited_texts upper lower title all_digits word num int_of journal text refs).
Notation always_info := (always_info upper lower title all_digits word num int_of journal text refs).
Notation all_selected := (all_selected upper lower title all_digits word num int_of journal).

(** C103: the citation network with every direction: directed as asked for, directed edges from the record to what it cites with recordToCite and the other way without. *)
Theorem C103_directions_partial : forall (directed recordToCite : bool) rs, (forall r, In r rs -> described r /\ name r <> []) ->
  exists g, any_citation upper lower title all_digits word num int_of journal (default_opts false) directed recordToCite rs = Ok g /\ gdir g = directed /\
    (forall n, is_node g n <-> exists r, In r rs /\ refs r <> [] /\ (n = IText (name r) \/ exists l, In l (refs r) /\ n = IText (named r l))) /\
    (forall u v, is_edge g u v <-> exists r l, In r rs /\ In l (refs r) /\
      (u = IText (name r) /\ v = IText (named r l) /\ (directed = true -> recordToCite = true) \/ u = IText (named r l) /\ v = IText (name r) /\ (directed = true -> recordToCite = false))) /\
    (directed = true -> forall u v, edge_attr g (IText u) (IText v) $"weight" =
      positive_count (total (fun r => if eqb (if recordToCite then u else v) (name r) then count (if recordToCite then v else u) (cited r) else 0) rs)).
Proof.
  intros directed rtc rs U. destruct (see_all rs (fun r I => proj1 (U r I))) as (ss & E & F). unfold any_citation. rewrite E. cbn [bind].
  assert (V : forall s, In s ss -> exists r, In r rs /\ sees_any r s) by (intros s I; apply (F2_in_r _ _ _ _ F I)).
  assert (V' : forall s, In s ss -> exists r, sees_any r s) by (intros s I; destruct (V s I) as (r & _ & S); eauto).
  assert (HN : forall s, In s ss -> exists h, CiteNetSpec.name_of api (default_opts false) (CiteNetModel.own rapi s) = Some h /\ CiteNetModel.truthy_id api h = true).
  { intros s I. destruct (V s I) as (r & J & S). eexists. split; [reflexivity|]. cbn [CiteNetModel.own any_rapi CiteNetModel.cid any_api CiteNetModel.truthy_id]. rewrite (sees_name _ _ S). destruct (U r J) as (_ & N). destruct (name r); [congruence|reflexivity]. }
  assert (US : forall c, CiteNetSpec.usable api rapi (default_opts false) ss c) by (intros c; split; [discriminate|apply always_info, V']).
  destruct (PropertiesCite.C19_made_partial _ _ _ _ api rapi upper (default_opts false) directed rtc ss (or_introl eq_refl)) as (g & Q).
  { intros s I _. split; [apply HN, I|]. split; [apply US|]. split; [|intros c _ _; apply US]. intros _. destruct (V s I) as (r & _ & S). apply S. }
  exists g. split; [exact Q|].
  destruct (PropertiesCite.C19_edges_partial _ _ _ _ api rapi upper (default_opts false) directed rtc ss g (or_introl eq_refl) (fun s I _ => HN s I) Q) as (_ & D & N & ED & _ & W & _).
  split; [exact D|]. split; [|split].
  - intros n. rewrite N. split.
    + intros (s & I & H). apply filter_In in I. destruct I as [I CI]. destruct (V s I) as (r & J & S). rewrite (citing_some ss r s S) in CI. exists r. split; [exact J|]. split; [intros Z; rewrite Z in CI; discriminate CI|].
      rewrite (head_texts _ _ _ S), (cited_texts ss _ _ S) in H. destruct H as [[<-|[]]|H]; [left; reflexivity|]. right. unfold cited in H. rewrite map_map in H. apply in_map_iff in H. destruct H as (l & <- & H). eauto.
    + intros (r & J & NE & H). destruct (F2_in_l _ _ _ _ F J) as (s & I & S). exists s. split.
      * apply filter_In. split; [exact I|]. rewrite (citing_some ss r s S). destruct (refs r); [congruence|reflexivity].
      * rewrite (head_texts _ _ _ S), (cited_texts ss _ _ S). destruct H as [-> |(l & I' & ->)]; [left; left; reflexivity|]. right. apply in_map. apply (in_map (named r)) in I'. exact I'.
  - intros u v. rewrite ED. cbn [CiteNetModel.o_weighted default_opts negb CiteNetModel.o_type CiteNetSpec.particular]. rewrite !orb_false_r. split.
    + intros (s & c & I & CI & IC & H). destruct (V s I) as (r & J & S). unfold CiteNetSpec.cited in IC. apply filter_In in IC. destruct IC as [IC _]. cbn [CiteNetModel.cites any_rapi] in IC.
      pose proof S as (_ & _ & _ & F2 & _). destruct (F2_in_r _ _ _ _ F2 IC) as (l & IL & CL). exists r, l. split; [exact J|]. split; [exact IL|].
      assert (G : forall x y, CiteNetSpec.name_of api (default_opts false) (CiteNetModel.own rapi s) = Some x /\ CiteNetSpec.name_of api (default_opts false) c = Some y -> x = IText (name r) /\ y = IText (named r l)).
      { intros x y (H1 & H2). injection H1 as <-. injection H2 as <-. cbn [CiteNetModel.cid CiteNetModel.own any_api any_rapi]. rewrite (sees_name _ _ S). rewrite (cite_named _ _ _ _ _ _ _ _ CL). auto. }
      destruct directed; [destruct rtc|]; [(destruct (G _ _ H) as [A1 A2]; rewrite A1, A2); left; auto|(destruct (G _ _ H) as [A1 A2]; rewrite A1, A2); right; auto|]. destruct H as [H|H]; (destruct (G _ _ H) as [A1 A2]; rewrite A1, A2); [left|right]; (split; [reflexivity|]; split; [reflexivity|discriminate]).
    + intros (r & l & J & IL & H). destruct (F2_in_l _ _ _ _ F J) as (s & I & S). pose proof S as (_ & _ & _ & F2 & _). destruct (F2_in_l _ _ _ _ F2 IL) as (c & IC & CL). exists s, c. split; [exact I|].
      split; [rewrite (citing_some ss r s S); destruct (refs r); [destruct IL|reflexivity]|]. split; [apply filter_In; split; [exact IC|reflexivity]|].
      assert (G : CiteNetSpec.name_of api (default_opts false) (CiteNetModel.own rapi s) = Some (IText (name r)) /\ CiteNetSpec.name_of api (default_opts false) c = Some (IText (named r l))).
      { unfold CiteNetSpec.name_of. cbn [CiteNetModel.o_type default_opts CiteNetModel.cid CiteNetModel.own any_api any_rapi]. rewrite (sees_name _ _ S). rewrite (cite_named _ _ _ _ _ _ _ _ CL). auto. }
      cbv zeta. destruct H as [(-> & -> & K)|(-> & -> & K)]; destruct directed; [rewrite (K eq_refl); exact G|left; exact G|rewrite (K eq_refl); exact G|right; exact G].
  - intros -> u v. rewrite (W eq_refl). f_equal. cbn [CiteNetModel.o_weighted default_opts negb CiteNetModel.o_type CiteNetSpec.particular]. rewrite !orb_false_r.
    rewrite total_filter.
    + symmetry. apply (total_F2 sees_any _ _ _ _ F). intros r s J S. unfold CiteNetSpec.arcs, pairs_from_to. rewrite (head_texts _ _ _ S), (cited_texts ss _ _ S). change [IText (name r)] with (map IText [name r]).
      destruct rtc; rewrite !count_text; cbn [count]; match goal with |- context [eqb ?x ?y] => destruct (eqb x y) end; lia.
    + intros s CI. unfold CiteNetSpec.citing in CI. rewrite all_selected in CI. cbn [andb] in CI. unfold CiteNetSpec.arcs, pairs_from_to, CiteNetSpec.cited_names, CiteNetSpec.cited. destruct (CiteNetModel.cites rapi s); [destruct rtc; cbn; lia|discriminate CI].
Qed.


(** ** Kinds of nodes *)
(** the node of a reference, if it gives one: for the other databases that of C94; a reference of Scopus is of the form AUTHOR, ...(YEAR) SOURCE, see ScopusCiteSpec.v *)
Definition said (r : anyrec) (t : CiteNetModel.ntype) (l : str) (o : option WosNetModel.name) : Prop :=
  match r with
  | AnyScopus _ => exists a T y J, ScopusCiteSpec.reference word num (upper l) a T y J /\
      o = match t with
          | CiteNetModel.Full => Some (IText (named r l))
          | CiteNetModel.Original => match l with [] => None | _ => Some (IText l) end
          | CiteNetModel.Author => Some (IText a)
          | CiteNetModel.Journal => Some (IText (ScopusCiteSpec.q_journal (ScopusCiteSpec.read_source word J)))
          | CiteNetModel.Year => if Z.eqb (int_of y) 0 then None else Some (INum (int_of y))
          end
  | _ => o = node_said upper title t l
  end.
Lemma scopus_kept l a T y J : ScopusCiteSpec.plain_classes word num -> ScopusCiteSpec.reference word num (upper l) a T y J -> let c := CitationModel.scopus_citation word num int_of upper l in
  dget $"author" (s_attributes c) = Some (Some a) /\ dget $"journal" (s_attributes c) = Some (Some (ScopusCiteSpec.q_journal (ScopusCiteSpec.read_source word J))) /\ s_year c = Some (int_of y).
Proof.
  intros PC R c. pose proof (@PropertiesScopusCite.C84_fields word num int_of upper PC l a T y J R) as (A & Y & Q & _). fold c in A, Y, Q. cbv zeta in A, Y, Q.
  assert (K : dget $"author" (s_attributes c) = Some (s_author c) /\ dget $"journal" (s_attributes c) = Some (s_journal c)).
  { subst c. unfold CitationModel.scopus_citation in *. destruct (Regex.re_match (scopus_cite_regex word num) (upper l)) as [g|]; [|discriminate A].
    destruct (given (g 1)) as [|a' [|]]; [split; reflexivity| |split; reflexivity]. match goal with |- context [Z.eqb ?x 0] => destruct (Z.eqb x 0) end; [split; reflexivity|]. destruct (given (g 6)) as [|j [|]]; split; reflexivity. }
  destruct K as [-> ->]. rewrite A, Q, Y. auto.
Qed.
Notation with_type := PropertiesMoreWosNet.with_type.
Lemma nonempty_author s a T y J : ScopusCiteSpec.reference word num s a T y J -> exists c r, a = c :: r.
Proof. intros (_ & (u & sep & v & -> & _) & _). destruct u as [|c u]; [|eexists _, _; reflexivity]. destruct sep as [|c sep]; eexists _, _; reflexivity. Qed.
Lemma nonempty_journal s a T y J : ScopusCiteSpec.reference word num s a T y J -> exists c r, ScopusCiteSpec.q_journal (ScopusCiteSpec.read_source word J) = c :: r.
Proof.
  intros (_ & _ & _ & _ & x & r & -> & N). unfold ScopusCiteSpec.read_source.
  assert (U : exists r', ScopusCiteSpec.up_to_comma (x :: r) = x :: r') by (unfold ScopusCiteSpec.up_to_comma; cbn [Span.tw]; destruct (N.eqb_spec x 44) as [E|E]; [congruence|]; cbn [negb]; eexists; reflexivity).
  destruct U as (r' & U). repeat match goal with |- context [let '(_, _) := ?e in _] => destruct e end. cbn [ScopusCiteSpec.q_journal]. rewrite U. eauto.
Qed.
Lemma kinds_any r t da ss c l o : ScopusCiteSpec.plain_classes word num -> is_cite r l c -> said r t l o ->
  (if CiteNetSpec.selected api rapi upper (with_type t da) ss c then match CiteNetSpec.name_of api (with_type t da) c with Some i => [i] | None => [] end else []) =
  (if negb da || negb (nobody r l) then match o with Some n => [n] | None => [] end else []) /\ CiteNetSpec.name_of api (with_type t da) c <> None.
Proof.
  intros PC H S. pose proof (cite_nobody upper lower title all_digits word num int_of r l c PC H) as AN. destruct (is_scopus r) eqn:IS.
  - destruct r as [ | |s| ]; try discriminate IS. cbn [is_cite] in H. subst c. destruct S as (a & T & y & J & R & ->). destruct (scopus_kept l a T y J PC R) as (A & Q & Y). destruct (nonempty_author _ _ _ _ _ R) as (x & r0 & ->). destruct (nonempty_journal _ _ _ _ _ R) as (x' & r1 & QJ).
    unfold CiteNetSpec.selected, CiteNetSpec.name_of. cbn [CiteNetModel.o_type CiteNetModel.o_anon CiteNetModel.o_journals CiteNetModel.o_words CiteNetModel.o_core PropertiesMoreWosNet.with_type negb orb andb forallb].
    rewrite !andb_true_r. cbn [CiteNetModel.is_anon any_api]. rewrite AN.
    destruct t; cbn [CiteNetSpec.whole orb andb CiteNetModel.cattr CiteNetModel.truthy_id any_api].
    + split; [reflexivity|discriminate].
    + split; [|discriminate]. unfold scopus_of, a_original. destruct l; cbn [andb]; [|reflexivity]. destruct (negb da || negb (nobody (AnyScopus s) [])); reflexivity.
    + unfold scopus_of. cbn [a_attributes]. rewrite A. cbn [option_map opt_name andb]. split; [reflexivity|discriminate].
    + unfold scopus_of. cbn [a_attributes]. rewrite Q, QJ. cbn [option_map opt_name andb]. split; [reflexivity|discriminate].
    + unfold scopus_of. cbn [a_year]. rewrite Y. cbn [option_map]. split; [|discriminate]. destruct (Z.eqb (int_of y) 0); cbn [negb andb]; [destruct (negb da || negb (nobody (AnyScopus s) l)); reflexivity|reflexivity].
  - assert (S' : o = node_said upper title t l) by (destruct r; try discriminate IS; exact S). subst o. clear S.
    assert (H' : exists c', c = CWos c' /\ wos_citation upper title l = Ok c') by (destruct r; try discriminate IS; exact H). destruct H' as (c' & -> & W). clear H.
    assert (NB : nobody r l = unknown upper title l) by (destruct r; try discriminate IS; reflexivity). rewrite NB. rewrite NB in AN.
    rewrite <- (kinds upper lower title all_digits journal t da [] c' l W).
    split.
    + unfold CiteNetSpec.selected, CiteNetSpec.name_of. cbn [CiteNetModel.o_type CiteNetModel.o_anon CiteNetModel.o_journals CiteNetModel.o_words CiteNetModel.o_core PropertiesMoreWosNet.with_type negb orb andb forallb].
      destruct t; reflexivity.
    + destruct t; discriminate.
Qed.
(** ... where nothing need be said of the references that are dropped *)
Lemma kinds_dropped r t da ss c l o : ScopusCiteSpec.plain_classes word num -> is_cite r l c -> ((da = true -> nobody r l = false) -> said r t l o) ->
  (if CiteNetSpec.selected api rapi upper (with_type t da) ss c then match CiteNetSpec.name_of api (with_type t da) c with Some i => [i] | None => [] end else []) =
  (if negb da || negb (nobody r l) then match o with Some n => [n] | None => [] end else []) /\ (CiteNetSpec.selected api rapi upper (with_type t da) ss c = true -> CiteNetSpec.name_of api (with_type t da) c <> None).
Proof.
  intros PC H S. destruct (negb da || negb (nobody r l)) eqn:KN.
  - destruct (kinds_any r t da ss c l o PC H) as (A & B).
    + apply S. intros ->. cbn [negb orb] in KN. destruct (nobody r l); [discriminate KN|reflexivity].
    + rewrite KN in A. split; [exact A|intros _; exact B].
  - assert (X : CiteNetSpec.selected api rapi upper (with_type t da) ss c = false); [|rewrite X; split; [reflexivity|discriminate]].
    unfold CiteNetSpec.selected. cbn [CiteNetModel.o_anon PropertiesMoreWosNet.with_type CiteNetModel.is_anon any_api]. rewrite (cite_nobody upper lower title all_digits word num int_of r l c PC H), KN. rewrite andb_false_r. reflexivity.
Qed.
Definition nodes_said_any (node : anyrec -> str -> option WosNetModel.name) (da : bool) (r : anyrec) : list WosNetModel.name :=
  flat_map (fun l => match node r l with Some n => [n] | None => [] end) (filter (fun l => negb da || negb (nobody r l)) (refs r)).
Lemma kinds_names_any node t da ss r s : ScopusCiteSpec.plain_classes word num -> (forall l, In l (refs r) -> (da = true -> nobody r l = false) -> said r t l (node r l)) -> sees_any r s ->
  CiteNetSpec.cited_names api rapi upper (with_type t da) ss s = nodes_said_any node da r.
Proof.
  intros PC K (_ & _ & _ & F & _). unfold CiteNetSpec.cited_names, CiteNetSpec.cited, CiteNetSpec.names_of, nodes_said_any. cbn [CiteNetModel.cites any_rapi].
  induction F as [|l c ls cs H F IH]; [reflexivity|]. cbn [filter]. specialize (IH (fun l I => K l (or_intror I))). pose proof (proj1 (kinds_dropped r t da ss c l _ PC H (K l (or_introl eq_refl)))) as Q. revert Q.
  destruct (CiteNetSpec.selected api rapi upper (with_type t da) ss c), (negb da || negb (nobody r l)); intros Q; cbn [flat_map]; rewrite IH; [rewrite Q|rewrite Q|rewrite <- Q|]; reflexivity.
Qed.
(** C103: the network of co-citations with every kind of nodes, when the references of Scopus that are not dropped can be read: the nodes are the authors, journals, years or texts of the references
    that say one, as their databases write them; nodes and edges have the numbers of references and of pairs of references; missing: references of Scopus that cannot be read when they are not dropped, see below. *)
Theorem C103_kinds_partial : forall (t : CiteNetModel.ntype) (dropAnon : bool) (node : anyrec -> str -> option WosNetModel.name) rs, ScopusCiteSpec.plain_classes word num ->
  (forall r, In r rs -> described r) -> (forall r l, In r rs -> In l (refs r) -> (dropAnon = true -> nobody r l = false) -> said r t l (node r l)) ->
  exists g, any_co_citation upper lower title all_digits word num int_of journal (with_type t dropAnon) rs = Ok g /\ gdir g = false /\
    (forall n, is_node g n <-> exists r l, In r rs /\ In l (refs r) /\ (dropAnon = true -> nobody r l = false) /\ node r l = Some n) /\
    (forall n, node_attr g n $"count" = positive_count (total (fun r => count n (nodes_said_any node dropAnon r)) rs)) /\
    (forall u v, ed g u v = edge_value true (total (fun r => pairs_within u v (nodes_said_any node dropAnon r)) rs)).
Proof.
  intros t da node rs PC U SD. destruct (see_all rs U) as (ss & E & F). unfold any_co_citation. rewrite E. cbn [bind].
  assert (V : forall s, In s ss -> exists r, In r rs /\ sees_any r s) by (intros s I; apply (F2_in_r _ _ _ _ F I)).
  assert (V' : forall s, In s ss -> exists r, sees_any r s) by (intros s I; destruct (V s I) as (r & _ & S); eauto).
  assert (US : forall s c, In s ss -> In c (CiteNetModel.cites rapi s) -> CiteNetSpec.selected api rapi upper (with_type t da) ss c = true -> CiteNetSpec.usable api rapi (with_type t da) ss c).
  { intros s c I IC SLC. split.
    - destruct (V s I) as (r & J & S). pose proof S as (_ & _ & _ & F2 & _). destruct (F2_in_r _ _ _ _ F2 IC) as (l & IL & CL). apply (kinds_dropped r t da ss c l _ PC CL (SD r l J IL)), SLC.
    - intros (NI & FT & ND & r & k & H). cbn [CiteNetModel.o_type PropertiesMoreWosNet.with_type] in FT. subst t.
      apply (always_info da ss c V'). split; [exact NI|]. split; [reflexivity|]. split; [exact ND|]. exists r, k. exact H. }
  destruct (PropertiesCite.C18_made _ _ _ _ api rapi upper (with_type t da) ss US) as (g & Q). exists g. split; [exact Q|].
  destruct (PropertiesCite.C18_counts_and_weights _ _ _ _ _ _ _ _ _ _ Q) as (_ & D & N & CT & W). split; [exact D|]. split; [|split].
  - intros n. rewrite N. split.
    + intros (s & c & I & IC & SL & NM). destruct (V s I) as (r & J & S). pose proof S as (_ & _ & _ & F2 & _). destruct (F2_in_r _ _ _ _ F2 IC) as (l & IL & CL). exists r, l. split; [exact J|]. split; [exact IL|].
      pose proof (proj1 (kinds_dropped r t da ss c l _ PC CL (SD r l J IL))) as K. rewrite SL, NM in K. destruct (negb da || negb (nobody r l)) eqn:KN; [|discriminate]. split.
      * intros ->. cbn [negb orb] in KN. destruct (nobody r l); [discriminate|reflexivity].
      * destruct (node r l); [injection K as <-; reflexivity|discriminate].
    + intros (r & l & J & IL & UN & NS). destruct (F2_in_l _ _ _ _ F J) as (s & I & S). pose proof S as (_ & _ & _ & F2 & _). destruct (F2_in_l _ _ _ _ F2 IL) as (c & IC & CL). exists s, c. split; [exact I|]. split; [exact IC|].
      pose proof (proj1 (kinds_dropped r t da ss c l _ PC CL (SD r l J IL))) as K. rewrite NS in K. assert (X : negb da || negb (nobody r l) = true) by (destruct da; [rewrite (UN eq_refl)|]; reflexivity). rewrite X in K.
      destruct (CiteNetSpec.selected api rapi upper (with_type t da) ss c); [|discriminate]. split; [reflexivity|]. destruct (CiteNetSpec.name_of api (with_type t da) c); [injection K as ->; reflexivity|discriminate].
  - intros n. rewrite (CT eq_refl). f_equal. unfold occurs. symmetry. apply (total_F2 sees_any _ _ _ _ F). intros r s J S. rewrite (kinds_names_any node t da ss _ _ PC (fun l => SD r l J) S). reflexivity.
  - intros u v. rewrite W. f_equal. symmetry. apply (total_F2 sees_any _ _ _ _ F). intros r s J S. rewrite (kinds_names_any node t da ss _ _ PC (fun l => SD r l J) S). reflexivity.
Qed.
Lemma some_said r t l : ScopusCiteSpec.plain_classes word num -> nobody r l = false -> exists o, said r t l o.
Proof.
  intros PC N. destruct r as [w|m|s|q]; try (eexists; reflexivity). cbn [nobody] in N. unfold nobody in N. unfold CitationModel.scopus_citation in N.
  destruct (Regex.re_match (scopus_cite_regex word num) (upper l)) as [g|] eqn:G; [|discriminate N]. destruct (ScopusCiteProofs.match_only PC _ G) as (a & T & y & J & R). eexists. exists a, T, y, J. split; [exact R|reflexivity].
Qed.
(** C103: with dropAnon the network of co-citations can be made with every kind of nodes, of any records described, whatever their references are. *)
Theorem C103_kinds_made : forall (t : CiteNetModel.ntype) rs, ScopusCiteSpec.plain_classes word num -> (forall r, In r rs -> described r) ->
  exists g, any_co_citation upper lower title all_digits word num int_of journal (with_type t true) rs = Ok g.
Proof.
  intros t rs PC U. destruct (see_all rs U) as (ss & E & F). unfold any_co_citation. rewrite E. cbn [bind]. apply PropertiesCite.C18_made. intros s c I IC SL.
  destruct (F2_in_r _ _ _ _ F I) as (r & J & S). pose proof S as (_ & _ & _ & F2 & _). destruct (F2_in_r _ _ _ _ F2 IC) as (l & IL & CL). split.
  - assert (X : exists o, (true = true -> nobody r l = false) -> said r t l o).
    { destruct (nobody r l) eqn:N; [exists None; intros Q; discriminate (Q eq_refl)|]. destruct (some_said r t l PC N) as (o & H). exists o. intros _. exact H. }
    destruct X as (o & X). apply (kinds_dropped r t true ss c l o PC CL X), SL.
  - intros (NI & FT & ND & r' & k & H). cbn [CiteNetModel.o_type PropertiesMoreWosNet.with_type] in FT. subst t.
    apply (always_info true ss c); [intros s' I'; destruct (F2_in_r _ _ _ _ F I') as (r2 & _ & S'); eauto|]. split; [exact NI|]. split; [reflexivity|]. split; [exact ND|]. exists r', k. exact H.
Qed.
End Networks.
(** Without dropAnon one reference of Scopus that cannot be read is enough for the network of authors, of journals or of years not to be made: there is no such attribute. *)
Theorem C103_kinds_refuted : exists r, described mixnet_text mixnet_refs r /\ forall t, In t [CiteNetModel.Author; CiteNetModel.Journal; CiteNetModel.Year] ->
  mixnet any_co_citation (with_type t false) [r] = Raise AttributeError /\ exists g, mixnet any_co_citation (with_type t true) [r] = Ok g.
Proof.
  destruct C103_ex as (w & m & _ & _ & H). exists (AnyScopus mixnet_scopus). split; [apply H; right; right; left; reflexivity|].
  intros t [<-|[<-|[<-|[]]]]; (split; [vm_compute; reflexivity|]);
    match goal with |- exists g, ?x = Ok g => destruct x as [g|] eqn:E; [eauto|vm_compute in E; discriminate E] end.
Qed.
(** a record of Scopus whose references can be read, next to one of WOS: the authors are written as each database writes them *)
Definition read_scopus : ScopusModel.srec :=
  ScopusModel.srec_of [($"EID", $"4"); ($"Authors", $"Roe K."); ($"Title", $"On stars"); ($"Year", $"2005"); ($"Source title", $"Stars"); ($"References", $"Smith A., On rocks (1990) Science, 1; Poe B., On sand (1991) Nature, 2")].
Example C103_kinds_ex :
  (forall l, In l [$"Smith A., On rocks (1990) Science, 1"; $"Poe B., On sand (1991) Nature, 2"] -> exists o, said mixnet_up mix_id mix_word digit09 mixnet_int (AnyScopus read_scopus) CiteNetModel.Author l (Some o)) /\
  (exists g, mixnet any_co_citation (with_type CiteNetModel.Author true) [AnyScopus read_scopus] = Ok g /\ edge_attr g (IText $"SMITH A.") (IText $"POE B.") $"weight" = Some (VInt 1)) /\
  (exists g, mixnet any_co_citation (with_type CiteNetModel.Year false) [AnyScopus read_scopus] = Ok g /\ edge_attr g (INum 1990) (INum 1991) $"weight" = Some (VInt 1)) /\
  (exists g, mixnet any_citation (default_opts false) true false [AnyScopus read_scopus] = Ok g /\ edge_attr g (IText $"SMITH A., 1990, SCIENCE") (IText $"ROE K., 2005, STARS") $"weight" = Some (VInt 1)).
Proof.
  split; [|split; [|split]].
  - intros l I. assert (Q : exists a T y J, mixnet_up l = a ++ $", " ++ T ++ $"(" ++ y ++ $") " ++ J /\ ScopusCiteSpec.reference mix_word digit09 (mixnet_up l) a T y J).
    { destruct (Regex.re_match (scopus_cite_regex mix_word digit09) (mixnet_up l)) as [g|] eqn:G.
      - destruct C103_ex as (w & m & _ & _ & _ & PC & _). destruct (ScopusCiteProofs.match_only PC _ G) as (a & T & y & J & R). exists a, T, y, J. split; [apply R|exact R].
      - exfalso. destruct I as [<-|[<-|[]]]; vm_compute in G; discriminate G. }
    destruct Q as (a & T & y & J & _ & R). exists (IText a), a, T, y, J. split; [exact R|reflexivity].
  - destruct (mixnet any_co_citation (with_type CiteNetModel.Author true) [AnyScopus read_scopus]) as [g|] eqn:E; vm_compute in E; [|discriminate E]. injection E as <-. eexists. split; [reflexivity|]. vm_compute. reflexivity.
  - destruct (mixnet any_co_citation (with_type CiteNetModel.Year false) [AnyScopus read_scopus]) as [g|] eqn:E; vm_compute in E; [|discriminate E]. injection E as <-. eexists. split; [reflexivity|]. vm_compute. reflexivity.
  - destruct (mixnet any_citation (default_opts false) true false [AnyScopus read_scopus]) as [g|] eqn:E; vm_compute in E; [|discriminate E]. injection E as <-. eexists. split; [reflexivity|]. vm_compute. reflexivity.
Qed.
Print Assumptions C103_directions_partial.
Print Assumptions C103_kinds_partial.
Print Assumptions C103_kinds_refuted.
Print Assumptions C103_kinds_made.
