(** C103: bibliographic coupling of collections with records of several databases. *)
From Coq Require Import List ZArith Lia Bool Arith Permutation.
From Coq Require Import String.
From Verif Require Import Base PyStr CitationModel CitationSpec TagNames RecordModel GrantModel ValuesModel PropertiesCitation PropertiesValues WosModel WosNetModel WosNetSpec WosNetProofs
  PropertiesWosNet Nx NxFacts SeriesSpec NetSpec NetFacts WosTagsModel WosTagsSpec WosTagsProofs MixedModel MixedSpec MixedProofs PropertiesMixed MixedNetModel MixedNetSpec MixedNetProofs PropertiesMoreWosNet PropertiesMixedNet PropertiesMoreMixedNet.
From Verif Require CiteNetModel CiteNetSpec PropertiesCite MedlineModel ScopusModel ProQuestModel ScopusCiteSpec.
Import ListNotations.
Local Open Scope list_scope.

Section Networks.
Variables upper lower title : str -> str.
Variable all_digits : str -> bool.
Variables word num : char -> bool.
Variable int_of : str -> Z.
Variable journal : option str -> option str.
Notation api := (any_api journal).
Notation rapi := (any_rapi upper lower title all_digits word num int_of).
Variable text : anyrec -> str.
Variable refs : anyrec -> list str.
Notation described := (described text refs).
Notation name := (name upper title word num int_of text).
Notation cited := (cited upper title word num int_of refs).
Notation sees_any := (sees_any upper lower title all_digits word num int_of text refs).
Notation see_all := (see_all upper lower title all_digits word num int_of text refs).
Notation sees_name := (sees_name upper lower title all_digits word num int_of text refs).
Notation sees_refs := (sees_refs upper lower title all_digits word num int_of text refs).
Notation head_texts := (head_texts upper lower title all_digits word num int_of journal text refs).
Notation cited_texts := (cited_texts upper lower title all_digits word num int_of journal text refs).
Notation always_info := (always_info upper lower title all_digits word num int_of journal text refs).

(** some record with this name cites the work *)
Definition cites_it (rs : list anyrec) (u n : str) : bool := existsb (fun r => eqb u (name r) && mem n (cited r)) rs.
Lemma coupled_refs ss r s : sees_any r s -> CiteNetSpec.cited_names api rapi upper coupling_opts ss s = map IText (cited r).
Proof. exact (cited_texts ss r s). Qed.
Lemma coupled_cites rs ss u n : Forall2 sees_any rs ss -> CiteNetSpec.cites_work api rapi upper coupling_opts ss (IText u) (IText n) = cites_it rs u n.
Proof.
  intros F. unfold CiteNetSpec.cites_work, cites_it. symmetry.
  assert (G : forall l m, Forall2 sees_any l m -> existsb (fun r => eqb u (name r) && mem n (cited r)) l = existsb (fun s : seen_any => mem (IText u) (CiteNetSpec.head_names api rapi coupling_opts s) && mem (IText n) (CiteNetSpec.cited_names api rapi upper coupling_opts ss s)) m).
  { intros l m FF. apply (F2_existsb sees_any _ _ _ _ FF). intros r s S. change (CiteNetSpec.head_names api rapi coupling_opts s) with (CiteNetSpec.head_names api rapi (default_opts false) s). rewrite (head_texts _ _ _ S), (coupled_refs ss _ _ S), mem_text. cbn [mem existsb]. rewrite eqb_text, orb_false_r. reflexivity. }
  apply G, F.
Qed.
Lemma flat_coupled rs ss ss' : Forall2 sees_any rs ss' -> flat_map (CiteNetSpec.cited_names api rapi upper coupling_opts ss) ss' = map IText (flat_map cited rs).
Proof. induction 1 as [|r s l m S F IH]; [reflexivity|]. cbn [flat_map]. rewrite map_app, IH, (coupled_refs ss _ _ S). reflexivity. Qed.
(** C103: in the network of bibliographic coupling the weight between two records, of whichever databases, is the number of different names that are cited by both;
    the names are those that each database gives, so that a work cited from Scopus and from WOS does not join them (C103_same_work_refuted). *)
Theorem C103_coupling_partial : forall weighted rs, (forall r, In r rs -> described r /\ name r <> []) ->
  exists cg, any_citation upper lower title all_digits word num int_of journal coupling_opts true true rs = Ok cg /\
  forall sources order, (forall n, NoDup (sources n)) -> (forall n u, In u (sources n) <-> is_edge cg u n) -> NoDup order -> (forall n, In n order <-> exists u, is_edge cg u n) ->
  exists g, CiteNetModel.bib_coupling weighted cg sources order = Ok g /\ gdir g = false /\
    (forall n, is_node g n <-> exists r, In r rs /\ n = IText (name r) /\ (exists r', In r' rs /\ ((name r' = name r /\ refs r' <> []) \/ In (name r) (cited r')))) /\
    (forall u v, ed g (IText u) (IText v) = edge_value weighted (if eqb u v then 0 else length (filter (fun n => cites_it rs u n && cites_it rs v n) (first_seen (flat_map cited rs))))).
Proof.
  intros w rs U. destruct (see_all rs (fun r I => proj1 (U r I))) as (ss & E & F). unfold any_citation. rewrite E. cbn [bind].
  assert (V : forall s, In s ss -> exists r, In r rs /\ sees_any r s) by (intros s I; apply (F2_in_r _ _ _ _ F I)).
  assert (V' : forall s, In s ss -> exists r, sees_any r s) by (intros s I; destruct (V s I) as (r & _ & S); eauto).
  destruct (PropertiesCite.C20_shared_works _ _ _ _ api rapi upper false false w ss) as (cg & Q & H).
  { intros s c I _. exact (always_info false ss c V'). }
  { intros s I. destruct (V s I) as (r & J & S). split; [apply S|]. cbn [CiteNetModel.own any_rapi CiteNetModel.cid any_api CiteNetModel.truthy_id]. rewrite (sees_name _ _ S). destruct (U r J) as (_ & N). destruct (name r); [congruence|reflexivity]. }
  exists cg. split; [exact Q|]. intros sources order N1 N2 N3 N4. destruct (H sources order N1 N2 N3 N4) as (g & B & _ & D & N & _ & X). exists g. split; [exact B|]. split; [exact D|]. split.
  - intros n. rewrite N. cbn [CiteNetModel.own any_rapi CiteNetModel.cid any_api CiteNetModel.cites]. split.
    + intros ((s & I & ->) & (s' & I' & K)). destruct (V s I) as (r & J & S). destruct (V s' I') as (r' & J' & S'). exists r. split; [exact J|]. rewrite (sees_name _ _ S) in *. split; [reflexivity|]. exists r'. split; [exact J'|].
      rewrite (sees_name _ _ S') in K. destruct K as [(K & NE)|K].
      * left. split; [congruence|]. intros Z. apply NE. destruct S' as (_ & _ & _ & F2 & _). rewrite Z in F2. inversion F2. reflexivity.
      * right. assert (K' : In (IText (name r)) (map IText (cited r'))) by (rewrite <- (sees_refs _ _ S'), map_map; exact K). apply in_map_iff in K'. destruct K' as (x & Q1 & Q2). injection Q1 as <-. exact Q2.
    + intros (r & J & -> & r' & J' & K). destruct (F2_in_l _ _ _ _ F J) as (s & I & S). destruct (F2_in_l _ _ _ _ F J') as (s' & I' & S'). split; [exists s; split; [exact I|]; rewrite (sees_name _ _ S); reflexivity|].
      exists s'. split; [exact I'|]. rewrite (sees_name _ _ S'). destruct K as [(K & NE)|K].
      * left. split; [congruence|]. intros Z. apply NE. destruct S' as (_ & _ & _ & F2 & _). rewrite Z in F2. destruct (refs r'); [reflexivity|inversion F2].
      * right. rewrite <- (map_map a_id IText). apply in_map. rewrite (sees_refs _ _ S'). exact K.
  - intros u v. rewrite X, eqb_text. f_equal. destruct (eqb u v); [reflexivity|]. unfold CiteNetSpec.shared_works. change (CiteNetModel.coupling_opts false false) with coupling_opts. rewrite (flat_coupled rs ss ss F), first_texts, filter_texts. f_equal. apply filter_ext. intros n. rewrite !(coupled_cites rs ss _ _ F). reflexivity.
Qed.
End Networks.
(** two records of Scopus that share a reference, and one of WOS that cites the same work *)
Definition couple_wos : str := join [nl] [$"FN Thomson"; $"VR 1.0"; $"PT J"; $"AU Doe, J"; $"J9 NATURE"; $"CR Smith A, 1990, SCIENCE, V1"; $"PY 1999"; $"UT WOS:1"; $"ER"; []; $"EF"].
Example C103_coupling_ex : exists w cg, wos_parse couple_wos = ([w], None) /\
  mixnet any_citation coupling_opts true true [AnyWos w; AnyScopus mixnet_scopus; AnyScopus read_scopus] = Ok cg /\
  let smith := IText $"SMITH A., 1990, SCIENCE" in let roe := IText $"ROE K., 2004, STARS" in let roe' := IText $"ROE K., 2005, STARS" in
  let sources := fun n => if eqb n smith then [roe; roe'] else [] in
  exists g, CiteNetModel.bib_coupling true cg sources [smith] = Ok g /\ edge_attr g roe roe' $"weight" = Some (VInt 1) /\ is_edge cg roe smith /\ is_edge cg roe' smith /\
    cites_it mixnet_up mix_id mix_word digit09 mixnet_int mixnet_text mixnet_refs [AnyScopus mixnet_scopus] $"ROE K., 2004, STARS" $"SMITH A., 1990, SCIENCE" = true.
Proof.
  destruct (wos_parse couple_wos) as [l e] eqn:E. vm_compute in E. injection E as <- <-. match goal with |- exists w cg, ([?a], None) = _ /\ _ => exists a end.
  match goal with |- exists cg, _ /\ ?X = Ok cg /\ _ => destruct X as [cg|] eqn:C; vm_compute in C; [|discriminate C] end. injection C as <-. eexists. split; [reflexivity|]. split; [reflexivity|]. cbv zeta.
  match goal with |- exists g, ?X = Ok g /\ _ => destruct X as [g|] eqn:C; vm_compute in C; [|discriminate C] end. injection C as <-. eexists. split; [reflexivity|]. split; [vm_compute; reflexivity|]. split; [vm_compute; discriminate|]. split; [vm_compute; discriminate|]. vm_compute. reflexivity.
Qed.
Print Assumptions C103_coupling_partial.
