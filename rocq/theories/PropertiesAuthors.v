(** C102: the authors that networks, tables and counts of genders are about are those that the records name. *)
From Coq Require Import List ZArith Lia Bool Arith Permutation.
From Coq Require Import String.
From Verif Require Import Base PyStr CitationModel CitationSpec TagNames RecordModel RecordProofs RecordView GrantModel ValuesModel PropertiesValues WosModel WosNetModel WosNetSpec WosNetProofs PropertiesWosNet
  WosTagsModel WosTagsSpec WosTagsProofs Nx NxFacts NetSpec NetFacts SeriesSpec RecordViewFacts MixedModel MixedSpec MixedProofs PropertiesMixed AuthorsModel AuthorsSpec.
From Verif Require PropertiesCite MedlineModel ScopusModel ProQuestModel AnalysisModel AnalysisSpec PropertiesAnalysis PropertiesWosTags.
Import ListNotations.
Local Open Scope list_scope.

Section Authors.
Variables upper lower title : str -> str.
Variable all_digits : str -> bool.
Variables word num : char -> bool.
Variable int_of : str -> Z.
Variable own : list str -> res fvalue.
Variable spoilt : fvalue -> bool.
Variable mend : fvalue -> option fvalue -> option fvalue -> option fvalue -> res fvalue.
Notation item := (any_item upper lower title all_digits word num int_of own spoilt mend).
Notation authors := (any_authors upper lower title all_digits word num int_of own spoilt mend).
Notation every := (every_authors upper lower title all_digits word num int_of own spoilt mend).
Notation co_author := (any_co_author upper lower title all_digits word num int_of own spoilt mend).
Notation number := (num_authors upper lower title all_digits word num int_of own spoilt mend).
Notation genders := (any_genders upper lower title all_digits word num int_of own spoilt mend).

Lemma authors_item short r l : read_from_file r -> lists_authors r -> names_authors short r l ->
  item r (if short then $"authorsShort" else $"authorsFull") = Ok (FTexts l) \/ (item r (if short then $"authorsShort" else $"authorsFull") = Raise KeyError /\ l = []).
Proof.
  intros U L N. destruct r as [r|r|r|r]; [| | |contradiction L]; cbn [any_item].
  - change (l = lines_of (if short then $"AU" else $"AF") r) in N. subst l. pose proof (usable_plain r U) as P. set (tag := if short then $"AU" else $"AF"). set (key := if short then $"authorsShort" else $"authorsFull").
    assert (C : called_tag tag key) by (right; unfold tag, key; destruct short; reflexivity). assert (T : dhas tag wos_tags = true) by (unfold tag; destruct short; reflexivity).
    pose proof (value_called upper lower title all_digits r 2 tag key P T C) as V.
    destruct (@getitem_ok _ _ (kind_of upper lower title all_digits r) (wfields r) (fields_back upper lower title all_digits r P) (special_alone upper lower title all_digits r) 3 key [] _ (valid_nil _ _) V) as (c' & Q & _).
    unfold item_in. rewrite Q. unfold lines_of. destruct (dget tag (wfields r)) as [raw|]; [left|right; auto]. unfold tag. destruct short; reflexivity.
  - destruct N as (A & ->). destruct U as (alpha & content & recs & err & E & I). pose proof (file_short _ _ _ _ _ E I) as SH. apply apart_dget in A. set (d := MedlineModel.mdata r) in *.
    set (cl := medline_kind upper title all_digits r).
    rewrite (item_stands cl d _ (if short then $"AU" else $"FAU") A).
    + destruct (dget (if short then $"AU" else $"FAU") d) as [raw|]; [left|right; auto]. destruct short; reflexivity.
    + destruct short; reflexivity.
    + destruct short; reflexivity.
    + intros a B. apply (far_name _ a d SH B). destruct short; cbn; tauto.
    + destruct short; reflexivity.
  - destruct N as (A & H). apply apart_dget in A. set (d := ScopusModel.sdata r) in *. set (cl := scopus_kind upper word num int_of own spoilt mend).
    assert (E : item_in cl d (if short then $"authorsShort" else $"authorsFull") = match dget $"Authors" d with Some raw => proc cl $"Authors" raw | None => Raise KeyError end).
    { apply item_stands; [exact A|destruct short; reflexivity|destruct short; reflexivity|intros a B; discriminate B|reflexivity]. }
    rewrite E. destruct H as [(D & ->)|(D & NE & NP)]; rewrite D; [right; auto|]. left. change (proc cl $"Authors" (join $", " l)) with (scopus_value upper word num int_of $"Authors" (join $", " l)).
    apply (C74_lists upper word num int_of [] l NE). intros s J. apply no_has; auto.
Qed.
Lemma authors_named short r l : read_from_file r -> lists_authors r -> names_authors short r l -> authors short r = Ok l.
Proof.
  intros U L N. unfold any_authors, any_get. destruct (authors_item short r l U L N) as [E|(E & ->)]; rewrite E; reflexivity.
Qed.
Lemma every_named short rs (named : anyrec -> list str) : (forall r, In r rs -> read_from_file r /\ lists_authors r /\ names_authors short r (named r)) -> every short rs = Ok (map named rs).
Proof.
  induction rs as [|r rs IH]; intros H; [reflexivity|]. cbn [every_authors map]. destruct (H r (or_introl eq_refl)) as (U & L & N). rewrite (authors_named short r _ U L N). cbn [bind].
  rewrite IH by (intros; apply H; right; assumption). reflexivity.
Qed.
Lemma total_map {A B} (f : B -> nat) (g : A -> B) (l : list A) : total f (map g l) = total (fun a => f (g a)) l.
Proof. unfold total. induction l as [|a l IH]; [reflexivity|]. cbn [map fold_right]. rewrite IH. reflexivity. Qed.
Lemma network_of (named : list (list str)) weighted counted :
  exists g, CiteNetModel.co_author (fun l => l) (fun _ => true) (fun _ => []) weighted false counted named = Ok g /\ gdir g = false /\
    (forall n, is_node g n <-> exists l, In l named /\ In n l) /\
    (forall u v, ed g u v = edge_value weighted (total (pairs_within u v) named)).
Proof.
  destruct (PropertiesCite.C17_weights _ _ _ (fun l : list str => l) (fun _ : list str => true) (fun _ : list str => []) weighted false counted named (fun _ _ => NoDup_nil _)) as (g & Q & _ & D & N & W & _).
  assert (FA : forall l : list (list str), filter (fun _ : list str => negb false || true) l = l) by (intros l; apply filter_all). rewrite FA in N, W. exists g. auto.
Qed.

(** C102: in the network of co-authors the nodes are the authors that the records name, and the edge of two of them has the number of times that they are named together.
    Missing: records of ProQuest, for which it is false. *)
Theorem C102_coauthor_partial : forall short weighted counted rs (named : anyrec -> list str),
  (forall r, In r rs -> read_from_file r /\ lists_authors r /\ names_authors short r (named r)) ->
  exists g, co_author short weighted counted rs = Ok g /\ gdir g = false /\
    (forall n, is_node g n <-> exists r, In r rs /\ In n (named r)) /\
    (forall u v, ed g u v = edge_value weighted (total (fun r => pairs_within u v (named r)) rs)).
Proof.
  intros short w cnt rs named H. unfold any_co_author. rewrite (every_named short rs named H). cbn [bind]. destruct (network_of (map named rs) w cnt) as (g & Q & D & N & W).
  exists g. split; [exact Q|]. split; [exact D|]. split.
  - intros n. rewrite N. split; [intros (l & I & J); apply in_map_iff in I; destruct I as (r & <- & I); eauto|]. intros (r & I & J). exists (named r). split; [apply in_map, I|exact J].
  - intros u v. rewrite W, total_map. reflexivity.
Qed.
(** The tables have the number of authors that the record names, ... *)
Theorem C102_number_partial : forall r named, read_from_file r -> lists_authors r -> names_authors true r named -> number r = Ok (length named).
Proof. intros r named U L N. unfold num_authors. rewrite (authors_named true r named U L N). reflexivity. Qed.
(** ... and the counts of genders are those of the names, each name of a record once. *)
Theorem C102_genders_partial : forall mapping rs (named : anyrec -> list str), (forall r, In r rs -> read_from_file r /\ lists_authors r /\ names_authors false r (named r)) ->
  let counted g := total (fun r => length (filter (fun n => eqb (AnalysisModel.name_gender title mapping n) g) (first_seen (named r)))) rs in
  genders mapping rs = Ok (counted AnalysisModel.Male, counted AnalysisModel.Female, counted AnalysisModel.Unknown).
Proof.
  intros mapping rs named H counted. unfold any_genders. rewrite (every_named false rs named H). cbn [bind]. f_equal. rewrite PropertiesAnalysis.C45_counts. unfold AnalysisSpec.names_of. rewrite !total_map. reflexivity.
Qed.

(** False with records of ProQuest: as soon as there is one, each letter of the word Author is an author in the network, or, when short names are used, each letter of the name; ... *)
Lemma proquest_full p : apart (ProQuestModel.pdata p) $"authorsFull" -> authors false (AnyProQuest p) = Ok (map (fun c => [c]) $"Author").
Proof.
  intros A. apply apart_dget in A. unfold any_authors, any_get, any_item, item_in. cbn [getitem dget]. unfold resolve. rewrite A. reflexivity.
Qed.
Lemma proquest_short p a more : apart (ProQuestModel.pdata p) $"authorsShort" -> dget $"Author" (ProQuestModel.pdata p) = Some (a :: more) -> authors true (AnyProQuest p) = Ok (map (fun c => [c]) a).
Proof.
  intros A D. apply apart_dget in A. unfold any_authors, any_get, any_item.
  rewrite (item_stands (proquest_kind upper title p) (ProQuestModel.pdata p) $"authorsShort" $"Author" A); [|reflexivity|reflexivity|intros x B; discriminate B|reflexivity]. rewrite D. reflexivity.
Qed.
Lemma every_in short rs ls r l : every short rs = Ok ls -> In r rs -> authors short r = Ok l -> In l ls.
Proof.
  revert ls. induction rs as [|x rs IH]; intros ls E I Q; [destruct I|]. cbn [every_authors] in E. destruct (authors short x) as [lx|] eqn:X; [|discriminate E]. cbn [bind] in E.
  destruct (every short rs) as [ls'|] eqn:Y; [|discriminate E]. cbn [bind] in E. injection E as <-. destruct I as [->|I]; [left; congruence|right; apply IH; auto].
Qed.
Theorem C102_letters_refuted : forall (short weighted counted : bool) rs p a more g,
  In (AnyProQuest p) rs -> dget $"Author" (ProQuestModel.pdata p) = Some (a :: more) -> names_authors short (AnyProQuest p) [a] -> co_author short weighted counted rs = Ok g ->
  forall c, In c (if short then a else $"Author") -> is_node g [c].
Proof.
  intros short w cnt rs p a more g I D (A & _) Q c J. unfold any_co_author in Q. destruct (every short rs) as [ls|] eqn:E; [|discriminate Q]. cbn [bind] in Q. destruct (network_of ls w cnt) as (g' & Q' & _ & N & _).
  assert (g' = g) by congruence. subst g'. apply N. exists (map (fun c => [c]) (if short then a else $"Author")). split; [|apply in_map_iff; exists c; auto].
  apply (every_in short rs ls (AnyProQuest p) _ E I). destruct short; [eapply proquest_short; eassumption|apply proquest_full, A].
Qed.
(** ... the number of authors in the tables is the number of letters of the name; ... *)
Theorem C102_number_refuted : forall p a more, dget $"Author" (ProQuestModel.pdata p) = Some (a :: more) -> names_authors true (AnyProQuest p) [a] -> number (AnyProQuest p) = Ok (length a).
Proof. intros p a more D (A & _). unfold num_authors. rewrite (proquest_short p a more A D). cbn [bind]. rewrite map_length. reflexivity. Qed.
(** ... and whoever wrote it, six names of an unknown gender are counted. *)
Theorem C102_genders_refuted : forall p mapping, apart (ProQuestModel.pdata p) $"authorsFull" -> genders mapping [AnyProQuest p] = Ok (0, 0, 6).
Proof. intros p mapping A. unfold any_genders. cbn [every_authors]. rewrite (proquest_full p A). cbn [bind]. vm_compute. reflexivity. Qed.
End Authors.

(** ** A record of each database *)
Definition mix_named (r : anyrec) : list str :=
  match r with AnyWos _ => [$"Doe, J"; $"Roe, K"] | AnyMedline _ => [$"Doe, J"; $"Poe, B"] | AnyScopus _ => [$"Roe K"; $"Doe J"] | AnyProQuest _ => [$"Doe, J"] end.
Example C102_ex : exists w m, wos_parse mix_wos = ([w], None) /\ MedlineModel.medline_file mix_alpha mix_medline = Ok ([m], false) /\
  let rs := [AnyWos w; AnyMedline m; AnyScopus mix_scopus] in
  (forall r, In r rs -> read_from_file r /\ lists_authors r /\ names_authors true r (mix_named r)) /\
  (exists g, mixed any_co_author true true true rs = Ok g /\ map fst (gnodes g) = [$"Doe, J"; $"Roe, K"; $"Poe, B"; $"Roe K"; $"Doe J"]) /\
  names_authors true (AnyProQuest mix_proquest) [$"Doe, J"] /\ names_authors false (AnyProQuest mix_proquest) [$"Doe, J"] /\
  (exists g, mixed any_co_author false true true (rs ++ [AnyProQuest mix_proquest]) = Ok g /\ is_node g $"A" /\ ~ is_node g $"Doe, J") /\
  mixed num_authors (AnyProQuest mix_proquest) = Ok 6.
Proof.
  destruct C101_ex as (w & m & E & M & T & _). exists w, m. split; [exact E|]. split; [exact M|]. cbv zeta in *. pose proof E as E'. vm_compute in E'. injection E' as <-. pose proof M as M'. vm_compute in M'. injection M' as <-.
  assert (AP : forall {Raw} (d : dict str Raw) k, mem k (dkeys d) = false -> apart d k) by (intros Raw d k N J; apply mem_In in J; congruence).
  split; [|split; [|split; [|split; [|split]]]].
  - intros r I. split; [apply T; destruct I as [<-|[<-|[<-|[]]]]; [left; reflexivity|right; left; reflexivity|right; right; left; reflexivity]|]. destruct I as [<-|[<-|[<-|[]]]]; (split; [exact Logic.I|]).
    + reflexivity.
    + split; [apply AP; reflexivity|reflexivity].
    + split; [apply AP; reflexivity|]. right. split; [reflexivity|]. split; [discriminate|]. intros s J a b Q. assert (In 44%N s) by (rewrite Q; apply in_or_app; right; left; reflexivity). destruct J as [<-|[<-|[]]]; vm_compute in H; intuition discriminate.
  - match goal with |- exists g, ?W = _ /\ _ => destruct W as [g|] eqn:G; vm_compute in G; [|discriminate] end. injection G as <-. eexists. split; reflexivity.
  - split; [apply AP; reflexivity|]. right. eexists _, _. split; reflexivity.
  - split; [apply AP; reflexivity|]. right. eexists _, _. split; reflexivity.
  - match goal with |- exists g, ?W = _ /\ _ => destruct W as [g|] eqn:G; vm_compute in G; [|discriminate] end. injection G as <-. eexists. split; [reflexivity|]. split; vm_compute; intuition discriminate.
  - vm_compute. reflexivity.
Qed.
Print Assumptions C102_coauthor_partial.
Print Assumptions C102_number_partial.
Print Assumptions C102_genders_partial.
Print Assumptions C102_letters_refuted.
Print Assumptions C102_number_refuted.
Print Assumptions C102_genders_refuted.
