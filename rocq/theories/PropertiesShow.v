(** * C110: what records show as texts, and the grants of records of several databases. *)
From Coq Require Import List ZArith Lia Bool Arith.
From Coq Require Import String.
From Verif Require Import Base PyStr PyInt CitationModel CitationSpec TagNames RecordModel RecordProofs RecordView GrantModel ValuesModel PropertiesCitation PropertiesValues WosModel WosNetModel WosNetSpec WosNetProofs
  PropertiesWosNet WosTagsModel WosTagsSpec WosTagsProofs MixedModel MixedSpec MixedProofs PropertiesMixed MixedNetModel MixedNetSpec MixedNetProofs PropertiesMixedNet ShowModel.
From Verif Require MedlineModel ScopusModel ProQuestModel.
Import ListNotations.
Local Open Scope list_scope.

(** ** What is said *)
(** how its class is called *)
Inductive class_of : anyrec -> str -> Prop :=
| class_wos : forall r, class_of (AnyWos r) $"WOSRecord"
| class_medline : forall r, class_of (AnyMedline r) $"MedlineRecord"
| class_scopus : forall r, class_of (AnyScopus r) $"ScopusRecord"
| class_proquest : forall r, class_of (AnyProQuest r) $"ProQuestRecord".
(** the title in the file: the lines of Web of Science are joined, of the others the first counts; None if there is no such field *)
Definition title_in_file (r : anyrec) : option str :=
  match r with
  | AnyWos r => match lines_of $"TI" r with [] => None | l => Some (join $" " l) end
  | AnyMedline r => match dget $"TI" (MedlineModel.mdata r) with Some l => Some (hd [] l) | None => None end
  | AnyScopus r => dget $"Title" (ScopusModel.sdata r)
  | AnyProQuest r => match dget $"Title" (ProQuestModel.pdata r) with Some l => Some (hd [] l) | None => None end
  end.
(** the mark that the reader of the file gave the record *)
Inductive marked_bad : anyrec -> bool -> Prop :=
| bad_wos : forall r, marked_bad (AnyWos r) (wbad r)
| bad_medline : forall r, marked_bad (AnyMedline r) (MedlineModel.mbad r)
| bad_scopus : forall r, marked_bad (AnyScopus r) (ScopusModel.sbad r)
| bad_proquest : forall r, marked_bad (AnyProQuest r) (ProQuestModel.pbad r).
(** the texts of the field of grants in the file *)
Definition grants_in_file (r : anyrec) : list str :=
  match r with AnyMedline r => match dget $"GR" (MedlineModel.mdata r) with Some l => l | None => [] end | _ => [] end.
(** no field of the record is itself called [key], and fields have values *)
Definition ordinary (key : str) (r : anyrec) : Prop :=
  match r with
  | AnyWos _ => True
  | AnyMedline r => ~ In key (dkeys (MedlineModel.mdata r)) /\ forall t l, dget t (MedlineModel.mdata r) = Some l -> l <> []
  | AnyScopus r => ~ In key (dkeys (ScopusModel.sdata r))
  | AnyProQuest r => ~ In key (dkeys (ProQuestModel.pdata r)) /\ forall t l, dget t (ProQuestModel.pdata r) = Some l -> l <> []
  end.

Section Show.
Variables upper lower title : str -> str.
Variable all_digits : str -> bool.
Variables word num : char -> bool.
Variable int_of : str -> Z.
Variable own : list str -> res fvalue.
Variable spoilt : fvalue -> bool.
Variable mend : fvalue -> option fvalue -> option fvalue -> option fvalue -> res fvalue.
Notation item := (any_item upper lower title all_digits word num int_of own spoilt mend).
Notation show := (str_of_record upper lower title all_digits word num int_of own spoilt mend).
Notation grants := (grants_of_record upper lower title all_digits word num int_of own spoilt mend).

Lemma title_item r : read_from_file r -> ordinary $"title" r -> item r $"title" = match title_in_file r with Some s => Ok (FText s) | None => Raise KeyError end.
Proof.
  destruct r as [r|r|r|r]; cbn [read_from_file ordinary title_in_file].
  - intros U _. pose proof (usable_plain r U) as P. assert (T : dhas $"TI" wos_tags = true) by reflexivity. assert (C : called_tag $"TI" $"title") by (right; reflexivity).
    pose proof (value_called upper lower title all_digits r 2 _ _ P T C) as V.
    destruct (@getitem_ok _ _ (kind_of upper lower title all_digits r) (wfields r) (fields_back upper lower title all_digits r P) (special_alone upper lower title all_digits r) 3 $"title" [] _ (valid_nil _ _) V) as (c' & Q & _).
    unfold any_item, item_in. rewrite Q. unfold lines_of. destruct (dget $"TI" (wfields r)) as [raw|] eqn:E; [|reflexivity]. destruct (field_two r P _ _ E) as (_ & X & _). destruct raw as [|x raw]; [contradiction|reflexivity].
  - intros (alpha & content & recs & err & F & I) (A & NE). apply apart_dget in A. pose proof (file_short alpha content recs err r F I) as SH. cbn [any_item].
    rewrite (item_stands _ _ $"title" $"TI"); [|exact A|reflexivity|reflexivity|intros a B; apply (far_name $"TI" a _ SH B); cbn; tauto|reflexivity].
    destruct (dget $"TI" (MedlineModel.mdata r)) as [raw|] eqn:E; [|reflexivity]. specialize (NE _ _ E). destruct raw; [contradiction|reflexivity].
  - intros _ A. apply apart_dget in A. cbn [any_item]. rewrite (item_stands _ _ $"title" $"Title"); [|exact A|reflexivity|reflexivity|intros a B; discriminate B|reflexivity]. destruct (dget $"Title" (ScopusModel.sdata r)); reflexivity.
  - intros _ (A & NE). apply apart_dget in A. cbn [any_item]. rewrite (item_stands _ _ $"title" $"Title"); [|exact A|reflexivity|reflexivity|intros a B; discriminate B|reflexivity].
    destruct (dget $"Title" (ProQuestModel.pdata r)) as [raw|] eqn:E; [|reflexivity]. specialize (NE _ _ E). destruct raw; [contradiction|reflexivity].
Qed.
Lemma class_is r c : class_of r c -> type_name r = c.
Proof. intros []; reflexivity. Qed.
Lemma id_text_is r : id_text r = own_id r.
Proof. destruct r; reflexivity. Qed.
Lemma bad_is r b : marked_bad r b -> is_bad r = b.
Proof. intros []; reflexivity. Qed.
(** C110: the text of a record is the name of its class with its title, or with its ID if there is no title. *)
Theorem C110_text : forall r c, read_from_file r -> ordinary $"title" r -> class_of r c ->
  show r = Ok (c ++ $"(" ++ match title_in_file r with Some s => s | None => own_id r end ++ $")").
Proof.
  intros r c RF O C. unfold str_of_record, any_get. rewrite title_item by assumption. rewrite (class_is r c C), id_text_is. destruct (title_in_file r); reflexivity.
Qed.
(** C110: two good records show the same in lists exactly if they are of the same class and have the same ID, *)
Lemma app_split (a b : str) x y s : ~ In s a -> ~ In s b -> a ++ s :: x = b ++ s :: y -> a = b /\ x = y.
Proof.
  intros NA NB E. revert b NB E. induction a as [|u a IH]; intros b NB E.
  - destruct b as [|v b]; cbn in E; [injection E as E; auto|]. injection E as E1 E2. exfalso. apply NB. left. congruence.
  - destruct b as [|v b]; cbn in E; injection E as E1 E2; [exfalso; apply NA; left; congruence|]. subst v. destruct (IH (fun J => NA (or_intror J)) b (fun J => NB (or_intror J)) E2) as (-> & ->). auto.
Qed.
Theorem C110_repr : forall r r', marked_bad r false -> marked_bad r' false ->
  (repr_of_record r = repr_of_record r' <-> (forall c, class_of r c <-> class_of r' c) /\ own_id r = own_id r').
Proof.
  intros r r' B B'. apply bad_is in B, B'. unfold repr_of_record. rewrite B, B', (id_text_is r), (id_text_is r'). clear B B'. split.
  - intros E. apply app_inv_head in E. assert (Q : type_name r = type_name r' /\ own_id r = own_id r').
    { assert (N : forall q, ~ In 32%N (type_name q)) by (intros q J; destruct q; vm_compute in J; repeat (destruct J as [J|J]; [discriminate J|]); exact J).
      change ($" object " ++ own_id r ++ $">") with (32%N :: $"object " ++ own_id r ++ $">") in E. change ($" object " ++ own_id r' ++ $">") with (32%N :: $"object " ++ own_id r' ++ $">") in E.
      destruct (app_split _ _ _ _ _ (N r) (N r') E) as (-> & E2). split; [reflexivity|]. apply app_inv_head in E2. apply app_inv_tail in E2. exact E2. }
    destruct Q as (Q & ->). split; [|reflexivity]. intros c. destruct r, r'; try discriminate Q; split; intros H; inversion H; constructor.
  - intros (C & ->). assert (Q : type_name r = type_name r'); [|rewrite Q; reflexivity]. destruct r, r'; try reflexivity; exfalso;
      match goal with C : forall c, class_of ?a c <-> _ |- _ => assert (X : class_of a (type_name a)) by constructor; apply C in X; inversion X end.
Qed.
(** ... and bad records of a class all show the same. *)
Theorem C110_bad : forall r c, marked_bad r true -> class_of r c -> repr_of_record r = $"<metaknowledge." ++ c ++ $" object BAD>".
Proof. intros r c B C. apply bad_is in B. unfold repr_of_record. rewrite B, (class_is r c C). reflexivity. Qed.
(** False in general: that only bad records show as bad.  A WOS file can give a good record the ID BAD. *)
Theorem C110_bad_refuted : exists r, wos_parse ($"VR 1.0" ++ [10%N] ++ $"UT BAD" ++ [10%N] ++ $"ER" ++ [10%N; 10%N] ++ $"EF" ++ [10%N]) = ([r], None) /\ wbad r = false /\ repr_of_record (AnyWos r) = $"<metaknowledge.WOSRecord object BAD>".
Proof.
  match goal with |- exists r, wos_parse ?x = _ /\ _ => destruct (wos_parse x) as [l e] eqn:E end. vm_compute in E. injection E as <- <-. match goal with |- exists r, ([?a], None) = _ /\ _ => exists a end. vm_compute. auto.
Qed.
(** C110: asking a WOS record for its grants is never an error: there are none. *)
Theorem C110_grants_wos : forall r, usable_record r -> item (AnyWos r) $"grants" = Ok (FGrants []).
Proof.
  intros r RF. pose proof (usable_plain r RF) as P. cbn [any_item]. unfold item_in. cbn [getitem dget]. unfold resolve. assert (D : dget $"grants" (wfields r) = None).
  { destruct (dget $"grants" (wfields r)) as [l|] eqn:E; [|reflexivity]. destruct (field_two r P _ _ E) as (X & _). vm_compute in X. discriminate X. }
  rewrite D. reflexivity.
Qed.
(** C110: the grants of a record are those of the field GR of Medline; records of the other databases have none. *)
Theorem C110_grants : forall r, read_from_file r -> ordinary $"grants" r -> grants r = Ok (map medline_grant (grants_in_file r)).
Proof.
  intros r RF O. unfold grants_of_record, any_get. destruct r as [r|r|r|r]; cbn [read_from_file ordinary grants_in_file map] in *.
  - pose proof (usable_plain r RF) as P. cbn [any_item]. unfold item_in. cbn [getitem dget]. unfold resolve. assert (D : dget $"grants" (wfields r) = None).
    { destruct (dget $"grants" (wfields r)) as [l|] eqn:E; [|reflexivity]. destruct (field_two r P _ _ E) as (X & _). vm_compute in X. discriminate X. }
    rewrite D. reflexivity.
  - destruct RF as (alpha & content & recs & err & F & I). destruct O as (A & _). apply apart_dget in A. pose proof (file_short alpha content recs err r F I) as SH. cbn [any_item].
    rewrite (item_stands _ _ $"grants" $"GR"); [|exact A|reflexivity|reflexivity| |reflexivity].
    + destruct (dget $"GR" (MedlineModel.mdata r)) as [raw|] eqn:E; reflexivity.
    + intros a B. assert (L : length a > 4) by (vm_compute in B; injection B as <-; vm_compute; lia). destruct (dget a (MedlineModel.mdata r)) eqn:E; [|reflexivity]. apply dget_Some_key, SH in E. lia.
  - apply apart_dget in O. cbn [any_item]. rewrite item_missing; [reflexivity|exact O|reflexivity|reflexivity].
  - destruct O as (O & _). apply apart_dget in O. cbn [any_item]. rewrite item_missing; [reflexivity|exact O|reflexivity|reflexivity].
Qed.
(** False in general: that grants told by a file are the grants of the record.  Scopus has a field of grants, which no common name stands for. *)
Theorem C110_grants_refuted : exists r, In $"Funding Details" (dkeys (ScopusModel.sdata r)) /\ ~ In $"grants" (dkeys (ScopusModel.sdata r)) /\
  item (AnyScopus r) $"Funding Details" = Ok (FGrants [scopus_grant $"12, CA, NCI, National Cancer Institute"]) /\ grants (AnyScopus r) = Ok [].
Proof.
  exists (ScopusModel.srec_of [($"EID", $"2-s2.0-1"); ($"Funding Details", $"12, CA, NCI, National Cancer Institute")]). split; [right; left; reflexivity|]. split; [intros [J|[J|[]]]; discriminate J|]. split; vm_compute; reflexivity.
Qed.
End Show.
Notation ex_show := (str_of_record mixnet_up mix_id mix_id (forallb digit09) mix_word digit09 mixnet_int (fun _ => Raise KeyError) (fun _ => false) (fun v _ _ _ => Ok v)).
Notation ex_grants := (grants_of_record mixnet_up mix_id mix_id (forallb digit09) mix_word digit09 mixnet_int (fun _ => Raise KeyError) (fun _ => false) (fun v _ _ _ => Ok v)).
Definition show_medline : str := $"PMID- 7" ++ [10%N] ++ $"TI  - Ants" ++ [10%N] ++ $"GR  - R01 1234/CA/NCI NIH HHS/United States" ++ [10%N] ++ $"GR  - 5/NIH/Peru" ++ [10%N; 10%N].
Lemma values_there (l : list (str * list str)) : forallb (fun e => negb (eqb (snd e) [])) l = true -> forall t v, dget t l = Some v -> v <> [].
Proof. intros F t v D ->. apply dget_In in D. rewrite forallb_forall in F. specialize (F _ D). discriminate F. Qed.
Example C110_ex : exists w m, wos_parse mixnet_wos = ([w], None) /\ MedlineModel.medline_file mix_alpha show_medline = Ok ([m], false) /\
  ordinary $"title" (AnyMedline m) /\ ordinary $"grants" (AnyMedline m) /\ ordinary $"title" (AnyScopus mixnet_scopus) /\ ordinary $"title" (AnyProQuest mixnet_proquest) /\
  title_in_file (AnyWos w) = Some $"On things" /\ ex_show (AnyWos w) = Ok $"WOSRecord(On things)" /\ ex_show (AnyMedline m) = Ok $"MedlineRecord(Ants)" /\ repr_of_record (AnyMedline m) = $"<metaknowledge.MedlineRecord object PMID:7>" /\
  ex_grants (AnyWos w) = Ok [] /\ ex_grants (AnyMedline m) = Ok [medline_grant $"R01 1234/CA/NCI NIH HHS/United States"; medline_grant $"5/NIH/Peru"].
Proof.
  destruct (wos_parse mixnet_wos) as [l e] eqn:E. vm_compute in E. injection E as <- <-. destruct (MedlineModel.medline_file mix_alpha show_medline) as [[l' e']|] eqn:M; vm_compute in M; [|discriminate M]. injection M as <- <-.
  match goal with |- exists w m, ([?a], None) = _ /\ Ok ([?b], false) = _ /\ _ => exists a, b end. split; [reflexivity|]. split; [reflexivity|].
  assert (N : forall (k : str) (ks : list str), mem k ks = false -> ~ In k ks) by (intros k ks; apply mem_not_In).
  split; [split; [apply N; vm_compute; reflexivity|apply values_there; vm_compute; reflexivity]|]. split; [split; [apply N; vm_compute; reflexivity|apply values_there; vm_compute; reflexivity]|].
  split; [apply N; vm_compute; reflexivity|]. split; [split; [apply N; vm_compute; reflexivity|apply values_there; vm_compute; reflexivity]|]. vm_compute. repeat split; reflexivity.
Qed.
Print Assumptions C110_text.
Print Assumptions C110_repr.
Print Assumptions C110_bad.
Print Assumptions C110_grants.
Print Assumptions C110_grants_wos.
Print Assumptions C110_grants_refuted.
