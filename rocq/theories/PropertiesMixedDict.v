(** * C48: the table of makeDict over several databases. *)
From Coq Require Import List ZArith Lia Bool Arith.
From Coq Require Import String.
From Verif Require Import Base PyStr PyInt CitationModel CitationSpec TagNames RecordModel RecordProofs RecordView GrantModel ValuesModel PropertiesCitation PropertiesValues WosModel WosNetModel WosNetSpec WosNetProofs
  PropertiesWosNet WosTagsModel WosTagsSpec WosTagsProofs MixedModel MixedSpec MixedProofs PropertiesMixed MixedNetModel MixedNetSpec MixedNetProofs PropertiesMixedNet AnalysisModel MixedDictModel.
From Verif Require MedlineModel ScopusModel ProQuestModel AnalysisSpec AnalysisProofs3 PropertiesAnalysis.
Import ListNotations.
Local Open Scope list_scope.

Section Dict.
Variables upper lower title : str -> str.
Variable all_digits : str -> bool.
Variables word num : char -> bool.
Variable int_of : str -> Z.
Variable own : list str -> res fvalue.
Variable spoilt : fvalue -> bool.
Variable mend : fvalue -> option fvalue -> option fvalue -> option fvalue -> res fvalue.
Notation item := (any_item upper lower title all_digits word num int_of own spoilt mend).
Notation look := (any_get upper lower title all_digits word num int_of own spoilt mend).
Notation call := (any_make_dict upper lower title all_digits word num int_of own spoilt mend).
Notation read_tags := (read_tags upper lower title all_digits word num int_of own spoilt mend).
Notation read_rows := (read_rows upper lower title all_digits word num int_of own spoilt mend).

(** the column that a name asked for gives: long names of Web of Science are replaced by its tags *)
Definition column_for (t k : str) : Prop := In (k, t) wos_tags \/ (k = t /\ ~ In t (map snd wos_tags)).
Lemma column_is t k : column_for t k <-> k = match dget t full_to_tag with Some u => u | None => t end.
Proof.
  assert (A : forallb (fun p : str * str => eqb (dget (snd p) full_to_tag) (Some (fst p))) wos_tags = true) by (vm_compute; reflexivity). rewrite forallb_forall in A.
  assert (B : forallb (fun p : str * str => existsb (fun q => eqb (fst q) (snd p) && eqb (snd q) (fst p)) wos_tags) full_to_tag = true) by (vm_compute; reflexivity). rewrite forallb_forall in B.
  assert (C : forall u, dget t full_to_tag = Some u -> In (u, t) wos_tags).
  { intros u D. apply dget_In in D. specialize (B _ D). apply existsb_exists in B. destruct B as ([a b] & I & E). apply andb_true_iff in E as [E1 E2]. apply eqb_eq in E1, E2. cbn [fst snd] in E1, E2. subst. exact I. }
  split.
  - intros [I|(-> & N)].
    + specialize (A _ I). apply eqb_eq in A. cbn [fst snd] in A. rewrite A. reflexivity.
    + destruct (dget t full_to_tag) as [u|] eqn:D; [|reflexivity]. exfalso. apply N. exact (in_map snd _ _ (C u eq_refl)).
  - intros ->. destruct (dget t full_to_tag) as [u|] eqn:D; [left; apply C; reflexivity|]. right. split; [reflexivity|]. intros I. apply in_map_iff in I. destruct I as ([a b] & E & I). cbn in E. subst b. specialize (A _ I). apply eqb_eq in A. cbn [fst snd] in A. congruence.
Qed.
Lemma tags_read ts r d : read_tags ts r = Ok d -> forall t, In t ts -> look r t = Ok (dget t d).
Proof.
  revert d. induction ts as [|x ts IH]; intros d E t I; [destruct I|]. cbn [MixedDictModel.read_tags] in E. destruct (look r x) as [o|] eqn:L; [|discriminate E]. cbn [bind] in E. destruct (read_tags ts r) as [d'|] eqn:R; [|discriminate E]. cbn [bind] in E. injection E as <-.
  destruct (eqb_spec t x) as [->|N].
  - rewrite L. f_equal. destruct o as [v|]; [cbn [dget]; rewrite eqb_refl; reflexivity|]. destruct (in_dec eq_dec x ts) as [J|J]; [specialize (IH _ eq_refl x J); congruence|].
    assert (K : forall ts d, read_tags ts r = Ok d -> ~ In x ts -> dget x d = None).
    { clear. induction ts as [|y ts IH]; intros d E N; [injection E as <-; reflexivity|]. cbn [MixedDictModel.read_tags] in E. destruct (look r y) as [o|]; [|discriminate E]. cbn [bind] in E. destruct (read_tags ts r) as [d'|]; [|discriminate E]. cbn [bind] in E. injection E as <-.
      specialize (IH d' eq_refl (fun J => N (or_intror J))). destruct o as [v|]; [|exact IH]. cbn [dget]. assert (Q : x <> y) by (intros ->; apply N; left; reflexivity). rewrite (neq_eqb Q). exact IH. }
    rewrite (K ts d' R J). reflexivity.
  - destruct I as [->|I]; [contradiction|]. rewrite (IH d' eq_refl t I). destruct o as [v|]; [|reflexivity]. cbn [dget]. rewrite (neq_eqb N). reflexivity.
Qed.
Lemma tags_ok ts r : (forall t, In t ts -> exists v, look r t = Ok v) -> exists d, read_tags ts r = Ok d.
Proof.
  induction ts as [|x ts IH]; intros H; [eexists; reflexivity|]. destruct (H x (or_introl eq_refl)) as (v & E). destruct IH as (d & R); [intros; apply H; right; assumption|]. cbn [MixedDictModel.read_tags]. rewrite E. cbn [bind]. rewrite R. eexists. reflexivity.
Qed.
Lemma rows_ok ts rs : (forall r t, In r rs -> In t ts -> exists v, look r t = Ok v) -> exists rows, read_rows ts rs = Ok rows /\ Forall2 (fun r row => fst row = r /\ read_tags ts r = Ok (snd row)) rs rows.
Proof.
  induction rs as [|r rs IH]; intros H; [exists []; split; [reflexivity|constructor]|]. destruct (tags_ok ts r) as (d & D); [intros; apply H; [left; reflexivity|assumption]|]. destruct IH as (rows & E & F); [intros; apply H; [right; assumption|assumption]|].
  exists ((r, d) :: rows). cbn [MixedDictModel.read_rows]. rewrite D. cbn [bind]. rewrite E. split; [reflexivity|]. constructor; [split; [reflexivity|exact D]|exact F].
Qed.
(** the columns asked for; without a list these are the fields that some record has *)
Definition field_names (r : anyrec) : list str :=
  match r with AnyWos r => map fst (wfields r) | AnyMedline r => map fst (MedlineModel.mdata r) | AnyScopus r => map fst (ScopusModel.sdata r) | AnyProQuest r => map fst (ProQuestModel.pdata r) end.
Definition asked_for (rs : list anyrec) (only : list str) (k : str) : Prop :=
  match only with [] => exists r, In r rs /\ In k (field_names r) | _ => exists u, In u only /\ column_for u k end.
Lemma asked_is rs only k : AnalysisSpec.chosen any_keys full_to_tag rs only k <-> asked_for rs only k.
Proof.
  unfold AnalysisSpec.chosen, asked_for. destruct only as [|x xs].
  - split; intros (r & I & J); exists r; (split; [exact I|]); destruct r; exact J.
  - split; intros (u & I & C); exists u; (split; [exact I|]); apply column_is; exact C.
Qed.
(** C48: the table has one column for each of the names asked for, or for each field of some record, with the values of the records of all databases in order ... *)
Theorem C48_mixed : forall rs only, (forall r k, In r rs -> asked_for rs only k -> exists v, look r k = Ok v) ->
  exists t, call rs only = Ok t /\ (forall k, In k (dkeys t) <-> asked_for rs only k) /\
    forall k l, dget k t = Some l -> Forall2 (fun r c => exists v, look r k = Ok v /\ c = CVal v) rs l.
Proof.
  intros rs only H. unfold any_make_dict. set (fields := match only with [] => all_tags any_keys rs | _ => normal_tags full_to_tag only end).
  assert (IN : forall k, In k fields <-> asked_for rs only k) by (intros k; rewrite <- asked_is; apply (AnalysisProofs3.chosen_spec any_keys full_to_tag rs only k)).
  destruct (rows_ok fields rs) as (rows & E & F); [intros r t I J; apply IN in J; apply (H r t I J)|]. rewrite E. cbn [bind].
  destruct (@PropertiesAnalysis.C48_table _ _ (fun row : anyrec * dict str fvalue => any_keys (fst row)) (fun (row : anyrec * dict str fvalue) t => dget t (snd row)) (fun _ => 0) (fun _ => (0, 0, 0)) full_to_tag [] rows only false false false) as (t & T & K & L); [discriminate|intros k _ []|].
  exists t. split; [exact T|]. assert (KF : forall k, In k (dkeys t) <-> In k fields).
  { intros k. rewrite K, IN. cbn [AnalysisSpec.extra_columns app]. unfold AnalysisSpec.column. rewrite <- asked_is. unfold AnalysisSpec.chosen. destruct only as [|x xs].
    - split.
      + intros [(t' & (row & I & J) & ->)|[]]. destruct (F2_in_r _ _ _ _ F I) as (r & I2 & (<- & _)). exists (fst row). auto.
      + intros (r & I & J). left. exists k. split; [|reflexivity]. destruct (F2_in_l _ _ _ _ F I) as (row & I2 & (<- & _)). exists row. auto.
    - split; [intros [(t' & C & ->)|[]]; exact C|intros C; left; exists k; auto]. }
  split; [intros k; rewrite KF; apply IN|]. intros k l D. pose proof (L k l D) as ->. assert (I : In k fields) by (apply KF; eapply dget_Some_key, D). clearbody fields. clear - F I.
  induction F as [|r row rs rows (Q & R) F IH]; [constructor|]. cbn [map]. constructor; [|exact IH]. exists (dget k (snd row)). split; [apply (tags_read _ _ _ R _ I)|reflexivity].
Qed.
Ltac pairs I := repeat (destruct I as [I|I]; [injection I as <- <-|]); [..|destruct I].
(** ... but the names that all databases share are replaced by the tags of Web of Science: asked for one of them, records of Scopus and ProQuest have nothing. *)
Definition without (k : str) (r : anyrec) : Prop :=
  match r with AnyScopus r => ~ In k (dkeys (ScopusModel.sdata r)) | AnyProQuest r => ~ In k (dkeys (ProQuestModel.pdata r)) | _ => False end.
Theorem C48_mixed_refuted : forall rs key k, In (key, k) [($"title", $"TI"); ($"authorsShort", $"AU"); ($"year", $"PY"); ($"keywords", $"ID"); ($"abstract", $"AB")] -> (forall r, In r rs -> without k r) ->
  call rs [key] = Ok [(k, map (fun _ => CVal None) rs)].
Proof.
  intros rs key k IN W. assert (L : forall r, In r rs -> look r k = Ok None).
  { intros r I. specialize (W r I). unfold any_get. destruct r as [r|r|r|r]; [destruct W|destruct W|..]; cbn [without] in W; apply apart_dget in W; cbn [any_item]; (rewrite item_missing; [reflexivity|exact W|reflexivity|]); pairs IN; reflexivity. }
  assert (C : normal_tags full_to_tag [key] = [k]) by (pairs IN; vm_compute; reflexivity).
  unfold any_make_dict. rewrite C. assert (R : read_rows [k] rs = Ok (map (fun r => (r, [])) rs)).
  { clear W. induction rs as [|r rs IH]; [reflexivity|]. cbn [MixedDictModel.read_rows MixedDictModel.read_tags map]. rewrite (L r (or_introl eq_refl)). cbn [bind]. rewrite IH; [reflexivity|]. intros; apply L; right; assumption. }
  rewrite R. cbn [bind]. unfold make_dict. rewrite C. cbn [bind fold_left dset]. clear. 
  assert (G : forall acc, push_records (fun (row : anyrec * dict str fvalue) t => dget t (snd row)) (fun _ => 0) (fun _ => (0, 0, 0)) [k] false false (map (fun r => (r, [])) rs) [(k, acc)] = Ok [(k, acc ++ map (fun _ => CVal None) rs)]).
  { induction rs as [|r rs IH]; intros acc; [rewrite app_nil_r; reflexivity|]. cbn [map push_records]. unfold record_cells. cbn [app sub_dict fold_left dset map push_all]. unfold push. cbn [dget]. rewrite eqb_refl. cbn [bind dset]. rewrite eqb_refl. cbn [push_all bind]. rewrite IH, <- app_assoc. reflexivity. }
  apply (G []).
Qed.
End Dict.
Notation ex_dict := (any_make_dict mixnet_up mix_id mix_id (forallb digit09) mix_word digit09 mixnet_int (fun _ => Raise KeyError) (fun _ => false) (fun v _ _ _ => Ok v)).
(** the title is there and can be looked up, but the table does not have it *)
Example C48_mixed_ex : exists w s, wos_parse mixnet_wos = ([w], None) /\ any_get mixnet_up mix_id mix_id (forallb digit09) mix_word digit09 mixnet_int (fun _ => Raise KeyError) (fun _ => false) (fun v _ _ _ => Ok v) (AnyScopus mixnet_scopus) $"title" = Ok (Some (FText s)) /\
  s <> [] /\ without $"TI" (AnyScopus mixnet_scopus) /\ ex_dict [AnyWos w; AnyScopus mixnet_scopus] [$"title"; $"Title"] =
  Ok [($"TI", [CVal (Some (FText $"On things")); CVal None]); ($"Title", [CVal None; CVal (Some (FText s))])].
Proof.
  destruct (wos_parse mixnet_wos) as [l e] eqn:E. vm_compute in E. injection E as <- <-. match goal with |- exists w s, ([?a], None) = _ /\ _ => exists a end.
  match goal with |- exists s, _ /\ ?x = _ /\ _ => destruct x as [o|] eqn:T; vm_compute in T; [|discriminate T] end. injection T as <-. eexists. split; [reflexivity|]. split; [reflexivity|]. split; [discriminate|]. split; [|vm_compute; reflexivity].
  assert (N : forall (k : str) (ks : list str), mem k ks = false -> ~ In k ks) by (intros k ks; apply mem_not_In). apply N. vm_compute. reflexivity.
Qed.
Print Assumptions C48_mixed.
Print Assumptions C48_mixed_refuted.
