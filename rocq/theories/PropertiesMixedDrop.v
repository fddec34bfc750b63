(** * C85: dropping what is not of journals, over records of several databases. *)
From Coq Require Import List ZArith Lia Bool Arith.
From Coq Require Import String.
From Verif Require Import Base PyStr PyInt CitationModel CitationSpec TagNames RecordModel RecordProofs RecordView GrantModel ValuesModel PropertiesCitation PropertiesValues WosModel WosNetModel WosNetSpec WosNetProofs
  PropertiesWosNet WosTagsModel WosTagsSpec WosTagsProofs MixedModel MixedSpec MixedProofs PropertiesMixed MixedNetModel MixedNetSpec MixedNetProofs PropertiesMixedNet ShowModel CollectionModel CollectionSpec CollectionProofs DropModel PropertiesDrop MixedDropModel.
From Verif Require MedlineModel ScopusModel ProQuestModel.
Import ListNotations.
Local Open Scope list_scope.

(** the type of publication in the file, which only Web of Science has under that name *)
Definition type_in_file (r : anyrec) : option str := match r with AnyWos r => nth_error (lines_of $"PT" r) 0 | _ => None end.
(** no field of the record is itself called pubType *)
Definition no_own_type (r : anyrec) : Prop :=
  match r with
  | AnyWos _ => True
  | AnyMedline r => True
  | AnyScopus r => ~ In $"pubType" (dkeys (ScopusModel.sdata r))
  | AnyProQuest r => ~ In $"pubType" (dkeys (ProQuestModel.pdata r))
  end.
Section Drop.
Variables upper lower title : str -> str.
Variable all_digits : str -> bool.
Variables word num : char -> bool.
Variable int_of : str -> Z.
Variable own : list str -> res fvalue.
Variable spoilt : fvalue -> bool.
Variable mend : fvalue -> option fvalue -> option fvalue -> option fvalue -> res fvalue.
Notation pub := (pub_type upper lower title all_digits word num int_of own spoilt mend).
Notation call := (any_drop_non_journals upper lower title all_digits word num int_of own spoilt mend).
Lemma pub_is r : read_from_file r -> no_own_type r -> pub r = match type_in_file r with Some s => Ok (Some s) | None => Raise KeyError end.
Proof.
  intros RF O. unfold pub_type. destruct r as [r|r|r|r]; cbn [read_from_file no_own_type type_in_file] in *.
  - pose proof (usable_plain r RF) as P. assert (T : dhas $"PT" wos_tags = true) by reflexivity. assert (C : called_tag $"PT" $"pubType") by (right; reflexivity).
    pose proof (value_called upper lower title all_digits r 2 _ _ P T C) as V.
    destruct (@getitem_ok _ _ (kind_of upper lower title all_digits r) (wfields r) (fields_back upper lower title all_digits r P) (special_alone upper lower title all_digits r) 3 $"pubType" [] _ (valid_nil _ _) V) as (c' & Q & _).
    unfold any_item, item_in. rewrite Q. unfold lines_of. destruct (dget $"PT" (wfields r)) as [raw|] eqn:E; [|reflexivity]. destruct (field_two r P _ _ E) as (_ & X & _). destruct raw as [|x raw]; [contradiction|reflexivity].
  - destruct RF as (alpha & content & recs & err & F & I). pose proof (file_short alpha content recs err r F I) as SH. cbn [any_item]. rewrite item_missing; [reflexivity| |reflexivity|reflexivity].
    destruct (dget $"pubType" (MedlineModel.mdata r)) eqn:E; [|reflexivity]. apply dget_Some_key, SH in E. vm_compute in E. lia.
  - apply apart_dget in O. cbn [any_item]. rewrite item_missing; [reflexivity|exact O|reflexivity|reflexivity].
  - apply apart_dget in O. cbn [any_item]. rewrite item_missing; [reflexivity|exact O|reflexivity|reflexivity].
Qed.
(** C85: if the records that are not dropped as bad all have a type of publication, those of the type asked for stay (with invert, the others) ... *)
Theorem C85_mixed : forall (K : Type) (HK : EqDec K) (EL : Elem anyrec K) ptVal (dropBad invert : bool) (c : coll anyrec),
  WF c -> (forall r, In r (members c) -> read_from_file r /\ no_own_type r) ->
  (forall r, In r (members c) -> (dropBad = true -> ebad r = false) -> type_in_file r <> None) ->
  exists c', call EL ptVal dropBad invert c = (c', None) /\
    forall r, In r (members c') <-> In r (members c) /\ (dropBad = true -> ebad r = false) /\ (type_in_file r = Some (upper ptVal) <-> invert = false).
Proof.
  intros K HK EL ptVal dropBad invert c W RF T. unfold any_drop_non_journals.
  destruct (C85_kept anyrec K HK EL pub upper ptVal dropBad invert c W) as (c' & E & _ & M & _).
  - intros r I. destruct (RF r I) as (A & B). destruct (dropBad && ebad r) eqn:D; [apply andb_true_iff in D; left; exact D|]. right. rewrite (pub_is r A B). specialize (T r I). destruct (type_in_file r); [eauto|]. exfalso. apply T; [|reflexivity]. intros ->. exact D.
  - exists c'. split; [exact E|]. intros r. rewrite M. split; (intros (I & B & Q); split; [exact I|]; split; [exact B|]); destruct (RF r I) as (X & Y).
    + rewrite (pub_is r X Y) in Q. rewrite <- Q. destruct (type_in_file r); split; congruence.
    + rewrite (pub_is r X Y). rewrite <- Q. destruct (type_in_file r); split; congruence.
Qed.
(** ... and one other record without a type, as every record of Medline, Scopus and ProQuest is, makes the call fail; only the bad records are dropped then. *)
Theorem C85_mixed_fails : forall (K : Type) (HK : EqDec K) (EL : Elem anyrec K) ptVal (dropBad invert : bool) (c : coll anyrec) r,
  WF c -> (forall r, In r (members c) -> read_from_file r /\ no_own_type r) ->
  In r (members c) -> (dropBad = true -> ebad r = false) -> type_in_file r = None ->
  exists c', call EL ptVal dropBad invert c = (c', Some KeyError) /\ forall y, In y (members c') <-> In y (members c) /\ (dropBad = true -> ebad y = false).
Proof.
  intros K HK EL ptVal dropBad invert c r W RF I B T. unfold any_drop_non_journals. assert (P : pub r = Raise KeyError) by (destruct (RF r I) as (X & Y); rewrite (pub_is r X Y), T; reflexivity).
  destruct (C85_untyped anyrec K HK EL pub upper ptVal dropBad invert c r KeyError W I B P) as (c' & r' & e' & E & I' & P' & M). exists c'. split; [|exact M]. rewrite E. destruct (RF r' I') as (X & Y). rewrite (pub_is r' X Y) in P'. destruct (type_in_file r'); congruence.
Qed.
End Drop.
Definition any_elem : Elem anyrec str := {| key := own_id; tyname := type_name; allowed := fun _ => true; ident := own_id; ebad := is_bad |}.
Notation ex_drop := (any_drop_non_journals mixnet_up mix_id mix_id (forallb digit09) mix_word digit09 mixnet_int (fun _ => Raise KeyError) (fun _ => false) (fun v _ _ _ => Ok v) any_elem).
(** a paper and a book of Web of Science *)
Definition drop_file : str := $"VR 1.0" ++ [10%N] ++ $"PT J" ++ [10%N] ++ $"UT WOS:1" ++ [10%N] ++ $"ER" ++ [10%N; 10%N] ++ $"PT B" ++ [10%N] ++ $"UT WOS:2" ++ [10%N] ++ $"ER" ++ [10%N; 10%N] ++ $"EF" ++ [10%N].
Example C85_mixed_ex : exists a b, wos_parse drop_file = ([a; b], None) /\ usable_record a /\ usable_record b /\
  let c := mkColl [AnyWos a; AnyWos b] [$"WOSRecord"] $"n" false [] in
  let d := mkColl [AnyWos a; AnyWos b; AnyScopus mixnet_scopus] [$"WOSRecord"; $"ScopusRecord"] $"n" false [] in
  WF (EL := any_elem) c /\ WF (EL := any_elem) d /\ type_in_file (AnyWos a) = Some $"J" /\ type_in_file (AnyWos b) = Some $"B" /\
  members (fst (ex_drop $"j" true false c)) = [AnyWos a] /\ snd (ex_drop $"j" true false c) = None /\ snd (ex_drop $"j" true false d) = Some KeyError.
Proof.
  destruct (wos_parse drop_file) as [l e] eqn:E. pose proof E as E0. vm_compute in E. injection E as <- <-. match goal with |- exists a b, ([?x; ?y], None) = _ /\ _ => exists x, y end. split; [reflexivity|].
  assert (U : forall r, In r (fst (wos_parse drop_file)) -> wbad r = false -> lines_of $"PY" r = [] -> mem $"j9" (dkeys (wfields r)) = false -> usable_record r).
  { intros r I B Y N. split; [exists drop_file, (fst (wos_parse drop_file)), (snd (wos_parse drop_file)); split; [apply surjective_pairing|]; split; assumption|]. split; [left; exact Y|]. apply mem_not_In, N. }
  split; [apply U; [rewrite E0; left; reflexivity|vm_compute; reflexivity..]|]. split; [apply U; [rewrite E0; right; left; reflexivity|vm_compute; reflexivity..]|]. clear U E0. cbv zeta.
  split; [|split; [|vm_compute; repeat split; reflexivity]].
  - repeat split; [|constructor|repeat constructor; intros []]. unfold Distinct. vm_compute. repeat constructor; cbn; intuition congruence.
  - repeat split; [|constructor|]; [unfold Distinct; vm_compute|]; repeat constructor; cbn; intuition congruence.
Qed.
Print Assumptions C85_mixed.
Print Assumptions C85_mixed_fails.
