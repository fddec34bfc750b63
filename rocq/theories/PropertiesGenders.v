(** * C109: the genders of the authors of collections with records of several databases. *)
From Coq Require Import List ZArith Lia Bool Arith Permutation.
From Coq Require Import String.
From Verif Require Import Base PyStr PyInt CitationModel TagNames RecordModel RecordProofs GrantModel ValuesModel PropertiesValues WosModel WosNetModel WosNetSpec WosNetProofs PropertiesWosNet SeriesSpec RecordViewFacts WosTagsModel WosTagsSpec WosTagsProofs
  AnalysisModel MixedModel MixedSpec MixedProofs PropertiesMixed GenderModel.
From Verif Require MedlineModel ScopusModel ProQuestModel AnalysisSpec AnalysisProofs2 PropertiesAnalysis.
Import ListNotations.
Local Open Scope list_scope.

(** cutting a text at the commas that are followed by a blank *)
Lemma cut_none a b u : no_part [a; b] u -> cut2 a b u = [u].
Proof.
  induction u as [|x u IH]; intros N; [reflexivity|]. assert (N' : no_part [a; b] u) by (intros p q E; apply (N (x :: p) q); rewrite E; reflexivity). cbn [cut2]. destruct u as [|y u]; [reflexivity|].
  destruct (eqb_spec x a) as [->|NE]; [destruct (eqb_spec y b) as [->|NE]; [exfalso; apply (N [] u); reflexivity|]|]; cbn [andb]; rewrite (IH N'); reflexivity.
Qed.
Lemma cut_then a b u w : a <> b -> no_part [a; b] u -> cut2 a b (u ++ a :: b :: w) = u :: cut2 a b w.
Proof.
  intros AB. induction u as [|x u IH]; intros N; [cbn; rewrite !eqb_refl; reflexivity|]. assert (N' : no_part [a; b] u) by (intros p q E; apply (N (x :: p) q); rewrite E; reflexivity). specialize (IH N').
  cbn [app]. destruct u as [|y u].
  - cbn [app] in *. change (cut2 a b (x :: a :: b :: w)) with (if eqb x a && eqb a b then [] :: cut2 a b (b :: w) else match cut2 a b (a :: b :: w) with v :: ws => (x :: v) :: ws | [] => [[x]] end).
    rewrite (neq_eqb AB), andb_false_r, IH. reflexivity.
  - cbn [app] in *. change (cut2 a b (x :: y :: u ++ a :: b :: w)) with (if eqb x a && eqb y b then [] :: cut2 a b (u ++ a :: b :: w) else match cut2 a b (y :: u ++ a :: b :: w) with v :: ws => (x :: v) :: ws | [] => [[x]] end).
    assert (Q : eqb x a && eqb y b = false). { destruct (eqb_spec x a) as [->|NE]; [destruct (eqb_spec y b) as [->|NE]; [exfalso; apply (N [] u); reflexivity|]|]; reflexivity. }
    rewrite Q, IH. reflexivity.
Qed.

Section Genders.
Variables upper lower title : str -> str.
Variable all_digits : str -> bool.
Variables word num : char -> bool.
Variable int_of : str -> Z.
Variable own : list str -> res fvalue.
Variable spoilt : fvalue -> bool.
Variable mend : fvalue -> option fvalue -> option fvalue -> option fvalue -> res fvalue.
Variable mapping : dict str gender.
Notation item := (any_item upper lower title all_digits word num int_of own spoilt mend).
Notation names_read := (any_names upper lower title all_digits word num int_of own spoilt mend).
Notation auth_genders := (any_auth_genders upper lower title all_digits word num int_of own spoilt mend mapping).
Notation stats := (any_gender_stats upper lower title all_digits word num int_of own spoilt mend mapping).
Notation fractions := (any_gender_fractions upper lower title all_digits word num int_of own spoilt mend mapping).

(** the full names of the authors of a record, as its file has them: the lines AF of WOS, the fields FAU of Medline, the authors of Scopus separated by a comma and a blank *)
Definition full_names (r : anyrec) (names : list str) : Prop :=
  match r with
  | AnyWos w => names = lines_of $"AF" w
  | AnyMedline m => names = match dget $"FAU" (MedlineModel.mdata m) with Some l => l | None => [] end
  | AnyScopus s => let d := ScopusModel.sdata s in apart d $"authorsFull" /\
      ((dget $"Authors" d = None /\ names = []) \/ (names <> [] /\ dget $"Authors" d = Some (join $", " names) /\ forall n, In n names -> no_part $", " n))
  | AnyProQuest _ => False
  end.
Definition a_thesis (r : anyrec) : Prop := exists p, r = AnyProQuest p /\ apart (ProQuestModel.pdata p) $"authorsFull".
Definition letters : list str := [$"A"; $"u"; $"t"; $"h"; $"o"; $"r"].
(** the gender of a name: that of the first word after the first comma with a blank *)
Inductive gender_said : str -> gender -> Prop :=
| gs_first : forall last first more rest, no_part $", " last -> ~ In sp first -> (more = [] \/ exists m, more = sp :: m) -> no_part $", " (first ++ more) -> (rest = [] \/ exists r, rest = $", " ++ r) ->
    gender_said (last ++ $", " ++ (first ++ more) ++ rest) (match dget (title first) mapping with Some g => g | None => Unknown end)
| gs_none : forall s, no_part $", " s -> gender_said s Unknown.
Lemma said_is s g : gender_said s g -> name_gender title mapping s = g.
Proof.
  intros [last first more rest NL NF M NM R|s0 N]; unfold name_gender.
  - change ($", " ++ (first ++ more) ++ rest) with (44%N :: sp :: ((first ++ more) ++ rest)). rewrite cut_then by (discriminate || exact NL).
    assert (C : exists ws, cut2 44%N sp ((first ++ more) ++ rest) = (first ++ more) :: ws).
    { destruct R as [->|(r & ->)]; [rewrite app_nil_r; eexists; apply cut_none, NM|]. change ($", " ++ r) with (44%N :: sp :: r). rewrite cut_then by (discriminate || exact NM). eexists. reflexivity. }
    destruct C as (ws & C). rewrite C. assert (Q : exists l, split_char sp (first ++ more) = first :: l).
    { clear - NF M. induction first as [|x f IH]; cbn [app].
      - destruct M as [->|(m & ->)]; [eexists; reflexivity|]. cbn [split_char]. rewrite eqb_refl. eexists. reflexivity.
      - destruct IH as (l & E); [intros J; apply NF; right; exact J|]. cbn [split_char]. assert (X : x <> sp) by (intros ->; apply NF; left; reflexivity). rewrite ?(neq_eqb X). rewrite ?E. eexists. reflexivity. }
    destruct Q as (l & ->). reflexivity.
  - rewrite cut_none by exact N. reflexivity.
Qed.
Lemma names_are r names : read_from_file r -> full_names r names -> names_read r = Ok names.
Proof.
  intros RF H. unfold any_names, any_get. destruct r as [w|m|s|p]; cbn [full_names read_from_file] in *.
  - subst names. assert (E : item (AnyWos w) $"authorsFull" = match dget $"AF" (wfields w) with Some raw => Ok (FTexts raw) | None => Raise KeyError end).
    { pose proof (value_called upper lower title all_digits w 2 $"AF" $"authorsFull" (usable_plain w RF) eq_refl (or_intror eq_refl)) as V.
      destruct (@getitem_ok _ _ (kind_of upper lower title all_digits w) (wfields w) (fields_back upper lower title all_digits w (usable_plain w RF)) (special_alone upper lower title all_digits w) 3 $"authorsFull" [] _ (valid_nil _ _) V) as (c' & Q & _).
      unfold any_item, item_in. rewrite Q. destruct (dget $"AF" (wfields w)); reflexivity. }
    rewrite E. unfold lines_of. destruct (dget $"AF" (wfields w)); reflexivity.
  - subst names. destruct RF as (alpha & content & recs & err & F & I). pose proof (file_short _ _ _ _ _ F I) as SH. set (d := MedlineModel.mdata m) in *.
    assert (A : dget $"authorsFull" d = None). { destruct (dget $"authorsFull" d) eqn:E; [|reflexivity]. apply dget_Some_key, SH in E. vm_compute in E. lia. }
    assert (E : item (AnyMedline m) $"authorsFull" = match dget $"FAU" d with Some raw => Ok (FTexts raw) | None => Raise KeyError end).
    { unfold any_item. fold d. rewrite (item_stands (medline_kind upper title all_digits m) d $"authorsFull" $"FAU" A); [destruct (dget $"FAU" d); reflexivity|reflexivity|reflexivity| |reflexivity]. intros a B. apply (far_name $"FAU" a d SH B). cbn; tauto. }
    rewrite E. destruct (dget $"FAU" d); reflexivity.
  - destruct H as (A & H). cbv zeta in H. apply apart_dget in A. set (d := ScopusModel.sdata s) in *. set (cl := scopus_kind upper word num int_of own spoilt mend).
    assert (E : item (AnyScopus s) $"authorsFull" = match dget $"Authors" d with Some raw => scopus_value upper word num int_of $"Authors" raw | None => Raise KeyError end).
    { unfold any_item. fold d cl. rewrite (item_stands cl d $"authorsFull" $"Authors" A); [destruct (dget $"Authors" d); reflexivity|reflexivity|reflexivity|intros a B; discriminate B|reflexivity]. }
    rewrite E. destruct H as [(D & ->)|(NE & D & NP)]; rewrite D; [reflexivity|]. rewrite (proj1 (C74_lists upper word num int_of [] names NE)); [reflexivity|]. intros n J. apply no_has, NP, J.
  - destruct H.
Qed.
Lemma thesis_names p : apart (ProQuestModel.pdata p) $"authorsFull" -> names_read (AnyProQuest p) = Ok letters.
Proof.
  intros A. apply apart_dget in A. unfold any_names, any_get, any_item, item_in. cbn [getitem dget]. unfold resolve. rewrite A. reflexivity.
Qed.
Lemma every_are rs (names : anyrec -> list str) : (forall r, In r rs -> names_read r = Ok (names r)) -> every_names upper lower title all_digits word num int_of own spoilt mend rs = Ok (map names rs).
Proof.
  induction rs as [|r rs IH]; intros H; [reflexivity|]. cbn [every_names map]. rewrite (H r (or_introl eq_refl)). cbn [bind]. rewrite IH; [reflexivity|]. intros x J. apply H. right. exact J.
Qed.
(** how many different names of a gender the records have *)
Definition of_gender (G : str -> gender) (names : anyrec -> list str) (rs : list anyrec) (g : gender) : nat := total (fun r => length (filter (fun n => eqb (G n) g) (first_seen (names r)))) rs.
Lemma stats_are rs names : (forall r, In r rs -> names_read r = Ok (names r)) -> let G := name_gender title mapping in stats rs = Ok (of_gender G names rs Male, of_gender G names rs Female, of_gender G names rs Unknown).
Proof.
  intros H G. unfold any_gender_stats. rewrite (every_are rs names H). cbn [bind]. rewrite PropertiesAnalysis.C45_counts. unfold AnalysisSpec.names_of, of_gender. clear H. assert (Q : forall g, total (fun l => length (filter (fun n => eqb (G n) g) (first_seen l))) (map names rs) = total (fun r => length (filter (fun n => eqb (G n) g) (first_seen (names r)))) rs).
  { intros g. unfold total. induction rs as [|r rs IH]; [reflexivity|]. cbn [map fold_right]. rewrite IH. reflexivity. }
  rewrite <- !Q. reflexivity.
Qed.
(** C109: genderStats counts for each record the different full names of its authors, each as the gender of the first word after the comma; authGenders of a record has each name once,
    in the order of the file, with its gender. As fractions the three numbers are divided by their sum, and with no names at all the call raises. *)
Theorem C109_stats : exists G, (forall s g, gender_said s g -> G s = g) /\
  forall rs names, (forall r, In r rs -> read_from_file r /\ full_names r (names r)) -> let n := of_gender G names rs in
  stats rs = Ok (n Male, n Female, n Unknown) /\
  fractions rs = (let total := n Male + n Female + n Unknown in if total =? 0 then Raise ZeroDivisionError else Ok ((n Male, n Female, n Unknown), total)) /\
  (forall r, In r rs -> exists d, auth_genders r = Ok d /\ dkeys d = first_seen (names r) /\ forall s, In s (names r) -> dget s d = Some (G s)).
Proof.
  exists (name_gender title mapping). split; [exact said_is|]. intros rs names H n. assert (H' : forall r, In r rs -> names_read r = Ok (names r)) by (intros r I; apply names_are; apply H, I).
  pose proof (stats_are rs names H') as ST. cbv zeta in ST. fold n in ST. split; [exact ST|]. split.
  - unfold any_gender_fractions. unfold any_gender_stats in ST. destruct (every_names upper lower title all_digits word num int_of own spoilt mend rs) as [ls|]; [|discriminate ST]. cbn [bind] in *. injection ST as ST.
    unfold gender_fractions. rewrite ST. destruct (n Male + n Female + n Unknown) eqn:Q; reflexivity.
  - intros r I. unfold any_auth_genders. rewrite (H' r I). cbn [bind]. eexists. split; [reflexivity|]. unfold record_genders. rewrite AnalysisProofs2.fold_names.
    split; [unfold dkeys; rewrite map_map; apply map_id|]. intros s J. apply (proj2 (In_first_seen _ _)) in J. induction (first_seen (names r)) as [|x l IH]; [destruct J|]. cbn [map dget]. destruct (eqb_spec s x) as [->|N]; [reflexivity|]. apply IH. destruct J as [->|J]; [congruence|exact J].
Qed.
(** The names of Scopus records have no comma, so whoever the authors are all are unknown. *)
Theorem C109_scopus_refuted : forall rs names, (forall r, In r rs -> (exists s, r = AnyScopus s) /\ full_names r (names r)) ->
  stats rs = Ok (0, 0, total (fun r => length (first_seen (names r))) rs).
Proof.
  intros rs names H. rewrite (stats_are rs names) by (intros r I; destruct (H r I) as ((s & ->) & F); apply names_are; [exact Logic.I|exact F]).
  assert (K : forall r n, In r rs -> In n (first_seen (names r)) -> name_gender title mapping n = Unknown).
  { intros r n I J. destruct (H r I) as ((s & ->) & F). apply (proj1 (In_first_seen _ _)) in J. cbn [full_names] in F. destruct F as (_ & [(_ & E)|(_ & _ & NP)]); [rewrite E in J; destruct J|]. apply said_is, gs_none, NP, J. }
  assert (Z : forall g, g <> Unknown -> of_gender (name_gender title mapping) names rs g = 0).
  { intros g NG. unfold of_gender, total. clear H. induction rs as [|r rs IH]; [reflexivity|]. cbn [map fold_right]. rewrite IH by (intros x n I J; apply (K x n); [right; exact I|exact J]). rewrite Nat.add_0_r.
    assert (KR : forall n, In n (first_seen (names r)) -> name_gender title mapping n = Unknown) by (intros n J; apply (K r n); [left; reflexivity|exact J]). induction (first_seen (names r)) as [|x l IHl]; [reflexivity|].
    cbn [filter]. rewrite (KR x (or_introl eq_refl)). rewrite neq_eqb by congruence. apply IHl. intros y J. apply KR. right. exact J. }
  rewrite !Z by discriminate. repeat f_equal. unfold of_gender. apply total_ext. intros r I. f_equal.
  assert (KR : forall n, In n (first_seen (names r)) -> name_gender title mapping n = Unknown) by (intros n J; apply (K r n); [exact I|exact J]). induction (first_seen (names r)) as [|x l IHl]; [reflexivity|].
  cbn [filter]. rewrite (KR x (or_introl eq_refl)), eqb_refl. f_equal. apply IHl. intros y J. apply KR. right. exact J.
Qed.
(** Every thesis counts as six unknown authors, the letters of the word Author, whoever wrote it. *)
Theorem C109_theses_refuted : forall rs, (forall r, In r rs -> a_thesis r) -> stats rs = Ok (0, 0, 6 * length rs).
Proof.
  intros rs H. rewrite (stats_are rs (fun _ => letters)) by (intros r I; destruct (H r I) as (p & -> & A); apply thesis_names, A).
  assert (K : forall g, of_gender (name_gender title mapping) (fun _ => letters) rs g = if eqb g Unknown then 6 * length rs else 0).
  { intros g. unfold of_gender, total. clear H. induction rs as [|r rs IH]; [destruct (eqb g Unknown); reflexivity|]. cbn [map fold_right length]. rewrite IH. destruct g; vm_compute (eqb _ _); cbn [length filter]; try reflexivity.
    change (first_seen letters) with letters. cbn [letters filter]. change (6 + 6 * length rs = 6 * S (length rs)). lia. }
  rewrite !K. reflexivity.
Qed.
End Genders.
Print Assumptions C109_stats.
Print Assumptions C109_scopus_refuted.
Print Assumptions C109_theses_refuted.
Definition gen_wos : str := join [nl] [$"FN Thomson"; $"VR 1.0"; $"PT J"; $"AU Doe, J"; $"AF Doe, Mary B"; $"   Roe, John"; $"   Plato"; $"PY 1999"; $"UT WOS:1"; $"ER"; []; $"EF"].
Definition gen_medline : str := join [nl] [[]; $"PMID- 77"; $"TI  - On cells"; $"FAU - Doe, Mary"; $"FAU - Poe, Xu"; []; []].
Definition gen_scopus : ScopusModel.srec := ScopusModel.srec_of [($"EID", $"2"); ($"Authors", $"Roe John, Doe J.")].
Definition gen_proquest : ProQuestModel.prec := ProQuestModel.mkPrec $"PROQUEST:3" [($"Author", [$"Doe, Mary"])] false None.
Definition gen_mapping : dict str gender := [($"John", Male); ($"Mary", Female)].
Definition gen_names (r : anyrec) : list str := match r with AnyWos _ => [$"Doe, Mary B"; $"Roe, John"; $"Plato"] | AnyMedline _ => [$"Doe, Mary"; $"Poe, Xu"] | AnyScopus _ => [$"Roe John"; $"Doe J."] | _ => [] end.
Example C109_ex : exists w m, wos_parse gen_wos = ([w], None) /\ MedlineModel.medline_file mix_alpha gen_medline = Ok ([m], false) /\
  let rs := [AnyWos w; AnyMedline m; AnyScopus gen_scopus] in
  (forall r, In r rs -> read_from_file r /\ full_names r (gen_names r)) /\ a_thesis (AnyProQuest gen_proquest) /\
  gender_said mix_id gen_mapping $"Doe, Mary B" Female /\ gender_said mix_id gen_mapping $"Plato" Unknown /\
  mixed any_gender_stats gen_mapping rs = Ok (1, 2, 4) /\ mixed any_gender_stats gen_mapping [AnyProQuest gen_proquest] = Ok (0, 0, 6).
Proof.
  destruct (wos_parse gen_wos) as [l e] eqn:E. pose proof E as E'. vm_compute in E'. injection E' as <- <-.
  destruct (MedlineModel.medline_file mix_alpha gen_medline) as [[l' e']|] eqn:M; pose proof M as M'; vm_compute in M'; [|discriminate M']. injection M' as <- <-.
  match goal with |- exists w m, ([?a], None) = _ /\ Ok ([?b], false) = _ /\ _ => exists a, b end. split; [reflexivity|]. split; [reflexivity|]. cbv zeta.
  assert (AP : forall {Raw} (d : dict str Raw) k, mem k (dkeys d) = false -> apart d k) by (intros Raw d k N J; apply mem_In in J; congruence).
  assert (NP : forall s, mem 44%N s = false -> no_part $", " s).
  { intros s N a b Q. assert (J : In 44%N s) by (rewrite Q; apply in_or_app; right; left; reflexivity). apply mem_In in J. congruence. }
  split; [|split; [|split; [|split; [|split]]]]; [| | | |vm_compute; reflexivity|vm_compute; reflexivity].
  - intros r I. destruct I as [<-|[<-|[<-|[]]]]; (split; [|cbn [full_names gen_names]]).
    + split; [exists gen_wos; eexists _, _; split; [exact E|split; [left; reflexivity|reflexivity]]|]. split; [right; exists 1999%Z; split; [lia|vm_compute; reflexivity]|vm_compute; intuition discriminate].
    + vm_compute. reflexivity.
    + eexists mix_alpha, gen_medline, _, _. split; [exact M|left; reflexivity].
    + vm_compute. reflexivity.
    + exact Logic.I.
    + split; [apply AP; vm_compute; reflexivity|]. right. split; [discriminate|]. split; [vm_compute; reflexivity|]. intros n [<-|[<-|[]]]; apply NP; reflexivity.
  - eexists. split; [reflexivity|]. apply AP. vm_compute. reflexivity.
  - apply (gs_first mix_id gen_mapping $"Doe" $"Mary" $" B" []); [apply NP; reflexivity|vm_compute; intuition discriminate|right; exists $"B"; reflexivity|apply NP; reflexivity|left; reflexivity].
  - apply gs_none, NP. reflexivity.
Qed.
