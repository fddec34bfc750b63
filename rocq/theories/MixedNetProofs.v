(** Proofs for C103. *)
From Coq Require Import List ZArith Lia Bool Arith.
From Coq Require Import String.
From Verif Require Import Base PyStr PyInt CitationModel CitationSpec TagNames RecordModel RecordProofs RecordView GrantModel ValuesModel ValuesProofs PropertiesCitation PropertiesValues WosModel WosNetModel WosNetSpec WosNetProofs
  PropertiesWosNet WosTagsModel WosTagsSpec WosTagsProofs DecFacts Regex MixedModel MixedSpec MixedProofs PropertiesMixed MixedNetModel MixedNetSpec.
From Verif Require MedlineModel ScopusModel ProQuestModel ScopusCiteSpec ScopusCiteProofs TextModel.
Import ListNotations.
Local Open Scope list_scope.

(** ** What the fields add to the citation of the record itself *)
Section Parts.
Context {Raw : Type} (cl : rclass Raw fvalue) (fd : dict str Raw) (pc : str -> fvalue -> res str).
Notation g := (value cl fd 2).
Definition adds (k : str) (L : list str) : Prop :=
  exists x, g k = Some x /\ match x with
    | Raise KeyError => L = []
    | Raise _ => False
    | Ok v => if truthy v then exists s, pc k v = Ok s /\ L = [s] else L = []
    end.
Lemma adds_orelse k L f e acc : adds k L -> runp g (part truthy pc k f acc e) = match L with [] => runp g (e acc) | _ => runp g (f (acc ++ L)) end.
Proof.
  intros (x & G & H). unfold part, ask_get, ask. cbn [runp]. rewrite G. destruct x as [v|ex].
  - destruct (truthy v); [|subst L; reflexivity]. destruct H as (s & Q & ->). cbn [runp]. rewrite G. rewrite Q. reflexivity.
  - destruct ex; try contradiction H. subst L. reflexivity.
Qed.
Lemma adds_same k L f acc : adds k L -> runp g (part truthy pc k f acc f) = runp g (f (acc ++ L)).
Proof. intros C. rewrite (adds_orelse k L _ _ _ C). destruct L; [rewrite app_nil_r|]; reflexivity. Qed.
Lemma create_runs ct A Y J T V B D : adds $"authorsShort" A -> adds $"year" Y -> adds $"j9" J -> adds $"title" T -> adds $"volume" V -> adds $"beginningPage" B -> adds $"DOI" D ->
  runp g (create_citation truthy pc ct) = Some (ct (A ++ Y ++ (match J with [] => T | _ => J end) ++ V ++ B ++ D)).
Proof.
  intros HA HY HJ HT HV HB HD. unfold create_citation. cbn [parts]. rewrite (adds_same _ _ _ _ HA), (adds_same _ _ _ _ HY), (adds_orelse _ _ _ _ _ HJ).
  destruct J as [|j J].
  - rewrite (adds_same _ _ _ _ HT), (adds_same _ _ _ _ HV), (adds_same _ _ _ _ HB), (adds_same _ _ _ _ HD). cbn [runp]. rewrite <- !app_assoc. reflexivity.
  - rewrite (adds_same _ _ _ _ HV), (adds_same _ _ _ _ HB), (adds_same _ _ _ _ HD). cbn [runp]. rewrite <- !app_assoc. reflexivity.
Qed.
Lemma scopus_runs A T Y J V B : adds $"authorsShort" A -> adds $"title" T -> adds $"year" Y -> adds $"journal" J -> adds $"volume" V -> adds $"beginningPage" B ->
  runp g (RecordModel.scopus_citation truthy pc text_of not_spoilt no_mend) = Some (text_of (A ++ T ++ Y ++ J ++ V ++ B)).
Proof.
  intros HA HT HY HJ HV HB. unfold RecordModel.scopus_citation. cbn [parts].
  rewrite (adds_same _ _ _ _ HA), (adds_same _ _ _ _ HT), (adds_same _ _ _ _ HY), (adds_same _ _ _ _ HJ), (adds_same _ _ _ _ HV), (adds_same _ _ _ _ HB).
  unfold text_of at 1. cbv iota beta. unfold not_spoilt. cbn [runp]. rewrite <- !app_assoc. reflexivity.
Qed.
(** a key that stands for a field *)
Lemma value_stands (f : fvalue -> res fvalue) key tag n : dget key fd = None -> alt cl key = None -> special cl key = Some (ask tag (fun v => Ret (f v))) ->
  (forall a, alt cl tag = Some a -> dget a fd = None) -> special cl tag = None ->
  value cl fd (S (S n)) key = Some (match dget tag fd with Some raw => match proc cl tag raw with Ok v => f v | Raise e => Raise e end | None => Raise KeyError end).
Proof.
  intros D A S T N. cbn [value]. unfold resolve. rewrite D, A, S. unfold ask. cbn [runp value]. unfold resolve. destruct (dget tag fd) as [raw|].
  - destruct (proc cl tag raw); reflexivity.
  - destruct (alt cl tag) as [a|] eqn:E; [rewrite (T a eq_refl)|]; rewrite N; reflexivity.
Qed.
Lemma adds_stands (f : fvalue -> res fvalue) key tag L : dget key fd = None -> alt cl key = None -> special cl key = Some (ask tag (fun v => Ret (f v))) ->
  (forall a, alt cl tag = Some a -> dget a fd = None) -> special cl tag = None ->
  match dget tag fd with
  | None => L = []
  | Some raw => exists v w, proc cl tag raw = Ok v /\ ((f v = Raise KeyError /\ L = []) \/ (f v = Ok w /\ if truthy w then exists s, pc key w = Ok s /\ L = [s] else L = []))
  end -> adds key L.
Proof.
  intros D A S T N H. unfold adds. rewrite (value_stands f key tag 0 D A S T N). eexists. split; [reflexivity|]. destruct (dget tag fd) as [raw|]; [|exact H]. destruct H as (v & w & -> & [(-> & H)|(-> & H)]); exact H.
Qed.
Lemma adds_missing key : dget key fd = None -> alt cl key = None -> special cl key = None -> adds key [].
Proof. intros D A S. exists (Raise KeyError). split; [|reflexivity]. cbn [value]. unfold resolve. rewrite D, A, S. reflexivity. Qed.
Lemma adds_falsy key v : dget key fd = None -> alt cl key = None -> special cl key = Some (Ret (Ok v)) -> truthy v = false -> adds key [].
Proof. intros D A S F. exists (Ok v). split; [|rewrite F; reflexivity]. cbn [value]. unfold resolve. rewrite D, A, S. reflexivity. Qed.
End Parts.

(** ** Medline files *)
Lemma alt_long : forallb (fun p : str * str => (4 <? length (fst p)) || (4 <? length (snd p)) || eqb (fst p) (snd p) || (eqb (fst p) $"IS" && eqb (snd p) $"ISSN") || (eqb (fst p) $"ISSN" && eqb (snd p) $"IS")) medline_converter = true.
Proof. vm_compute. reflexivity. Qed.
Lemma medline_fields_back (d : dict str (list str)) : short_tags d -> apart d $"IS" \/ apart d $"ISSN" ->
  forall k a, dget k d <> None -> medline_alt k = Some a -> medline_alt a = Some k /\ (dget a d = None \/ a = k).
Proof.
  intros S I k a D A. split; [apply medline_back, A|]. pose proof (proj1 (forallb_forall _ _) alt_long _ (dget_In _ _ A)) as B. cbn [fst snd] in B.
  assert (LK : length k <= 4). { destruct (dget k d) eqn:E; [|congruence]. eapply S, dget_Some_key, E. }
  assert (LN : (4 <? length k) = false) by (apply Nat.ltb_ge, LK). rewrite LN in B. cbn [orb] in B.
  destruct (dget a d) as [v|] eqn:E; [|left; reflexivity]. right. assert (LA : (4 <? length a) = false) by (apply Nat.ltb_ge; eapply S, dget_Some_key, E). rewrite LA in B. cbn [orb] in B.
  apply orb_prop in B. destruct B as [B|B]; [apply orb_prop in B; destruct B as [B|B]|].
  - apply eqb_eq in B. symmetry; exact B.
  - apply andb_prop in B. destruct B as [B1 B2]. apply eqb_eq in B1, B2. subst. exfalso. destruct I as [I|I]; apply apart_dget in I; [contradiction|congruence].
  - apply andb_prop in B. destruct B as [B1 B2]. apply eqb_eq in B1, B2. subst. exfalso. destruct I as [I|I]; apply apart_dget in I; [congruence|contradiction].
Qed.

(** fields of Medline files are never empty *)
Definition full (d : dict str (list str)) : Prop := forall k, dget k d <> Some [].
Lemma full_set d k v : full d -> v <> [] -> full (dset k v d).
Proof. intros F N x. destruct (eqb_spec x k) as [-> |Q]; [rewrite dget_dset_same; congruence|rewrite dget_dset_other by exact Q; apply F]. Qed.
Lemma more_full t w d d' : full d -> MedlineModel.more t w d = Ok d' -> full d'.
Proof. intros S E. unfold MedlineModel.more in E. destruct (dget t d) as [[|v vs]|] eqn:D; try discriminate E. injection E as <-. apply full_set; [exact S|]. intros Z. apply app_eq_nil in Z. destruct Z; discriminate. Qed.
Lemma put_full t w d : full d -> full (MedlineModel.put t w d).
Proof. intros F. apply full_set; [exact F|]. destruct (dget t d) as [vs|]; [|discriminate]. intros Z. apply app_eq_nil in Z. destruct Z; discriminate. Qed.
Lemma parse_full alpha ls : forall tag au d d' rest, full d -> MedlineModel.mparse alpha ls tag au d = (Ok d', rest) -> full d'.
Proof.
  induction ls as [|l ls IH]; intros tag au d d' rest S E; cbn [MedlineModel.mparse] in E; [injection E as <- <-; exact S|].
  set (t := rstrip (firstn 4 l)) in *. set (contents := init_ (skipn 6 l)) in *.
  assert (O : (if eqb (firstn 6 l) MedlineModel.six then match MedlineModel.more tag contents d with Ok d' => MedlineModel.mparse alpha ls tag au d' | Raise e => (Raise e, ls) end
    else if eqb l [nl] then (Ok d, ls) else (Raise BadPubmedRecord, ls)) = (Ok d', rest) -> full d').
  { destruct (eqb (firstn 6 l) MedlineModel.six).
    - destruct (MedlineModel.more tag contents d) as [d1|] eqn:M; [|discriminate]. intros Q. eapply IH; [eapply more_full; eassumption|exact Q].
    - destruct (eqb l [nl]); [|discriminate]. intros Q. injection Q as <- <-. exact S. }
  destruct (MedlineModel.isalpha alpha t); [|exact (O E)]. destruct (nth_error l 4) as [c|]; [|discriminate E]. destruct (eqb c 45%N); [|exact (O E)].
  eapply IH; [|exact E]. apply put_full, S.
Qed.
Lemma record_full alpha ls r rest : MedlineModel.medline_record alpha ls = (Ok r, rest) -> full (MedlineModel.mdata r).
Proof.
  unfold MedlineModel.medline_record, MedlineModel.medline_parse. destruct (MedlineModel.mparse alpha ls $"PMID" None []) as [[d|e] rest'] eqn:P.
  - intros E. injection E as E _. unfold MedlineModel.mrec_of in E. assert (S : full d) by (eapply parse_full; [|exact P]; intros k Z; discriminate Z). destruct (dget $"PMID" d) as [[|v vs]|]; try discriminate E; injection E as <-; exact S.
  - destruct e; try discriminate. cbn. intros E. injection E as <- _. intros k Z. discriminate Z.
Qed.
Lemma loop_full alpha fuel : forall ls recs err recs' err', (forall r, In r recs -> full (MedlineModel.mdata r)) -> MedlineModel.med_loop alpha fuel ls recs err = Ok (recs', err') ->
  forall r, In r recs' -> full (MedlineModel.mdata r).
Proof.
  induction fuel as [|fuel IH]; intros ls recs err recs' err' S E; (destruct ls as [|l ls]; [injection E as <- <-; exact S|]); [discriminate E|]. cbn [MedlineModel.med_loop] in E. destruct (starts_with $"PMID- " l).
  - destruct (MedlineModel.medline_record alpha (l :: ls)) as [[r|e] rest] eqn:R; [|discriminate E]. eapply IH; [|exact E]. intros x I. unfold MedlineModel.madd in I. destruct (mem _ _); [apply S, I|].
    apply in_app_iff in I. destruct I as [I|[<-|[]]]; [apply S, I|]. eapply record_full, R.
  - eapply IH; [exact S|exact E].
Qed.
Lemma file_full alpha content recs err r : MedlineModel.medline_file alpha content = Ok (recs, err) -> In r recs -> full (MedlineModel.mdata r).
Proof.
  unfold MedlineModel.medline_file. destruct (lines (translate content)); [discriminate|]. intros E I. eapply loop_full; [|exact E|exact I]. intros x [].
Qed.

Section Own.
Variables upper lower title : str -> str.
Variable all_digits : str -> bool.
Variables word num : char -> bool.
Variable int_of : str -> Z.
Notation look := (look upper lower title all_digits word num int_of).
Notation self := (any_self upper lower title all_digits word num int_of).
Notation cites := (any_cites upper lower title all_digits word num int_of).

Ltac pairs I := repeat (destruct I as [I|I]; [injection I as <- <-|]); [..|destruct I].
Lemma no_commas_eq s : no_commas s = no_comma s.
Proof. apply filter_ext. intros x. unfold comma. destruct (N.eqb_spec x 44) as [->|N]; [reflexivity|]. rewrite neq_eqb by exact N. reflexivity. Qed.

Ltac inlist := cbn; tauto.
Lemma wrote_single (s : str) (pre : str) : (if truthy (FText s) then exists w, Ok (pre ++ s) = Ok w /\ after pre s = [w] else after pre s = []).
Proof. destruct s; cbn; eauto. Qed.

(** *** Medline *)
Section Medline.
Variable r : MedlineModel.mrec.
Notation d := (MedlineModel.mdata r).
Notation cl := (medline_kind upper title all_digits r).
Hypothesis SH : short_tags d.
Hypothesis AP : all_apart d.
Lemma far a tag : medline_alt tag = Some a -> In tag [$"AU"; $"FAU"; $"TI"; $"JT"; $"TA"; $"DP"; $"VI"; $"PG"; $"AID"] -> dget a d = None.
Proof.
  intros A I. assert (L : length a > 4). { each I; vm_compute in A; injection A as <-; vm_compute; lia. }
  destruct (dget a d) eqn:E; [|reflexivity]. apply dget_Some_key, SH in E. lia.
Qed.
Lemma medline_adds (f : fvalue -> res fvalue) key tag L : dget key d = None -> medline_alt key = None -> special cl key = Some (ask tag (fun v => Ret (f v))) -> In tag [$"AU"; $"FAU"; $"TI"; $"JT"; $"TA"; $"DP"; $"VI"; $"PG"; $"AID"] ->
  match dget tag d with
  | None => L = []
  | Some raw => exists v w, medline_value tag raw = Ok v /\ ((f v = Raise KeyError /\ L = []) \/ (f v = Ok w /\ if truthy w then exists s, piece key w = Ok s /\ L = [s] else L = []))
  end -> adds cl d piece key L.
Proof.
  intros D A S I H. apply (adds_stands cl d piece f key tag L D A S); [intros a B; apply (far a tag B I)|each I; reflexivity|].
  assert (P : forall raw, proc cl tag raw = medline_value tag raw) by (intros raw; each I; reflexivity). destruct (dget tag d) as [raw|]; [|exact H]. rewrite P. exact H.
Qed.
Definition year_made (raw : list str) : res fvalue :=
  match medline_value $"DP" raw with Ok w => match medline_make upper all_digits $"year" [w] with Raise ValueError => medline_make upper all_digits $"year" [w; w] | x => x end | Raise e => Raise e end.
Lemma medline_year_value n : value cl d (S (S n)) $"year" = Some (match dget $"DP" d with Some raw => year_made raw | None => Raise KeyError end).
Proof.
  assert (D : dget $"year" d = None) by (apply apart_dget, AP; inlist). unfold year_made.
  cbn [value]. unfold resolve. rewrite D. change (alt cl $"year") with (@None str).
  change (special cl $"year") with (Some (ask $"DP" (fun v => match medline_make upper all_digits $"year" [v] with Raise ValueError => ask $"DP" (fun v2 => Ret (medline_make upper all_digits $"year" [v; v2])) | r => Ret r end))).
  unfold ask. cbn [runp value]. unfold resolve. destruct (dget $"DP" d) as [raw|] eqn:DD.
  - change (proc cl $"DP" raw) with (medline_value $"DP" raw). destruct (medline_value $"DP" raw) as [w|e] eqn:W; [|reflexivity].
    destruct (medline_make upper all_digits $"year" [w]) as [x|e] eqn:X; [reflexivity|]. destruct e; try reflexivity. cbn [runp value]. unfold resolve. rewrite DD. change (proc cl $"DP" raw) with (medline_value $"DP" raw). rewrite W. reflexivity.
  - change (alt cl $"DP") with (medline_alt $"DP"). destruct (medline_alt $"DP") as [a|] eqn:B; [rewrite (far a $"DP" B) by inlist|]; reflexivity.
Qed.
Lemma medline_year y : m_year_in d y -> adds cl d piece $"year" (year_text y).
Proof.
  intros H. unfold adds. rewrite (medline_year_value 0). unfold year_made. eexists. split; [reflexivity|]. destruct y as [y|]; cbn [m_year_in] in H; [|rewrite H; reflexivity]. destruct H as (NZ & v & more & DD & (B & rest & EV & R)). rewrite DD.
  change (medline_value $"DP" (v :: more)) with (Ok (FText v)). cbv iota beta.
  assert (Y : m_year [($"DP", [v])] = Ok y).
  { apply (C73_year_partial [($"DP", [v])] y rest []); [exact B|rewrite EV; reflexivity|]. destruct R as [R|[(q & R)|(q & R)]]; [left; exact R|right; left; exists q; exact R|right; right; exists q; exact R]. }
  change (m_year [($"DP", [v])]) with (match py_int (first_word v) with Some z => Ok z | None => match search_number (first_word v) with None => Ok 0%Z | Some n => match py_int n with Some z => Ok z | None => Raise ValueError end end end) in Y.
  assert (M : match medline_make upper all_digits $"year" [FText v] with Raise ValueError => medline_make upper all_digits $"year" [FText v; FText v] | x => x end = Ok (FInt y)).
  { change (medline_make upper all_digits $"year" [FText v]) with (match py_int (first_word v) with Some z => Ok (FInt z) | None => Raise ValueError end).
    destruct (py_int (first_word v)) as [z|]; [injection Y as ->; reflexivity|]. cbn [medline_make]. destruct (search_number (first_word v)) as [n|]; [|injection Y as <-; reflexivity]. destruct (py_int n) as [z|]; [injection Y as ->; reflexivity|discriminate Y]. }
  rewrite M. cbn [truthy]. destruct (Z.eqb_spec y 0) as [Z|Z]; [contradiction|]. cbn [negb]. exists (dec_Z y). split; reflexivity.
Qed.
Lemma medline_text_adds key tag x : In (key, tag) [($"j9", $"TA"); ($"title", $"TI")] -> first_in d tag x -> adds cl d piece key (after [] x).
Proof.
  intros I H. assert (K : dget key d = None) by (apply apart_dget, AP; destruct I as [I|[I|[]]]; injection I as <- <-; inlist).
  apply (medline_adds (fun v => Ok v) key tag); [exact K|destruct I as [I|[I|[]]]; injection I as <- <-; reflexivity|destruct I as [I|[I|[]]]; injection I as <- <-; reflexivity|destruct I as [I|[I|[]]]; injection I as <- <-; inlist|].
  destruct H as [(-> & ->)|(more & ->)]; [reflexivity|]. exists (FText x), (FText x). split; [destruct I as [I|[I|[]]]; injection I as <- <-; reflexivity|]. right. split; [reflexivity|].
  destruct x as [|c x]; [reflexivity|]. cbn [truthy]. exists (c :: x). split; [|reflexivity]. destruct I as [I|[I|[]]]; injection I as <- <-; reflexivity.
Qed.
Lemma medline_volume x : m_volume_in d x -> adds cl d piece $"volume" (after $"V" x).
Proof.
  intros H. apply (medline_adds (fun v => medline_make upper all_digits $"volume" [v]) $"volume" $"VI"); [apply apart_dget, AP; inlist|reflexivity|reflexivity|inlist|].
  destruct H as [(-> & ->)|(rest & more & -> & N & R)]; [reflexivity|]. exists (FText (x ++ rest)), (FText x). split; [reflexivity|]. right. split.
  - change (medline_make upper all_digits $"volume" [FText (x ++ rest)]) with (Ok (FText (first_word (x ++ rest)))). unfold first_word. rewrite split_char_hd; [reflexivity|exact N|exact R].
  - destruct x as [|c x]; [reflexivity|]. cbn [truthy]. exists ($"V" ++ c :: x). split; reflexivity.
Qed.
Lemma medline_page x : m_page_in d x -> adds cl d piece $"beginningPage" (after $"P" x).
Proof.
  intros H. apply (medline_adds (fun v => medline_make upper all_digits $"beginningPage" [v]) $"beginningPage" $"PG"); [apply apart_dget, AP; inlist|reflexivity|reflexivity|inlist|].
  destruct H as [(-> & ->)|(before & rest & more & E & N1 & N2 & N3 & B & R)]; [reflexivity|]. rewrite E. exists (FText (before ++ x ++ rest)), (FText x). split; [reflexivity|]. right. split.
  - pose proof (C73_page_partial [($"PG", [before ++ x ++ rest])] before x rest [] eq_refl N1 N2 N3 B R) as P.
    destruct (medline_make upper all_digits $"beginningPage" [FText (before ++ x ++ rest)]) as [w|] eqn:W; [|discriminate W].
    assert (Q : w = FText x); [|rewrite Q; reflexivity]. injection W as <-. injection P as P. f_equal. exact P.
  - destruct x as [|c x]; [reflexivity|]. cbn [truthy]. exists ($"P" ++ c :: x). split; reflexivity.
Qed.
Lemma medline_doi x : apart d $"DOI" -> m_doi_in d x -> adds cl d piece $"DOI" (after $"DOI " x).
Proof.
  intros A H. apply (medline_adds (fun v => medline_make upper all_digits $"DOI" [v]) $"DOI" $"AID"); [apply apart_dget, A|reflexivity|reflexivity|inlist|].
  assert (M : forall ids, medline_make upper all_digits $"DOI" [FTexts ids] = match find_doi ids with Ok s => Ok (FText s) | Raise e => Raise e end) by (intros ids; cbn; destruct (find_doi ids); reflexivity).
  destruct H as [(-> & ->)|[(ids & E & -> & N)|(before & rest & E & N)]]; [reflexivity| |]; rewrite E.
  - exists (FTexts ids), (FText []). split; [reflexivity|]. left. split; [|reflexivity]. rewrite M. pose proof (proj2 (C73_doi [($"AID", ids)] ids eq_refl) N) as Q. change (m_doi [($"AID", ids)]) with (find_doi ids) in Q. rewrite Q. reflexivity.
  - exists (FTexts (before ++ (x ++ $" [doi]") :: rest)), (FText x). split; [reflexivity|]. right. split.
    + rewrite M. pose proof (proj1 (C73_doi [($"AID", before ++ (x ++ $" [doi]") :: rest)] _ eq_refl) before x rest eq_refl N) as Q. change (m_doi [($"AID", before ++ (x ++ $" [doi]") :: rest)]) with (find_doi (before ++ (x ++ $" [doi]") :: rest)) in Q. rewrite Q. reflexivity.
    + destruct x as [|c x]; [reflexivity|]. cbn [truthy]. exists ($"DOI " ++ c :: x). split; reflexivity.
Qed.
Lemma medline_author : adds cl d piece $"authorsShort" (match match dget $"AU" d with Some l => l | None => [] end with [] => [] | a :: _ => [no_comma a] end).
Proof.
  apply (medline_adds (fun v => Ok v) $"authorsShort" $"AU"); [apply apart_dget, AP; inlist|reflexivity|reflexivity|inlist|]. destruct (dget $"AU" d) as [l|]; [|reflexivity].
  exists (FTexts l), (FTexts l). split; [reflexivity|]. right. split; [reflexivity|]. destruct l as [|a l]; [reflexivity|]. cbn [truthy]. exists (no_comma a). split; [|reflexivity]. transitivity (Ok (no_commas a)); [reflexivity|]. rewrite no_commas_eq. reflexivity.
Qed.
End Medline.
Lemma same_after (j t : str) : match after [] j with [] => after [] t | _ => after [] j end = after [] (match j with [] => t | _ => j end).
Proof. destruct j; reflexivity. Qed.
Lemma medline_special_alone r : forall k, special (medline_kind upper title all_digits r) k <> None -> alt (medline_kind upper title all_digits r) k = None.
Proof.
  intros k H. change (alt (medline_kind upper title all_digits r) k) with (medline_alt k). destruct (medline_alt k) as [a|] eqn:A; [|reflexivity]. exfalso. apply H. apply dget_In in A.
  assert (Q : forallb (fun p : str * str => negb (mem (fst p) [$"year"; $"month"; $"volume"; $"beginningPage"; $"DOI"; $"address"; $"selfCitation"; $"id"] || dhas (fst p) medline_same)) medline_converter = true) by (vm_compute; reflexivity).
  pose proof (proj1 (forallb_forall _ _) Q _ A) as B. cbn [fst] in B. apply negb_true_iff, orb_false_iff in B. destruct B as [B1 B2].
  unfold medline_kind, medline_class. cbn [special]. unfold medline_made. cbn [mem] in B1. repeat (apply orb_false_iff in B1; destruct B1 as [?B B1]).
  repeat match goal with H : eqb k _ = false |- _ => rewrite H; clear H end. cbn [orb]. rewrite dhas_dget in B2. destruct (dget k medline_same); [discriminate B2|]. reflexivity.
Qed.
Lemma medline_own r t : read_from_file (AnyMedline r) -> own_text (AnyMedline r) t -> exists c, self (AnyMedline r) = Ok (CWos c) /\ wos_citation upper title t = Ok c.
Proof.
  intros (alpha & content & recs & err & E & I) (AP & AD & IS & authors & y & j9 & ti & volume & page & doi & -> & HY & HJ & HT & HV & HP & HD & ->). pose proof (file_short _ _ _ _ _ E I) as SH.
  match goal with |- exists c, _ /\ wos_citation _ _ ?T = _ => destruct (C28_parse upper title T) as (c & C & _) end. exists c. split; [|exact C].
  pose proof (create_runs (medline_kind upper title all_digits r) (MedlineModel.mdata r) piece (cite upper title) _ _ _ _ _ _ _
    (medline_author r SH AP) (medline_year r SH AP y HY) (medline_text_adds r SH AP $"j9" $"TA" j9 ltac:(inlist) HJ) (medline_text_adds r SH AP $"title" $"TI" ti ltac:(inlist) HT)
    (medline_volume r SH AP volume HV) (medline_page r SH AP page HP) (medline_doi r SH doi AD HD)) as R.
  destruct (@run_ok _ _ (medline_kind upper title all_digits r) (MedlineModel.mdata r) (getitem (medline_kind upper title all_digits r) (MedlineModel.mdata r) 2) _ _
    (@getitem_ok _ _ (medline_kind upper title all_digits r) (MedlineModel.mdata r) (medline_fields_back _ SH IS) (medline_special_alone r) 2) [] _ (valid_nil _ _) R) as (c' & Q & _).
  cbn [any_self]. unfold made. rewrite Q. unfold cite. rewrite same_after. unfold written in C. rewrite C. reflexivity.
Qed.
(** *** ProQuest *)
Lemma proquest_back r : forall k a, dget k (ProQuestModel.pdata r) <> None -> alt (proquest_kind upper title r) k = Some a -> alt (proquest_kind upper title r) a = Some k /\ (dget a (ProQuestModel.pdata r) = None \/ a = k).
Proof. intros k a _ H. discriminate H. Qed.
Lemma proquest_alone r : forall k, special (proquest_kind upper title r) k <> None -> alt (proquest_kind upper title r) k = None.
Proof. reflexivity. Qed.
Lemma proquest_own r t : own_text (AnyProQuest r) t -> exists c, self (AnyProQuest r) = Ok (CWos c) /\ wos_citation upper title t = Ok c.
Proof.
  intros (AP & AD & author & date & ti & HA & HD & HT & ->).
  match goal with |- exists c, _ /\ wos_citation _ _ ?T = _ => destruct (C28_parse upper title T) as (c & C & _) end. exists c. split; [|exact C].
  set (d := ProQuestModel.pdata r) in *. set (cl := proquest_kind upper title r).
  assert (K : forall key tag x, In (key, tag) [($"year", $"Degree date"); ($"title", $"Title")] -> first_in d tag x -> adds cl d piece key (after [] x)).
  { intros key tag x I H. assert (K : dget key d = None) by (apply apart_dget, AP; destruct I as [I|[I|[]]]; injection I as <- <-; inlist).
    apply (adds_stands cl d piece (fun v => Ok v) key tag); [exact K|reflexivity|destruct I as [I|[I|[]]]; injection I as <- <-; reflexivity|intros a B; discriminate B|destruct I as [I|[I|[]]]; injection I as <- <-; reflexivity|].
    destruct H as [(-> & ->)|(more & ->)]; [reflexivity|]. exists (FText x), (FText x). split; [destruct I as [I|[I|[]]]; injection I as <- <-; reflexivity|]. right. split; [reflexivity|].
    destruct x as [|y x]; [reflexivity|]. cbn [truthy]. exists (y :: x). split; [|reflexivity]. destruct I as [I|[I|[]]]; injection I as <- <-; reflexivity. }
  assert (HA' : adds cl d piece $"authorsShort" (match author with [] => [] | c :: _ => [no_comma [c]] end)).
  { apply (adds_stands cl d piece (fun v => Ok v) $"authorsShort" $"Author"); [apply apart_dget, AP; inlist|reflexivity|reflexivity|intros a B; discriminate B|reflexivity|].
    destruct HA as [(-> & ->)|(more & ->)]; [reflexivity|]. exists (FText author), (FText author). split; [reflexivity|]. right. split; [reflexivity|].
    destruct author as [|y x]; [reflexivity|]. cbn [truthy]. exists (no_comma [y]). split; [|reflexivity]. transitivity (Ok (no_commas [y])); [reflexivity|]. rewrite no_commas_eq. reflexivity. }
  assert (MJ : adds cl d piece $"j9" []) by (apply adds_missing; [apply apart_dget, AP; inlist|reflexivity|reflexivity]).
  assert (MV : adds cl d piece $"volume" []) by (apply adds_missing; [apply apart_dget, AP; inlist|reflexivity|reflexivity]).
  assert (MD : adds cl d piece $"DOI" []) by (apply adds_missing; [apply apart_dget, AD|reflexivity|reflexivity]).
  assert (MB : adds cl d piece $"beginningPage" []) by (apply (adds_falsy cl d piece _ (FInt 0)); [apply apart_dget, AP; inlist|reflexivity|reflexivity|reflexivity]).
  pose proof (create_runs cl d piece (cite upper title) _ _ _ _ _ _ _ HA' (K $"year" $"Degree date" date ltac:(inlist) HD) MJ (K $"title" $"Title" ti ltac:(inlist) HT) MV MB MD) as R.
  destruct (@run_ok _ _ cl d (getitem cl d 2) _ _ (@getitem_ok _ _ cl d (proquest_back r) (proquest_alone r) 2) [] _ (valid_nil _ _) R) as (c' & Q & _).
  cbn [any_self]. unfold made. fold d cl. rewrite Q. unfold cite. unfold written in C. cbn [after] in C. rewrite C. reflexivity.
Qed.

(** *** Scopus *)
Notation skind := (scopus_kind upper word num int_of text_of not_spoilt no_mend).
Definition scopus_pairs : list (str * str) := [($"year", $"Year"); ($"volume", $"Volume"); ($"beginningPage", $"Page start"); ($"citations", $"References"); ($"authorsShort", $"Authors"); ($"authorsFull", $"Authors"); ($"title", $"Title");
   ($"journal", $"Source title"); ($"id", $"EID")].
Lemma scopus_back r : forall k a, dget k (ScopusModel.sdata r) <> None -> alt skind k = Some a -> alt skind a = Some k /\ (dget a (ScopusModel.sdata r) = None \/ a = k).
Proof. intros k a _ H. discriminate H. Qed.
Lemma scopus_alone : forall k, special skind k <> None -> alt skind k = None.
Proof. reflexivity. Qed.
Lemma scopus_proc key tag raw : In (key, tag) scopus_pairs -> proc skind tag raw = scopus_value upper word num int_of tag raw.
Proof. intros I. change (proc skind tag raw) with (if mem tag scopus_known then scopus_value upper word num int_of tag raw else Raise KeyError). pairs I; reflexivity. Qed.
Lemma scopus_item r key tag : all_apart (ScopusModel.sdata r) -> In (key, tag) scopus_pairs ->
  any_item upper lower title all_digits word num int_of text_of not_spoilt no_mend (AnyScopus r) key =
  match dget tag (ScopusModel.sdata r) with Some raw => scopus_value upper word num int_of tag raw | None => Raise KeyError end.
Proof.
  intros AP I. unfold any_item. rewrite (item_stands skind (ScopusModel.sdata r) key tag); [|apply apart_dget, AP; pairs I; inlist|reflexivity|pairs I; reflexivity|intros a B; discriminate B|pairs I; reflexivity].
  destruct (dget tag (ScopusModel.sdata r)) as [raw|]; [|reflexivity]. apply (scopus_proc key), I.
Qed.
Lemma scopus_adds r key tag L : all_apart (ScopusModel.sdata r) -> In (key, tag) scopus_pairs ->
  match dget tag (ScopusModel.sdata r) with
  | None => L = []
  | Some raw => exists w, scopus_value upper word num int_of tag raw = Ok w /\ if truthy w then exists s, scopus_piece key w = Ok s /\ L = [s] else L = []
  end -> adds skind (ScopusModel.sdata r) scopus_piece key L.
Proof.
  intros AP I H. apply (adds_stands skind (ScopusModel.sdata r) scopus_piece (fun v => Ok v) key tag); [apply apart_dget, AP; pairs I; inlist|reflexivity|pairs I; reflexivity|intros a B; discriminate B|pairs I; reflexivity|].
  destruct (dget tag (ScopusModel.sdata r)) as [raw|]; [|exact H]. rewrite (scopus_proc key tag raw I). destruct H as (w & Q & H). exists w, w. split; [exact Q|]. right. split; [reflexivity|exact H].
Qed.
Lemma scopus_text_value tag v : In tag [$"Title"; $"Source title"; $"Volume"; $"Page start"; $"EID"] -> scopus_value upper word num int_of tag v = Ok (FText v).
Proof. intros I. apply (C74_others upper word num int_of tag v 0%Z). clear - I. each I; cbn; tauto. Qed.
Lemma scopus_year_value y : scopus_value upper word num int_of $"Year" (dec_Z y) = Ok (FInt y).
Proof. apply (C74_others upper word num int_of $"Year" [] y). left. reflexivity. Qed.
Lemma scopus_text_adds r key tag x (before close : str) f : all_apart (ScopusModel.sdata r) -> In (key, tag) scopus_pairs -> In tag [$"Title"; $"Source title"; $"Volume"; $"Page start"] -> text_in (ScopusModel.sdata r) tag x ->
  (forall s, scopus_piece key (FText s) = Ok (f s)) -> adds skind (ScopusModel.sdata r) scopus_piece key (match x with [] => [] | _ => [f x] end).
Proof.
  intros AP I J H F. apply (scopus_adds r key tag _ AP I). destruct H as [(-> & ->)| ->]; [reflexivity|]. exists (FText x). split; [apply scopus_text_value; each J; inlist|].
  destruct x as [|c x]; [reflexivity|]. cbn [truthy]. exists (f (c :: x)). split; [apply F|reflexivity].
Qed.
Lemma part_text {A} (x : list A) (f : str) : concat (match x with [] => [] | _ => [f] end) = match x with [] => [] | _ => f end.
Proof. destruct x; [reflexivity|]. cbn [concat]. apply app_nil_r. Qed.
Lemma scopus_own r t : own_text (AnyScopus r) t -> exists c, self (AnyScopus r) = Ok (CScopus t c) /\ s_id c = scopus_id upper word num int_of t /\ s_year c <> None.
Proof.
  intros (AP & authors & ti & y & journal & volume & page & HA & HT & HY & HJ & HV & HP & ->). set (d := ScopusModel.sdata r) in *.
  assert (A : adds skind d scopus_piece $"authorsShort" (match authors with [] => [] | a :: _ => [no_comma a ++ $", "] end)).
  { apply (scopus_adds r $"authorsShort" $"Authors" _ AP); [inlist|]. fold d. destruct HA as [(-> & ->)|(-> & NE & NP)]; [reflexivity|]. exists (FTexts authors). split.
    - apply (C74_lists upper word num int_of [] authors NE). intros s J. apply no_has; auto.
    - destruct authors as [|a l]; [reflexivity|]. cbn [truthy]. exists (no_comma a ++ $", "). split; [|reflexivity]. transitivity (Ok (no_commas a ++ $", ")); [reflexivity|]. rewrite no_commas_eq. reflexivity. }
  assert (T : adds skind d scopus_piece $"title" (match ti with [] => [] | _ => [no_brackets ti ++ $" "] end)).
  { apply (scopus_text_adds r $"title" $"Title" ti [] [] (fun s => no_brackets s ++ $" ") AP ltac:(inlist) ltac:(inlist) HT). intros s. transitivity (Ok (filter (fun c => negb (eqb c 40%N || eqb c 41%N)) s ++ $" ")); [reflexivity|]. do 2 f_equal. apply filter_ext. intros x. f_equal. f_equal; [destruct (N.eqb_spec x 40) as [-> |N]|destruct (N.eqb_spec x 41) as [-> |N]]; first [reflexivity|apply neq_eqb, N]. }
  assert (Y : adds skind d scopus_piece $"year" (match y with None => [] | Some y => [$"(" ++ dec_Z y ++ $") "] end)).
  { apply (scopus_adds r $"year" $"Year" _ AP); [inlist|]. fold d. destruct y as [y|]; cbn [year_in] in HY; [|rewrite HY; reflexivity]. destruct HY as (NZ & ->). exists (FInt y). split; [apply scopus_year_value|]. cbn [truthy].
    destruct (Z.eqb_spec y 0) as [Z|_]; [contradiction|]. cbn [negb]. exists ($"(" ++ dec_Z y ++ $") "). split; reflexivity. }
  assert (J : adds skind d scopus_piece $"journal" (match journal with [] => [] | _ => [journal ++ $", "] end)) by exact (scopus_text_adds r $"journal" $"Source title" journal [] [] (fun s => s ++ $", ") AP ltac:(inlist) ltac:(inlist) HJ (fun s => eq_refl)).
  assert (V : adds skind d scopus_piece $"volume" (match volume with [] => [] | _ => [volume ++ $", "] end)) by exact (scopus_text_adds r $"volume" $"Volume" volume [] [] (fun s => s ++ $", ") AP ltac:(inlist) ltac:(inlist) HV (fun s => eq_refl)).
  assert (B : adds skind d scopus_piece $"beginningPage" (match page with [] => [] | _ => [$"PP. " ++ page] end)) by exact (scopus_text_adds r $"beginningPage" $"Page start" page [] [] (fun s => $"PP. " ++ s) AP ltac:(inlist) ltac:(inlist) HP (fun s => eq_refl)).
  pose proof (scopus_runs skind d scopus_piece _ _ _ _ _ _ A T Y J V B) as R.
  match type of R with _ = Some (text_of ?L) => assert (E : concat L = scopus_written authors ti y journal volume page); [|change (text_of L) with (@Ok fvalue (FText (concat L))) in R; rewrite E in R; clear E] end.
  { rewrite !concat_app, !part_text. unfold scopus_written. f_equal; [destruct authors; [reflexivity|apply app_nil_r]|]. f_equal. f_equal. destruct y; [apply app_nil_r|reflexivity]. }
  destruct (@run_ok _ _ skind d (getitem skind d 2) _ _ (@getitem_ok _ _ skind d (scopus_back r) scopus_alone 2) [] _ (valid_nil _ _) R) as (c' & Q & _).
  cbn [any_self]. fold d. rewrite Q. set (t := scopus_written authors ti y journal volume page). cbv iota beta.
  destruct (s_bad (CitationModel.scopus_citation word num int_of upper t)) eqn:BAD.
  - assert (L1 : exists o, look (AnyScopus r) $"year" = Ok o).
    { unfold MixedNetModel.look, any_get. rewrite (scopus_item r $"year" $"Year" AP) by inlist. fold d. destruct y as [y|]; cbn [year_in] in HY; [destruct HY as (_ & HY); rewrite HY, scopus_year_value|rewrite HY]; eauto. }
    assert (L2 : exists o, look (AnyScopus r) $"title" = Ok o).
    { unfold MixedNetModel.look, any_get. rewrite (scopus_item r $"title" $"Title" AP) by inlist. fold d. destruct HT as [(HT & _)|HT]; rewrite HT; [eauto|]. rewrite scopus_text_value by inlist. eauto. }
    assert (L3 : exists o, look (AnyScopus r) $"journal" = Ok o).
    { unfold MixedNetModel.look, any_get. rewrite (scopus_item r $"journal" $"Source title" AP) by inlist. fold d. destruct HJ as [(HJ & _)|HJ]; rewrite HJ; [eauto|]. rewrite scopus_text_value by inlist. eauto. }
    destruct L1 as (o1 & ->). destruct L2 as (o2 & ->). destruct L3 as (o3 & ->). cbn [bind].
    eexists. split; [reflexivity|]. split; [reflexivity|discriminate].
  - eexists. split; [reflexivity|]. split; [reflexivity|]. unfold CitationModel.scopus_citation in *. destruct (Regex.re_match _ _) as [g|]; [|discriminate BAD]. destruct (given (g 1)) as [|a [|]]; [discriminate| |discriminate]. match goal with |- context [Z.eqb ?x 0] => destruct (Z.eqb x 0) end; [discriminate|]. destruct (given (g 6)) as [|j [|]]; discriminate.
Qed.

(** *** What a record is cited as *)
Lemma own_named r t : read_from_file r -> own_text r t -> exists c, self r = Ok c /\ a_id c = named upper title word num int_of r t /\ a_year c <> None.
Proof.
  intros RF H. destruct r as [r|r|r|r].
  - destruct H as (Y & ->). destruct (own_is upper lower title all_digits r (usable_plain r RF) Y) as (c & Q & C). exists (CWos c). cbn [any_self]. rewrite Q. split; [reflexivity|]. split; [|discriminate]. cbn [a_id named]. unfold id_of. rewrite C. reflexivity.
  - destruct (medline_own r t RF H) as (c & Q & C). exists (CWos c). split; [exact Q|]. split; [|discriminate]. cbn [a_id named]. unfold id_of. rewrite C. reflexivity.
  - destruct (scopus_own r t H) as (c & Q & C & Y). exists (CScopus t c). split; [exact Q|]. split; [exact C|]. cbn [a_year]. destruct (s_year c); [discriminate|congruence].
  - destruct (proquest_own r t H) as (c & Q & C). exists (CWos c). split; [exact Q|]. split; [|discriminate]. cbn [a_id named]. unfold id_of. rewrite C. reflexivity.
Qed.
(** *** What it cites *)
Definition is_cite (r : anyrec) (l : str) (c : acite) : Prop :=
  match r with AnyScopus _ => c = scopus_of upper word num int_of l | _ => exists c', c = CWos c' /\ wos_citation upper title l = Ok c' end.
Lemma cite_named r l c : is_cite r l c -> a_id c = named upper title word num int_of r l.
Proof. destruct r; cbn [is_cite named]; [intros (c' & -> & E); cbn [a_id]; unfold id_of; rewrite E; reflexivity| | |]; try (intros (c' & -> & E); cbn [a_id]; unfold id_of; rewrite E; reflexivity). intros ->. reflexivity. Qed.
Lemma wos_item_called r tag key : plain r -> dhas tag wos_tags = true -> called_tag tag key ->
  any_item upper lower title all_digits word num int_of text_of not_spoilt no_mend (AnyWos r) key = match dget tag (wfields r) with Some raw => wos_value upper lower title all_digits tag raw | None => Raise KeyError end.
Proof.
  intros P T C. pose proof (value_called upper lower title all_digits r 2 tag key P T C) as V.
  destruct (@getitem_ok _ _ (kind_of upper lower title all_digits r) (wfields r) (fields_back upper lower title all_digits r P) (special_alone upper lower title all_digits r) 3 key [] _ (valid_nil _ _) V) as (c' & Q & _).
  unfold any_item, item_in. rewrite Q. reflexivity.
Qed.
Lemma cites_named r t l : read_from_file r -> own_text r t -> references r l -> exists cs, cites r = Ok cs /\ Forall2 (is_cite r) l cs.
Proof.
  intros RF O H. destruct r as [r|r|r|r]; cbn [references] in H.
  - subst l. destruct (C71_citations upper lower title all_digits (lines_of $"CR" r)) as (cs & E & F). unfold any_cites, MixedNetModel.look, any_get.
    rewrite (wos_item_called r $"CR" $"citations" (usable_plain r RF)); [|reflexivity|right; reflexivity]. unfold lines_of in *. destruct (dget $"CR" (wfields r)) as [raw|].
    + rewrite E. cbn [bind]. exists (map CWos cs). split; [reflexivity|]. clear - F. induction F; constructor; [cbn; eauto|assumption].
    + exists []. split; [reflexivity|constructor].
  - subst l. destruct O as (AP & _). exists []. split; [|constructor]. unfold any_cites, MixedNetModel.look, any_get, any_item. rewrite item_missing; [reflexivity|apply apart_dget, AP; inlist|reflexivity|reflexivity].
  - destruct O as (AP & _). unfold any_cites, MixedNetModel.look, any_get. rewrite (scopus_item r $"citations" $"References" AP) by inlist. destruct H as [(-> & ->)|(-> & NE & NP)].
    + exists []. split; [reflexivity|constructor].
    + assert (NH : forall s, In s l -> ~ has_part $"; " s) by (intros s J; apply no_has; auto). rewrite (proj2 (proj2 (proj2 (proj2 (C74_lists upper word num int_of [] l NE))) NH)). cbn [bind].
      assert (S : split_at $"; " (join $"; " l) = l). { apply split_pair; [discriminate|exact NE|]. intros s I a b E. apply (NH s I). exists a, b. exact E. }
      rewrite S. eexists. split; [reflexivity|]. clear. induction l as [|x l IH]; constructor; [reflexivity|exact IH].
  - subst l. destruct O as (AP & _). exists []. split; [|constructor]. unfold any_cites, MixedNetModel.look, any_get, any_item. rewrite item_missing; [reflexivity|apply apart_dget, AP; inlist|reflexivity|reflexivity].
Qed.
(** *** None of the fields that nodes show is an empty list *)
Notation item := (any_item upper lower title all_digits word num int_of text_of not_spoilt no_mend).
Definition not_void (x : res fvalue) : Prop := x <> Ok (FTexts []).
Lemma look_void r k : not_void (item r k) -> look r k <> Ok (Some (FTexts [])).
Proof. unfold not_void, MixedNetModel.look, any_get. destruct (item r k) as [v|e]; [intros N Q; injection Q as ->; apply N; reflexivity|]. destruct e; discriminate. Qed.
Lemma split_at_some sep s : split_at sep s <> [].
Proof. unfold split_at. destruct (length s); cbn [TextModel.split_on]; match goal with |- context [match ?c with _ => _ end] => destruct c as [[? ?]|] end; discriminate. Qed.
Lemma split_not_void a b (s : str) : not_void (Ok (FTexts (split_at [a; b] s))).
Proof. intros Q. injection Q as Q. revert Q. apply split_at_some. Qed.
Lemma first_void (l : list str) : not_void (f_first l).
Proof. destruct l; discriminate. Qed.
Lemma wos_void r k : plain r -> year_ok r -> In k [$"id"; $"authorsFull"; $"year"; $"title"; $"journal"; $"volume"; $"beginningPage"] -> not_void (item (AnyWos r) k).
Proof.
  intros P Y [<-|I].
  - assert (V : exists x, value (kind_of upper lower title all_digits r) (wfields r) 3 $"id" = Some x /\ not_void x).
    { destruct (dget $"id" (wfields r)) as [raw|] eqn:E; [exists (Ok (FTexts raw))|exists (Ok (FText (wid r)))]; (split; [cbn [value]; unfold resolve; rewrite E; reflexivity|]); [|discriminate]. destruct (field_two r P _ _ E) as (_ & NE & _). unfold not_void. congruence. }
    destruct V as (x & V & N). destruct (@getitem_ok _ _ (kind_of upper lower title all_digits r) (wfields r) (fields_back upper lower title all_digits r P) (special_alone upper lower title all_digits r) 3 _ [] _ (valid_nil _ _) V) as (c' & Q & _).
    unfold any_item, item_in. rewrite Q. exact N.
  - assert (T : exists tag, dhas tag wos_tags = true /\ called_tag tag k /\ forall raw, raw <> [] -> (tag = $"PY" -> exists y vs, (1000 <= y <= 9999)%Z /\ raw = dec_Z y :: vs /\ wos_value upper lower title all_digits $"PY" raw = Ok (FInt y)) -> not_void (wos_value upper lower title all_digits tag raw)).
    { destruct I as [<-|[<-|[<-|[<-|[<-|[<-|[]]]]]]];
        [exists $"AF"|exists $"PY"|exists $"TI"|exists $"SO"|exists $"VL"|exists $"BP"]; (split; [reflexivity|]; split; [right; reflexivity|]); intros raw NE PY; (destruct raw as [|v vs]; [congruence|]); try (intros Q; discriminate Q).
      destruct (PY eq_refl) as (y & ? & _ & _ & Q). unfold not_void. rewrite Q. discriminate. }
    destruct T as (tag & T & C & H). rewrite (wos_item_called r tag k P T C). destruct (dget tag (wfields r)) as [raw|] eqn:E; [|discriminate]. apply H; [apply (field_two r P _ _ E)|].
    intros ->. apply (year_value upper lower title all_digits r P Y raw E).
Qed.
Lemma item_value {Raw} (cl : rclass Raw fvalue) fd k x : (forall k a, dget k fd <> None -> alt cl k = Some a -> alt cl a = Some k /\ (dget a fd = None \/ a = k)) -> (forall k, special cl k <> None -> alt cl k = None) ->
  value cl fd 3 k = Some x -> item_in cl fd k = x.
Proof. intros B A V. destruct (@getitem_ok _ _ cl fd B A 3 k [] _ (valid_nil _ _) V) as (c' & Q & _). unfold item_in. rewrite Q. reflexivity. Qed.
Lemma medline_void r k : short_tags (MedlineModel.mdata r) -> full (MedlineModel.mdata r) -> all_apart (MedlineModel.mdata r) -> apart (MedlineModel.mdata r) $"IS" \/ apart (MedlineModel.mdata r) $"ISSN" ->
  In k [$"id"; $"authorsFull"; $"year"; $"title"; $"journal"; $"volume"; $"beginningPage"] -> not_void (item (AnyMedline r) k).
Proof.
  intros SH FU AP IS I. unfold any_item. set (cl := medline_kind upper title all_digits r). set (d := MedlineModel.mdata r) in *.
  assert (V : exists x, value cl d 3 k = Some x /\ not_void x).
  2: { destruct V as (x & V & N). rewrite (item_value cl d k x (medline_fields_back d SH IS) (medline_special_alone r) V). exact N. }
  assert (K : forall f key tag, In key shared_names -> medline_alt key = None -> special cl key = Some (ask tag (fun v => Ret (f v))) -> In tag [$"AU"; $"FAU"; $"TI"; $"JT"; $"TA"; $"DP"; $"VI"; $"PG"; $"AID"] ->
    (forall raw, dget tag d = Some raw -> not_void (match medline_value tag raw with Ok v => f v | Raise e => Raise e end)) -> exists x, value cl d 3 key = Some x /\ not_void x).
  { intros f key tag N A S J H. eexists. split; [apply (value_stands cl d f key tag 1); [apply apart_dget, AP, N|exact A|exact S|intros a B; apply (far r SH a tag B J)|each J; reflexivity]|].
    assert (PR : forall raw, proc cl tag raw = medline_value tag raw) by (intros raw; each J; reflexivity). destruct (dget tag d) as [raw|] eqn:E; [|discriminate]. rewrite PR. apply H. reflexivity. }
  destruct I as [<-|[<-|[<-|[<-|[<-|[<-|[<-|[]]]]]]]].
  - eexists. split; [cbn [value]; unfold resolve; rewrite (apart_dget d $"id") by (apply AP; inlist); reflexivity|]. cbn [runp]. discriminate.
  - apply (K (fun v => Ok v) $"authorsFull" $"FAU"); [inlist|reflexivity|reflexivity|inlist|]. intros raw E Q. injection Q as ->. apply (FU _ E).
  - eexists. split; [apply (medline_year_value r SH AP 1)|]. fold d. destruct (dget $"DP" d) as [raw|]; [|discriminate]. destruct raw as [|v vs]; [discriminate|]. unfold year_made. change (medline_value $"DP" (v :: vs)) with (Ok (FText v)). cbv iota beta.
    change (medline_make upper all_digits $"year" [FText v]) with (match py_int (first_word v) with Some z => Ok (FInt z) | None => Raise ValueError end). destruct (py_int (first_word v)); [discriminate|]. cbn [medline_make].
    destruct (search_number (first_word v)) as [n|]; [|discriminate]. destruct (py_int n); discriminate.
  - apply (K (fun v => Ok v) $"title" $"TI"); [inlist|reflexivity|reflexivity|inlist|]. intros raw E. destruct raw as [|v vs]; discriminate.
  - apply (K (fun v => Ok v) $"journal" $"JT"); [inlist|reflexivity|reflexivity|inlist|]. intros raw E. destruct raw as [|v vs]; discriminate.
  - apply (K (fun v => medline_make upper all_digits $"volume" [v]) $"volume" $"VI"); [inlist|reflexivity|reflexivity|inlist|]. intros raw E. destruct raw as [|v vs]; discriminate.
  - apply (K (fun v => medline_make upper all_digits $"beginningPage" [v]) $"beginningPage" $"PG"); [inlist|reflexivity|reflexivity|inlist|]. intros raw E. destruct raw as [|v vs]; discriminate.
Qed.
Lemma scopus_void r k : all_apart (ScopusModel.sdata r) -> In k [$"id"; $"authorsFull"; $"year"; $"title"; $"journal"; $"volume"; $"beginningPage"] -> not_void (item (AnyScopus r) k).
Proof.
  intros AP I. assert (K : exists tag, In (k, tag) scopus_pairs /\ forall raw, not_void (scopus_value upper word num int_of tag raw)).
  { destruct I as [<-|[<-|[<-|[<-|[<-|[<-|[<-|[]]]]]]]]; [exists $"EID"|exists $"Authors"|exists $"Year"|exists $"Title"|exists $"Source title"|exists $"Volume"|exists $"Page start"]; (split; [inlist|]); intros raw;
      try (unfold not_void; rewrite scopus_text_value by inlist; discriminate).
    - exact (split_not_void 44%N 32%N raw).
    - change (scopus_value upper word num int_of $"Year" raw) with (match py_int raw with Some z => Ok (FInt z) | None => @Raise fvalue ValueError end). destruct (py_int raw); discriminate. }
  destruct K as (tag & J & H). rewrite (scopus_item r k tag AP J). destruct (dget tag (ScopusModel.sdata r)); [apply H|discriminate].
Qed.
Lemma proquest_void r k : all_apart (ProQuestModel.pdata r) -> In k [$"id"; $"authorsFull"; $"year"; $"title"; $"journal"; $"volume"; $"beginningPage"] -> not_void (item (AnyProQuest r) k).
Proof.
  intros AP I. unfold any_item. set (cl := proquest_kind upper title r). set (d := ProQuestModel.pdata r) in *.
  assert (C : forall key v, dget key d = None -> special cl key = Some (Ret (Ok v)) -> v <> FTexts [] -> not_void (item_in cl d key)).
  { intros key v D S N. unfold item_in. cbn [getitem dget]. unfold resolve. rewrite D. change (alt cl key) with (@None str). rewrite S. cbn [run]. unfold not_void. congruence. }
  assert (K : forall key tag, In key shared_names -> special cl key = Some (ask tag (fun v => Ret (Ok v))) -> special cl tag = None -> (forall raw, proc cl tag raw = f_first raw) -> not_void (item_in cl d key)).
  { intros key tag J S N H. rewrite (item_stands cl d key tag); [|apply apart_dget, AP, J|reflexivity|exact S|intros a B; discriminate B|exact N]. destruct (dget tag d) as [raw|]; [|discriminate]. rewrite H. apply first_void. }
  destruct I as [<-|[<-|[<-|[<-|[<-|[<-|[<-|[]]]]]]]].
  - apply (C $"id" (FText (ProQuestModel.pid r))); [apply apart_dget, AP; inlist|reflexivity|discriminate].
  - apply (C $"authorsFull" (FText $"Author")); [apply apart_dget, AP; inlist|reflexivity|discriminate].
  - apply (K $"year" $"Degree date"); [inlist|reflexivity|reflexivity|reflexivity].
  - apply (K $"title" $"Title"); [inlist|reflexivity|reflexivity|reflexivity].
  - rewrite item_missing; [discriminate|apply apart_dget, AP; inlist|reflexivity|reflexivity].
  - rewrite item_missing; [discriminate|apply apart_dget, AP; inlist|reflexivity|reflexivity].
  - apply (C $"beginningPage" (FInt 0)); [apply apart_dget, AP; inlist|reflexivity|discriminate].
Qed.
Lemma never_void r t k : read_from_file r -> own_text r t -> In k [$"id"; $"authorsFull"; $"year"; $"title"; $"journal"; $"volume"; $"beginningPage"] -> look r k <> Ok (Some (FTexts [])).
Proof.
  intros RF O I. apply look_void. destruct r as [r|r|r|r].
  - apply wos_void; [apply usable_plain, RF|apply O|exact I].
  - destruct RF as (alpha & content & recs & err & E & J). destruct O as (AP & _ & IS & _). apply medline_void; [apply (file_short _ _ _ _ _ E J)|apply (file_full _ _ _ _ _ E J)|exact AP|exact IS|exact I].
  - apply scopus_void; [apply O|exact I].
  - apply proquest_void; [apply O|exact I].
Qed.
(** *** The unknown *)
Lemma cite_nobody r l c : ScopusCiteSpec.plain_classes word num -> is_cite r l c -> a_anonymous c = nobody upper title word num int_of r l.
Proof.
  intros PC. destruct r; cbn [is_cite nobody]; try (intros (c' & -> & E); unfold unknown; rewrite E; reflexivity). intros ->. unfold scopus_of, a_anonymous. cbn [a_attributes]. unfold CitationModel.scopus_citation.
  destruct (re_match (scopus_cite_regex word num) (upper l)) as [g|] eqn:G; [|reflexivity]. destruct (ScopusCiteProofs.match_only PC _ G) as (a & T & y & J & R). destruct (ScopusCiteProofs.match_reference PC R) as (g' & G' & A & _).
  rewrite G in G'. injection G' as <-. rewrite A.
  assert (N : eqb a $"[Anonymous]" = false). { apply neq_eqb. intros ->. destruct R as (_ & (u & sep & v & Q & _) & _). assert (X : In 32%N $"[Anonymous]") by (rewrite Q; apply in_or_app; right; apply in_or_app; right; left; reflexivity). vm_compute in X. intuition discriminate. }
  destruct (given (Some a)) as [|a' [|]]; [exact N| |exact N]. match goal with |- context [Z.eqb ?x 0] => destruct (Z.eqb x 0) end; [exact N|]. destruct (given (g 6)) as [|j [|]]; exact N.
Qed.
End Own.
