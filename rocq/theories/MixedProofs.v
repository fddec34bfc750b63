(** Proofs for C101. *)
From Coq Require Import List ZArith Lia Bool Arith.
From Coq Require Import String.
From Verif Require Import Base PyStr PyInt CitationModel CitationSpec TagNames RecordModel RecordProofs RecordView GrantModel ValuesModel PropertiesCitation PropertiesValues WosModel WosNetModel WosNetSpec WosNetProofs
  WosTagsModel WosTagsSpec WosTagsProofs MixedModel MixedSpec.
From Verif Require MedlineModel MedlineProofs ScopusModel ProQuestModel.
Import ListNotations.
Local Open Scope list_scope.

(** ** Tags of Medline files have four characters at most *)
Definition short_tags (d : dict str (list str)) : Prop := forall k, In k (dkeys d) -> length k <= 4.
Lemma short_set d k v : short_tags d -> length k <= 4 -> short_tags (dset k v d).
Proof. intros S L x I. apply In_dkeys_dset in I. destruct I as [->|I]; [exact L|apply S, I]. Qed.
Lemma rstrip_len s : length (rstrip s) <= length s.
Proof. unfold rstrip. rewrite rev_length. transitivity (length (rev s)); [|rewrite rev_length; lia]. generalize (rev s). induction l as [|c l IH]; [apply le_n|]. cbn [lstrip]. destruct (ws_char c); cbn [length]; lia. Qed.
Lemma more_short t w d d' : short_tags d -> MedlineModel.more t w d = Ok d' -> short_tags d'.
Proof.
  intros S E. unfold MedlineModel.more in E. destruct (dget t d) as [[|v vs]|] eqn:D; try discriminate E. injection E as <-. apply short_set; [exact S|]. apply S. eapply dget_Some_key, D.
Qed.
Lemma parse_short alpha ls : forall tag au d d' rest, short_tags d -> MedlineModel.mparse alpha ls tag au d = (Ok d', rest) -> short_tags d'.
Proof.
  induction ls as [|l ls IH]; intros tag au d d' rest S E; cbn [MedlineModel.mparse] in E; [injection E as <- <-; exact S|].
  set (t := rstrip (firstn 4 l)) in *. set (contents := init_ (skipn 6 l)) in *.
  assert (O : (if eqb (firstn 6 l) MedlineModel.six then match MedlineModel.more tag contents d with Ok d' => MedlineModel.mparse alpha ls tag au d' | Raise e => (Raise e, ls) end
    else if eqb l [nl] then (Ok d, ls) else (Raise BadPubmedRecord, ls)) = (Ok d', rest) -> short_tags d').
  { destruct (eqb (firstn 6 l) MedlineModel.six).
    - destruct (MedlineModel.more tag contents d) as [d1|] eqn:M; [|discriminate]. intros Q. eapply IH; [eapply more_short; eassumption|exact Q].
    - destruct (eqb l [nl]); [|discriminate]. intros Q. injection Q as <- <-. exact S. }
  destruct (MedlineModel.isalpha alpha t); [|exact (O E)]. destruct (nth_error l 4) as [c|]; [|discriminate E]. destruct (eqb c 45%N); [|exact (O E)].
  eapply IH; [|exact E]. apply short_set; [exact S|]. unfold t. pose proof (rstrip_len (firstn 4 l)). rewrite firstn_length in H. lia.
Qed.
Lemma record_short alpha ls r rest : MedlineModel.medline_record alpha ls = (Ok r, rest) -> short_tags (MedlineModel.mdata r).
Proof.
  unfold MedlineModel.medline_record, MedlineModel.medline_parse. destruct (MedlineModel.mparse alpha ls $"PMID" None []) as [[d|e] rest'] eqn:P.
  - intros E. injection E as E _. unfold MedlineModel.mrec_of in E. assert (S : short_tags d) by (eapply parse_short; [|exact P]; intros k []). destruct (dget $"PMID" d) as [[|v vs]|]; try discriminate E; injection E as <-; exact S.
  - destruct e; try discriminate. cbn. intros E. injection E as <- _. intros k [].
Qed.
Lemma loop_short alpha fuel : forall ls recs err recs' err', (forall r, In r recs -> short_tags (MedlineModel.mdata r)) -> MedlineModel.med_loop alpha fuel ls recs err = Ok (recs', err') ->
  forall r, In r recs' -> short_tags (MedlineModel.mdata r).
Proof.
  induction fuel as [|fuel IH]; intros ls recs err recs' err' S E; (destruct ls as [|l ls]; [injection E as <- <-; exact S|]); [discriminate E|]. cbn [MedlineModel.med_loop] in E. destruct (starts_with $"PMID- " l).
  - destruct (MedlineModel.medline_record alpha (l :: ls)) as [[r|e] rest] eqn:R; [|discriminate E]. eapply IH; [|exact E]. intros x I. unfold MedlineModel.madd in I. destruct (mem _ _); [apply S, I|].
    apply in_app_iff in I. destruct I as [I|[<-|[]]]; [apply S, I|]. eapply record_short, R.
  - eapply IH; [exact S|exact E].
Qed.
Lemma file_short alpha content recs err r : MedlineModel.medline_file alpha content = Ok (recs, err) -> In r recs -> short_tags (MedlineModel.mdata r).
Proof.
  unfold MedlineModel.medline_file. destruct (lines (translate content)); [discriminate|]. intros E I. eapply loop_short; [|exact E|exact I]. intros x [].
Qed.

Section Proofs.
Variables upper lower title : str -> str.
Variable all_digits : str -> bool.
Variables word num : char -> bool.
Variable int_of : str -> Z.
Variable own : list str -> res fvalue.
Variable spoilt : fvalue -> bool.
Variable mend : fvalue -> option fvalue -> option fvalue -> option fvalue -> res fvalue.
Notation item := (any_item upper lower title all_digits word num int_of own spoilt mend).
Notation good := (good_value upper title).

Ltac pairs I := repeat (destruct I as [I|I]; [injection I as <- <-|]); [..|destruct I].
(** ** A field that another name stands for *)
Section Stands.
Context {Raw : Type} (cl : rclass Raw fvalue) (fd : dict str Raw).
Lemma item_stands key tag : dget key fd = None -> alt cl key = None -> special cl key = Some (ask tag (fun v => Ret (Ok v))) ->
  (forall a, alt cl tag = Some a -> dget a fd = None) -> special cl tag = None ->
  item_in cl fd key = match dget tag fd with Some raw => proc cl tag raw | None => Raise KeyError end.
Proof.
  intros D A S T N. unfold item_in, ask in *. cbn [getitem dget]. unfold resolve. rewrite D, A, S. cbn [run getitem dget]. unfold resolve. destruct (dget tag fd) as [raw|].
  - destruct (proc cl tag raw) as [v|e]; [reflexivity|]. destruct e; reflexivity.
  - destruct (alt cl tag) as [a|] eqn:E; [rewrite (T a eq_refl)|]; rewrite N; reflexivity.
Qed.
Lemma item_missing key : dget key fd = None -> alt cl key = None -> special cl key = None -> item_in cl fd key = Raise KeyError.
Proof. intros D A S. unfold item_in. cbn [getitem dget]. unfold resolve. rewrite D, A, S. reflexivity. Qed.
End Stands.
Lemma apart_dget {Raw} (d : dict str Raw) key : apart d key -> dget key d = None.
Proof. intros A. destruct (dget key d) eqn:E; [|reflexivity]. exfalso. apply A. eapply dget_Some_key, E. Qed.

(** what a look-up gives *)
Definition reads (r : anyrec) (key : str) (ts : list thing) : Prop :=
  (item r key = Raise KeyError /\ ts = []) \/ (exists v, item r key = Ok v /\ good v ts /\ (ts = [] -> key <> $"year")).
Lemma wos_reads r key ts : plain r -> tells upper lower key r ts -> reads (AnyWos r) key ts.
Proof.
  intros P (tag & C & H). assert (T : dhas tag wos_tags = true) by (destruct H as [(_ & T & _)|(_ & S)]; [exact T|apply (says_value upper lower title all_digits _ _ _ S)]).
  pose proof (value_called upper lower title all_digits r 2 tag key P T C) as V.
  destruct (@getitem_ok _ _ (kind_of upper lower title all_digits r) (wfields r) (fields_back upper lower title all_digits r P) (special_alone upper lower title all_digits r) 3 key [] _ (valid_nil _ _) V) as (c' & Q & _).
  unfold reads, any_item, item_in. rewrite Q. destruct H as [(N & _ & ->)|(N & S)].
  - left. split; [|reflexivity]. unfold lines_of in N. destruct (dget tag (wfields r)) as [raw|] eqn:E; [|reflexivity]. destruct (field_two r P _ _ E) as (_ & X & _). contradiction.
  - right. destruct (says_value upper lower title all_digits _ _ _ S) as (_ & v & W & G). unfold lines_of in *. destruct (dget tag (wfields r)) as [raw|] eqn:E; [|congruence]. exists v. split; [exact W|]. split; [exact G|]. intros -> ->.
    assert (T' : tag = $"PY"). { destruct C as [C|C]; [subst tag; discriminate T|]. destruct (tag_facts _ _ C) as (_ & _ & _ & B). vm_compute in B. injection B as <-. reflexivity. }
    subst tag. clear - S. remember (@nil thing) as ts eqn:N. remember $"PY" as tag eqn:Q. destruct S; try discriminate N; subst; try discriminate Q; vm_compute in H; intuition discriminate.
Qed.
Lemma far_name tag a d : short_tags d -> medline_alt tag = Some a -> In tag [$"AU"; $"FAU"; $"TI"; $"JT"; $"TA"; $"OT"; $"AB"; $"DP"] -> dget a d = None.
Proof.
  intros S A I. assert (L : length a > 4). { each I; vm_compute in A; injection A as <-; vm_compute; lia. }
  destruct (dget a d) eqn:E; [|reflexivity]. apply dget_Some_key, S in E. lia.
Qed.
Lemma medline_reads r key ts : short_tags (MedlineModel.mdata r) -> any_tells upper lower key (AnyMedline r) ts -> reads (AnyMedline r) key ts.
Proof.
  intros SH (A & H). cbv zeta in A. apply apart_dget in A. unfold reads, any_item. set (d := MedlineModel.mdata r) in *. set (cl := medline_kind upper title all_digits r). destruct H as [(tag & I & H)|[(-> & H)|(I & ->)]].
  - assert (E : item_in cl d key = match dget tag d with Some raw => proc cl tag raw | None => Raise KeyError end).
    { apply item_stands; [exact A| | | |].
      - pairs I; reflexivity.
      - pairs I; reflexivity.
      - intros a B. apply (far_name tag a d SH B). pairs I; cbn; tauto.
      - pairs I; reflexivity. }
    rewrite E. destruct H as [(D & ->)|(v & vs & D & ->)]; rewrite D; [left; split; reflexivity|]. right.
    pairs I; (eexists; split; [reflexivity|]; split; [|intros _; discriminate]); first [apply WosTagsProofs.word|apply (words upper title (v :: vs))].
  - assert (E : item_in cl d $"year" = match dget $"DP" d with Some raw =>
       match medline_value $"DP" raw with Ok w => match medline_make upper all_digits $"year" [w] with Raise ValueError => medline_make upper all_digits $"year" [w; w] | x => x end | Raise e => Raise e end | None => Raise KeyError end).
    { unfold item_in. cbn [getitem dget]. unfold resolve. rewrite A. change (alt cl $"year") with (medline_alt $"year"). change (medline_alt $"year") with (@None str).
      change (special cl $"year") with (Some (ask $"DP" (fun v => match medline_make upper all_digits $"year" [v] with Raise ValueError => ask $"DP" (fun v2 => Ret (medline_make upper all_digits $"year" [v; v2])) | r => Ret r end))).
      unfold ask. cbn [run getitem dget]. unfold resolve. destruct (dget $"DP" d) as [raw|] eqn:D.
      - change (proc cl $"DP" raw) with (medline_value $"DP" raw). destruct (medline_value $"DP" raw) as [w|e] eqn:W; [|destruct e; reflexivity].
        assert (M : dget $"DP" (memo cl $"DP" w []) = Some w) by reflexivity.
        destruct (medline_make upper all_digits $"year" [w]) as [x|e] eqn:X; [reflexivity|]. destruct e; try reflexivity. cbn [run]. rewrite M. cbn [run].
        destruct (medline_make upper all_digits $"year" [w; w]) as [y|e]; [reflexivity|]. destruct e; reflexivity.
      - change (alt cl $"DP") with (medline_alt $"DP"). destruct (medline_alt $"DP") as [a|] eqn:B; [rewrite (far_name $"DP" a d SH B) by (cbn; tauto)|]; reflexivity. }
    rewrite E. destruct H as [(D & ->)|(y & v & vs & D & (B & rest & EV & R) & ->)]; rewrite D; [left; split; reflexivity|]. right. exists (FInt y). split; [|split; [apply number|discriminate]].
    change (medline_value $"DP" (v :: vs)) with (Ok (FText v)). cbv iota beta.
    assert (Y : m_year [($"DP", [v])] = Ok y).
    { apply (C73_year_partial [($"DP", [v])] y rest []); [exact B|rewrite EV; reflexivity|]. destruct R as [R|[(q & R)|(q & R)]]; [left; exact R|right; left; exists q; exact R|right; right; exists q; exact R]. }
    change (m_year [($"DP", [v])]) with (match py_int (first_word v) with Some z => Ok z | None => match search_number (first_word v) with None => Ok 0%Z | Some n => match py_int n with Some z => Ok z | None => Raise ValueError end end end) in Y.
    change (medline_make upper all_digits $"year" [FText v]) with (match py_int (first_word v) with Some z => Ok (FInt z) | None => Raise ValueError end).
    destruct (py_int (first_word v)) as [z|]; [injection Y as ->; reflexivity|]. cbn [medline_make]. destruct (search_number (first_word v)) as [n|]; [|injection Y as <-; reflexivity]. destruct (py_int n) as [z|]; [injection Y as ->; reflexivity|discriminate Y].
  - left. split; [|reflexivity]. each I. apply item_missing; [exact A|reflexivity|reflexivity].
Qed.
Lemma scopus_reads r key ts : any_tells upper lower key (AnyScopus r) ts -> reads (AnyScopus r) key ts.
Proof.
  intros (A & tag & I & H). cbv zeta in A. apply apart_dget in A. unfold reads, any_item. set (d := ScopusModel.sdata r) in *. set (cl := scopus_kind upper word num int_of own spoilt mend).
  assert (E : item_in cl d key = match dget tag d with Some raw => proc cl tag raw | None => Raise KeyError end).
  { apply item_stands; [exact A|reflexivity| |intros a B; discriminate B|].
    - pairs I; reflexivity.
    - pairs I; reflexivity. }
  assert (P : forall raw, proc cl tag raw = scopus_value upper word num int_of tag raw).
  { intros raw. change (proc cl tag raw) with (if mem tag scopus_known then scopus_value upper word num int_of tag raw else Raise KeyError). pairs I; reflexivity. }
  rewrite E. destruct H as [(D & ->)|(v & D & S)]; rewrite D; [left; split; reflexivity|]. right. rewrite P. destruct S as [items H H0|items H H0|z|tag v H].
  - exists (FTexts items). split; [|split; [apply words|intros N; destruct items; [contradiction|discriminate N]]]. apply (C74_lists upper word num int_of [] items H). intros s J. apply no_has; auto.
  - exists (FTexts items). split; [|split; [apply words|intros N; destruct items; [contradiction|discriminate N]]]. apply (proj1 (proj2 (proj2 (C74_lists upper word num int_of $"Index Keywords" items H)))); [cbn; tauto|]. intros s J. apply no_has; auto.
  - exists (FInt z). split; [|split; [apply number|discriminate]]. apply (C74_others upper word num int_of $"Year" [] z). left. reflexivity.
  - exists (FText v). split; [|split; [apply WosTagsProofs.word|discriminate]]. apply (C74_others upper word num int_of tag v 0%Z). clear - H. each H; cbn; tauto.
Qed.
Lemma proquest_reads r key ts : any_tells upper lower key (AnyProQuest r) ts -> reads (AnyProQuest r) key ts.
Proof.
  intros (A & H). cbv zeta in A. apply apart_dget in A. unfold reads, any_item. set (d := ProQuestModel.pdata r) in *. set (cl := proquest_kind upper title r). destruct H as [(tag & I & H)|(I & ->)].
  - assert (E : item_in cl d key = match dget tag d with Some raw => proc cl tag raw | None => Raise KeyError end).
    { apply item_stands; [exact A|reflexivity| |intros a B; discriminate B|].
      - pairs I; reflexivity.
      - pairs I; reflexivity. }
    rewrite E. destruct H as [(D & ->)|(vs & D & S)]; rewrite D; [left; split; reflexivity|]. right. change (proc cl tag vs) with (proquest_value tag vs). destruct S as [items vs NE NP|vs|tag v vs J].
    + exists (FTexts items). split; [|split; [apply words|intros N; destruct items; [contradiction|discriminate N]]]. apply (C74_proquest [] [] vs items []); [exact NE|]. intros s J. apply no_has; auto.
    + exists (FTexts vs). split; [reflexivity|split; [apply words|]]. intros _ ->. repeat (destruct I as [I|I]; [discriminate I|]). destruct I.
    + exists (FText v). split; [|split; [apply WosTagsProofs.word|discriminate]]. apply (C74_proquest tag v vs [] []). clear - J. each J; cbn; tauto.
  - left. split; [|reflexivity]. each I; (apply item_missing; [exact A|reflexivity|reflexivity]).
Qed.
End Proofs.
