(** C105: the years of collections with records of several databases: yearSplit and timeSeries. *)
From Coq Require Import List ZArith Lia Bool Arith Permutation.
From Coq Require Import String.
From Verif Require Import Base PyStr CitationModel TagNames RecordModel RecordView GrantModel ValuesModel WosNetSpec WosTagsModel WosTagsSpec WosTagsProofs SeriesSpec RecordViewFacts
  AnalysisModel MixedModel MixedSpec MixedProofs PropertiesMixed YearsModel YearsSpec YearsProofs.
From Verif Require WosModel MedlineModel ScopusModel ProQuestModel PropertiesWosTags.
Import ListNotations.
Local Open Scope list_scope.

Section Years.
Variables upper lower title : str -> str.
Variable all_digits : str -> bool.
Variables word num : char -> bool.
Variable int_of : str -> Z.
Variable own : list str -> res fvalue.
Variable spoilt : fvalue -> bool.
Variable mend : fvalue -> option fvalue -> option fvalue -> option fvalue -> res fvalue.
Notation told := (told upper lower).
Notation times := (times upper title).
Notation lookup := (any_lookup upper lower title all_digits word num int_of own spoilt mend).
Notation year := (any_yearval upper lower title all_digits word num int_of own spoilt mend).
Notation split_years := (any_year_split upper lower title all_digits word num int_of own spoilt mend).
Notation series := (any_year_series upper lower title all_digits word num int_of own spoilt mend).

(** under the name year there is nothing, a number or the date of a thesis *)
Lemma year_kinds r ts : any_tells upper lower $"year" r ts -> ts = [] \/ (exists z, ts = [Number z]) \/
  exists p s vs, r = AnyProQuest p /\ dget $"year" (ProQuestModel.pdata p) = None /\ dget $"Degree date" (ProQuestModel.pdata p) = Some (s :: vs) /\ ts = [Words s].
Proof.
  destruct r as [r|r|r|r]; cbn [any_tells].
  - intros (tag & C & [(_ & _ & ->)|(_ & S)]); [auto|]. destruct S;
      try (match goal with H : In _ _ |- _ => cbn [In] in H; repeat (destruct H as [H|H]; [subst tag; destruct C as [C|C]; vm_compute in C; discriminate C|]); destruct H end);
      try (destruct C as [C|C]; vm_compute in C; discriminate C).
    right. left. exists y. reflexivity.
  - intros (_ & [(tag & I & _)|[(_ & [(_ & ->)|(y & v & vs & _ & _ & ->)])|(I & _)]]); [|auto|right; left; exists y; reflexivity|].
    + exfalso. cbn [In medline_field] in I. repeat (destruct I as [I|I]; [apply (f_equal fst) in I; cbn [fst] in I; vm_compute in I; discriminate I|]). destruct I.
    + exfalso. destruct I as [I|[]]. vm_compute in I. discriminate I.
  - intros (_ & tag & I & [(_ & ->)|(v & _ & S)]); [auto|]. assert (E : tag = $"Year").
    { cbn [In scopus_field] in I. repeat (destruct I as [I|I]; [first [apply (f_equal snd) in I; exact (eq_sym I)|apply (f_equal fst) in I; cbn [fst] in I; vm_compute in I; discriminate I]|]). destruct I. }
    subst tag. right. left. inversion S as [items A B Q1 Q2 Q3|items A B Q1 Q2 Q3|z Q1 Q2 Q3|tag w A Q1 Q2 Q3].
    + exists z. reflexivity.
    + exfalso. cbn [In] in A. repeat (destruct A as [A|A]; [vm_compute in A; discriminate A|]). destruct A.
  - intros (A0 & [(tag & I & [(_ & ->)|(vs & D & S)])|(I & ->)]); [auto| |auto]. assert (E : tag = $"Degree date").
    { cbn [In proquest_field] in I. repeat (destruct I as [I|I]; [first [apply (f_equal snd) in I; exact (eq_sym I)|apply (f_equal fst) in I; cbn [fst] in I; vm_compute in I; discriminate I]|]). destruct I. }
    subst tag. right. right. inversion S as [items ws A B Q1 Q2 Q3|ws Q1 Q2 Q3|tag w ws A Q1 Q2 Q3]. subst vs. exists r, w, ws.
    split; [reflexivity|]. split; [apply dget_None, A0|]. split; [exact D|reflexivity].
Qed.
(** the year of a thesis is the text of its date *)
Lemma thesis_year p s vs : dget $"year" (ProQuestModel.pdata p) = None -> dget $"Degree date" (ProQuestModel.pdata p) = Some (s :: vs) -> year (AnyProQuest p) = Ok (YText s).
Proof.
  intros A D. unfold any_yearval. cbn [any_item].
  assert (E : item_in (proquest_kind upper title p) (ProQuestModel.pdata p) $"year" = Ok (FText s)); [|rewrite E; reflexivity].
  rewrite (item_stands (proquest_kind upper title p) (ProQuestModel.pdata p) $"year" $"Degree date" A); [rewrite D; reflexivity|reflexivity|reflexivity|intros a B; discriminate B|reflexivity].
Qed.
Lemma yearval_of rs years r : told $"year" rs years -> In r rs -> year r = match the_year (years r) with Some y => Ok y | None => Raise KeyError end.
Proof.
  intros T I. destruct (T r I) as (U & S). destruct (year_kinds _ _ S) as [N|[(z & Z)|(p & s & vs & -> & A & D & W)]].
  - unfold any_yearval. destruct (told_reads upper lower title all_digits word num int_of own spoilt mend r $"year" (years r) U S) as [(E & _ & _)|(v & E & _ & NY & _)]; [|exfalso; exact (NY N eq_refl)].
    rewrite E, N. reflexivity.
  - unfold any_yearval. destruct (told_reads upper lower title all_digits word num int_of own spoilt mend r $"year" (years r) U S) as [(_ & N & _)|(v & E & (G & _ & K) & _)]; [congruence|].
    rewrite E, Z. cbn [bind the_year]. rewrite Z in G. destruct v as [s|l|z'|l|l|l|l|l|l]; try contradiction K; cbn [atoms_of entries map counted_as] in G; try discriminate G.
    + destruct l; discriminate G.
    + injection G as ->. reflexivity.
    + destruct l; discriminate G.
  - rewrite (thesis_year p s vs A D), W. reflexivity.
Qed.

(** C105: yearSplit keeps the records whose year is a number of the range, in their order, ... *)
Theorem C105_split : forall rs years a b, told $"year" rs years -> split_years rs a b true = Ok (filter (in_range years a b) rs).
Proof.
  intros rs years a b T. induction rs as [|r rs IH]; [reflexivity|]. cbn [any_year_split filter]. rewrite (yearval_of (r :: rs) years r T (or_introl eq_refl)).
  assert (Q : split_years rs a b true = Ok (filter (in_range years a b) rs)) by (apply IH; intros x J; apply T; right; exact J).
  unfold in_range at 1. rewrite Q. destruct (the_year (years r)) as [[y|s]|]; cbn [bind]; reflexivity.
Qed.
(** ... and without dropMissingYears it gives the same if all records have a number and raises TypeError otherwise; ... *)
Theorem C105_strict : forall rs years a b, told $"year" rs years ->
  ((forall r, In r rs -> exists y, years r = [Number y]) -> split_years rs a b false = split_years rs a b true) /\
  (forall r, In r rs -> (forall y, years r <> [Number y]) -> split_years rs a b false = Raise TypeError).
Proof.
  intros rs years a b T. assert (Q : forall l, (forall r, In r l -> In r rs) -> ((forall r, In r l -> exists y, years r = [Number y]) -> split_years l a b false = split_years l a b true) /\
    (forall r, In r l -> (forall y, years r <> [Number y]) -> split_years l a b false = Raise TypeError)); [|apply Q; auto].
  induction l as [|r l IH]; intros L; [split; [reflexivity|intros r []]|]. destruct IH as (IH1 & IH2); [intros x J; apply L; right; exact J|].
  pose proof (yearval_of rs years r T (L r (or_introl eq_refl))) as Y. split.
  - intros A. cbn [any_year_split]. rewrite Y. destruct (A r (or_introl eq_refl)) as (y & ->). cbn [the_year]. rewrite IH1; [reflexivity|]. intros x J. apply A. right. exact J.
  - intros x J N. cbn [any_year_split]. rewrite Y. destruct (the_year (years r)) as [[y|s]|] eqn:E; try reflexivity. destruct J as [<-|J].
    + exfalso. destruct (years r) as [|[s|z|s] [|t ts]]; try discriminate E. exact (N z eq_refl).
    + rewrite (IH2 x J N). reflexivity.
Qed.
(** ... so no range of years holds a thesis: ProQuest records, whose years are texts, are always left out.  The years of the records from whichever database, read as
    numbers, would be the property; it is false. *)
Theorem C105_theses_refuted : forall p y vs, dget $"year" (ProQuestModel.pdata p) = None -> dget $"Degree date" (ProQuestModel.pdata p) = Some (dec_Z y :: vs) ->
  forall a b, split_years [AnyProQuest p] a b true = Ok [] /\ split_years [AnyProQuest p] a b false = Raise TypeError.
Proof. intros p y vs A D a b. cbn [any_year_split]. rewrite (thesis_year p _ vs A D). auto. Qed.

Lemma same_year rs years y r : told $"year" rs years -> In r rs -> yin_year year y r = of_that_year years y r.
Proof.
  intros T I. unfold yin_year, of_that_year. rewrite (yearval_of rs years r T I). destruct (the_year (years r)) as [[a|s]|]; [| |reflexivity]; destruct y as [b|t].
  - destruct (Z.eqb_spec a b) as [->|N]; [apply eqb_refl|]. apply neq_eqb. congruence.
  - apply neq_eqb. discriminate.
  - apply neq_eqb. discriminate.
  - destruct (eqb_spec s t) as [->|N]; [apply eqb_refl|]. apply neq_eqb. congruence.
Qed.
Lemma year_times key rs vals years y a : told key rs vals -> told $"year" rs years -> yoccurrences_in lookup year key rs y a = times vals (filter (of_that_year years y) rs) a.
Proof.
  intros T TY. unfold yoccurrences_in. rewrite (PropertiesWosTags.filter_same _ (of_that_year years y) rs); [eapply told_times, told_less, T|]. intros r J. eapply same_year; eassumption.
Qed.
Lemma years_fine rs years : told $"year" rs years -> ydates_readable year rs.
Proof. intros T r e I E. rewrite (yearval_of rs years r T I) in E. destruct (the_year (years r)); congruence. Qed.
(** timeSeries lists each thing that the records tell once for each year, a number or a text, in which it is told, with the number of times in that year, sorted by the
    years, if the years of the things listed are all numbers or all texts, ... *)
Theorem C105_series_partial : forall key rs vals years greatest limit, told key rs vals -> told $"year" rs years ->
  let listed a y := permitted limit a /\ 0 < times vals (filter (of_that_year years y) rs) a in
  ~ (exists a y b s, listed a (YNum y) /\ listed b (YText s)) ->
  exists es ys ns l,
    series key true greatest true limit rs = Ok (YPandas es ys ns) /\
    series key true greatest false limit rs = Ok (YYears l) /\
    series key false greatest false limit rs = Ok (YValues es) /\
    es = map fst l /\ ys = map snd l /\ ns = map (fun ay => times vals (filter (of_that_year years (snd ay)) rs) (fst ay)) l /\ NoDup l /\
    (forall a y, In (a, y) l <-> listed a y) /\
    (forall x y, before l x y -> if greatest then not_after (snd y) (snd x) else not_after (snd x) (snd y)).
Proof.
  intros key rs vals years greatest limit T TY listed NB.
  destruct (@year_series_spec _ _ _ lookup year key greatest limit rs (years_fine rs years TY) (proj1 (told_lookup upper lower title all_digits word num int_of own spoilt mend _ _ _ (told_less _ _ _ _ _ _ T)))) as (_ & Q).
  destruct Q as (es & ys & ns & l & A1 & A2 & A3 & E1 & E2 & E3 & N & I & S & _).
  { intros (a & y & b & s & P1 & P2 & O1 & O2). rewrite (year_times key rs vals years _ _ T TY) in O1. rewrite (year_times key rs vals years _ _ T TY) in O2. apply NB. exists a, y, b, s. repeat split; assumption. }
  exists es, ys, ns, l. repeat (split; [assumption|]). split; [rewrite E3; apply map_ext; intros [a y]; apply year_times; assumption|]. split; [exact N|].
  split; [intros a y; rewrite I, (year_times key rs vals years _ _ T TY); reflexivity|exact S].
Qed.
(** ... and raises TypeError, whatever is asked for, if there are both: a thing told in a paper and a thing told in a thesis are enough. *)
Theorem C105_mixed_refuted : forall key rs vals years greatest limit, told key rs vals -> told $"year" rs years ->
  (exists a y b s, permitted limit a /\ permitted limit b /\ 0 < times vals (filter (of_that_year years (YNum y)) rs) a /\ 0 < times vals (filter (of_that_year years (YText s)) rs) b) ->
  forall give_years pandas, series key give_years greatest pandas limit rs = Raise TypeError.
Proof.
  intros key rs vals years greatest limit T TY (a & y & b & s & P1 & P2 & O1 & O2).
  destruct (@year_series_spec _ _ _ lookup year key greatest limit rs (years_fine rs years TY) (proj1 (told_lookup upper lower title all_digits word num int_of own spoilt mend _ _ _ (told_less _ _ _ _ _ _ T)))) as (Q & _).
  apply Q. rewrite <- (year_times key rs vals years _ _ T TY) in O1. rewrite <- (year_times key rs vals years _ _ T TY) in O2. exists a, y, b, s. auto.
Qed.
End Years.

(** ** Papers and theses *)
Definition yr_scopus : ScopusModel.srec := ScopusModel.srec_of [($"EID", $"2"); ($"Authors", $"Roe K, Doe J"); ($"Year", $"2004")].
Definition yr_scopus2 : ScopusModel.srec := ScopusModel.srec_of [($"EID", $"4"); ($"Authors", $"Doe J"); ($"Year", $"1998")].
Definition yr_thesis (i y : str) : ProQuestModel.prec := ProQuestModel.mkPrec i [($"Author", [$"Doe J"]); ($"Degree date", [y])] false None.
Definition yr_years (r : anyrec) : list thing :=
  match r with AnyScopus r => if eqb (dget $"EID" (ScopusModel.sdata r)) (Some $"2") then [Number 2004] else [Number 1998] | AnyProQuest p => if eqb (ProQuestModel.pid p) $"3" then [Words $"2001"] else [Words $"1999"] | _ => [] end.
Definition yr_authors (r : anyrec) : list thing :=
  match r with AnyScopus r => if eqb (dget $"EID" (ScopusModel.sdata r)) (Some $"2") then [Words $"Roe K"; Words $"Doe J"] else [Words $"Doe J"] | _ => [Words $"Doe J"] end.
Definition yr_all : list anyrec := [AnyScopus yr_scopus; AnyProQuest (yr_thesis $"3" $"2001"); AnyScopus yr_scopus2; AnyProQuest (yr_thesis $"5" $"1999")].
Example C105_ex : told mix_up mix_id $"year" yr_all yr_years /\ told mix_up mix_id $"authorsShort" yr_all yr_authors /\
  mixed any_year_split yr_all 1998 2001 true = Ok [AnyScopus yr_scopus2] /\
  mixed any_year_split yr_all 1998 2001 false = Raise TypeError /\
  mixed any_year_series $"authorsShort" true true true [] yr_all = Raise TypeError /\
  mixed any_year_series $"authorsShort" true true true [] [AnyScopus yr_scopus2; AnyScopus yr_scopus] = Ok (YPandas [AText $"Doe J"; AText $"Roe K"; AText $"Doe J"] [YNum 2004; YNum 2004; YNum 1998] [1; 1; 1]) /\
  mixed any_year_series $"authorsShort" true false false [] [AnyProQuest (yr_thesis $"3" $"2001"); AnyProQuest (yr_thesis $"5" $"1999")] = Ok (YYears [(AText $"Doe J", YText $"1999"); (AText $"Doe J", YText $"2001")]).
Proof.
  assert (AP : forall {Raw} (d : dict str Raw) k, mem k (dkeys d) = false -> apart d k) by (intros Raw d k N J; apply mem_In in J; congruence).
  split; [|split; [|repeat split; vm_compute; reflexivity]].
  - intros r I. destruct I as [<-|[<-|[<-|[<-|[]]]]]; (split; [exact Logic.I|]); (split; [apply AP; reflexivity|]).
    + exists $"Year". split; [cbn; tauto|]. right. exists $"2004". split; [reflexivity|]. apply (ss_year 2004).
    + left. exists $"Degree date". split; [cbn; tauto|]. right. exists [$"2001"]. split; [reflexivity|]. apply ps_text. cbn; tauto.
    + exists $"Year". split; [cbn; tauto|]. right. exists $"1998". split; [reflexivity|]. apply (ss_year 1998).
    + left. exists $"Degree date". split; [cbn; tauto|]. right. exists [$"1999"]. split; [reflexivity|]. apply ps_text. cbn; tauto.
  - assert (NP : forall s, mem 44%N s = false -> no_part $", " s).
    { intros s M a b Q. assert (J : In 44%N s) by (rewrite Q; apply in_or_app; right; left; reflexivity). apply mem_In in J. congruence. }
    intros r I. destruct I as [<-|[<-|[<-|[<-|[]]]]]; (split; [exact Logic.I|]); (split; [apply AP; reflexivity|]).
    + exists $"Authors". split; [cbn; tauto|]. right. exists $"Roe K, Doe J". split; [reflexivity|]. apply (ss_authors [$"Roe K"; $"Doe J"]); [discriminate|]. intros s J. apply NP. destruct J as [<-|[<-|[]]]; reflexivity.
    + left. exists $"Author". split; [cbn; tauto|]. right. exists [$"Doe J"]. split; [reflexivity|]. apply ps_text. cbn; tauto.
    + exists $"Authors". split; [cbn; tauto|]. right. exists $"Doe J". split; [reflexivity|]. apply (ss_authors [$"Doe J"]); [discriminate|]. intros s J. apply NP. destruct J as [<-|[]]; reflexivity.
    + left. exists $"Author". split; [cbn; tauto|]. right. exists [$"Doe J"]. split; [reflexivity|]. apply ps_text. cbn; tauto.
Qed.
Print Assumptions C105_split.
Print Assumptions C105_strict.
Print Assumptions C105_theses_refuted.
Print Assumptions C105_series_partial.
Print Assumptions C105_mixed_refuted.
