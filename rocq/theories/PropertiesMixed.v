(** C101: series, tables and networks of collections with records of several databases. *)
From Coq Require Import List ZArith Lia Bool Arith Permutation.
From Coq Require Import String.
From Verif Require Import Base PyStr CitationModel CitationSpec TagNames RecordModel RecordView GrantModel ValuesModel PropertiesCitation PropertiesValues WosModel WosProofs PropertiesWos
  WosNetModel WosNetSpec WosNetProofs PropertiesWosNet WosTagsModel WosTagsSpec WosTagsProofs Nx NxFacts SeriesModel SeriesSpec RecordViewFacts NetSpec NetFacts MixedModel MixedSpec MixedProofs.
From Verif Require PropertiesSeries PropertiesNet NetModel PropertiesWosTags MedlineModel ScopusModel ProQuestModel.
Import ListNotations.
Local Open Scope list_scope.

Section Tags.
Variables upper lower title : str -> str.
Variable all_digits : str -> bool.
Variables word num : char -> bool.
Variable int_of : str -> Z.
Variable own : list str -> res fvalue.
Variable spoilt : fvalue -> bool.
Variable mend : fvalue -> option fvalue -> option fvalue -> option fvalue -> res fvalue.
Notation counted := (counted_as upper title).
Notation lookup := (any_lookup upper lower title all_digits word num int_of own spoilt mend).
Notation year := (any_year upper lower title all_digits word num int_of own spoilt mend).
Notation ranked := (any_ranked upper lower title all_digits word num int_of own spoilt mend).
Notation series := (any_times upper lower title all_digits word num int_of own spoilt mend).
Notation table := (any_cooccurrence upper lower title all_digits word num int_of own spoilt mend).
Notation shown_names := (any_shown upper lower title all_digits word num int_of own spoilt mend).
Notation every := (any_every upper lower title all_digits word num int_of own spoilt mend).
Notation levels := (any_levels upper lower title all_digits word num int_of own spoilt mend).
Notation two_mode := (any_two_mode upper lower title all_digits word num int_of own spoilt mend).
Notation item := (any_item upper lower title all_digits word num int_of own spoilt mend).
(** the records of WOS and Medline are of some files; of the others any fields will do *)
Definition read_from_file (r : anyrec) : Prop :=
  match r with
  | AnyWos r => usable_record r
  | AnyMedline r => exists alpha content recs err, MedlineModel.medline_file alpha content = Ok (recs, err) /\ In r recs
  | _ => True
  end.
(** [vals r] is what the fields of [r] tell under the key *)
Definition told (key : str) (rs : list anyrec) (vals : anyrec -> list thing) : Prop :=
  forall r, In r rs -> read_from_file r /\ any_tells upper lower key r (vals r).
(** how often [a] is told *)
Definition times (vals : anyrec -> list thing) (rs : list anyrec) (a : atom) : nat := total (fun r => count a (map counted (vals r))) rs.

Lemma told_reads r key ts : read_from_file r -> any_tells upper lower key r ts ->
  (item r key = Raise KeyError /\ ts = [] /\ any_get upper lower title all_digits word num int_of own spoilt mend r key = Ok None) \/
  (exists v, item r key = Ok v /\ good_value upper title v ts /\ (ts = [] -> key <> $"year") /\ any_get upper lower title all_digits word num int_of own spoilt mend r key = Ok (Some v)).
Proof.
  intros U T. assert (R : reads upper lower title all_digits word num int_of own spoilt mend r key ts).
  { destruct r as [r|r|r|r].
    - apply wos_reads; [apply usable_plain, U|exact T].
    - destruct U as (alpha & content & recs & err & E & I). apply medline_reads; [eapply file_short; eassumption|exact T].
    - apply scopus_reads, T.
    - apply proquest_reads, T. }
  unfold any_get. destruct R as [(E & N)|(v & E & G & NY)]; rewrite E; [left; auto|right; eauto 6].
Qed.
Lemma told_lookup key rs vals : told key rs vals -> readable lookup key rs /\ (forall r, In r rs -> values_of lookup key r = map counted (vals r) /\ shown lookup ANone key r = map counted (vals r)).
Proof.
  intros T. split.
  - intros r e I E. destruct (T r I) as (U & S). destruct (told_reads r key (vals r) U S) as [(Q & _)|(v & Q & _)]; unfold any_lookup in E; rewrite Q in E; cbn [bind] in E; [congruence|discriminate].
  - intros r I. destruct (T r I) as (U & S). unfold values_of, shown, any_lookup. destruct (told_reads r key (vals r) U S) as [(Q & N & _)|(v & Q & (G & _ & K) & _)]; rewrite Q; cbn [bind].
    + rewrite N. auto.
    + split; [exact G|]. destruct v; try contradiction K; cbn [atoms_of entries] in *; exact G.
Qed.
Lemma told_times key rs vals a : told key rs vals -> occurrences lookup key rs a = times vals rs a.
Proof. intros T. unfold occurrences, times. apply total_ext. intros r I. rewrite (proj1 (proj2 (told_lookup _ _ _ T) r I)). reflexivity. Qed.
Lemma told_stream key rs vals : told key rs vals -> stream lookup key rs = flat_map (fun r => map counted (vals r)) rs.
Proof. intros T. unfold stream. pose proof (proj2 (told_lookup _ _ _ T)) as H. clear T. induction rs as [|r rs IH]; [reflexivity|]. cbn [flat_map]. rewrite (proj1 (H r (or_introl eq_refl))), IH; [reflexivity|]. intros; apply H; right; assumption. Qed.

(** C101: rankedSeries lists each thing that the fields of the records tell, once and with the number of times that they do, sorted, things of the same number in the order
    they are first met, ... *)
Theorem C101_ranked : forall key rs vals greatest limit, told key rs vals ->
  exists l, ranked key true false greatest false limit rs = Ok (SCounts l) /\ NoDup (map fst l) /\
    (forall a n, In (a, n) l <-> permitted limit a /\ n = times vals rs a /\ 0 < n) /\
    (forall x y, before l x y -> if greatest then snd y <= snd x else snd x <= snd y) /\
    (forall a b n, before l (a, n) (b, n) -> before (first_seen (flat_map (fun r => map counted (vals r)) rs)) a b).
Proof.
  intros key rs vals greatest limit T. destruct (PropertiesSeries.C11_counts _ _ _ lookup key greatest limit rs (proj1 (told_lookup _ _ _ T))) as (l & A & N & I & S & B).
  exists l. split; [exact A|]. split; [exact N|]. split; [intros a n; rewrite I, (told_times _ _ _ a T); reflexivity|]. split; [exact S|]. rewrite <- (told_stream _ _ _ T). exact B.
Qed.
(** ... or with its rank; ... *)
Theorem C101_ranks : forall key rs vals greatest limit, told key rs vals ->
  exists l, ranked key false true greatest false limit rs = Ok (SRanks l) /\ NoDup (map fst l) /\
    (forall a k, In (a, k) l <-> permitted limit a /\ 0 < times vals rs a /\ k = dense_rank (map (times vals rs) (map fst l)) (times vals rs a)) /\
    (forall x y, before l x y -> if greatest then times vals rs (fst y) <= times vals rs (fst x) else times vals rs (fst x) <= times vals rs (fst y)).
Proof.
  intros key rs vals greatest limit T. destruct (PropertiesSeries.C11_ranks _ _ _ lookup key greatest limit rs (proj1 (told_lookup _ _ _ T))) as (l & A & N & I & S).
  assert (M : forall m, map (occurrences lookup key rs) m = map (times vals rs) m) by (intros m; apply map_ext; intros a; apply (told_times _ _ _ a T)).
  exists l. split; [exact A|]. split; [exact N|]. split.
  - intros a k. rewrite I, M, (told_times _ _ _ a T). reflexivity.
  - intros x y B. specialize (S x y B). rewrite !(told_times _ _ _ _ T) in S. exact S.
Qed.
Lemma told_less key rs vals p : told key rs vals -> told key (filter p rs) vals.
Proof. intros T r I. apply filter_In in I. apply T, I. Qed.
(** the year that a record tells *)
Definition year_told (years : anyrec -> list thing) (y : Z) (r : anyrec) : bool := match years r with [Number z] => Z.eqb z y | _ => false end.
Definition years_told (rs : list anyrec) (years : anyrec -> list thing) : Prop :=
  told $"year" rs years /\ forall r, In r rs -> years r = [] \/ exists y, years r = [Number y].
Lemma year_of rs years r : years_told rs years -> In r rs -> (years r = [] /\ year r = Raise KeyError) \/ exists y, years r = [Number y] /\ year r = Ok y.
Proof.
  intros (T & O) I. destruct (T r I) as (U & S). unfold any_year. destruct (told_reads r $"year" (years r) U S) as [(E & N & _)|(v & E & (G & _ & K) & NY & _)]; [rewrite E; cbn [bind]; left; auto|].
  right. destruct (O r I) as [N|(y & Y)]; [exfalso; exact (NY N eq_refl)|].
  exists y. split; [exact Y|]. rewrite E. cbn [bind]. rewrite Y in G. destruct v as [s|l|z|l|l|l|l|l|l]; try contradiction K; cbn [atoms_of entries map counted_as] in G; try discriminate G.
  - destruct l; discriminate G.
  - injection G as ->. reflexivity.
  - destruct l; discriminate G.
Qed.
(** ... timeSeries has each of them once for each year in which it is told, with the number of times in that year, sorted by the years (records whose years are
    texts, as those of ProQuest are, left out); ... *)
Theorem C101_years : forall key rs vals years greatest limit, told key rs vals -> years_told rs years ->
  exists es ys ns l,
    series key true greatest true limit rs = Ok (TPandas es ys ns) /\
    series key true greatest false limit rs = Ok (TYears l) /\
    series key false greatest false limit rs = Ok (TValues es) /\
    es = map fst l /\ ys = map snd l /\ ns = map (fun ay => times vals (filter (year_told years (snd ay)) rs) (fst ay)) l /\ NoDup l /\
    (forall a y, In (a, y) l <-> permitted limit a /\ 0 < times vals (filter (year_told years y) rs) a) /\
    (forall x y, before l x y -> if greatest then (snd y <= snd x)%Z else (snd x <= snd y)%Z).
Proof.
  intros key rs vals years greatest limit T TY.
  assert (YR : years_readable year rs). { intros r e I E. destruct (year_of rs years r TY I) as [(_ & Q)|(z & _ & Q)]; congruence. }
  destruct (PropertiesSeries.C12_by_year _ _ _ lookup year key greatest limit rs YR (proj1 (told_lookup _ _ _ (told_less _ _ _ _ T)))) as (es & ys & ns & l & A1 & A2 & A3 & E1 & E2 & E3 & N & I & S & _).
  assert (O : forall y a, occurrences_in lookup year key rs y a = times vals (filter (year_told years y) rs) a).
  { intros y a. unfold occurrences_in. rewrite (PropertiesWosTags.filter_same _ (year_told years y) rs); [apply told_times, told_less, T|].
    intros r J. unfold in_year, year_told. destruct (year_of rs years r TY J) as [(A & B)|(z & A & B)]; rewrite A, B; reflexivity. }
  exists es, ys, ns, l. repeat (split; [assumption|]). split; [rewrite E3; apply map_ext; intros [a y]; apply O|]. split; [exact N|]. split; [intros a y; rewrite I, O; reflexivity|exact S].
Qed.
(** ... cooccurrenceCounts has, for two things told under two keys, the number of pairs of them in the same record; ... *)
Theorem C101_cooccurrence : forall key keys rs (vals : str -> anyrec -> list thing), (forall k, In k (key :: keys) -> told k rs (vals k)) ->
  exists d, table key keys rs = Ok d /\
    (forall a, In a (dkeys d) <-> exists r t, In r rs /\ In t (vals key r) /\ a = counted t) /\
    forall a inner, dget a d = Some inner ->
      forall b n, dget b inner = Some n <-> n = total (fun k => total (fun r => count a (map counted (vals key r)) * count b (map counted (vals k r))) rs) keys /\ 0 < n.
Proof.
  intros key keys rs vals T. destruct (PropertiesSeries.C13_cooccurrence _ _ _ lookup ANone key keys rs) as (d & A & K & C); [intros k I; apply (told_lookup _ _ _ (T k I))|].
  assert (SH : forall k r, In k (key :: keys) -> In r rs -> shown lookup ANone k r = map counted (vals k r)) by (intros k r I J; apply (proj2 (told_lookup _ _ _ (T k I)) r J)).
  exists d. split; [exact A|]. split.
  - intros a. rewrite K. split.
    + intros (r & I & J). rewrite SH in J by (auto; left; reflexivity). apply in_map_iff in J. destruct J as (t & <- & J). eauto 6.
    + intros (r & t & I & J & ->). exists r. split; [exact I|]. rewrite SH by (auto; left; reflexivity). apply in_map, J.
  - intros a inner D b n. rewrite (C a inner D b n). assert (E : total (fun t => together lookup ANone rs key t a b) keys = total (fun k => total (fun r => count a (map counted (vals key r)) * count b (map counted (vals k r))) rs) keys); [|rewrite E; reflexivity].
    apply total_ext. intros k I. unfold together. apply total_ext. intros r J. rewrite !SH by (auto; first [left; reflexivity|right; exact I]). reflexivity.
Qed.
Definition knows (keys : list str) (vals : str -> anyrec -> list thing) (r : anyrec) (d : dict str (fval str)) : Prop :=
  forall k, In k keys -> match dget k d with Some f => entries f | None => [] end = map shown_as (vals k r).
Lemma shown_knows keys vals r : (forall k, In k keys -> read_from_file r /\ any_tells upper lower k r (vals k r)) -> exists d, shown_names keys r = Ok d /\ knows keys vals r d /\ forall k, dget k d <> None -> In k keys.
Proof.
  induction keys as [|k ks IH]; intros H; [exists []; split; [reflexivity|]; split; [intros k []|intros k; cbn; congruence]|].
  destruct (H k (or_introl eq_refl)) as (U & S). destruct IH as (d & E & K & O); [intros; apply H; right; assumption|]. cbn [any_shown].
  destruct (told_reads r k (vals k r) U S) as [(_ & N & ->)|(v & _ & (_ & G & _) & _ & ->)]; cbn [bind]; rewrite E; cbn [bind].
  - exists d. split; [reflexivity|]. split; [|intros x D; right; apply O, D]. intros x [<-|I]; [|apply K, I]. rewrite N. destruct (dget k d) as [f|] eqn:D; [|reflexivity].
    assert (J : In k ks) by (apply O; congruence). specialize (K k J). rewrite D, N in K. exact K.
  - exists ((k, names_of v) :: d). split; [reflexivity|]. split.
    + intros x I. cbn [dget]. destruct (eqb_spec x k) as [->|Q]; [exact G|]. apply K. destruct I as [->|I]; [congruence|exact I].
    + intros x. cbn [dget]. destruct (eqb_spec x k) as [->|Q]; [left; reflexivity|]. intros D. right. apply O, D.
Qed.
Lemma every_knows keys vals rs : (forall k, In k keys -> told k rs (vals k)) -> exists ds, every keys rs = Ok ds /\ Forall2 (knows keys vals) rs ds.
Proof.
  induction rs as [|r rs IH]; intros T; [exists []; split; [reflexivity|constructor]|]. destruct IH as (ds & E & F); [intros k I x J; apply (T k I); right; exact J|].
  destruct (shown_knows keys vals r) as (d & D & K & _); [intros k I; apply (T k I); left; reflexivity|]. exists (d :: ds). cbn [any_every]. rewrite D. cbn [bind]. rewrite E. split; [reflexivity|constructor; assumption].
Qed.
Lemma knows_under keys vals r d k : knows keys vals r d -> In k keys -> values_under (fun (d : dict str (fval str)) k => dget k d) (fun _ => false) k d = map shown_as (vals k r).
Proof. intros K I. rewrite <- (K k I). unfold values_under. destruct (dget k d) as [[v|l]|]; reflexivity. Qed.
(** ... networkOneMode and networkMultiLevel have a node for each thing, named as it is shown, with the number of times it is told, and an edge for each two of
    them told by the same record, with the number of such pairs; ... *)
Theorem C101_levels : forall keys rs (vals : str -> anyrec -> list thing) nodeCount edgeWeight, (forall k, In k keys -> told k rs (vals k)) ->
  let names := fun r => map shown_as (flat_map (fun k => vals k r) keys) in
  exists g, levels keys nodeCount edgeWeight rs = Ok g /\ WF g /\ gdir g = false /\
    (forall n, nd g n = node_value nodeCount (occurs names rs n)) /\
    (forall u v, ed g u v = edge_value edgeWeight (total (fun r => pairs_within u v (names r)) rs)).
Proof.
  intros keys rs vals nc w T names. destruct (every_knows keys vals rs T) as (ds & E & F). unfold any_levels. rewrite E. cbn [bind].
  destruct (PropertiesNet.C14_counts_and_weights _ _ _ _ (fun (d : dict str (fval str)) k => dget k d) (fun s : str => s) keys nc w ds) as (g & G & W & D & N & X). exists g. split; [exact G|]. split; [exact W|]. split; [exact D|].
  assert (Q : forall r d, knows keys vals r d -> map (fun s : str => s) (flat_map (fun t => values_under (fun (d : dict str (fval str)) k => dget k d) (fun _ => false) t d) keys) = names r).
  { intros r d K. rewrite map_id. unfold names. rewrite PropertiesWosTags.map_of_flat_map. apply PropertiesWosTags.flat_map_in. intros k I. apply (knows_under keys vals r d k K I). }
  split.
  - intros n. rewrite N. f_equal. unfold occurs. symmetry. apply (total_F2 (knows keys vals) _ _ _ _ F). intros r d _ K. cbv beta. rewrite (Q r d K). reflexivity.
  - intros u v. rewrite X. f_equal. symmetry. apply (total_F2 (knows keys vals) _ _ _ _ F). intros r d _ K. cbv beta. rewrite (Q r d K). reflexivity.
Qed.
(** ... networkTwoMode has an edge from each thing told under one key to each told under the other by the same record, with the number of such pairs, and its nodes
    have as their type a key under which they are told. *)
Theorem C101_two_mode : forall key1 key2 rs (vals : str -> anyrec -> list thing) directed recordType nodeCount edgeWeight, told key1 rs (vals key1) -> told key2 rs (vals key2) ->
  let names := fun k r => map shown_as (vals k r) in
  exists g, two_mode key1 key2 directed recordType nodeCount edgeWeight rs = Ok g /\ WF g /\ gdir g = directed /\
    (forall n, is_node g n <-> exists r, In r rs /\ (In n (names key1 r) \/ In n (names key2 r))) /\
    (forall u v, ed g u v = edge_value edgeWeight
       (total (fun r => if directed then pairs_from_to u v (names key1 r) (names key2 r) else pairs_between u v (names key1 r) (names key2 r)) rs)) /\
    (recordType = true -> forall n, is_node g n -> exists t, node_attr g n $"type" = Some (VStr t) /\
       ((t = key1 /\ exists r, In r rs /\ In n (names key1 r)) \/ (t = key2 /\ exists r, In r rs /\ In n (names key2 r)))).
Proof.
  intros key1 key2 rs vals directed rt nc w T1 T2 names. destruct (every_knows [key1; key2] vals rs) as (ds & E & F); [intros k [<-|[<-|[]]]; assumption|]. unfold any_two_mode. rewrite E. cbn [bind].
  destruct (PropertiesNet.C15_edges _ _ _ _ (fun (d : dict str (fval str)) k => dget k d) (fun s : str => s) (fun s : str => s) (fun _ => false) key1 key2 directed rt nc w ds) as (g & G & W & D & N & X & _ & _ & TY).
  exists g. split; [exact G|]. split; [exact W|]. split; [exact D|].
  assert (Q : forall r d k, knows [key1; key2] vals r d -> k = key1 \/ k = key2 -> map (fun s : str => s) (values_under (fun (d : dict str (fval str)) k => dget k d) (fun _ => false) k d) = names k r).
  { intros r d k K I. rewrite map_id. apply (knows_under [key1; key2] vals r d k K). destruct I as [->| ->]; [left|right; left]; reflexivity. }
  assert (NM : forall n k, k = key1 \/ k = key2 -> (exists d, In d ds /\ In n (map (fun s : str => s) (values_under (fun (d : dict str (fval str)) k => dget k d) (fun _ => false) k d))) <-> exists r, In r rs /\ In n (names k r)).
  { intros n k I. split; intros (x & J & H).
    - destruct (F2_in_r _ _ _ _ F J) as (r & J' & K). exists r. split; [exact J'|]. rewrite (Q r x k K I) in H. exact H.
    - destruct (F2_in_l _ _ _ _ F J) as (d & J' & K). exists d. split; [exact J'|]. rewrite (Q x d k K I). exact H. }
  split; [|split].
  - intros n. rewrite N. split.
    + intros (d & J & [H|H]).
      * destruct (proj1 (NM n key1 (or_introl eq_refl)) (ex_intro _ d (conj J H))) as (r & A & B). eauto.
      * destruct (proj1 (NM n key2 (or_intror eq_refl)) (ex_intro _ d (conj J H))) as (r & A & B). eauto.
    + intros (r & J & [H|H]).
      * destruct (proj2 (NM n key1 (or_introl eq_refl)) (ex_intro _ r (conj J H))) as (d & A & B). eauto.
      * destruct (proj2 (NM n key2 (or_intror eq_refl)) (ex_intro _ r (conj J H))) as (d & A & B). eauto.
  - intros u v. rewrite X. f_equal. symmetry. apply (total_F2 (knows [key1; key2] vals) _ _ _ _ F). intros r d _ K. cbv beta. rewrite (Q r d key1 K) by auto. rewrite (Q r d key2 K) by auto. reflexivity.
  - intros RT n I. destruct (TY RT n I) as (t & A & B). exists t. split; [exact A|]. destruct B as [(-> & H)|(-> & H)]; [left|right]; (split; [reflexivity|]); apply NM; auto.
Qed.
End Tags.

(** ** A record of each database *)
Definition mix_wos : str := join [nl] [$"FN Thomson"; $"VR 1.0"; $"PT J"; $"AU Doe, J"; $"   Roe, K"; $"TI On things"; $"PY 1999"; $"UT WOS:1"; $"ER"; []; $"EF"].
Definition mix_medline : str := join [nl] [[]; $"PMID- 77"; $"DP  - 1999 Mar"; $"TI  - On cells"; $"AU  - Doe, J"; $"AU  - Poe, B"; []; []].
Definition mix_scopus : ScopusModel.srec := ScopusModel.srec_of [($"EID", $"2"); ($"Authors", $"Roe K, Doe J"); ($"Title", $"On stars"); ($"Year", $"2004")].
Definition mix_proquest : ProQuestModel.prec := ProQuestModel.mkPrec $"PROQUEST:3" [($"Author", [$"Doe, J"]); ($"Title", [$"On things"])] false None.
Definition mix_alpha (c : char) : bool := ((65 <=? c) && (c <=? 90) || (97 <=? c) && (c <=? 122))%N.
Definition mix_word (c : char) : bool := (mix_alpha c || digit09 c || eqb c 95%N)%bool.
Definition mix_own (l : list str) : res fvalue := Raise KeyError.
Definition mix_mend (a : fvalue) (b c d : option fvalue) : res fvalue := Raise KeyError.
Definition mix_up := PropertiesWosTags.ex_up.
Definition mix_id (s : str) : str := s.
Definition mix_of (a b c d : list thing) (r : anyrec) : list thing := match r with AnyWos _ => a | AnyMedline _ => b | AnyScopus _ => c | AnyProQuest _ => d end.
Definition mix_authors := mix_of [Words $"Doe, J"; Words $"Roe, K"] [Words $"Doe, J"; Words $"Poe, B"] [Words $"Roe K"; Words $"Doe J"] [Words $"Doe, J"].
Definition mix_titles := mix_of [Words $"On things"] [Words $"On cells"] [Words $"On stars"] [Words $"On things"].
Definition mix_years := mix_of [Number 1999] [Number 1999] [Number 2004] [].
Notation mixed f := (f mix_up mix_id mix_id (forallb digit09) mix_word digit09 (fun _ => 0%Z) mix_own (fun _ => false) mix_mend).
Example C101_ex : exists w m, wos_parse mix_wos = ([w], None) /\ MedlineModel.medline_file mix_alpha mix_medline = Ok ([m], false) /\
  let rs := [AnyWos w; AnyMedline m; AnyScopus mix_scopus; AnyProQuest mix_proquest] in
  told mix_up mix_id $"authorsShort" rs mix_authors /\ told mix_up mix_id $"title" rs mix_titles /\ years_told mix_up mix_id rs mix_years /\
  mixed any_ranked $"authorsShort" true false true false [] rs = Ok (SCounts [(AText $"Doe, J", 3); (AText $"Roe, K", 1); (AText $"Poe, B", 1); (AText $"Roe K", 1); (AText $"Doe J", 1)]) /\
  mixed any_times $"authorsShort" true true true [AText $"Doe, J"; AText $"Doe J"] rs = Ok (TPandas [AText $"Doe J"; AText $"Doe, J"] [2004%Z; 1999%Z] [1; 2]) /\
  (exists g, mixed any_two_mode $"authorsShort" $"title" false true true true rs = Ok g /\ edge_attr g $"Doe, J" $"On things" $"weight" = Some (VInt 2)).
Proof.
  destruct (wos_parse mix_wos) as [l e] eqn:E. pose proof E as E'. vm_compute in E'. injection E' as <- <-.
  destruct (MedlineModel.medline_file mix_alpha mix_medline) as [[l' e']|] eqn:M; pose proof M as M'; vm_compute in M'; [|discriminate M']. injection M' as <- <-.
  eexists _, _. split; [reflexivity|]. split; [reflexivity|]. cbv zeta. match goal with |- told _ _ _ ?L _ /\ _ => set (rs := L) end.
  assert (U : forall r, In r rs -> read_from_file r).
  { intros r I. destruct I as [<-|[<-|[<-|[<-|[]]]]]; [| |exact Logic.I|exact Logic.I].
    - split; [exists mix_wos; eexists _, _; split; [exact E|split; [left; reflexivity|reflexivity]]|]. split.
      + right. exists 1999%Z. split; [lia|vm_compute; reflexivity].
      + vm_compute. intuition discriminate.
    - eexists mix_alpha, mix_medline, _, _. split; [exact M|left; reflexivity]. }
  assert (AP : forall {Raw} (d : dict str Raw) k, mem k (dkeys d) = false -> apart d k) by (intros Raw d k N J; apply mem_In in J; congruence).
  split; [|split; [|split]].
  - intros r I. split; [apply U, I|]. destruct I as [<-|[<-|[<-|[<-|[]]]]].
    + exists $"AU". split; [right; reflexivity|]. right. split; [vm_compute; discriminate|]. apply says_names. cbn; tauto.
    + split; [apply AP; reflexivity|]. left. exists $"AU". split; [cbn; tauto|]. right. eexists _, _. split; reflexivity.
    + split; [apply AP; reflexivity|]. exists $"Authors". split; [cbn; tauto|]. right. exists $"Roe K, Doe J". split; [reflexivity|].
      apply (ss_authors [$"Roe K"; $"Doe J"]); [discriminate|]. intros s J a b Q. assert (In 44%N s) by (rewrite Q; apply in_or_app; right; left; reflexivity). destruct J as [<-|[<-|[]]]; vm_compute in H; intuition discriminate.
    + split; [apply AP; reflexivity|]. left. exists $"Author". split; [cbn; tauto|]. right. exists [$"Doe, J"]. split; [reflexivity|]. apply ps_text. cbn; tauto.
  - intros r I. split; [apply U, I|]. destruct I as [<-|[<-|[<-|[<-|[]]]]].
    + exists $"TI". split; [right; reflexivity|]. right. split; [vm_compute; discriminate|]. apply (says_text mix_up mix_id $"TI" [$"On things"]). cbn; tauto.
    + split; [apply AP; reflexivity|]. left. exists $"TI". split; [cbn; tauto|]. right. eexists _, _. split; reflexivity.
    + split; [apply AP; reflexivity|]. exists $"Title". split; [cbn; tauto|]. right. exists $"On stars". split; [reflexivity|]. apply ss_text. cbn; tauto.
    + split; [apply AP; reflexivity|]. left. exists $"Title". split; [cbn; tauto|]. right. exists [$"On things"]. split; [reflexivity|]. apply ps_text. cbn; tauto.
  - split; [|intros r I; destruct I as [<-|[<-|[<-|[<-|[]]]]]; [right; eexists; reflexivity..|left; reflexivity]]. intros r I. split; [apply U, I|]. destruct I as [<-|[<-|[<-|[<-|[]]]]].
    + exists $"PY". split; [right; reflexivity|]. right. split; [vm_compute; discriminate|]. apply (says_year mix_up mix_id 1999). lia.
    + split; [apply AP; reflexivity|]. right. left. split; [reflexivity|]. right. exists 1999%Z. eexists _, _. split; [reflexivity|]. split; [|reflexivity]. split; [lia|].
      exists $" Mar". split; [vm_compute; reflexivity|]. right. left. exists $"Mar". reflexivity.
    + split; [apply AP; reflexivity|]. exists $"Year". split; [cbn; tauto|]. right. exists $"2004". split; [reflexivity|]. apply (ss_year 2004).
    + split; [apply AP; reflexivity|]. left. exists $"Degree date". split; [cbn; tauto|]. left. split; reflexivity.
  - clear. subst rs. split; [vm_compute; reflexivity|]. split; [vm_compute; reflexivity|].
    match goal with |- exists g, ?W = _ /\ _ => destruct W as [g|] eqn:G; vm_compute in G; [|discriminate] end. injection G as <-. eexists. split; [reflexivity|]. vm_compute. reflexivity.
Qed.
Print Assumptions C101_ranked.
Print Assumptions C101_ranks.
Print Assumptions C101_years.
Print Assumptions C101_cooccurrence.
Print Assumptions C101_levels.
Print Assumptions C101_two_mode.
