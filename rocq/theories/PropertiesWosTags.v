(** C100: from the lines of a WOS file to series, tables and networks of tags. *)
From Coq Require Import List ZArith Lia Bool Arith Permutation.
From Coq Require Import String.
From Verif Require Import Base PyStr CitationModel CitationSpec TagNames RecordModel RecordView GrantModel ValuesModel PropertiesCitation PropertiesValues WosModel WosProofs PropertiesWos
  WosNetModel WosNetSpec WosNetProofs PropertiesWosNet WosTagsModel WosTagsSpec WosTagsProofs Nx NxFacts SeriesModel SeriesSpec RecordViewFacts NetSpec NetFacts.
From Verif Require PropertiesSeries PropertiesNet NetModel.
Import ListNotations.
Local Open Scope list_scope.

Section Tags.
Variables upper lower title : str -> str.
Variable all_digits : str -> bool.
Notation counted := (counted_as upper title).
Notation lookup := (wos_lookup upper lower title all_digits).
Notation year := (wos_year upper lower title all_digits).
(** the records are of some files, and [vals r] is what the lines of [r] tell under the key *)
Definition told (key : str) (rs : list wrec) (vals : wrec -> list thing) : Prop :=
  forall r, In r rs -> usable_record r /\ tells upper lower key r (vals r).
(** how often [a] is told *)
Definition times (vals : wrec -> list thing) (rs : list wrec) (a : atom) : nat := total (fun r => count a (map counted (vals r))) rs.

Lemma told_lookup key rs vals : told key rs vals -> readable lookup key rs /\ (forall r, In r rs -> values_of lookup key r = map counted (vals r) /\ shown lookup ANone key r = map counted (vals r)).
Proof.
  intros T. split.
  - intros r e I E. destruct (T r I) as (U & S). destruct (item_tells upper lower title all_digits r key (vals r) (usable_plain r U) S) as [(Q & _)|(v & Q & _)]; unfold wos_lookup in E; rewrite Q in E; cbn [bind] in E; [congruence|discriminate].
  - intros r I. destruct (T r I) as (U & S). unfold values_of, shown, wos_lookup. destruct (item_tells upper lower title all_digits r key (vals r) (usable_plain r U) S) as [(Q & N & _)|(v & Q & (G & _ & K) & _)]; rewrite Q; cbn [bind].
    + rewrite N. auto.
    + split; [exact G|]. destruct v; try contradiction K; cbn [atoms_of entries] in *; exact G.
Qed.
Lemma told_times key rs vals a : told key rs vals -> occurrences lookup key rs a = times vals rs a.
Proof. intros T. unfold occurrences, times. apply total_ext. intros r I. rewrite (proj1 (proj2 (told_lookup _ _ _ T) r I)). reflexivity. Qed.
Lemma told_stream key rs vals : told key rs vals -> stream lookup key rs = flat_map (fun r => map counted (vals r)) rs.
Proof. intros T. unfold stream. pose proof (proj2 (told_lookup _ _ _ T)) as H. clear T. induction rs as [|r rs IH]; [reflexivity|]. cbn [flat_map]. rewrite (proj1 (H r (or_introl eq_refl))), IH; [reflexivity|]. intros; apply H; right; assumption. Qed.

(** C100: rankedSeries lists each thing that the lines tell, once and with the number of times that they do, sorted, things of the same number in the order
    they are first met, ... *)
Theorem C100_ranked : forall key rs vals greatest limit, told key rs vals ->
  exists l, wos_ranked upper lower title all_digits key true false greatest false limit rs = Ok (SCounts l) /\ NoDup (map fst l) /\
    (forall a n, In (a, n) l <-> permitted limit a /\ n = times vals rs a /\ 0 < n) /\
    (forall x y, before l x y -> if greatest then snd y <= snd x else snd x <= snd y) /\
    (forall a b n, before l (a, n) (b, n) -> before (first_seen (flat_map (fun r => map counted (vals r)) rs)) a b).
Proof.
  intros key rs vals greatest limit T. destruct (PropertiesSeries.C11_counts _ _ _ lookup key greatest limit rs (proj1 (told_lookup _ _ _ T))) as (l & A & N & I & S & B).
  exists l. split; [exact A|]. split; [exact N|]. split; [intros a n; rewrite I, (told_times _ _ _ a T); reflexivity|]. split; [exact S|]. rewrite <- (told_stream _ _ _ T). exact B.
Qed.
(** ... or with its rank; ... *)
Theorem C100_ranks : forall key rs vals greatest limit, told key rs vals ->
  exists l, wos_ranked upper lower title all_digits key false true greatest false limit rs = Ok (SRanks l) /\ NoDup (map fst l) /\
    (forall a k, In (a, k) l <-> permitted limit a /\ 0 < times vals rs a /\ k = dense_rank (map (times vals rs) (map fst l)) (times vals rs a)) /\
    (forall x y, before l x y -> if greatest then times vals rs (fst y) <= times vals rs (fst x) else times vals rs (fst x) <= times vals rs (fst y)).
Proof.
  intros key rs vals greatest limit T. destruct (PropertiesSeries.C11_ranks _ _ _ lookup key greatest limit rs (proj1 (told_lookup _ _ _ T))) as (l & A & N & I & S).
  assert (M : forall m, map (occurrences lookup key rs) m = map (times vals rs) m) by (intros m; apply map_ext; intros a; apply (told_times _ _ _ a T)).
  exists l. split; [exact A|]. split; [exact N|]. split.
  - intros a k. rewrite I, M, (told_times _ _ _ a T). reflexivity.
  - intros x y B. specialize (S x y B). rewrite !(told_times _ _ _ _ T) in S. exact S.
Qed.
Lemma dec_inj y z : dec_Z y = dec_Z z -> y = z.
Proof. intros E. pose proof (DecFacts.int_of_str y) as A. rewrite E, DecFacts.int_of_str in A. congruence. Qed.
Lemma year_same r y : usable_record r -> in_year year y r = of_year y r.
Proof.
  intros U. pose proof (usable_plain r U) as P. destruct U as (_ & Y & _). unfold in_year, of_year. destruct (year_of_lines upper lower title all_digits r P Y) as [(N & ->)|(z & B & E & ->)].
  - unfold first_line. rewrite N. cbn [hd]. destruct (dec_Z y) as [|c s] eqn:D; [|reflexivity]. exfalso. pose proof (DecFacts.int_of_str y) as A. rewrite D in A. discriminate A.
  - rewrite E. destruct (Z.eqb_spec z y) as [->|Q]; [rewrite eqb_refl; reflexivity|]. symmetry. apply neq_eqb. intros X. apply Q, dec_inj, X.
Qed.
Lemma has_lines r : usable_record r -> has_year year r = negb (eqb (lines_of $"PY" r) []).
Proof.
  intros U. pose proof (usable_plain r U) as P. destruct U as (_ & Y & _). unfold has_year. destruct (year_of_lines upper lower title all_digits r P Y) as [(N & ->)|(z & B & E & ->)].
  - rewrite N. reflexivity.
  - destruct (eqb_spec (lines_of $"PY" r) []) as [N|N]; [|reflexivity]. exfalso. unfold first_line in E. rewrite N in E. destruct (dec_some _ B) as (c & s & Q). rewrite Q in E. discriminate E.
Qed.
Lemma filter_same {A} (p q : A -> bool) l : (forall x, In x l -> p x = q x) -> filter p l = filter q l.
Proof. induction l as [|x l IH]; intros H; [reflexivity|]. cbn [filter]. rewrite (H x (or_introl eq_refl)), IH; [reflexivity|]. intros; apply H; right; assumption. Qed.
Lemma told_less key rs vals p : told key rs vals -> told key (filter p rs) vals.
Proof. intros T r I. apply filter_In in I. apply T, I. Qed.
(** ... timeSeries has each of them once for each year in which it is told, with the number of times in that year, sorted by the years; ... *)
Theorem C100_years : forall key rs vals greatest limit, told key rs vals ->
  exists es ys ns l,
    wos_times upper lower title all_digits key true greatest true limit rs = Ok (TPandas es ys ns) /\
    wos_times upper lower title all_digits key true greatest false limit rs = Ok (TYears l) /\
    wos_times upper lower title all_digits key false greatest false limit rs = Ok (TValues es) /\
    es = map fst l /\ ys = map snd l /\ ns = map (fun ay => times vals (filter (of_year (snd ay)) rs) (fst ay)) l /\ NoDup l /\
    (forall a y, In (a, y) l <-> permitted limit a /\ 0 < times vals (filter (of_year y) rs) a) /\
    (forall x y, before l x y -> if greatest then (snd y <= snd x)%Z else (snd x <= snd y)%Z).
Proof.
  intros key rs vals greatest limit T.
  assert (YR : years_readable year rs). { intros r e I E. destruct (T r I) as (U & _). pose proof (usable_plain r U) as P. destruct U as (_ & Y & _). destruct (year_of_lines upper lower title all_digits r P Y) as [(_ & Q)|(z & _ & _ & Q)]; congruence. }
  destruct (PropertiesSeries.C12_by_year _ _ _ lookup year key greatest limit rs YR (proj1 (told_lookup _ _ _ (told_less _ _ _ _ T)))) as (es & ys & ns & l & A1 & A2 & A3 & E1 & E2 & E3 & N & I & S & _).
  assert (O : forall y a, occurrences_in lookup year key rs y a = times vals (filter (of_year y) rs) a).
  { intros y a. unfold occurrences_in. rewrite (filter_same _ (of_year y) rs) by (intros r J; apply year_same, T, J). apply told_times, told_less, T. }
  exists es, ys, ns, l. repeat (split; [assumption|]). split; [rewrite E3; apply map_ext; intros [a y]; apply O|]. split; [exact N|]. split; [intros a y; rewrite I, O; reflexivity|exact S].
Qed.
(** ... cooccurrenceCounts has, for two things told under two keys, the number of pairs of them in the same record; ... *)
Theorem C100_cooccurrence : forall key keys rs (vals : str -> wrec -> list thing), (forall k, In k (key :: keys) -> told k rs (vals k)) ->
  exists d, wos_cooccurrence upper lower title all_digits key keys rs = Ok d /\
    (forall a, In a (dkeys d) <-> exists r t, In r rs /\ In t (vals key r) /\ a = counted t) /\
    forall a inner, dget a d = Some inner ->
      forall b n, dget b inner = Some n <-> n = total (fun k => total (fun r => count a (map counted (vals key r)) * count b (map counted (vals k r))) rs) keys /\ 0 < n.
Proof.
  intros key keys rs vals T. destruct (PropertiesSeries.C13_cooccurrence _ _ _ lookup ANone key keys rs) as (d & A & K & C); [intros k I; apply (told_lookup _ _ _ (T k I))|].
  assert (SH : forall k r, In k (key :: keys) -> In r rs -> shown lookup ANone k r = map counted (vals k r)) by (intros k r I J; apply (proj2 (told_lookup _ _ _ (T k I)) r J)).
  exists d. split; [exact A|]. split.
  - intros a. rewrite K. split.
    + intros (r & I & J). rewrite SH in J by (auto; left; reflexivity). apply in_map_iff in J. destruct J as (t & <- & J). eauto 6.
    + intros (r & t & I & J & ->). exists r. split; [exact I|]. rewrite SH by (auto; left; reflexivity). apply in_map, J.
  - intros a inner D b n. rewrite (C a inner D b n). assert (E : total (fun t => together lookup ANone rs key t a b) keys = total (fun k => total (fun r => count a (map counted (vals key r)) * count b (map counted (vals k r))) rs) keys); [|rewrite E; reflexivity].
    apply total_ext. intros k I. unfold together. apply total_ext. intros r J. rewrite !SH by (auto; first [left; reflexivity|right; exact I]). reflexivity.
Qed.
Definition knows (keys : list str) (vals : str -> wrec -> list thing) (r : wrec) (d : dict str (fval str)) : Prop :=
  forall k, In k keys -> match dget k d with Some f => entries f | None => [] end = map shown_as (vals k r).
Lemma shown_knows keys vals r : (forall k, In k keys -> usable_record r /\ tells upper lower k r (vals k r)) -> exists d, wos_shown upper lower title all_digits keys r = Ok d /\ knows keys vals r d /\ forall k, dget k d <> None -> In k keys.
Proof.
  induction keys as [|k ks IH]; intros H; [exists []; split; [reflexivity|]; split; [intros k []|intros k; cbn; congruence]|].
  destruct (H k (or_introl eq_refl)) as (U & S). destruct IH as (d & E & K & O); [intros; apply H; right; assumption|]. cbn [wos_shown].
  destruct (item_tells upper lower title all_digits r k (vals k r) (usable_plain r U) S) as [(_ & N & ->)|(v & _ & (_ & G & _) & ->)]; cbn [bind]; rewrite E; cbn [bind].
  - exists d. split; [reflexivity|]. split; [|intros x D; right; apply O, D]. intros x [<-|I]; [|apply K, I]. rewrite N. destruct (dget k d) as [f|] eqn:D; [|reflexivity].
    assert (J : In k ks) by (apply O; congruence). specialize (K k J). rewrite D, N in K. exact K.
  - exists ((k, names_of v) :: d). split; [reflexivity|]. split.
    + intros x I. cbn [dget]. destruct (eqb_spec x k) as [->|Q]; [exact G|]. apply K. destruct I as [->|I]; [congruence|exact I].
    + intros x. cbn [dget]. destruct (eqb_spec x k) as [->|Q]; [left; reflexivity|]. intros D. right. apply O, D.
Qed.
Lemma every_knows keys vals rs : (forall k, In k keys -> told k rs (vals k)) -> exists ds, wos_every upper lower title all_digits keys rs = Ok ds /\ Forall2 (knows keys vals) rs ds.
Proof.
  induction rs as [|r rs IH]; intros T; [exists []; split; [reflexivity|constructor]|]. destruct IH as (ds & E & F); [intros k I x J; apply (T k I); right; exact J|].
  destruct (shown_knows keys vals r) as (d & D & K & _); [intros k I; apply (T k I); left; reflexivity|]. exists (d :: ds). cbn [wos_every]. rewrite D. cbn [bind]. rewrite E. split; [reflexivity|constructor; assumption].
Qed.
Lemma knows_under keys vals r d k : knows keys vals r d -> In k keys -> values_under (fun (d : dict str (fval str)) k => dget k d) (fun _ => false) k d = map shown_as (vals k r).
Proof. intros K I. rewrite <- (K k I). unfold values_under. destruct (dget k d) as [[v|l]|]; reflexivity. Qed.
Lemma flat_map_in {A B} (f g : A -> list B) l : (forall x, In x l -> f x = g x) -> flat_map f l = flat_map g l.
Proof. induction l as [|x l IH]; intros H; [reflexivity|]. cbn [flat_map]. rewrite (H x (or_introl eq_refl)), IH; [reflexivity|]. intros; apply H; right; assumption. Qed.
Lemma map_of_flat_map {A B C} (f : B -> C) (g : A -> list B) l : map f (flat_map g l) = flat_map (fun x => map f (g x)) l.
Proof. induction l as [|x l IH]; [reflexivity|]. cbn [flat_map]. rewrite map_app, IH. reflexivity. Qed.
(** ... networkOneMode and networkMultiLevel have a node for each thing, named as it is shown, with the number of times it is told, and an edge for each two of
    them told by the same record, with the number of such pairs; ... *)
Theorem C100_levels : forall keys rs (vals : str -> wrec -> list thing) nodeCount edgeWeight, (forall k, In k keys -> told k rs (vals k)) ->
  let names := fun r => map shown_as (flat_map (fun k => vals k r) keys) in
  exists g, wos_levels upper lower title all_digits keys nodeCount edgeWeight rs = Ok g /\ WF g /\ gdir g = false /\
    (forall n, nd g n = node_value nodeCount (occurs names rs n)) /\
    (forall u v, ed g u v = edge_value edgeWeight (total (fun r => pairs_within u v (names r)) rs)).
Proof.
  intros keys rs vals nc w T names. destruct (every_knows keys vals rs T) as (ds & E & F). unfold wos_levels. rewrite E. cbn [bind].
  destruct (PropertiesNet.C14_counts_and_weights _ _ _ _ (fun (d : dict str (fval str)) k => dget k d) (fun s : str => s) keys nc w ds) as (g & G & W & D & N & X). exists g. split; [exact G|]. split; [exact W|]. split; [exact D|].
  assert (Q : forall r d, knows keys vals r d -> map (fun s : str => s) (flat_map (fun t => values_under (fun (d : dict str (fval str)) k => dget k d) (fun _ => false) t d) keys) = names r).
  { intros r d K. rewrite map_id. unfold names. rewrite map_of_flat_map. apply flat_map_in. intros k I. apply (knows_under keys vals r d k K I). }
  split.
  - intros n. rewrite N. f_equal. unfold occurs. symmetry. apply (total_F2 (knows keys vals) _ _ _ _ F). intros r d _ K. cbv beta. rewrite (Q r d K). reflexivity.
  - intros u v. rewrite X. f_equal. symmetry. apply (total_F2 (knows keys vals) _ _ _ _ F). intros r d _ K. cbv beta. rewrite (Q r d K). reflexivity.
Qed.
(** ... networkTwoMode has an edge from each thing told under one key to each told under the other by the same record, with the number of such pairs, and its nodes
    have as their type a key under which they are told. *)
Theorem C100_two_mode : forall key1 key2 rs (vals : str -> wrec -> list thing) directed recordType nodeCount edgeWeight, told key1 rs (vals key1) -> told key2 rs (vals key2) ->
  let names := fun k r => map shown_as (vals k r) in
  exists g, wos_two_mode upper lower title all_digits key1 key2 directed recordType nodeCount edgeWeight rs = Ok g /\ WF g /\ gdir g = directed /\
    (forall n, is_node g n <-> exists r, In r rs /\ (In n (names key1 r) \/ In n (names key2 r))) /\
    (forall u v, ed g u v = edge_value edgeWeight
       (total (fun r => if directed then pairs_from_to u v (names key1 r) (names key2 r) else pairs_between u v (names key1 r) (names key2 r)) rs)) /\
    (recordType = true -> forall n, is_node g n -> exists t, node_attr g n $"type" = Some (VStr t) /\
       ((t = key1 /\ exists r, In r rs /\ In n (names key1 r)) \/ (t = key2 /\ exists r, In r rs /\ In n (names key2 r)))).
Proof.
  intros key1 key2 rs vals directed rt nc w T1 T2 names. destruct (every_knows [key1; key2] vals rs) as (ds & E & F); [intros k [<-|[<-|[]]]; assumption|]. unfold wos_two_mode. rewrite E. cbn [bind].
  destruct (PropertiesNet.C15_edges _ _ _ _ (fun (d : dict str (fval str)) k => dget k d) (fun s : str => s) (fun s : str => s) (fun _ => false) key1 key2 directed rt nc w ds) as (g & G & W & D & N & X & _ & _ & TY).
  exists g. split; [exact G|]. split; [exact W|]. split; [exact D|].
  assert (Q : forall r d k, knows [key1; key2] vals r d -> k = key1 \/ k = key2 -> map (fun s : str => s) (values_under (fun (d : dict str (fval str)) k => dget k d) (fun _ => false) k d) = names k r).
  { intros r d k K I. rewrite map_id. apply (knows_under [key1; key2] vals r d k K). destruct I as [->| ->]; [left|right; left]; reflexivity. }
  assert (NM : forall n k, k = key1 \/ k = key2 -> (exists d, In d ds /\ In n (map (fun s : str => s) (values_under (fun (d : dict str (fval str)) k => dget k d) (fun _ => false) k d))) <-> exists r, In r rs /\ In n (names k r)).
  { intros n k I. split; intros (x & J & H).
    - destruct (F2_in_r _ _ _ _ F J) as (r & J' & K). exists r. split; [exact J'|]. rewrite (Q r x k K I) in H. exact H.
    - destruct (F2_in_l _ _ _ _ F J) as (d & J' & K). exists d. split; [exact J'|]. rewrite (Q x d k K I). exact H. }
  split; [|split].
  - intros n. rewrite N. split.
    + intros (d & J & [H|H]).
      * destruct (proj1 (NM n key1 (or_introl eq_refl)) (ex_intro _ d (conj J H))) as (r & A & B). eauto.
      * destruct (proj1 (NM n key2 (or_intror eq_refl)) (ex_intro _ d (conj J H))) as (r & A & B). eauto.
    + intros (r & J & [H|H]).
      * destruct (proj2 (NM n key1 (or_introl eq_refl)) (ex_intro _ r (conj J H))) as (d & A & B). eauto.
      * destruct (proj2 (NM n key2 (or_intror eq_refl)) (ex_intro _ r (conj J H))) as (d & A & B). eauto.
  - intros u v. rewrite X. f_equal. symmetry. apply (total_F2 (knows [key1; key2] vals) _ _ _ _ F). intros r d _ K. cbv beta. rewrite (Q r d key1 K) by auto. rewrite (Q r d key2 K) by auto. reflexivity.
  - intros RT n I. destruct (TY RT n I) as (t & A & B). exists t. split; [exact A|]. destruct B as [(-> & H)|(-> & H)]; [left|right]; (split; [reflexivity|]); apply NM; auto.
Qed.
End Tags.

(** ** A file of three records *)
Definition ex_file : str := join [nl] [$"FN Thomson"; $"VR 1.0"; $"PT J"; $"AU Doe, J."; $"   Roe, K"; $"TI On"; $"   things"; $"WC Physics; Applied"; $"   Mathematics"; $"PY 1999"; $"TC 4";
  $"CR Poe B, 1990, SCIENCE, V1"; $"   Zed Q, 1901, MIND"; $"UT WOS:1"; $"ER"; []; $"PT J"; $"AU Roe, K"; $"   Doe, J."; $"WC Physics"; $"PY 2004"; $"TC 4"; $"CR Poe B, 1990, Science"; $"UT WOS:2"; $"ER"; []; $"PT B"; $"AU Loe, M"; $"UT WOS:3"; $"ER"; []; $"EF"].
Definition ex_up (s : str) : str := map (fun c => if ((97 <=? c) && (c <=? 122))%N then (c - 32)%N else c) s.
Definition ex_id (s : str) : str := s.
Definition ex_subjects (r : wrec) : list thing :=
  if eqb (wid r) $"WOS:1" then [Words $"Physics"; Words $"Applied Mathematics"] else if eqb (wid r) $"WOS:2" then [Words $"Physics"] else [].
Example C100_ex : exists r1 r2 r3, wos_parse ex_file = ([r1; r2; r3], None) /\ told ex_up ex_id $"WC" [r1; r2; r3] ex_subjects /\ told ex_up ex_id $"subjects" [r1; r2; r3] ex_subjects /\
  told ex_up ex_id $"CR" [r1; r2; r3] (fun r => map Reference (lines_of $"CR" r)) /\
  wos_ranked ex_up ex_id ex_id (forallb digit09) $"subjects" true false true false [] [r1; r2; r3] = Ok (SCounts [(AText $"Physics", 2); (AText $"Applied Mathematics", 1)]) /\
  wos_ranked ex_up ex_id ex_id (forallb digit09) $"CR" true false true false [] [r1; r2; r3] = Ok (SCounts [(ACite $"POE B, 1990, SCIENCE", 2); (ACite $"ZED Q, 1901, MIND", 1)]) /\
  wos_times ex_up ex_id ex_id (forallb digit09) $"TC" true true true [] [r1; r2; r3] = Ok (TPandas [ANum 4; ANum 4] [2004%Z; 1999%Z] [1; 1]) /\
  (exists g, wos_levels ex_up ex_id ex_id (forallb digit09) [$"authorsShort"] true true [r1; r2; r3] = Ok g /\ edge_attr g $"Doe, J." $"Roe, K" $"weight" = Some (VInt 2)) /\
  (exists g, wos_two_mode ex_up ex_id ex_id (forallb digit09) $"AU" $"CR" true true true true [r1; r2; r3] = Ok g /\ edge_attr g $"Doe, J." $"Poe B, 1990, Science" $"weight" = Some (VInt 1)).
Proof.
  destruct (wos_parse ex_file) as [l e] eqn:E. pose proof E as E'. vm_compute in E'. injection E' as <- <-. eexists _, _, _. split; [reflexivity|].
  match goal with |- told _ _ _ ?L _ /\ _ => set (rs := L) end. assert (U : forall r, In r rs -> usable_record r).
  { intros r I. assert (B : wbad r = false) by (destruct I as [<-|[<-|[<-|[]]]]; reflexivity). split; [exists ex_file; eexists _, _; split; [exact E|auto]|]. split.
    - destruct I as [<-|[<-|[<-|[]]]]; [right; exists 1999%Z|right; exists 2004%Z|left; reflexivity]; (split; [lia|vm_compute; reflexivity]).
    - destruct I as [<-|[<-|[<-|[]]]]; vm_compute; intuition discriminate. }
  assert (NP : forall s, In s [$"Physics"; $"Applied Mathematics"] -> no_part $"; " s).
  { intros s I a b Q. assert (In 59%N s) by (rewrite Q; apply in_or_app; right; left; reflexivity). destruct I as [<-|[<-|[]]]; vm_compute in H; intuition discriminate. }
  assert (WC : forall key, called_tag $"WC" key -> forall r, In r rs -> usable_record r /\ tells ex_up ex_id key r (ex_subjects r)).
  { intros key C r I. split; [apply U, I|]. exists $"WC". split; [exact C|]. destruct I as [<-|[<-|[<-|[]]]].
    - right. split; [vm_compute; discriminate|]. apply (says_items ex_up ex_id $"WC" _ [$"Physics"; $"Applied Mathematics"]); [vm_compute; intuition|discriminate|exact NP|vm_compute; reflexivity].
    - right. split; [vm_compute; discriminate|]. apply (says_items ex_up ex_id $"WC" _ [$"Physics"]); [vm_compute; intuition|discriminate|intros s [<-|[]]; apply NP; left; reflexivity|vm_compute; reflexivity].
    - left. vm_compute. auto. }
  split; [intros r I; apply WC; [left; reflexivity|exact I]|]. split; [intros r I; apply WC; [right; reflexivity|exact I]|]. split.
  { intros r I. split; [apply U, I|]. exists $"CR". split; [left; reflexivity|]. destruct I as [<-|[<-|[<-|[]]]]; [right..|left]; (split; [vm_compute; try discriminate; reflexivity|]); [apply says_refs..|split; reflexivity]. }
  clear. subst rs. split; [vm_compute; reflexivity|]. split; [vm_compute; reflexivity|]. split; [vm_compute; reflexivity|]. split.
  - match goal with |- exists g, ?W = _ /\ _ => destruct W as [g|] eqn:G; vm_compute in G; [|discriminate] end. injection G as <-. eexists. split; [reflexivity|]. vm_compute. reflexivity.
  - match goal with |- exists g, ?W = _ /\ _ => destruct W as [g|] eqn:G; vm_compute in G; [|discriminate] end. injection G as <-. eexists. split; [reflexivity|]. vm_compute. reflexivity.
Qed.
Print Assumptions C100_ranked.
Print Assumptions C100_ranks.
Print Assumptions C100_years.
Print Assumptions C100_cooccurrence.
Print Assumptions C100_levels.
Print Assumptions C100_two_mode.
