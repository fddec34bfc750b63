(** C39 - C43, C45, C48: yearSplit, localCiteStats, localCitesOf, citeFilter, rpys, genderStats, makeDict. *)
From Coq Require Import List ZArith Lia Bool Arith Permutation Sorted.
From Coq Require Import String.
From Verif Require Import Base PyStr PyInt Regex SeriesSpec RecordView RecordViewFacts CitationModel CollectionProofs TagNames AnalysisModel AnalysisSpec AnalysisProofs AnalysisProofs2 AnalysisProofs3.
Import ListNotations.
Local Open Scope list_scope.
Set Implicit Arguments.

(** ** C39 *)
Section Years.
Context {R : Type}.
Variable year : R -> option yearval.
(** yearSplit(a, b) always succeeds, keeps the order and returns exactly the records dated from a to b. *)
Theorem C39_select (rs : list R) (a b : Z) :
  exists l, year_split year rs a b true = Ok l /\ (forall r, In r l <-> In r rs /\ dated_in year a b r) /\ (NoDup rs -> NoDup l).
Proof.
  exists (filter (keep year a b) rs). split; [apply split_drop|]. split; [|apply NoDup_filter]. intros r. rewrite filter_In, keep_spec. reflexivity.
Qed.
(** With dropMissingYears = False it raises TypeError if and only if some record has no year that is a number, and otherwise gives the same. *)
Theorem C39_strict (rs : list R) (a b : Z) :
  ((forall r, In r rs -> dated year r) -> year_split year rs a b false = year_split year rs a b true) /\
  (forall r, In r rs -> ~ dated year r -> year_split year rs a b false = Raise TypeError).
Proof.
  split; [intros D; rewrite split_drop; apply split_strict, D|]. intros r I1 N. apply (@split_raise R year rs a b r I1 N).
Qed.
(** Two consecutive ranges split the records of the whole range: each is in exactly one. *)
Theorem C39_partition (rs : list R) (a m b : Z) : (a <= m + 1)%Z -> (m <= b)%Z ->
  exists l1 l2 l, year_split year rs a m true = Ok l1 /\ year_split year rs (m + 1) b true = Ok l2 /\ year_split year rs a b true = Ok l /\
    Permutation (l1 ++ l2) l /\ (forall r, In r l1 -> ~ In r l2).
Proof.
  intros A B. rewrite !split_drop. do 3 eexists. do 3 (split; [reflexivity|]). split.
  - induction rs as [|r rs IH]; [constructor|]. cbn [filter].
    assert (E : keep year a b r = keep year a m r || keep year (m + 1) b r /\ keep year a m r && keep year (m + 1) b r = false).
    { unfold keep. destruct (year r) as [[y|s]|]; try (split; reflexivity).
      destruct (Z.leb_spec a y), (Z.leb_spec y b), (Z.leb_spec y m), (Z.leb_spec (m + 1) y); cbn; split; try reflexivity; lia. }
    destruct E as [-> E]. destruct (keep year a m r), (keep year (m + 1) b r); try discriminate; cbn; [apply perm_skip, IH| |exact IH].
    eapply Permutation_trans; [apply Permutation_sym, Permutation_middle|]. apply perm_skip, IH.
  - intros r I1 I2. apply filter_In in I1 as [_ I1], I2 as [_ I2]. apply keep_spec in I1 as (y & E & L), I2 as (y' & E' & L'). rewrite E in E'. injection E' as ->. lia.
Qed.
End Years.

(** a record of the examples: id, year, citations *)
Definition exrec : Type := str * option yearval * option (list cite).
Global Instance dec_attr {A} `{EqDec A} : EqDec (attr A).
Proof. intros [| |x] [| |y]; try (right; discriminate); try (left; reflexivity). destruct (eq_dec x y) as [->|N]; [left; reflexivity|right; congruence]. Defined.
Global Instance dec_cite : EqDec cite.
Proof. intros x y. decide equality; apply eq_dec || apply bool_dec. Defined.
Global Instance dec_yearval : EqDec yearval.
Proof. intros x y. decide equality; apply eq_dec. Defined.
Global Instance dec_opt {A} `{EqDec A} : EqDec (option A).
Proof. intros [x|] [y|]; try (right; discriminate); try (left; reflexivity). destruct (eq_dec x y) as [->|N]; [left; reflexivity|right; congruence]. Defined.
Global Instance dec_exrec : EqDec exrec.
Proof. intros [[a b] c] [[a' b'] c']. destruct (eq_dec a a') as [->|N]; [|right; congruence]. destruct (eq_dec b b') as [->|N]; [|right; congruence]. destruct (eq_dec c c') as [->|N]; [left; reflexivity|right; congruence]. Defined.
Definition ex_id (r : exrec) : str := fst (fst r).
Definition ex_year (r : exrec) : option yearval := snd (fst r).
Definition ex_cites (r : exrec) : option (list cite) := snd r.
Definition wos (s : str) : cite :=
  match wos_citation (fun s => s) (fun s => s) s with Ok c => of_wos c | Raise _ => {| q_original := s; q_id := []; q_author := Lacks; q_journal := Lacks; q_year := Lacks; q_V := Lacks; q_P := Lacks; q_misc := Lacks; q_bad := true |} end.
Definition scopus (s : str) : cite := of_scopus s (scopus_citation (fun _ => true) (fun _ => true) (fun _ => 0%Z) (fun s => s) s).
(** three records citing papers of different years, one undated *)
Definition ex_rs : list exrec :=
  [($"WOS:1", Some (YNum 1990), Some [wos $"BARD J, 1988, NATURE, V4, P10"; wos $"COE R, 1985, CELL, V7, P3"]);
   ($"WOS:2", Some (YNum 1995), Some [wos $"ARCHIVE MS"; wos $"BARD J, 1988, NATURE, V4, P10"]);
   ($"WOS:3", None, None)].

Example C39_example : year_split ex_year ex_rs 1990 1994 true = Ok [nth 0 ex_rs ($"", None, None)]
  /\ year_split ex_year ex_rs 1995 1999 true = Ok [nth 1 ex_rs ($"", None, None)] /\ year_split ex_year ex_rs 1990 1994 false = Raise TypeError.
Proof. vm_compute. auto. Qed.

(** ** C40 *)
Section Cites.
Context {R : Type} `{EqDec R}.
Variable cites : R -> option (list cite).
(** If every citation has the attribute asked for (possibly None), the dictionary gives each key the number of citations
    having it, holds the keys that occur and no others, and its counts sum to the number of citations having a key. *)
Theorem C40_counts_partial (rs : list R) (t : key_type) : (forall c, In c (citations cites rs) -> key_exists t c) ->
  exists d, local_cite_stats cites rs (key_name t) = Ok d /\ NoDup (dkeys d) /\
    (forall k, dget k d = if key_count cites t k rs =? 0 then None else Some (key_count cites t k rs)) /\
    total snd d = keyed cites t rs.
Proof.
  intros E. rewrite stats_by, stats_records_ok by exact E. eexists. split; [reflexivity|]. split; [apply NoDup_fold_dincr; constructor|]. split.
  - intros k. destruct (fold_dincr (flat_map (key_list t) (citations cites rs)) []) as [G _]. rewrite G. cbn [dget]. rewrite count_keys. reflexivity.
  - rewrite total_dincrs, length_keys. reflexivity.
Qed.
(** By citation it always succeeds; by journal, year or author it raises AttributeError if some citation does not have
    the attribute, and TypeError for any other key type. *)
Theorem C40_raises (rs : list R) : 
  (forall c, In c (citations cites rs) -> key_exists ByCitation c) /\
  (forall t c, In c (citations cites rs) -> ~ key_exists t c -> local_cite_stats cites rs (key_name t) = Raise AttributeError) /\
  (forall s, (forall t, s <> key_name t) -> local_cite_stats cites rs s = Raise TypeError).
Proof.
  split; [intros c _; exact Logic.I|]. split.
  - intros t c I1 N. rewrite stats_by. apply (@stats_records_bad R cites t rs c I1 N).
  - intros s N. unfold local_cite_stats. rewrite (neq_eqb (N ByCitation)), (neq_eqb (N ByJournal)), (neq_eqb (N ByYear)), (neq_eqb (N ByAuthor)). reflexivity.
Qed.
(** The pandas friendly form is the same table as two lists. *)
Theorem C40_lists (d : dict ckey nat) : let '(ks, ns) := local_cite_lists d in combine ks ns = d /\ length ks = length ns.
Proof.
  rewrite lists_of. split; [|rewrite !map_length; reflexivity]. induction d as [|[k n] d IH]; [reflexivity|]. cbn. rewrite IH. reflexivity.
Qed.
End Cites.
Example C40_example : (forall c, In c (citations ex_cites ex_rs) -> key_exists ByYear c) /\
  local_cite_stats ex_cites ex_rs $"year" = Ok [(KYear 1988, 2); (KYear 1985, 1)].
Proof. split; [|vm_compute; reflexivity]. intros c I1. vm_compute in I1. repeat (destruct I1 as [<-|I1]; [exact Logic.I|]). destruct I1. Qed.
(** False in general: one Scopus citation that cannot be read makes the counts by year fail for the whole collection. *)
Theorem C40_unreadable_refuted : exists rs : list exrec,
  citations ex_cites rs = [scopus $"no citation"; wos $"BARD J, 1988, NATURE"] /\ local_cite_stats ex_cites rs $"year" = Raise AttributeError.
Proof. exists [($"1", None, Some [scopus $"no citation"; wos $"BARD J, 1988, NATURE"])]. vm_compute. auto. Qed.

(** ** C41 *)
Section CitesOf.
Context {R : Type} `{EqDec R}.
Variable cites : R -> option (list cite).
Variable rid : R -> str.
Variable as_cite : R -> cite.
(** Given a Citation: exactly the records with a citation of the same ID. *)
Theorem C41_citation (rs : list R) (c : cite) :
  exists l, local_cites_of cites rid as_cite rs (CCitation c) = Ok l /\ (forall r, In r l <-> In r rs /\ refers_to cites c r) /\ (NoDup rs -> NoDup l).
Proof.
  exists (citing cites rs c). split; [reflexivity|]. rewrite citing_filter. split; [|apply NoDup_filter]. intros r. rewrite filter_In, cites_it. reflexivity.
Qed.
(** Given the id of a record of the collection: exactly the records citing that record; any other string gives nothing. *)
Theorem C41_id_partial (rs : list R) (s : str) :
  (forall r, In r rs -> rid r = s -> NoDup (map rid rs) ->
     exists l, local_cites_of cites rid as_cite rs (CString s) = Ok l /\ forall q, In q l <-> In q rs /\ refers_to cites (as_cite r) q) /\
  ((forall r, In r rs -> rid r <> s) -> local_cites_of cites rid as_cite rs (CString s) = Ok []).
Proof.
  split.
  - intros r I1 E ND. assert (G : get_id rid rs s = Some r).
    { induction rs as [|q rs' IH]; [destruct I1|]. cbn in *. apply NoDup_cons_iff in ND as [N1 ND]. destruct (@eqb_spec str _ s (rid q)) as [Q|Q].
      - destruct I1 as [->|I1]; [reflexivity|]. exfalso. apply N1. rewrite <- Q, <- E. apply in_map, I1.
      - destruct I1 as [->|I1]; [congruence|]. apply IH; assumption. }
    unfold local_cites_of. rewrite G. eexists. split; [reflexivity|]. intros q. rewrite citing_filter, filter_In, cites_it. reflexivity.
  - intros N. assert (G : get_id rid rs s = None).
    { induction rs as [|q rs' IH]; [reflexivity|]. cbn. rewrite (@neq_eqb str _ s (rid q)) by (intros Q; apply (N q (or_introl eq_refl)); congruence). apply IH. intros r I1. apply N. right. exact I1. }
    unfold local_cites_of. rewrite G. reflexivity.
Qed.
(** False for a Record: it is always refused, whatever the collection. *)
Theorem C41_record_refuted (rs : list R) (r : R) : local_cites_of cites rid as_cite rs (CRecord r) = Raise ValueError.
Proof. reflexivity. Qed.
End CitesOf.
(** False for a citation string: it is not read as a citation. *)
Theorem C41_string_refuted : exists (rs : list exrec) (r : exrec) (s : str),
  In r rs /\ refers_to ex_cites (wos s) r /\ q_original (wos s) = s /\ q_bad (wos s) = false /\
  local_cites_of ex_cites ex_id (fun r => wos (ex_id r)) rs (CString s) = Ok [].
Proof.
  exists ex_rs, (nth 0 ex_rs ($"", None, None)), $"COE R, 1985, CELL, V7, P3". split; [left; reflexivity|]. split.
  { exists (wos $"COE R, 1985, CELL, V7, P3"). split; [right; left; reflexivity|reflexivity]. }
  vm_compute. auto.
Qed.
Example C41_example : local_cites_of ex_cites ex_id (fun _ => wos $"COE R, 1985, CELL") ex_rs (CCitation (wos $"BARD J, 1988, NATURE")) = Ok (firstn 2 ex_rs)
  /\ local_cites_of ex_cites ex_id (fun _ => wos $"COE R, 1985, CELL") ex_rs (CString $"WOS:3") = Ok (firstn 1 ex_rs) /\ NoDup (map ex_id ex_rs).
Proof. split; [vm_compute; reflexivity|]. split; [vm_compute; reflexivity|]. vm_compute. repeat constructor; cbn; intuition discriminate. Qed.

(** ** C42 *)
Section Filter.
Context {R : Type} `{EqDec R}.
Variable cites : R -> option (list cite).
Variable upper : str -> str.
(** What citeFilter gives, for every collection, key and field: ValueError when a year is searched for by something that
    is not a number; otherwise the records with a matching citation before any whose part searched for is None. *)
Theorem C42_scan_partial (rs : list R) (k field : str) (case : bool) :
  (bad_year cites k field rs -> cite_filter cites upper rs k field false case = Raise ValueError) /\
  (~ bad_year cites k field rs -> exists l, cite_filter cites upper rs k field false case = Ok l /\
     forall r, In r l <-> In r rs /\ exists pre c post, refs cites r = pre ++ c :: post /\ answers upper k field case c /\ forall q, In q pre -> ~ blank field q).
Proof.
  unfold cite_filter. split.
  - intros B. rewrite matching_bad by exact B. reflexivity.
  - intros B. rewrite matching_ok by exact B. cbn [bind]. eexists. split; [reflexivity|]. intros r. rewrite filter_In, some_hit_stop.
    split; (intros [I1 (pre & c & post & E & T & N)]; split; [exact I1|]; exists pre, c, post; split; [exact E|]; split; [apply (test_yes upper k field case c), T|]); intros q Q; specialize (N q Q); intros B'; apply N, (test_stop upper k field case q), B'.
Qed.
(** So, if no citation lacks the part searched for, exactly the records with a matching citation. *)
Theorem C42_filter_partial (rs : list R) (k field : str) (case : bool) :
  ~ bad_year cites k field rs -> (forall c, In c (citations cites rs) -> ~ blank field c) ->
  exists l, cite_filter cites upper rs k field false case = Ok l /\ (forall r, In r l <-> In r rs /\ exists c, In c (refs cites r) /\ answers upper k field case c).
Proof.
  intros B N. destruct (C42_scan_partial rs k field case) as [_ S1]. destruct (S1 B) as (l & E & L). exists l. split; [exact E|]. intros r. rewrite L. split.
  - intros [I1 (pre & c & post & Q & A & _)]. split; [exact I1|]. exists c. split; [rewrite Q; apply in_or_app; right; left; reflexivity|exact A].
  - intros [I1 (c & I2 & A)]. split; [exact I1|]. apply in_split in I2 as (pre & post & Q). exists pre, c, post. split; [exact Q|]. split; [exact A|].
    intros q I3. apply N. unfold citations. apply in_flat_map. exists r. split; [exact I1|]. rewrite Q. apply in_or_app. left. exact I3.
Qed.
(** reverse = True returns the rest: every record is in exactly one of the two. *)
Theorem C42_reverse (rs : list R) (k field : str) (case : bool) :
  match cite_filter cites upper rs k field false case, cite_filter cites upper rs k field true case with
  | Ok l, Ok l' => (forall r, In r rs -> In r l <-> ~ In r l') /\ (forall r, In r l \/ In r l' -> In r rs) /\ (NoDup rs -> Permutation (l ++ l') rs)
  | Raise e, Raise e' => e = e'
  | _, _ => False
  end.
Proof.
  unfold cite_filter. destruct (matching cites upper k field case rs) as [l|e] eqn:M; cbn [bind]; [|reflexivity].
  assert (SUB : forall r, In r l -> In r rs).
  { revert l M. induction rs as [|q rs' IH]; intros l M r I1; [injection M as <-; destruct I1|]. cbn in M. destruct (cite_match cites upper k field case q) as [b|]; [|discriminate]. cbn in M.
    destruct (matching cites upper k field case rs') as [l'|] eqn:M'; [|discriminate]. cbn in M. injection M as <-. destruct b; [destruct I1 as [->|I1]; [left; reflexivity|]|]; right; apply (IH _ eq_refl), I1. }
  assert (ND : NoDup rs -> NoDup l).
  { clear SUB. revert l M. induction rs as [|q rs' IH]; intros l M N; [injection M as <-; constructor|]. cbn in M. destruct (cite_match cites upper k field case q) as [b|]; [|discriminate]. cbn in M.
    destruct (matching cites upper k field case rs') as [l'|] eqn:M'; [|discriminate]. cbn in M. injection M as <-. apply NoDup_cons_iff in N as [N1 N]. specialize (IH _ eq_refl N). destruct b; [constructor; [|exact IH]|exact IH].
    intros Q. apply N1. clear - M' Q. revert l' M' Q. induction rs' as [|x rs' IH]; intros l' M' Q; [injection M' as <-; destruct Q|]. cbn in M'. destruct (cite_match cites upper k field case x) as [b|]; [|discriminate]. cbn in M'.
    destruct (matching cites upper k field case rs') as [m|] eqn:MM; [|discriminate]. cbn in M'. injection M' as <-. destruct b; [destruct Q as [->|Q]; [left; reflexivity|]|]; right; apply (IH _ eq_refl), Q. }
  split; [|split].
  - intros r I1. rewrite filter_In, negb_true_iff, mem_not_In. split; [intros I2 [_ N]; contradiction|]. intros N. destruct (in_dec eq_dec r l) as [I2|N2]; [exact I2|]. exfalso. apply N. auto.
  - intros r [I1|I1]; [apply SUB, I1|]. apply filter_In in I1 as [I1 _]. exact I1.
  - intros N. apply NoDup_Permutation; [|exact N|].
    + apply NoDup_app_disj; [apply ND, N|apply NoDup_filter, N|]. intros r I1 I2. apply filter_In in I2 as [_ I2]. apply negb_true_iff, mem_not_In in I2. contradiction.
    + intros r. rewrite in_app_iff, filter_In, negb_true_iff, mem_not_In. split; [intros [I1|[I1 _]]; [apply SUB, I1|exact I1]|]. intros I1. destruct (in_dec eq_dec r l); auto.
Qed.
End Filter.
Example C42_example : cite_filter ex_cites (fun s => s) ex_rs $"BARD" $"author" false false = Ok (firstn 2 ex_rs)
  /\ cite_filter ex_cites (fun s => s) ex_rs $"BARD" $"author" true false = Ok (skipn 2 ex_rs) /\ cite_filter ex_cites (fun s => s) ex_rs $"1985" $"year" false false = Ok (firstn 1 ex_rs).
Proof. vm_compute. auto. Qed.
(** False in general: a citation without a volume hides the ones after it. *)
Theorem C42_hidden_refuted : exists (rs : list exrec) (r : exrec) (c : cite), In r rs /\ In c (refs ex_cites r) /\ answers (fun s => s) $"V4" $"V" false c /\
  exists l, cite_filter ex_cites (fun s => s) rs $"V4" $"V" false false = Ok l /\ ~ In r l.
Proof.
  exists ex_rs, (nth 1 ex_rs ($"", None, None)), (wos $"BARD J, 1988, NATURE, V4, P10"). split; [right; left; reflexivity|]. split; [right; left; reflexivity|]. split.
  - apply (@A_V _ _ _ _ $"V4"); [vm_compute; reflexivity|]. exists [], []. reflexivity.
  - eexists. split; [vm_compute; reflexivity|]. intros [Q|[]]. vm_compute in Q. discriminate.
Qed.
(** False in general: the documented blank key, which should find all citations having a year, raises. *)
Theorem C42_blank_refuted : cite_filter ex_cites (fun s => s) ex_rs [] $"year" false false = Raise ValueError.
Proof. vm_compute. reflexivity. Qed.
(** False in general: every record with a Scopus citation that does not match the expression is found as one citing an anonymous author. *)
Theorem C42_unread_refuted {R} `{EqDec R} (cites : R -> option (list cite)) (upper : str -> str) (word num : char -> bool) (int_of : str -> Z) (rs : list R) (r : R) (k s : str) (case : bool) :
  In r rs -> cites r = Some [of_scopus s (scopus_citation word num int_of upper s)] -> re_match (scopus_cite_regex word num) (upper s) = None ->
  exists l, cite_filter cites upper rs k $"anonymous" false case = Ok l /\ In r l.
Proof.
  intros I1 C1 M. assert (NB : ~ bad_year cites k $"anonymous" rs) by (intros [E _]; vm_compute in E; discriminate).
  destruct (proj2 (C42_scan_partial cites upper rs k $"anonymous" case) NB) as (l & E & L). exists l. split; [exact E|]. apply L. split; [exact I1|].
  eexists [], _, []. split; [unfold refs; rewrite C1; reflexivity|]. split; [|intros q []]. apply A_unread. unfold scopus_citation. rewrite M. reflexivity.
Qed.
Example C42_unread_example : re_match (scopus_cite_regex (in_range 65 90) digit09) $"REPORT OF THE BOARD" = None.
Proof. vm_compute. reflexivity. Qed.

(** ** C43 *)
Section Rpys.
Context {R : Type}.
Variable cites : R -> option (list cite).
Variable year : R -> option yearval.
Variable order : list Z -> list Z.
(** The table has one row for each year from the first to the last that is not dropped; its count is the number of
    citations to that year which are at least two years older than the citing record; its deviation is the count minus
    the median of the counts of the five years around it. The order of the rows is that of a python set. *)
Theorem C43_table_partial (rs : list R) (lo hi : option Z) (a b : Z) (dy : drop) (rank_empty : bool) :
  (forall l, Permutation l (order l)) -> not_text year rs -> first_year cites year rs lo hi a -> last_year cites year rs lo hi b -> (forall z, dy <> DropOne z) ->
  exists rows, rpys cites year order rs lo hi dy rank_empty = Ok rows /\ NoDup (map w_year rows) /\
    (forall y, In y (map w_year rows) <-> (a <= y <= b)%Z /\ ~ dropped dy y) /\
    (forall w, In w rows -> w_count w = Z.of_nat (cited_count cites year rs (w_year w)) /\
       exists m, median5 m (window cites year rs (w_year w)) /\ w_deviation w = (w_count w - m)%Z).
Proof.
  intros O T F L D. exists (map (row_of cites year order lo hi rs a b dy rank_empty) (shown_years order a b dy)). split; [apply rpys_rows; assumption|].
  rewrite map_map. cbn [w_year row_of]. rewrite map_id. split; [apply NoDup_shown; assumption|]. split; [intros y; apply shown_spec; assumption|].
  intros w I1. apply in_map_iff in I1 as (y & <- & I1). apply (shown_spec order O a b D) in I1 as [B _]. cbn [w_year row_of]. split.
  - apply (@row_count R cites year order lo hi rs a b dy rank_empty F L y B).
  - apply (@row_deviation R cites year order lo hi rs a b dy rank_empty F L y B).
Qed.
(** The ranks of the years follow the deviations: a greater rank never has a smaller deviation, no two ranks are equal,
    all are from 1 to the number of rows, and exactly the years never cited have rank 0 unless they are to be ranked. *)
Theorem C43_rank (rs : list R) (lo hi : option Z) (a b : Z) (dy : drop) (rank_empty : bool) :
  (forall l, Permutation l (order l)) -> not_text year rs -> first_year cites year rs lo hi a -> last_year cites year rs lo hi b -> (forall z, dy <> DropOne z) ->
  exists rows, rpys cites year order rs lo hi dy rank_empty = Ok rows /\
    (forall v w, In v rows -> In w rows -> w_rank v <> 0 -> w_rank w <> 0 ->
       (w_rank v < w_rank w -> (w_deviation v <= w_deviation w)%Z) /\ (w_rank v = w_rank w -> v = w)) /\
    (forall w, In w rows -> (w_rank w = 0 <-> w_count w = 0%Z /\ rank_empty = false) /\ w_rank w <= length rows).
Proof.
  intros O T F L D. exists (map (row_of cites year order lo hi rs a b dy rank_empty) (shown_years order a b dy)). split; [apply rpys_rows; assumption|]. split.
  - intros v w I1 I2 N1 N2. apply in_map_iff in I1 as (x & <- & I1), I2 as (y & <- & I2).
    destruct (@rank_order R cites year order O lo hi rs a b dy rank_empty x y I1 I2 N1 N2) as [A B]. split; [exact A|]. intros E. rewrite (B E). reflexivity.
  - intros w I1. apply in_map_iff in I1 as (x & <- & I1). rewrite map_length. split; [|apply (@rank_bound R cites year order O lo hi rs a b dy rank_empty x I1)].
    pose proof (proj1 (shown_spec order O a b D x) I1) as [B _]. rewrite (@row_count R cites year order lo hi rs a b dy rank_empty F L x B).
    rewrite (@rank_zero R cites year order O lo hi rs a b dy rank_empty F L D x I1). split; intros [? ?]; split; lia || assumption.
Qed.
(** With no year given and no citation counted, or a year that is a single number to drop, it raises. *)
Theorem C43_raises (rs : list R) (hi : option Z) (dy : drop) (rank_empty : bool) : not_text year rs -> (forall y, ~ ever_cited cites year rs y) ->
  rpys cites year order rs None hi dy rank_empty = Raise ValueError.
Proof.
  intros T N. unfold rpys. rewrite (rpys_counts_ok cites None hi T). cbn [bind]. fold (years_of cites year None hi rs).
  assert (E : dkeys (years_of cites year None hi rs) = []).
  { destruct (dkeys (years_of cites year None hi rs)) as [|y ys] eqn:E; [reflexivity|]. exfalso. apply (N y). assert (I1 : In y (dkeys (years_of cites year None hi rs))) by (rewrite E; left; reflexivity). apply In_years in I1 as [I1 _]. exact I1. }
  rewrite E. reflexivity.
Qed.
End Rpys.
Example C43_example : exists rows, rpys ex_cites ex_year (fun l => l) ex_rs None None DropNone false = Ok rows
  /\ map (fun w => (w_year w, w_count w, w_deviation w, Z.of_nat (w_rank w))) rows = [(1985, 1, 1, 3); (1986, 0, 0, 0); (1987, 0, 0, 0); (1988, 2, 2, 4)]%Z.
Proof. eexists. vm_compute. auto. Qed.
Example C43_hypotheses : first_year ex_cites ex_year ex_rs None None 1985 /\ last_year ex_cites ex_year ex_rs None None 1988 /\ not_text ex_year ex_rs.
Proof.
  assert (C : forall y, counted ex_cites ex_year ex_rs None None y <-> y = 1985%Z \/ y = 1988%Z).
  { intros y. rewrite <- In_years. vm_compute. split; [intros [<-|[<-|[]]]; auto|intros [->| ->]; auto]. }
  split; [|split].
  - split; [lia|]. split; [apply C; auto|]. intros y K. apply C in K as [->| ->]; lia.
  - split; [lia|]. split; [apply C; auto|]. intros y K. apply C in K as [->| ->]; lia.
  - intros r s I1. vm_compute in I1. repeat (destruct I1 as [<-|I1]; [discriminate|]). destruct I1.
Qed.
(** The column named abs-deviation is not an absolute value. *)
Theorem C43_absolute_refuted : exists (rs : list exrec) rows w, rpys ex_cites ex_year (fun l => l) rs None None DropNone false = Ok rows /\ In w rows /\ (w_deviation w < 0)%Z.
Proof.
  pose (c := fun y : Z => {| q_original := []; q_id := []; q_author := Empty; q_journal := Empty; q_year := Has y; q_V := Empty; q_P := Empty; q_misc := Empty; q_bad := true |}).
  exists [($"1", None, Some [c 1990; c 1990; c 1991; c 1991; c 1992; c 1993; c 1993; c 1994; c 1994]%Z)]. eexists. exists {| w_year := 1992%Z; w_count := 1%Z; w_deviation := (-1)%Z; w_rank := 1 |}.
  split; [vm_compute; reflexivity|]. split; [|reflexivity]. vm_compute. auto 10.
Qed.
(** False for the documented defaults: a citation to the year 900 makes the call with no bounds fail. *)
Theorem C43_default_refuted : exists rs : list exrec, (exists y, ever_cited ex_cites ex_year rs y) /\ rpys ex_cites ex_year (fun l => l) rs None None DropNone false = Raise TypeError.
Proof. exists [($"1", None, Some [wos $"BARD J, 1988, NATURE"; wos $"ARISTOTLE, 900, METAPHYSICS"])]. split; [exists 1988%Z|]; vm_compute; [lia|reflexivity]. Qed.
(** False for a single year to drop, which is documented. *)
Theorem C43_drop_refuted : rpys ex_cites ex_year (fun l => l) ex_rs None None (DropOne 1986) false = Raise TypeError.
Proof. vm_compute. reflexivity. Qed.

(** ** C45 *)
Section Genders.
Variable title : str -> str.
Variable mapping : dict str gender.
Context {R : Type}.
Variable full_names : R -> list str.
(** Each of the three numbers counts the different names of that gender in each record. *)
Theorem C45_counts (rs : list R) : gender_stats title mapping full_names rs =
  (names_of full_names (name_gender title mapping) Male rs, names_of full_names (name_gender title mapping) Female rs, names_of full_names (name_gender title mapping) Unknown rs).
Proof. apply stats_spec. Qed.
(** If no record names two authors alike and the names have no further gender, they sum to the number of authors. *)
Theorem C45_total_partial (rs : list R) : (forall s, name_gender title mapping s <> OtherGender) -> (forall r, In r rs -> NoDup (full_names r)) ->
  let '(m, f, u) := gender_stats title mapping full_names rs in m + f + u = total (fun r => length (full_names r)) rs.
Proof.
  intros NO ND. rewrite stats_spec, stats_total by exact NO. apply total_ext. intros r I1. rewrite first_seen_NoDup by (apply ND, I1). reflexivity.
Qed.
(** As fractions the three numerators sum to the common denominator, which is that of the counts; without names it raises. *)
Theorem C45_fractions (rs : list R) :
  match gender_fractions title mapping full_names rs with
  | Ok ((m, f, u), tot) => gender_stats title mapping full_names rs = (m, f, u) /\ m + f + u = tot /\ 0 < tot
  | Raise e => e = ZeroDivisionError /\ gender_stats title mapping full_names rs = (0, 0, 0)
  end.
Proof.
  unfold gender_fractions. destruct (gender_stats title mapping full_names rs) as [[m f] u]. destruct (m + f + u) eqn:E.
  - split; [reflexivity|]. repeat f_equal; lia.
  - split; [reflexivity|]. lia.
Qed.
(** The gender of a name is that of the first of the given names; a name without a comma and a space is unknown. *)
Theorem C45_name (last first rest : str) : ~ In 44%N last -> ~ In 44%N first -> ~ In sp first ->
  rest = [] \/ (exists r, rest = sp :: r) \/ (exists r, rest = 44%N :: sp :: r) ->
  name_gender title mapping (last ++ $", " ++ first ++ rest) = match dget (title first) mapping with Some g => g | None => Unknown end.
Proof. apply name_spec. Qed.
End Genders.
Definition ex_mapping : dict str gender := [($"John", Male); ($"Mary", Female)].
Example C45_example : gender_stats (fun s => s) ex_mapping (fun r : list str => r) [[$"Smith, John"; $"Doe, Mary B"]; [$"Doe, Mary B"; $"Plato"]] = (1, 2, 1).
Proof. vm_compute. reflexivity. Qed.
(** False in general: two authors of the same name are counted as one. *)
Theorem C45_total_refuted : exists rs : list (list str), gender_stats (fun s => s) ex_mapping (fun r => r) rs = (1, 0, 0) /\ total (fun r => length r) rs = 2.
Proof. exists [[$"Smith, John"; $"Smith, John"]]. vm_compute. auto. Qed.
(** False in general: the fractions of a collection without author names cannot be asked for. *)
Theorem C45_empty_refuted : gender_fractions (fun s => s) ex_mapping (fun r : list str => r) [[]] = Raise ZeroDivisionError.
Proof. reflexivity. Qed.

(** ** C48 *)
Section MakeDict.
Context {R V : Type}.
Variable keys : R -> list str.
Variable get : R -> str -> option V.
Variable authors : R -> nat.
Variable genders : R -> nat * nat * nat.
Variable to_tag to_full : dict str str.
(** If no tag is called like one of the four extra columns (and all have a long name, when these are asked for) the table
    has a column for each tag asked for, or for each tag of some record, and the extra ones; each column has one entry for
    each record, in the order of the records, the value of that record. *)
Theorem C48_table (rs : list R) (only : list str) (long num gend : bool) :
  (long = true -> forall t, chosen keys to_tag rs only t -> dget t to_full <> None) ->
  (forall k, column keys to_tag to_full rs only long k -> ~ In k (extra_columns num gend)) ->
  exists t, make_dict keys get authors genders to_tag to_full rs only long num gend = Ok t /\
    (forall k, In k (dkeys t) <-> column keys to_tag to_full rs only long k \/ In k (extra_columns num gend)) /\
    forall k l, dget k t = Some l -> l = map (entry get authors genders num gend k) rs.
Proof. apply make_dict_ok. Qed.
(** A tag without a long name makes it raise KeyError, when long names are asked for. *)
Theorem C48_long (rs : list R) (only : list str) (num gend : bool) (t : str) :
  chosen keys to_tag rs only t -> dget t to_full = None -> make_dict keys get authors genders to_tag to_full rs only true num gend = Raise KeyError.
Proof.
  intros C N. unfold make_dict. fold (fields_of keys to_tag rs only). rewrite (@long_names_raise to_full (fields_of keys to_tag rs only) t); [reflexivity| |exact N]. apply chosen_spec, C.
Qed.
End MakeDict.
Example C48_example : make_dict (fun r : dict str nat => dkeys r) (fun r k => dget k r) (fun _ => 1) (fun _ => (1, 0, 0)) [] [] [[($"TI", 7)]; [($"TI", 8); ($"AB", 9)]] [] false true false
  = Ok [($"TI", [CVal (Some 7); CVal (Some 8)]); ($"AB", [CVal None; CVal (Some 9)]); ($"num-Authors", [CNum 1; CNum 1])].
Proof. vm_compute. reflexivity. Qed.

Print Assumptions C39_select. Print Assumptions C39_strict. Print Assumptions C39_partition.
Print Assumptions C40_counts_partial. Print Assumptions C40_raises. Print Assumptions C40_lists. Print Assumptions C40_unreadable_refuted.
Print Assumptions C41_citation. Print Assumptions C41_id_partial. Print Assumptions C41_record_refuted. Print Assumptions C41_string_refuted.
Print Assumptions C42_scan_partial. Print Assumptions C42_filter_partial. Print Assumptions C42_reverse. Print Assumptions C42_hidden_refuted. Print Assumptions C42_blank_refuted.
Print Assumptions C43_table_partial. Print Assumptions C43_rank. Print Assumptions C43_raises. Print Assumptions C43_absolute_refuted. Print Assumptions C43_default_refuted. Print Assumptions C43_drop_refuted.
Print Assumptions C45_counts. Print Assumptions C45_total_partial. Print Assumptions C45_fractions. Print Assumptions C45_name. Print Assumptions C45_total_refuted. Print Assumptions C45_empty_refuted.
Print Assumptions C48_table. Print Assumptions C48_long.
