(** Property theorems about rankedSeries, timeSeries and cooccurrenceCounts (C11 - C13).
    [rs] is the members of the collection in whatever order they are iterated over; [occurrences], [readable],
    [permitted], [dense_rank], [before] ... are defined in SeriesSpec.v. *)
From Coq Require Import String Lia.
From Verif Require Import Base PyStr RecordView RecordViewFacts SeriesModel SeriesSpec SeriesProofs.

Global Instance fval_EqDec {V} `{EqDec V} : EqDec (fval V).
Proof. intros [a|a] [b|b]; [destruct (eq_dec a b)|right; discriminate|right; discriminate|destruct (eq_dec a b)]; (left; congruence) || (right; congruence). Defined.
(** Four records for the examples. *)
Definition look : list (str * fval str) -> str -> res (fval str) :=
  fun r t => match dget t r with Some f => Ok f | None => Raise KeyError end.
Definition r1 := [($"K", Many [$"x"; $"y"; $"x"]); ($"L", One $"en")].
Definition r2 := [($"K", Many [$"z"; $"y"]); ($"L", One $"fr")].
Definition r3 := [($"L", One $"en")].
Definition r4 := [($"K", One $"z")].
Definition yr (r : list (str * fval str)) : res Z :=
  if eqb (length r) 1 then Raise KeyError else if mem $"x" (match dget $"K" r with Some f => entries f | None => [] end) then Ok 1990%Z else Ok 2001%Z.
Lemma look_readable t rs : readable look t rs.
Proof. intros r e _. unfold look. destruct (dget t r); [discriminate|]. congruence. Qed.

(** C11: with counts, every permitted value that occurs is listed once with the number of its occurrences, sorted by
    count in the direction asked for; values with the same count stand in the order they were first met. *)
Theorem C11_counts :
  forall (R V : Type) (E : EqDec V) (lookup : R -> str -> res (fval V)) tag (greatest : bool) (limit : list V) (rs : list R),
    readable lookup tag rs ->
    exists l, ranked_series lookup tag true false greatest false limit rs = Ok (SCounts l) /\
      NoDup (map fst l) /\
      (forall v n, In (v, n) l <-> permitted limit v /\ n = occurrences lookup tag rs v /\ 0 < n) /\
      (forall x y, before l x y -> if greatest then snd y <= snd x else snd x <= snd y) /\
      (forall v w n, before l (v, n) (w, n) -> before (first_seen (stream lookup tag rs)) v w).
Proof.
  intros R V E lookup tag greatest limit rs RD. unfold ranked_series. cbn [andb negb].
  rewrite count_values_ok by exact RD. cbn [bind]. rewrite counts_dict. destruct (by_count_good lookup tag limit rs greatest) as [A B C D].
  eexists; split; [reflexivity|]. auto.
Qed.
Print Assumptions C11_counts.

(** C11: with ranks (and no counts) the same values are listed once, each with its dense rank: one more than the
    number of different greater counts. *)
Theorem C11_ranks :
  forall (R V : Type) (E : EqDec V) (lookup : R -> str -> res (fval V)) tag (greatest : bool) (limit : list V) (rs : list R),
    readable lookup tag rs ->
    exists l, ranked_series lookup tag false true greatest false limit rs = Ok (SRanks l) /\
      NoDup (map fst l) /\
      (forall v k, In (v, k) l <-> permitted limit v /\ 0 < occurrences lookup tag rs v /\
         k = dense_rank (map (occurrences lookup tag rs) (map fst l)) (occurrences lookup tag rs v)) /\
      (forall x y, before l x y ->
         if greatest then occurrences lookup tag rs (fst y) <= occurrences lookup tag rs (fst x)
         else occurrences lookup tag rs (fst x) <= occurrences lookup tag rs (fst y)).
Proof.
  intros R V E lookup tag greatest limit rs RD. unfold ranked_series. cbn [andb negb orb].
  rewrite count_values_ok by exact RD. cbn [bind]. rewrite counts_dict.
  pose proof (by_count_good lookup tag limit rs greatest) as G. set (sl := by_count greatest _) in *.
  pose (sl' := if greatest then sl else rev sl). fold sl'.
  assert (P : Permutation sl sl') by (unfold sl'; destruct greatest; [apply Permutation_refl | apply Permutation_rev]).
  assert (S : forall x y, before sl' x y -> snd y <= snd x).
  { intros x y B. unfold sl' in B. destruct greatest; [apply (gc_sorted G B)|]. apply (proj1 (before_rev _ _ _)) in B. apply (gc_sorted G B). }
  destruct (ranked_spec S) as [M F]. pose proof (good_counts_occ G) as OC.
  set (ret := map (fun x : V * nat * nat => (fst (fst x), snd x)) (ranked sl')).
  assert (RF : map fst ret = map fst sl').
  { unfold ret. rewrite map_map. cbn. rewrite <- M at 2. rewrite !map_map. reflexivity. }
  assert (OCC : forall x, In x (map snd sl') <-> In x (map (occurrences lookup tag rs) (map fst sl))).
  { intros x. rewrite <- OC. split; apply Permutation_in, Permutation_map; [apply Permutation_sym|]; exact P. }
  assert (INR : forall v k, In (v, k) ret <-> permitted limit v /\ 0 < occurrences lookup tag rs v /\
     k = dense_rank (map (occurrences lookup tag rs) (map fst sl)) (occurrences lookup tag rs v)).
  { intros v k. unfold ret. rewrite in_map_iff. split.
    - intros ([[w c] j] & Q & I). cbn in Q. injection Q as <- <-. pose proof (F _ _ _ I) as Fj.
      assert (Iw : In (w, c) sl). { apply (Permutation_in _ (Permutation_sym P)). rewrite <- M. apply in_map_iff. exists (w, c, j); auto. }
      apply (gc_in G) in Iw. destruct Iw as (Pm & -> & Pos). split; [exact Pm|]. split; [exact Pos|]. rewrite Fj. apply dense_rank_same. exact OCC.
    - intros (Pm & Pos & ->). assert (Iw : In (v, occurrences lookup tag rs v) sl') by (apply (Permutation_in _ P), (gc_in G); auto).
      rewrite <- M in Iw. apply in_map_iff in Iw. destruct Iw as ([[w c] j] & Q & I). cbn in Q. injection Q as -> ->. exists (v, occurrences lookup tag rs v, j). split; [|exact I].
      cbn. rewrite (F _ _ _ I). rewrite (dense_rank_same _ (map (occurrences lookup tag rs) (map fst sl)) _ OCC). reflexivity. }
  exists (if greatest then ret else rev ret). split; [reflexivity|].
  assert (FST : map fst (if greatest then ret else rev ret) = map fst sl).
  { destruct greatest; [exact RF|]. rewrite map_rev, RF. unfold sl'. rewrite map_rev, rev_involutive. reflexivity. }
  rewrite FST. split; [apply (gc_nodup G)|]. split.
  - intros v k. rewrite <- INR. destruct greatest; [reflexivity|]. rewrite <- in_rev. reflexivity.
  - intros x y B. apply (before_map fst) in B. rewrite FST in B. apply before_map_inv in B. destruct B as (a & b & B & Ea & Eb).
    assert (Ia : In a sl) by (destruct B as (p1 & p2 & p3 & ->); apply in_or_app; right; left; reflexivity).
    assert (Ib : In b sl) by (destruct B as (p1 & p2 & p3 & ->); apply in_or_app; right; right; apply in_or_app; right; left; reflexivity).
    destruct a as [va na], b as [vb nb]. apply (gc_in G) in Ia. apply (gc_in G) in Ib. pose proof (gc_sorted G B) as Q.
    cbn in Ea, Eb, Q. rewrite <- Ea, <- Eb. destruct Ia as (_ & Na & _). destruct Ib as (_ & Nb & _). rewrite <- Na, <- Nb. exact Q.
Qed.
Print Assumptions C11_ranks.

(** C11: the pandas dictionary has one row per permitted value that occurs: the value, its number of occurrences and
    its dense rank.  The rows go from the greatest count to the smallest. *)
Theorem C11_pandas_partial :
  forall (R V : Type) (E : EqDec V) (lookup : R -> str -> res (fval V)) tag (counts greatest : bool) (limit : list V) (rs : list R),
    readable lookup tag rs ->
    exists es ns ks, ranked_series lookup tag counts (negb counts) greatest true limit rs = Ok (SPandas es ns ks) /\
      NoDup es /\
      (forall v, In v es <-> permitted limit v /\ 0 < occurrences lookup tag rs v) /\
      ns = map (occurrences lookup tag rs) es /\
      ks = map (fun n => dense_rank ns n) ns /\
      (forall v w, before es v w -> occurrences lookup tag rs w <= occurrences lookup tag rs v).
Proof.
  intros R V E lookup tag counts greatest limit rs RD. unfold ranked_series.
  replace (negb counts && counts) with false by (destruct counts; reflexivity).
  replace (negb counts || true) with true by (destruct counts; reflexivity). cbn [negb]. rewrite andb_false_r.
  rewrite count_values_ok by exact RD. cbn [bind]. rewrite counts_dict.
  pose proof (by_count_good lookup tag limit rs greatest) as G. set (sl := by_count greatest _) in *.
  pose (sl' := if greatest then sl else rev sl). fold sl'.
  assert (P : Permutation sl sl') by (unfold sl'; destruct greatest; [apply Permutation_refl | apply Permutation_rev]).
  assert (S : forall x y, before sl' x y -> snd y <= snd x).
  { intros x y B. unfold sl' in B. destruct greatest; [apply (gc_sorted G B)|]. apply (proj1 (before_rev _ _ _)) in B. apply (gc_sorted G B). }
  assert (IN : forall v n, In (v, n) sl' <-> permitted limit v /\ n = occurrences lookup tag rs v /\ 0 < n).
  { intros v n. rewrite <- (gc_in G). split; apply Permutation_in; [apply Permutation_sym|]; exact P. }
  destruct (ranked_spec S) as [M F]. do 3 eexists; split; [reflexivity|].
  assert (E1 : map (fun x : V * nat * nat => fst (fst x)) (ranked sl') = map fst sl') by (rewrite <- M at 2; rewrite map_map; reflexivity).
  assert (E2 : map (fun x : V * nat * nat => snd (fst x)) (ranked sl') = map snd sl') by (rewrite <- M at 2; rewrite map_map; reflexivity).
  rewrite E1, E2. split; [|split; [|split; [|split]]].
  - eapply Permutation_NoDup; [apply Permutation_map, P | apply (gc_nodup G)].
  - intros v. rewrite in_map_iff. split.
    + intros ([w n] & <- & I). apply IN in I. destruct I as (A & -> & B). auto.
    + intros (A & B). exists (v, occurrences lookup tag rs v). split; [reflexivity|]. apply IN. auto.
  - rewrite map_map. apply map_ext_in. intros [v n] I. apply IN in I. cbn. tauto.
  - rewrite <- E2. rewrite !map_map. apply map_ext_in. intros [[v c] r] I. cbn. rewrite (F _ _ _ I), <- E2. reflexivity.
  - intros v w B. apply before_map_inv in B. destruct B as ([v' n] & [w' m] & B & <- & <-). cbn [fst].
    assert (Ia : In (v', n) sl') by (destruct B as (p1 & p2 & p3 & ->); apply in_or_app; right; left; reflexivity).
    assert (Ib : In (w', m) sl') by (destruct B as (p1 & p2 & p3 & ->); apply in_or_app; right; right; apply in_or_app; right; left; reflexivity).
    apply IN in Ia. apply IN in Ib. apply S in B. cbn in B. destruct Ia as (_ & <- & _). destruct Ib as (_ & <- & _). exact B.
Qed.
Print Assumptions C11_pandas_partial.

(** C11: the bare list is the list of C11_counts without the counts. *)
Theorem C11_values :
  forall (R V : Type) (E : EqDec V) (lookup : R -> str -> res (fval V)) tag (greatest : bool) (limit : list V) (rs : list R) l,
    ranked_series lookup tag true false greatest false limit rs = Ok (SCounts l) ->
    ranked_series lookup tag false false greatest false limit rs = Ok (SValues (map fst l)).
Proof.
  intros R V E lookup tag greatest limit rs l. unfold ranked_series. cbn [andb negb orb].
  destruct (count_values lookup tag limit rs []); [|discriminate]. cbn [bind]. intros Q; injection Q as <-. reflexivity.
Qed.
Print Assumptions C11_values.

(** C11: a failure other than a missing tag is passed on. *)
Theorem C11_other_failures_pass :
  forall (R V : Type) (E : EqDec V) (lookup : R -> str -> res (fval V)) tag (counts greatest pandas : bool) (limit : list V) (before_ after : list R) r e,
    readable lookup tag before_ -> lookup r tag = Raise e -> e <> KeyError ->
    ranked_series lookup tag counts (negb counts) greatest pandas limit (before_ ++ r :: after) = Raise e.
Proof.
  intros R V E lookup tag counts greatest pandas limit bs aft r e RD L NK.
  assert (C : forall d, count_values lookup tag limit (bs ++ r :: aft) d = Raise e).
  { induction bs as [|b bs IH]; intros d; cbn [app count_values].
    - rewrite L. destruct e; try reflexivity. congruence.
    - assert (RD' : readable lookup tag bs) by (intros r' e' I; apply RD; right; exact I).
      destruct (lookup b tag) as [f|e'] eqn:Lb; [apply IH, RD'|]. rewrite (RD b e' (or_introl eq_refl) Lb). apply IH, RD'. }
  unfold ranked_series. rewrite C. destruct counts; reflexivity.
Qed.
Print Assumptions C11_other_failures_pass.

(** C11 is false of the pandas dictionary with greatestFirst = False: it is still in descending order. *)
Theorem C11_pandas_lowest_first_refuted :
  ~ forall (rs : list (list (str * fval str))) es ns ks,
      ranked_series look $"K" true false false true [] rs = Ok (SPandas es ns ks) ->
      forall a b, before ns a b -> a <= b.
Proof.
  intros A. specialize (A [r1; r2]). set (r := ranked_series _ _ _ _ _ _ _ _) in A. vm_compute in r. subst r.
  specialize (A _ _ _ eq_refl 2 1). assert (B : before [2; 2; 1] 2 1) by (exists [], [2], []; reflexivity). apply A in B. lia.
Qed.
Print Assumptions C11_pandas_lowest_first_refuted.

(** C11: asking for ranks while counts are on (their default) raises, whatever the collection; the documentation says
    that counts supersede ranks. *)
Theorem C11_counts_supersede_ranks_refuted :
  forall (R V : Type) (E : EqDec V) (lookup : R -> str -> res (fval V)) tag (greatest pandas : bool) (limit : list V) (rs : list R),
    ranked_series lookup tag true true greatest pandas limit rs = Raise MkException.
Proof. reflexivity. Qed.
Print Assumptions C11_counts_supersede_ranks_refuted.

Example C11_example :
  ranked_series look $"K" true false true false [] [r1; r2; r3; r4] = Ok (SCounts [($"x", 2); ($"y", 2); ($"z", 2)]) /\
  ranked_series look $"K" true false true true [] [r1; r3; r2] = Ok (SPandas [$"x"; $"y"; $"z"] [2; 2; 1] [1; 1; 2]) /\
  ranked_series look $"K" false true false false [$"z"; $"y"] [r1; r2] = Ok (SRanks [($"z", 2); ($"y", 1)]) /\
  ranked_series look $"K" true false false false [] [r1; r2] = Ok (SCounts [($"z", 1); ($"x", 2); ($"y", 2)]) /\
  readable look $"K" [r1; r2; r3].
Proof. split; [|split; [|split; [|split]]]; [vm_compute; reflexivity..|]. apply look_readable. Qed.

(** C12: with a tag, each (value, year) for which some member of that year has the value is listed once, sorted by
    year, and its count is the number of occurrences in members of that year.  Members without year or tag are left out. *)
Theorem C12_by_year :
  forall (R V : Type) (E : EqDec V) (lookup : R -> str -> res (fval V)) (year_of : R -> res Z) tag (greatest : bool) (limit : list V) (rs : list R),
    years_readable year_of rs -> readable lookup tag (filter (has_year year_of) rs) ->
    exists es ys ns l,
      time_series lookup year_of tag true greatest true limit rs = Ok (TPandas es ys ns) /\
      time_series lookup year_of tag true greatest false limit rs = Ok (TYears l) /\
      time_series lookup year_of tag false greatest false limit rs = Ok (TValues es) /\
      es = map fst l /\ ys = map snd l /\
      ns = map (fun vy => occurrences_in lookup year_of tag rs (snd vy) (fst vy)) l /\
      NoDup l /\
      (forall v y, In (v, y) l <-> permitted limit v /\ 0 < occurrences_in lookup year_of tag rs y v) /\
      (forall a b, before l a b -> if greatest then (snd b <= snd a)%Z else (snd a <= snd b)%Z) /\
      (forall v w y, before l (v, y) (w, y) -> before (first_seen (stream lookup tag (filter (has_year year_of) rs))) v w).
Proof.
  intros R V E lookup year_of tag greatest limit rs YR RD. unfold time_series. rewrite count_years_ok by assumption. cbn [bind].
  set (ps := flat_map (pairs_of lookup year_of tag limit) rs). destruct (nested_fold ps) as [K I G]. set (d := fold_left add_pair ps []) in *.
  assert (ND : NoDup (dkeys d)) by (rewrite K; apply NoDup_first_seen).
  assert (I' : forall v yd, In (v, yd) d -> NoDup (dkeys yd)).
  { intros v yd J. apply In_dget in J; [|exact ND]. apply (I v yd J). }
  destruct (by_year_spec d greatest ND I') as (N & IN & S & T). set (l := by_year greatest d) in *.
  assert (CNT : forall v y, count (v, y) ps = if allowed limit v then occurrences_in lookup year_of tag rs y v else 0) by (intros; apply count_pairs).
  assert (INl : forall v y, In (v, y) l <-> permitted limit v /\ 0 < occurrences_in lookup year_of tag rs y v).
  { intros v y. rewrite IN. specialize (G v y). unfold dget2 in G. rewrite CNT in G. pose proof (allowed_spec limit v) as AS.
    destruct (allowed limit v) eqn:A.
    - split.
      + intros (yd & n & J & Q). rewrite J, Q in G. split; [apply AS; reflexivity|]. destruct (Nat.eqb_spec (occurrences_in lookup year_of tag rs y v) 0); [discriminate|lia].
      + intros (_ & P). destruct (Nat.eqb_spec (occurrences_in lookup year_of tag rs y v) 0); [lia|]. destruct (dget v d) as [yd|]; [|discriminate]. eauto.
    - cbn in G. split; [intros (yd & n & J & Q); rewrite J, Q in G; discriminate|]. intros [Pm _]. apply AS in Pm. discriminate. }
  exists (map fst l), (map snd l), (map (fun vy => occurrences_in lookup year_of tag rs (snd vy) (fst vy)) l), l.
  split; [|split; [reflexivity|split; [reflexivity|split; [reflexivity|split; [reflexivity|split; [reflexivity|split; [exact N|split; [exact INl|split; [exact S|]]]]]]]]].
  - unfold time_output. fold l. do 2 f_equal. apply map_ext_in. intros [v y] J. cbn [fst snd]. specialize (G v y). unfold dget2 in G. rewrite CNT in G.
    apply INl in J. destruct J as [Pm P]. apply allowed_spec in Pm. rewrite Pm in G. destruct (Nat.eqb_spec (occurrences_in lookup year_of tag rs y v) 0); [lia|].
    destruct (dget v d) as [yd|]; [|discriminate]. rewrite G. reflexivity.
  - intros v w y B. apply T in B. rewrite K in B.
    assert (Q : map fst ps = filter (allowed limit) (stream lookup tag (filter (has_year year_of) rs))).
    { unfold ps, stream. clear. induction rs as [|r rs IH]; [reflexivity|]. cbn [flat_map filter]. rewrite map_app, IH. unfold pairs_of, has_year.
      destruct (year_of r); [|reflexivity]. cbn [flat_map]. rewrite filter_app, map_map. cbn. rewrite map_id. reflexivity. }
    rewrite Q, first_seen_filter in B. apply before_filter in B. exact B.
Qed.
Print Assumptions C12_by_year.

(** C12: without a tag, each member that has a year is listed once with its year and the count 1, sorted by year. *)
Theorem C12_records :
  forall (R : Type) (E : EqDec R) (year_of : R -> res Z) (greatest : bool) (rs : list R),
    NoDup rs -> years_readable year_of rs ->
    exists es ys ns l,
      time_series_records year_of true greatest true rs = Ok (TPandas es ys ns) /\
      time_series_records year_of true greatest false rs = Ok (TYears l) /\
      time_series_records year_of false greatest false rs = Ok (TValues es) /\
      es = map fst l /\ ys = map snd l /\ ns = map (fun _ => 1) l /\
      NoDup l /\ (forall r y, In (r, y) l <-> In r rs /\ year_of r = Ok y) /\
      (forall a b, before l a b -> if greatest then (snd b <= snd a)%Z else (snd a <= snd b)%Z) /\
      (forall r s y, before l (r, y) (s, y) -> before rs r s).
Proof.
  intros R E year_of greatest rs ND YR. unfold time_series_records.
  assert (RY : forall rs d, NoDup rs -> years_readable year_of rs -> (forall r, In r rs -> ~ In r (dkeys d)) ->
    record_years year_of rs d = Ok (d ++ flat_map (fun r => match year_of r with Ok y => [(r, [(y, 1)])] | Raise _ => [] end) rs)).
  { clear. induction rs as [|r rs IH]; intros d ND YR F; cbn [record_years flat_map]; [rewrite app_nil_r; reflexivity|].
    inversion ND as [|? ? N1 N2]; subst. assert (YR' : years_readable year_of rs) by (intros r' e I; apply YR; right; exact I).
    destruct (year_of r) as [y|e] eqn:Y.
    - assert (Sx : dset r [(y, 1)] d = d ++ [(r, [(y, 1)])]).
      { assert (NI : ~ In r (dkeys d)) by (apply F; left; reflexivity). clear -NI. induction d as [|[a b] d IH]; cbn [dset app]; [reflexivity|].
        rewrite neq_eqb by (intros ->; apply NI; left; reflexivity). rewrite IH; [reflexivity | intros I; apply NI; right; exact I]. }
      rewrite IH, Sx, <- app_assoc; [reflexivity|exact N2|exact YR'|]. intros r' I J. rewrite Sx in J. unfold dkeys in J. rewrite map_app in J. apply in_app_iff in J.
      destruct J as [J|[<-|[]]]; [apply (F r'); [right; exact I|exact J]|contradiction].
    - rewrite (YR r e (or_introl eq_refl) Y). apply IH; [exact N2|exact YR'|]. intros r' I; apply F; right; exact I. }
  rewrite RY by (auto; intros; intros []). cbn [bind app]. set (d := flat_map _ rs).
  assert (Dk : dkeys d = filter (has_year year_of) rs).
  { unfold d, dkeys. clear. induction rs as [|r rs IH]; [reflexivity|]. cbn [flat_map filter]. rewrite map_app, IH. unfold has_year. destruct (year_of r); reflexivity. }
  assert (NDd : NoDup (dkeys d)) by (rewrite Dk; apply NoDup_filter, ND).
  assert (DI : forall r yd, In (r, yd) d <-> In r rs /\ exists y, year_of r = Ok y /\ yd = [(y, 1)]).
  { intros r yd. unfold d. rewrite in_flat_map. split.
    - intros (r' & I & J). destruct (year_of r') as [y|] eqn:Y; [|destruct J]. destruct J as [Q|[]]. injection Q as <- <-. eauto.
    - intros (I & y & Y & ->). exists r. rewrite Y. split; [exact I|left; reflexivity]. }
  destruct (by_year_spec d greatest NDd) as (N & IN & S & T).
  { intros r yd J. apply DI in J. destruct J as (_ & y & _ & ->). cbn. constructor; [intros []|constructor]. }
  set (l := by_year greatest d) in *.
  assert (INl : forall r y, In (r, y) l <-> In r rs /\ year_of r = Ok y).
  { intros r y. rewrite IN. split.
    - intros (yd & n & J & Q). apply dget_In in J. apply DI in J. destruct J as (I & z & Y & ->). cbn in Q. destruct (eqb_spec y z) as [->|NZ]; [auto|discriminate].
    - intros (I & Y). exists [(y, 1)], 1. split; [|cbn; rewrite eqb_refl; reflexivity]. apply In_dget; [exact NDd|]. apply DI. split; [exact I|]. eauto. }
  exists (map fst l), (map snd l), (map (fun _ => 1) l), l.
  split; [|split; [reflexivity|split; [reflexivity|split; [reflexivity|split; [reflexivity|split; [reflexivity|split; [exact N|split; [exact INl|split; [exact S|]]]]]]]]].
  - unfold time_output. fold l. do 2 f_equal. apply map_ext_in. intros [r y] J. cbn [fst snd]. apply INl in J. destruct J as [I Y].
    assert (Q : @dget R (dict Z nat) _ r d = Some [(y, 1)]) by (apply In_dget; [exact NDd|]; apply DI; split; [exact I|]; eauto). rewrite Q. cbn. rewrite eqb_refl. reflexivity.
  - intros r s y B. apply T in B. change (before (map fst d) r s) in B. change (dkeys d) with (map fst d) in Dk. rewrite Dk in B. apply before_filter in B. exact B.
Qed.
Print Assumptions C12_records.

Example C12_example :
  time_series look yr $"K" true false true [] [r2; r1; r4] = Ok (TPandas [$"y"; $"x"; $"z"; $"y"] [1990; 1990; 2001; 2001]%Z [1; 2; 1; 1]) /\
  time_series_records yr true true false [r1; r2; r3] = Ok (TYears [(r2, 2001%Z); (r1, 1990%Z)]) /\
  years_readable yr [r1; r2; r3] /\ readable look $"K" (filter (has_year yr) [r1; r2; r4]).
Proof.
  split; [vm_compute; reflexivity|]. split; [vm_compute; reflexivity|]. split; [|apply look_readable].
  intros r e [<-|[<-|[<-|[]]]]; vm_compute; congruence.
Qed.

(** C13: the outer keys are the values under the key tag; under [a], value [b] has the number of pairs of an
    occurrence of [a] and one of [b] under one of the counted tags in the same member; values without such a pair
    are absent. *)
Theorem C13_cooccurrence :
  forall (R V : Type) (E : EqDec V) (lookup : R -> str -> res (fval V)) (none : V) keyTag (tags : list str) (rs : list R),
    (forall t, In t (keyTag :: tags) -> readable lookup t rs) ->
    exists d, cooccurrence_counts lookup none keyTag tags rs = Ok d /\
      (forall a, In a (dkeys d) <-> exists r, In r rs /\ In a (shown lookup none keyTag r)) /\
      forall a inner, dget a d = Some inner ->
        forall b n, dget b inner = Some n <-> n = total (fun t => together lookup none rs keyTag t a b) tags /\ 0 < n.
Proof.
  intros R V E lookup none keyTag tags rs RD. unfold cooccurrence_counts.
  destruct (@occ_records_ok _ _ _ lookup none keyTag tags rs RD []) as (d & -> & P & K & C); [intros a b n Q; discriminate|].
  exists d. split; [reflexivity|]. split; [intros a; rewrite K; split; [intros [[]|J]; exact J | auto]|].
  intros a i G b n. specialize (C a b). specialize (P a b). unfold inner in C, P. rewrite G in C, P. cbn in C. split.
  - intros Q. rewrite Q in C, P. cbn in C. split; [exact C|]. apply P; reflexivity.
  - intros [-> Pos]. destruct (dget b i) as [m|]; cbn in C; [congruence|lia].
Qed.
Print Assumptions C13_cooccurrence.

Example C13_example :
  cooccurrence_counts look $"None" $"L" [$"K"] [r1; r2; r3] =
    Ok [($"en", [($"x", 2); ($"y", 1)]); ($"fr", [($"z", 1); ($"y", 1)])] /\
  forall t, In t [$"L"; $"K"] -> readable look t [r1; r2; r3].
Proof. split; [vm_compute; reflexivity|]. intros; apply look_readable. Qed.

(** C11 - C13: the counts do not depend on the iteration order. *)
Theorem C11_order_independent :
  forall (R V : Type) (E : EqDec V) (lookup : R -> str -> res (fval V)) tag (limit : list V) (rs rs' : list R) (greatest : bool) l l',
    Permutation rs rs' -> readable lookup tag rs ->
    ranked_series lookup tag true false greatest false limit rs = Ok (SCounts l) ->
    ranked_series lookup tag true false greatest false limit rs' = Ok (SCounts l') ->
    Permutation l l' /\ map snd l = map snd l'.
Proof.
  intros R V E lookup tag limit rs rs' greatest l l' P RD Q Q'.
  assert (RD' : readable lookup tag rs') by (intros r e I; apply RD; apply (Permutation_in _ (Permutation_sym P)); exact I).
  destruct (C11_counts _ _ _ lookup tag greatest limit rs RD) as (m & Em & N & IN & S & _).
  destruct (C11_counts _ _ _ lookup tag greatest limit rs' RD') as (m' & Em' & N' & IN' & S' & _).
  rewrite Q in Em. injection Em as <-. rewrite Q' in Em'. injection Em' as <-.
  assert (PL : Permutation l l').
  { apply NoDup_Permutation; [apply NoDup_map_inv in N; exact N | apply NoDup_map_inv in N'; exact N'|].
    intros [v n]. rewrite IN, IN'. unfold occurrences. rewrite (total_perm _ P). reflexivity. }
  split; [exact PL|].
  assert (U : forall (f : nat -> nat -> bool), (forall a b, f a b = true -> f b a = true -> a = b) ->
     forall a b : list nat, Permutation a b -> (forall x y, before a x y -> f x y = true) -> (forall x y, before b x y -> f x y = true) -> a = b).
  { clear. intros f AS. induction a as [|x a IH]; intros b P B1 B2; [apply Permutation_nil in P; congruence|].
    destruct b as [|y b]; [apply Permutation_sym, Permutation_nil in P; discriminate|].
    assert (x = y) as ->.
    { destruct (Nat.eq_dec x y) as [Q|NQ]; [exact Q|]. assert (Ix : In x b) by (destruct (Permutation_in x P (or_introl eq_refl)); [congruence|assumption]).
      assert (Iy : In y a) by (destruct (Permutation_in y (Permutation_sym P) (or_introl eq_refl)); [congruence|assumption]).
      apply AS; [apply B1|apply B2].
      - apply in_split in Iy. destruct Iy as (p & q & ->). exists [], p, q. reflexivity.
      - apply in_split in Ix. destruct Ix as (p & q & ->). exists [], p, q. reflexivity. }
    f_equal. apply IH; [eapply Permutation_cons_inv; exact P | intros; apply B1, before_cons; assumption | intros; apply B2, before_cons; assumption]. }
  apply (U (cmp greatest)).
  - intros a b. destruct greatest; cbn; rewrite !Nat.leb_le; lia.
  - apply Permutation_map, PL.
  - intros x y B. apply before_map_inv in B. destruct B as (a & b & B & <- & <-). specialize (S a b B). destruct greatest; cbn; apply Nat.leb_le; exact S.
  - intros x y B. apply before_map_inv in B. destruct B as (a & b & B & <- & <-). specialize (S' a b B). destruct greatest; cbn; apply Nat.leb_le; exact S'.
Qed.
Print Assumptions C11_order_independent.
