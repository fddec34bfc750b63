(** Proofs about timeSeries with years that are numbers or texts; the counting is as in SeriesProofs.v. *)
From Coq Require Import String Lia Sorted.
From Verif Require Import Base PyStr RecordView RecordViewFacts SeriesModel SeriesSpec SeriesProofs AnalysisModel YearsModel YearsSpec.
From Verif Require CiteNetModel.
Set Implicit Arguments.

Section Spec.
Context {R V : Type} `{EqDec V}.
Variable lookup : R -> str -> res (fval V).
Variable year_of : R -> res yearval.
Definition yin_year (y : yearval) (r : R) : bool := match year_of r with Ok z => eqb z y | Raise _ => false end.
Definition ydated (r : R) : bool := match year_of r with Ok _ => true | Raise _ => false end.
Definition yoccurrences_in (tag : str) (rs : list R) (y : yearval) (v : V) : nat := occurrences lookup tag (filter (yin_year y) rs) v.
Definition ydates_readable (rs : list R) : Prop := forall r e, In r rs -> year_of r = Raise e -> e = KeyError.
End Spec.
Section Years.
Context {R V : Type} `{EqDec V}.
Variable lookup : R -> str -> res (fval V).
Variable year_of : R -> res yearval.
Variables (tag : str) (limit : list V).

(** the (value, year) pairs met, in order *)
Definition ypairs_of (r : R) : list (V * yearval) :=
  match year_of r with Ok y => map (fun v => (v, y)) (filter (allowed limit) (values_of lookup tag r)) | Raise _ => [] end.
Definition yadd_pair (d : dict V (dict yearval nat)) (vy : V * yearval) : dict V (dict yearval nat) := note_year (snd vy) d (fst vy).
Lemma note_years_ok rs : ydates_readable year_of rs -> readable lookup tag (filter (ydated year_of) rs) -> forall d,
  note_years lookup year_of tag limit rs d = Ok (fold_left yadd_pair (flat_map ypairs_of rs) d).
Proof.
  induction rs as [|r rs IH]; intros YR RD d; [reflexivity|]. cbn [note_years flat_map]. rewrite fold_left_app.
  assert (YR' : ydates_readable year_of rs) by (intros r' e I; apply YR; right; exact I).
  assert (RD' : readable lookup tag (filter (ydated year_of) rs)).
  { intros r' e I. apply RD. cbn. destruct (ydated year_of r); [right; exact I|exact I]. }
  unfold ypairs_of at 2. destruct (year_of r) as [y|e] eqn:Y.
  - unfold values_of. destruct (lookup r tag) as [f|e] eqn:L.
    + rewrite (IH YR' RD'), fold_allowed, fold_left_map'. reflexivity.
    + assert (e = KeyError) as ->. { apply (RD r e); [|exact L]. cbn. unfold ydated. rewrite Y. left; reflexivity. }
      rewrite (IH YR' RD'). reflexivity.
  - rewrite (YR r e (or_introl eq_refl) Y). rewrite (IH YR' RD'). reflexivity.
Qed.
(** nested look-up *)
Definition yget2 (v : V) (y : yearval) (d : dict V (dict yearval nat)) : option nat := match dget v d with Some yd => dget y yd | None => None end.
Record ynested_ok (l : list (V * yearval)) (d : dict V (dict yearval nat)) : Prop := {
  yno_keys : dkeys d = first_seen (map fst l);
  yno_inner : forall v yd, dget v d = Some yd -> yd <> [] /\ NoDup (dkeys yd);
  yno_get : forall v y, yget2 v y d = if count (v, y) l =? 0 then None else Some (count (v, y) l)
}.
Lemma ynested_snoc l d v y : ynested_ok l d -> ynested_ok (l ++ [(v, y)]) (yadd_pair d (v, y)).
Proof.
  intros [K I G]. unfold yadd_pair; cbn [fst snd]. unfold note_year. destruct (dget v d) as [yd|] eqn:E.
  - split.
    + rewrite dkeys_dset. pose proof (dget_Some_key _ _ E) as Kv. unfold dhas. rewrite (proj2 (mem_In v (dkeys d)) Kv).
      rewrite map_app. cbn [map fst]. rewrite first_seen_snoc. rewrite K, In_first_seen in Kv. rewrite (proj2 (mem_In v _) Kv). exact K.
    + intros w wd. rewrite dget_dset. destruct (eqb_spec w v) as [->|N]; [|apply I]. intros Q; injection Q as <-.
      destruct (I v yd E) as [NE ND]. split.
      * unfold dincr. destruct yd as [|[a b] yd]; [congruence|]. cbn. destruct (eqb y a); [discriminate|]. destruct (dget y yd); discriminate.
      * unfold dincr. destruct (dget y yd); apply NoDup_dset; exact ND.
    + intros w z. rewrite count_app. cbn [count]. specialize (G w z). unfold yget2 in *. rewrite dget_dset.
      destruct (eqb_spec w v) as [->|N].
      * rewrite E in G. rewrite dget_dincr. destruct (eqb_spec z y) as [->|NZ].
        -- rewrite eqb_refl. rewrite G. destruct (Nat.eqb_spec (count (v, y) l) 0) as [Z0|Z0]; destruct (Nat.eqb_spec (count (v, y) l + (1 + 0)) 0); try lia; f_equal; lia.
        -- rewrite (neq_eqb (x := (v, z))) by congruence. cbn [Nat.add]. rewrite Nat.add_0_r. exact G.
      * rewrite (neq_eqb (x := (w, z))) by congruence. cbn [Nat.add]. rewrite Nat.add_0_r. exact G.
  - pose proof E as Kv. apply dget_None in Kv. split.
    + rewrite dkeys_dset. unfold dhas. rewrite (proj2 (mem_not_In v (dkeys d)) Kv). rewrite map_app. cbn [map fst]. rewrite first_seen_snoc.
      rewrite K, In_first_seen in Kv. rewrite (proj2 (mem_not_In v _) Kv). rewrite K; reflexivity.
    + intros w wd. rewrite dget_dset. destruct (eqb_spec w v) as [->|N]; [|apply I]. intros Q; injection Q as <-. split; [discriminate|]. cbn. constructor; [intros []|constructor].
    + intros w z. rewrite count_app. cbn [count]. specialize (G w z). unfold yget2 in *. rewrite dget_dset.
      destruct (eqb_spec w v) as [->|N].
      * rewrite E in G. assert (C0 : count (v, z) l = 0) by (destruct (Nat.eqb_spec (count (v, z) l) 0); [assumption|discriminate]). rewrite C0.
        cbn [dget]. destruct (eqb_spec z y) as [->|NZ]; [rewrite eqb_refl; reflexivity|]. rewrite (neq_eqb (x := (v, z))) by congruence. reflexivity.
      * rewrite (neq_eqb (x := (w, z))) by congruence. cbn [Nat.add]. rewrite Nat.add_0_r. exact G.
Qed.
Lemma ynested_fold l : ynested_ok l (fold_left yadd_pair l []).
Proof.
  induction l as [|x l IH] using rev_ind; [split; [reflexivity | intros ? ? Q; discriminate | intros; reflexivity]|].
  rewrite fold_left_app. cbn [fold_left]. destruct x as [v y]. apply ynested_snoc, IH.
Qed.
Lemma ycount_pairs rs v y : count (v, y) (flat_map ypairs_of rs) = if allowed limit v then yoccurrences_in lookup year_of tag rs y v else 0.
Proof.
  rewrite count_flat_map.
  transitivity (total (fun r => if yin_year year_of y r then if allowed limit v then count v (values_of lookup tag r) else 0 else 0) rs).
  - apply total_ext. intros r _. unfold ypairs_of, yin_year. destruct (year_of r) as [z|e]; [|reflexivity].
    rewrite <- (count_filter (allowed limit)). destruct (eqb_spec z y) as [->|N].
    + induction (filter (allowed limit) (values_of lookup tag r)) as [|w l IH]; [reflexivity|]. cbn [map count]. rewrite IH. f_equal.
      destruct (eqb_spec v w) as [->|NV]; [rewrite eqb_refl; reflexivity|]. rewrite (neq_eqb (x := (v, y))) by congruence. reflexivity.
    + induction (filter (allowed limit) (values_of lookup tag r)) as [|w l IH]; [reflexivity|]. cbn [map count]. rewrite IH.
      rewrite (neq_eqb (x := (v, y))) by congruence. reflexivity.
  - unfold yoccurrences_in, occurrences. destruct (allowed limit v).
    + induction rs as [|r rs IH]; [reflexivity|]. cbn [filter]. unfold total in *. cbn [fold_right]. rewrite IH. destruct (yin_year year_of y r); reflexivity.
    + transitivity (total (fun _ : R => 0) rs); [|apply total_zero]. apply total_ext. intros r _. destruct (yin_year year_of y r); reflexivity.
Qed.
End Years.
Section ByYear.
Context {E : Type} `{EqDec E}.
Lemma yIn_flat (d : dict E (dict yearval nat)) v y : In (v, y) (flat_years d) <-> exists yd, In (v, yd) d /\ In y (dkeys yd).
Proof.
  unfold flat_years. rewrite in_flat_map. split.
  - intros ([w yd] & I & J). cbn in J. apply in_map_iff in J. destruct J as (z & Q & J). injection Q as <- <-. eauto.
  - intros (yd & I & J). exists (v, yd). split; [exact I|]. cbn. apply in_map_iff. eauto.
Qed.
Lemma yNoDup_flat (d : dict E (dict yearval nat)) : NoDup (dkeys d) -> (forall v yd, In (v, yd) d -> NoDup (dkeys yd)) -> NoDup (flat_years d).
Proof.
  induction d as [|[v yd] d IH]; intros ND I; [constructor|]. inversion ND as [|? ? N1 N2]; subst. unfold flat_years. cbn [flat_map fst snd].
  fold (flat_years d). assert (F : NoDup (flat_years d)) by (apply IH; [exact N2 | intros w wd J; apply (I w wd); right; exact J]).
  assert (A : NoDup (map (fun y => (v, y)) (dkeys yd))).
  { assert (Q : NoDup (dkeys yd)) by (apply (I v yd); left; reflexivity). induction Q as [|y l NI Q IHl]; cbn; constructor; [|exact IHl].
    rewrite in_map_iff. intros (z & Qz & J). injection Qz as ->. contradiction. }
  revert A. generalize (dkeys yd) as ys. intros ys A. induction ys as [|y ys IHy]; cbn; [exact F|].
  inversion A as [|? ? A1 A2]; subst. constructor; [|apply IHy, A2]. rewrite in_app_iff. intros [J|J]; [contradiction|].
  apply yIn_flat in J. destruct J as (wd & J & _). apply N1. apply (in_map fst) in J. exact J.
Qed.
(** entries of one year, in the order of the dictionary *)
Lemma yflat_year (d : dict E (dict yearval nat)) y v w : NoDup (dkeys d) -> before (flat_years d) (v, y) (w, y) -> (forall v yd, In (v, yd) d -> NoDup (dkeys yd)) -> before (dkeys d) v w.
Proof.
  intros ND B I.
  assert (Q : before (filter (fun ey => eqb (snd ey) y) (flat_years d)) (v, y) (w, y)).
  { apply before_in_filter; [exact B| |]; cbn; apply eqb_refl. }
  assert (Eq : filter (fun ey => eqb (snd ey) y) (flat_years d) = map (fun k => (k, y)) (map fst (filter (fun ev => mem y (dkeys (snd ev))) d))).
  { clear B Q ND. induction d as [|[k yd] d IH]; [reflexivity|]. unfold flat_years. cbn [flat_map fst snd filter]. fold (flat_years d). rewrite filter_app, IH by (intros a b J; apply (I a b); right; exact J).
    assert (Y : filter (fun ey : E * yearval => eqb (snd ey) y) (map (fun y => (k, y)) (dkeys yd)) = if mem y (dkeys yd) then [(k, y)] else []).
    { assert (N : NoDup (dkeys yd)) by (apply (I k yd); left; reflexivity). revert N. generalize (dkeys yd) as ys. clear. induction ys as [|z ys IH]; intros N; [reflexivity|].
      inversion N as [|? ? N1 N2]; subst. cbn [map filter snd]. unfold mem in *. cbn [existsb]. rewrite (IH N2). destruct (eqb_spec z y) as [->|NE].
      - rewrite eqb_refl. cbn [orb]. destruct (existsb (eqb y) ys) eqn:X; [|reflexivity]. exfalso. apply N1. apply (mem_In y ys). exact X.
      - rewrite (neq_eqb (x := y) (y := z)) by congruence. reflexivity. }
    rewrite Y. destruct (mem y (dkeys yd)); reflexivity. }
  rewrite Eq in Q. apply before_map_inv in Q. destruct Q as (v' & w' & Q & E1 & E2). injection E1 as ->. injection E2 as ->.
  apply before_map_inv in Q. destruct Q as (x1 & x2 & Q & <- & <-). apply before_filter in Q. apply (before_map fst) in Q. exact Q.
Qed.
End ByYear.

(** ** the order of years *)
Lemma str_le_total s : forall t, CiteNetModel.str_le s t = true \/ CiteNetModel.str_le t s = true.
Proof.
  induction s as [|x s IH]; intros [|y t]; cbn [CiteNetModel.str_le]; auto. destruct (eqb_spec x y) as [->|N]; [rewrite eqb_refl; apply IH|].
  rewrite (neq_eqb (x := y)) by congruence. rewrite !N.ltb_lt. lia.
Qed.
Lemma str_le_trans s : forall t u, CiteNetModel.str_le s t = true -> CiteNetModel.str_le t u = true -> CiteNetModel.str_le s u = true.
Proof.
  induction s as [|x s IH]; intros t u A B; [reflexivity|]. destruct t as [|y t]; [discriminate A|]. destruct u as [|z u]; [discriminate B|]. cbn [CiteNetModel.str_le] in *.
  destruct (eqb_spec x y) as [->|N].
  - destruct (eqb_spec y z) as [->|M]; [eapply IH; eassumption|exact B].
  - apply N.ltb_lt in A. destruct (eqb_spec y z) as [->|M].
    + rewrite neq_eqb by congruence. apply N.ltb_lt, A.
    + apply N.ltb_lt in B. rewrite neq_eqb by lia. apply N.ltb_lt. lia.
Qed.
Lemma str_le_text s : forall t, CiteNetModel.str_le s t = true -> text_before s t.
Proof.
  induction s as [|x s IH]; intros t A; [left; exists t; reflexivity|]. destruct t as [|y t]; [discriminate A|]. cbn [CiteNetModel.str_le] in A.
  destruct (eqb_spec x y) as [->|N].
  - destruct (IH t A) as [(r & ->)|(p & a & b & u & v & -> & -> & L)]; [left; exists r; reflexivity|]. right. exists (y :: p), a, b, u, v. auto.
  - right. exists [], x, y, s, t. apply N.ltb_lt in A. auto.
Qed.
Definition ycmp (greatest : bool) : yearval -> yearval -> bool := if greatest then (fun a b => year_le b a) else year_le.
Lemma year_le_total a b : year_le a b = true \/ year_le b a = true.
Proof. destruct a, b; cbn [year_le]; auto; [rewrite !Z.leb_le; lia|apply str_le_total]. Qed.
Lemma year_le_trans a b c : year_le a b = true -> year_le b c = true -> year_le a c = true.
Proof. destruct a, b, c; cbn [year_le]; try reflexivity; try discriminate; [rewrite !Z.leb_le; lia|apply str_le_trans]. Qed.
Lemma ycmp_total g a b : ycmp g a b = true \/ ycmp g b a = true.
Proof. destruct g; apply year_le_total. Qed.
Lemma ycmp_trans g a b c : ycmp g a b = true -> ycmp g b c = true -> ycmp g a c = true.
Proof. destruct g; cbn [ycmp]; intros A B; eapply year_le_trans; eassumption. Qed.

Section Sorted.
Context {E : Type} `{EqDec E}.
(** a number and a text in the list *)
Definition both_kinds (l : list (E * yearval)) : Prop := exists a y b s, In (a, YNum y) l /\ In (b, YText s) l.
Lemma sort_both greatest (l : list (E * yearval)) : both_kinds l -> sort_years greatest l = Raise TypeError.
Proof.
  intros (a & y & b & s & I & J). unfold sort_years. assert (A : existsb (fun x => is_num (snd x)) l = true) by (apply existsb_exists; eexists; split; [exact I|reflexivity]).
  assert (B : existsb (fun x => is_text (snd x)) l = true) by (apply existsb_exists; eexists; split; [exact J|reflexivity]). rewrite A, B. reflexivity.
Qed.
Lemma sort_one greatest (l : list (E * yearval)) : ~ both_kinds l -> sort_years greatest l = Ok (ssort snd (ycmp greatest) l).
Proof.
  intros N. unfold sort_years. destruct (existsb (fun x => is_num (snd x)) l) eqn:A; [|reflexivity]. destruct (existsb (fun x => is_text (snd x)) l) eqn:B; [|reflexivity].
  exfalso. apply N. apply existsb_exists in A, B. destruct A as ((a & [y|s]) & I & A); [|discriminate A]. destruct B as ((b & [z|s]) & J & B); [discriminate B|].
  exists a, y, b, s. auto.
Qed.
Lemma sorted_spec (d : dict E (dict yearval nat)) greatest : NoDup (dkeys d) -> (forall v yd, In (v, yd) d -> NoDup (dkeys yd)) -> ~ both_kinds (flat_years d) ->
  let l := ssort snd (ycmp greatest) (flat_years d) in
  NoDup l /\ (forall x, In x l <-> In x (flat_years d)) /\
  (forall a b, before l a b -> if greatest then not_after (snd b) (snd a) else not_after (snd a) (snd b)) /\
  (forall v w y, before l (v, y) (w, y) -> before (dkeys d) v w).
Proof.
  intros ND I NB l. assert (P : Permutation (flat_years d) l) by apply ssort_perm.
  assert (IN : forall x, In x l <-> In x (flat_years d)) by (intros x; split; apply Permutation_in; [apply Permutation_sym|]; exact P).
  split; [|split; [exact IN|split]].
  - eapply Permutation_NoDup; [exact P|]. apply yNoDup_flat; assumption.
  - intros a b B. pose proof (@ssort_ordered (E * yearval) yearval snd (ycmp greatest) (ycmp_total greatest) (ycmp_trans greatest) (flat_years d)) as S.
    unfold ordered in S. rewrite StronglySorted_before in S. specialize (S a b B).
    assert (Ia : In a (flat_years d) /\ In b (flat_years d)). { rewrite <- !IN. destruct B as (p & q & r & ->). rewrite !in_app_iff. cbn. rewrite !in_app_iff. cbn. auto 10. }
    destruct Ia as (Ia & Ib). destruct a as (va & ya), b as (vb & yb). cbn [snd] in *. destruct greatest; cbn [ycmp] in S; destruct ya as [ya|sa], yb as [yb|sb]; cbn [year_le not_after] in *;
      try (apply Z.leb_le, S); try (apply str_le_text, S); try discriminate S; exfalso; apply NB; unfold both_kinds; eauto 8.
  - intros v w y B. apply (yflat_year d (y := y) ND); [|exact I].
    assert (Eq : filter (fun x => eqb (snd x) y) l = filter (fun x => eqb (snd x) y) (flat_years d)).
    { apply ssort_stable; [apply (ycmp_total greatest)|]. intros a b. rewrite !eqb_true. congruence. }
    apply (before_in_filter (fun x => eqb (snd x) y)) in B; cbn [snd]; [|apply eqb_refl|apply eqb_refl]. rewrite Eq in B. apply before_filter in B. exact B.
Qed.
End Sorted.

Section Series.
Context {R V : Type} `{EqDec V}.
Variable lookup : R -> str -> res (fval V).
Variable year_of : R -> res yearval.
Notation occurs tag rs := (yoccurrences_in lookup year_of tag rs).
Lemma year_series_spec tag greatest limit rs : ydates_readable year_of rs -> readable lookup tag (filter (ydated year_of) rs) ->
  ((exists a y b s, permitted limit a /\ permitted limit b /\ 0 < occurs tag rs (YNum y) a /\ 0 < occurs tag rs (YText s) b) ->
     forall g p, year_series lookup year_of tag g greatest p limit rs = Raise TypeError) /\
  (~ (exists a y b s, permitted limit a /\ permitted limit b /\ 0 < occurs tag rs (YNum y) a /\ 0 < occurs tag rs (YText s) b) ->
   exists es ys ns l,
    year_series lookup year_of tag true greatest true limit rs = Ok (YPandas es ys ns) /\
    year_series lookup year_of tag true greatest false limit rs = Ok (YYears l) /\
    year_series lookup year_of tag false greatest false limit rs = Ok (YValues es) /\
    es = map fst l /\ ys = map snd l /\
    ns = map (fun vy => occurs tag rs (snd vy) (fst vy)) l /\
    NoDup l /\
    (forall v y, In (v, y) l <-> permitted limit v /\ 0 < occurs tag rs y v) /\
    (forall a b, before l a b -> if greatest then not_after (snd b) (snd a) else not_after (snd a) (snd b)) /\
    (forall v w y, before l (v, y) (w, y) -> before (first_seen (stream lookup tag (filter (ydated year_of) rs))) v w)).
Proof.
  intros YR RD. unfold year_series. rewrite note_years_ok by assumption. cbn [bind]. unfold year_output.
  set (ps := flat_map (ypairs_of lookup year_of tag limit) rs). destruct (ynested_fold ps) as [K I G]. set (d := fold_left yadd_pair ps []) in *.
  assert (ND : NoDup (dkeys d)) by (rewrite K; apply NoDup_first_seen).
  assert (I' : forall v yd, In (v, yd) d -> NoDup (dkeys yd)).
  { intros v yd J. apply In_dget in J; [|exact ND]. apply (I v yd J). }
  assert (CNT : forall v y, count (v, y) ps = if allowed limit v then occurs tag rs y v else 0) by (intros; apply ycount_pairs).
  assert (INl : forall v y, In (v, y) (flat_years d) <-> permitted limit v /\ 0 < occurs tag rs y v).
  { intros v y. rewrite yIn_flat. specialize (G v y). unfold yget2 in G. rewrite CNT in G. pose proof (allowed_spec limit v) as AS.
    destruct (allowed limit v) eqn:A.
    - split.
      + intros (yd & J & Q). apply In_dget in J; [|exact ND]. rewrite J in G. split; [apply AS; reflexivity|]. destruct (Nat.eqb_spec (occurs tag rs y v) 0); [|lia].
        apply dget_None in G. contradiction.
      + intros (_ & P). destruct (Nat.eqb_spec (occurs tag rs y v) 0); [lia|]. destruct (dget v d) as [yd|] eqn:D; [|discriminate]. exists yd. split; [apply dget_In, D|]. eapply dget_Some_key, G.
    - split.
      + intros (yd & J & Q). apply In_dget in J; [|exact ND]. rewrite J in G. cbn in G. apply dget_None in G. contradiction.
      + intros [Pm _]. apply AS in Pm. discriminate. }
  assert (BK : both_kinds (flat_years d) <-> exists a y b s, permitted limit a /\ permitted limit b /\ 0 < occurs tag rs (YNum y) a /\ 0 < occurs tag rs (YText s) b).
  { split; intros (a & y & b & s & Q); exists a, y, b, s; rewrite ?INl in *; tauto. }
  rewrite <- BK. split.
  - intros B g p. rewrite (sort_both greatest B). reflexivity.
  - intros NB. rewrite (sort_one greatest NB). cbn [bind]. destruct (sorted_spec d greatest ND I' NB) as (N & IN & S & T). set (l := ssort snd (ycmp greatest) (flat_years d)) in *.
    assert (IL : forall v y, In (v, y) l <-> permitted limit v /\ 0 < occurs tag rs y v) by (intros v y; rewrite IN; apply INl).
    exists (map fst l), (map snd l), (map (fun vy => occurs tag rs (snd vy) (fst vy)) l), l.
    split; [|split; [reflexivity|split; [reflexivity|split; [reflexivity|split; [reflexivity|split; [reflexivity|split; [exact N|split; [exact IL|split; [exact S|]]]]]]]]].
    + do 2 f_equal. apply map_ext_in. intros [v y] J. cbn [fst snd]. specialize (G v y). unfold yget2 in G. rewrite CNT in G.
      apply IL in J. destruct J as [Pm P]. apply allowed_spec in Pm. rewrite Pm in G. destruct (Nat.eqb_spec (occurs tag rs y v) 0); [lia|].
      destruct (dget v d) as [yd|]; [|discriminate]. rewrite G. reflexivity.
    + intros v w y B. apply T in B. rewrite K in B.
      assert (Q : map fst ps = filter (allowed limit) (stream lookup tag (filter (ydated year_of) rs))).
      { unfold ps, stream. clear. induction rs as [|r rs IH]; [reflexivity|]. cbn [flat_map filter]. rewrite map_app, IH. unfold ypairs_of, ydated.
        destruct (year_of r); [|reflexivity]. cbn [flat_map]. rewrite filter_app, map_map. cbn. rewrite map_id. reflexivity. }
      rewrite Q, first_seen_filter in B. apply before_filter in B. exact B.
Qed.
End Series.
