(** Reading what the writer of the dialect excel wrote, and the years of a value. *)
From Coq Require Import List ZArith Lia Bool Arith.
From Coq Require Import String.
From Verif Require Import Base PyStr RecordView RecordViewFacts CsvModel CsvProofs SeriesModel SeriesSpec SeriesProofs NlpModel NlpProofs2 TableFileModel.
Import ListNotations.
Local Open Scope list_scope.

Lemma needs_no_quotes (s : str) : existsb needs_quotes s = false -> forall c, In c s -> c <> nl /\ c <> cr /\ c <> CsvModel.quote /\ c <> comma.
Proof.
  intros E c I. assert (F : needs_quotes c = false).
  { destruct (needs_quotes c) eqn:Q; [|reflexivity]. exfalso. assert (T : existsb needs_quotes s = true) by (apply existsb_exists; exists c; auto). congruence. }
  unfold needs_quotes in F. apply orb_false_iff in F. destruct F as [F F4]. apply orb_false_iff in F. destruct F as [F F3]. apply orb_false_iff in F. destruct F as [F1 F2].
  repeat split; intros ->; rewrite eqb_refl in *; discriminate.
Qed.
(** the state after a field is one from which a comma or the end of the line saves it *)
Lemma excel_loop_field st fs s t : at_field st -> t <> [] -> clean s ->
  exists s1, (s1 = InField \/ s1 = QuoteInQuoted \/ (s1 = st /\ s = [])) /\ loop (mkPs st [] fs) (excel_field s ++ t) = loop (mkPs s1 s fs) t.
Proof.
  intros A NE (C & Z & L). unfold excel_field. destruct (existsb needs_quotes s) eqn:E.
  - exists QuoteInQuoted. split; [auto|]. apply loop_quoted; auto.
  - destruct s as [|c s]; [exists st; split; [auto|reflexivity]|]. exists InField. split; [auto|]. apply loop_bare; auto. split; [discriminate|].
    intros x I. destruct (needs_no_quotes _ E x I) as (X1 & X2 & X3 & X4). repeat split; auto. intros ->. exact (Z I).
Qed.
Lemma excel_loop_row t : forall vs v st fs, at_field st -> Forall clean (v :: vs) -> (st = StartRecord -> vs <> []) ->
  loop (mkPs st [] fs) (join [comma] (map excel_field (v :: vs)) ++ nl :: t) = let* r := loop ps0 t in Ok ((fs ++ v :: vs) :: r).
Proof.
  induction vs as [|w vs IH]; intros v st fs A F O; inversion F as [|? ? Fv Fs]; subst.
  - cbn [map join]. destruct (@excel_loop_field st fs v (nl :: t) A) as (s1 & S1 & ->); [discriminate | exact Fv |].
    assert (S1' : s1 = InField \/ s1 = QuoteInQuoted \/ s1 = StartField).
    { destruct S1 as [-> | [-> | [-> _]]]; auto. destruct A as [-> | ->]; [exfalso; apply O; reflexivity | auto]. }
    destruct S1' as [-> | [-> | ->]]; (erewrite loop_nl; [|reflexivity|reflexivity]); reflexivity.
  - change (join [comma] (map excel_field (v :: w :: vs))) with (excel_field v ++ [comma] ++ join [comma] (map excel_field (w :: vs))).
    rewrite <- !app_assoc. destruct (@excel_loop_field st fs v ([comma] ++ join [comma] (map excel_field (w :: vs)) ++ nl :: t) A) as (s1 & S1 & ->);
      [discriminate | exact Fv |]. cbn [app].
    rewrite loop_char with (p1 := mkPs StartField [] (fs ++ [v])).
    + rewrite IH; [|right; reflexivity | assumption | discriminate]. rewrite <- app_assoc. reflexivity.
    + discriminate.
    + discriminate.
    + destruct (join _ _); discriminate.
    + destruct S1 as [-> | [-> | [-> ->]]]; [reflexivity | reflexivity |]. destruct A as [-> | ->]; reflexivity.
Qed.
Lemma excel_field_no_cr s : ~ In cr s -> ~ In cr (excel_field s).
Proof.
  intros N. unfold excel_field. destruct (existsb needs_quotes s); [|exact N].
  intros J. unfold quoted in J. destruct J as [J|J]; [discriminate|]. apply in_app_iff in J. destruct J as [J|[J|[]]]; [|discriminate].
  unfold double_quotes in J. apply in_flat_map in J. destruct J as (c & J1 & J2). destruct (@eqb_spec char _ c CsvModel.quote) as [->|NQ].
  - destruct J2 as [J2|[J2|[]]]; discriminate.
  - destruct J2 as [J2|[]]. subst c. contradiction.
Qed.
Lemma excel_row_two r : 2 <= length r -> excel_row r = join [comma] (map excel_field r) ++ [cr; nl].
Proof. destruct r as [|[|] [|]]; cbn [length]; intros; try lia; reflexivity. Qed.
Lemma excel_rows_row r t : 2 <= length r -> Forall clean r -> csv_rows (excel_row r ++ t) = let* rs := csv_rows t in Ok (r :: rs).
Proof.
  intros L F. unfold csv_rows. rewrite excel_row_two by exact L. rewrite <- app_assoc. rewrite translate_app.
  - destruct r as [|v vs]; [cbn in L; lia|]. apply (@excel_loop_row (translate t) vs v StartRecord []); [left; reflexivity | exact F |]. intros _ ->. cbn in L. lia.
  - apply join_no_cr. apply Forall_map. eapply Forall_impl; [|exact F]. intros s (C & _). apply excel_field_no_cr, C.
Qed.
Theorem excel_roundtrip rs : Forall (fun r => 2 <= length r /\ Forall clean r) rs -> csv_rows (excel_file rs) = Ok rs.
Proof.
  unfold excel_file. induction 1 as [|r rs [L F] _ IH]; [reflexivity|]. cbn [map concat]. rewrite excel_rows_row by assumption. rewrite IH. reflexivity.
Qed.

(** texts of numbers *)
Lemma bare_small s : bare s -> (N.of_nat (length s) <= field_limit)%N -> clean s.
Proof. intros [_ B] L. split; [intros I; apply B in I; tauto|]. split; [intros I; apply B in I; tauto | exact L]. Qed.

Section Years.
Context {V : Type} `{EqDec V}.
(** the years under a value, in the order in which they were met *)
Lemma years_in_order (l : list (V * Z)) v yd : dget v (fold_left add_pair l []) = Some yd ->
  dkeys yd = first_seen (map snd (filter (fun p => eqb (fst p) v) l)).
Proof.
  revert v yd. induction l as [|[w y] l IH] using rev_ind; intros v yd; [discriminate|].
  rewrite fold_left_app. cbn [fold_left]. unfold add_pair at 1, add_year. cbn [fst snd]. rewrite filter_app, map_app. cbn [filter fst].
  destruct (dget w (fold_left add_pair l [])) as [wd|] eqn:E; rewrite dget_dset; destruct (eqb_spec v w) as [->|N].
  - intros Q. injection Q as <-. specialize (IH w wd E). rewrite eqb_refl. cbn [map snd]. rewrite first_seen_snoc, <- IH.
    unfold dincr. assert (M : mem y (map snd (filter (fun p => eqb (fst p) w) l)) = dhas y wd).
    { unfold dhas. rewrite IH. apply Bool.eq_iff_eq_true. rewrite !mem_In, In_first_seen. tauto. }
    rewrite M. destruct (dhas y wd) eqn:HH.
    + destruct (dget y wd) as [n|] eqn:G; [|rewrite dhas_dget, G in HH; discriminate]. rewrite dkeys_dset, HH. reflexivity.
    + rewrite dhas_dget in HH. destruct (dget y wd) as [n|] eqn:G; [discriminate|]. rewrite dkeys_dset, dhas_dget, G. reflexivity.
  - rewrite neq_eqb by congruence. cbn [map]. rewrite app_nil_r. apply IH.
  - intros Q. injection Q as <-. rewrite eqb_refl. cbn [map snd]. rewrite first_seen_snoc.
    assert (NI : filter (fun p => eqb (fst p) w) l = []).
    { apply dget_None in E. destruct (nested_fold l) as [K _ _]. rewrite K, In_first_seen in E.
      destruct (filter (fun p => eqb (fst p) w) l) as [|p q] eqn:F; [reflexivity|]. exfalso. apply E.
      assert (I : In p (filter (fun p => eqb (fst p) w) l)) by (rewrite F; left; reflexivity). apply filter_In in I. destruct I as [I Q]. apply eqb_eq in Q.
      apply in_map_iff. exists p. auto. }
    rewrite NI. reflexivity.
  - rewrite neq_eqb by congruence. cbn [map]. rewrite app_nil_r. apply IH.
Qed.
End Years.

Section Nlp.
Context {R X : Type}.
Variable show : X -> str.
Variable show_list : list str -> str.
Lemma remove_other (b : str) l : ~ In b l -> remove_one b l = l.
Proof. induction l as [|y l IH]; intros N; [reflexivity|]. cbn [remove_one]. rewrite neq_eqb by (intros ->; apply N; left; reflexivity). rewrite IH; [reflexivity | intros I; apply N; right; exact I]. Qed.
Lemma row_dict_ok (t : dict str (list (@nfield X))) (g : str -> R -> @nfield X) rs i r : NoDup (dkeys t) ->
  (forall k c, In (k, c) t -> c = map (g k) rs) -> nth_error rs i = Some r ->
  row_dict show show_list i t = Ok (map (fun k => (k, nlp_text show show_list (g k r))) (dkeys t)).
Proof.
  intros _ G N. induction t as [|[k c] t IH]; [reflexivity|]. cbn [row_dict dkeys map fst]. rewrite (G k c (or_introl eq_refl)). rewrite nth_error_map, N. cbn [option_map].
  rewrite IH; [reflexivity|]. intros j d I. apply G. right. exact I.
Qed.
Lemma dget_keyed (f : str -> str) l k : In k l -> dget k (map (fun k => (k, f k)) l) = Some (f k).
Proof.
  induction l as [|j l IH]; intros I; [destruct I|]. cbn [map dget]. destruct (eqb_spec k j) as [->|N]; [reflexivity|]. destruct I as [->|I]; [congruence | auto].
Qed.
Lemma table_rows_ok (t : dict str (list (@nfield X))) (g : str -> R -> @nfield X) rs : NoDup (dkeys t) ->
  (forall k c, In (k, c) t -> c = map (g k) rs) -> (forall k, In k (field_names t) -> In k (dkeys t)) ->
  forall l is, map (nth_error rs) is = map Some l ->
  table_rows show show_list t is = Ok (map (fun r => map (fun k => nlp_text show show_list (g k r)) (field_names t)) l).
Proof.
  intros ND G F. induction l as [|r l IH]; intros is E; destruct is as [|i is]; try discriminate; [reflexivity|]. cbn [map] in E. injection E as E1 E2.
  cbn [table_rows map]. rewrite (row_dict_ok t g rs i r ND G E1). cbn [bind]. rewrite (IH is E2). cbn [bind]. do 2 f_equal.
  apply map_ext_in. intros k I. rewrite dget_keyed by (apply F, I). reflexivity.
Qed.
Lemma nth_all (rs : list R) : map (nth_error rs) (seq 0 (length rs)) = map Some rs.
Proof.
  assert (P : forall pre, map (nth_error (pre ++ rs)) (seq (length pre) (length rs)) = map Some rs).
  { induction rs as [|r l IH]; intros pre; [reflexivity|]. cbn [length seq map]. f_equal.
    - rewrite nth_error_app2 by lia. rewrite Nat.sub_diag. reflexivity.
    - specialize (IH (pre ++ [r])). rewrite <- app_assoc in IH. cbn [app] in IH. rewrite app_length in IH. cbn [length] in IH. rewrite Nat.add_1_r in IH. exact IH. }
  exact (P []).
Qed.
Lemma nlp_file_ok (t : dict str (list (@nfield X))) (g : str -> R -> @nfield X) rs more : dkeys t = [$"id"; $"year"; $"title"; $"keywords"; $"abstract"] ++ more -> NoDup (dkeys t) ->
  (forall k c, In (k, c) t -> c = map (g k) rs) ->
  nlp_file show show_list t = Ok (excel_file (dkeys t :: map (fun r => map (fun k => nlp_text show show_list (g k r)) (dkeys t)) rs)).
Proof.
  intros K ND G. assert (FN : field_names t = dkeys t).
  { unfold field_names. rewrite K. cbn [app remove_one]. repeat (match goal with |- context [eqb ?a ?b] => let q := eval vm_compute in (eqb a b) in change (eqb a b) with q end; cbn iota). reflexivity. }
  unfold nlp_file. assert (I : In $"id" (dkeys t)) by (rewrite K; left; reflexivity). apply dhas_spec in I. rewrite dhas_dget in I.
  destruct (dget $"id" t) as [c|] eqn:D; [|discriminate]. pose proof (G _ _ (dget_In _ _ D)) as ->. rewrite map_length.
  rewrite (table_rows_ok t g rs ND G) with (l := rs); [|rewrite FN; auto | apply nth_all]. cbn [bind]. rewrite FN. reflexivity.
Qed.
End Nlp.
