(** Proofs for DiffusionTableModel.v. *)
From Coq Require Import String Lia Permutation.
From Verif Require Import Base PyStr Nx RecordView NxFacts SeriesSpec RecordViewFacts NetModel NetSpec NetFacts DiffusionModel DiffusionSpec DiffusionProofs DiffusionProofs2 DiffusionProofs3 DiffusionTableModel.
Set Implicit Arguments.

Section Proofs.
Context {V C E F : Type} `{EqDec V} `{EqDec C} `{EqDec E}.
Variable truthy : V -> bool.
Variable letters : V -> option (list V).
Notation drec := (drec V C E).
Notation cited := (cited truthy).
Notation cell := (cell V E F).

(** ** what holds of all counts *)
Lemma count_inv all raw extra emap (src tgt : list drec) (P : dict (fval V) (counts (E:=E)) -> Prop) d :
  (forall (sd : dict C (fval V)) lid d0, zero_counts letters lid sd = Ok d0 -> P d0) ->
  (forall vals k d0 d1, P d0 -> count_one vals k d0 = Ok d1 -> P d1) ->
  diffusion_count truthy letters all raw extra emap src tgt = Ok d -> P d.
Proof.
  intros P0 PS E1. unfold diffusion_count in E1.
  destruct (zero_counts letters (list_ids raw src) (source_dict truthy all src)) as [d0|] eqn:Z; [|discriminate]. cbn [bind] in E1. apply P0 in Z.
  assert (IT : forall (A : Type) (f : A -> dict (fval V) (counts (E:=E)) -> res (dict (fval V) (counts (E:=E)))), (forall a x y, P x -> f a x = Ok y -> P y) -> forall l x y, P x -> iter f l x = Ok y -> P y).
  { intros A f Hf l. induction l as [|a l IH]; intros x0 y Px; cbn [iter]; [intros [= <-]; exact Px|]. destruct (f a x0) as [z|] eqn:Fz; [|discriminate]. cbn [bind]. apply IH. eapply Hf; eassumption. }
  revert Z E1. apply IT. intros t x0 y Px. unfold count_target. revert Px. apply IT. intros c x1 y1 Px1. destruct (dget c (source_dict truthy all src)) as [f|]; [|intros [= <-]; exact Px1].
  destruct (keys_of letters (list_ids raw src) f) as [ks|]; [|discriminate]. cbn [bind]. revert Px1. apply IT. intros k x2 y2. apply PS.
Qed.
Definition positive (d : dict (fval V) (counts (E:=E))) : Prop :=
  forall k cs, dget k d = Some cs -> NoDup (dkeys cs) /\ forall e n, dget (Some e) cs = Some n -> n > 0.
Lemma count_positive all raw extra emap (src tgt : list drec) d :
  diffusion_count truthy letters all raw extra emap src tgt = Ok d -> positive d.
Proof.
  apply count_inv.
  - intros sd lid d0 Z. unfold zero_counts in Z.
    assert (ZZ : forall fs x y, (forall k cs, dget k x = Some cs -> cs = [(None, 0)]) ->
       iter (fun f d => let* ks := keys_of letters lid f in Ok (fold_left (fun d k => dset k [(@None E, 0)] d) ks d)) fs x = Ok y -> forall k cs, dget k y = Some cs -> cs = [(None, 0)]).
    { induction fs as [|f fs IH]; intros x0 y Px; cbn [iter]; [intros [= <-]; exact Px|]. destruct (keys_of letters lid f) as [ks|]; [|discriminate]. cbn [bind]. apply IH.
      clear -Px. revert x0 Px. induction ks as [|k ks IH]; intros x0 Px; [exact Px|]. cbn. apply IH. intros k' cs. rewrite dget_dset. destruct (eqb k' k); [intros [= <-]; reflexivity|apply Px]. }
    assert (Q0 : forall k cs, dget k (@nil (fval V * counts (E:=E))) = Some cs -> cs = [(None, 0)]) by (intros k0 cs0 Q; discriminate).
    intros k cs G. rewrite (ZZ _ _ _ Q0 Z k cs G). split; [repeat constructor; intros []|]. intros e n Q. cbn in Q. discriminate.
  - intros vals k d0 d1 P0. unfold count_one. destruct (dget k d0) as [cs0|] eqn:G0; [|discriminate]. destruct (dget None cs0) as [n0|]; [|discriminate]. intros [= <-] k' cs. rewrite dget_dset.
    destruct (eqb_spec k' k) as [->|N1]; [|apply P0]. intros [= <-]. specialize (P0 k cs0 G0). 
    assert (S0 : NoDup (dkeys (dset None (n0 + 1) cs0)) /\ forall e n, dget (Some e) (dset None (n0 + 1) cs0) = Some n -> n > 0).
    { split; [apply NoDup_dset, P0|]. intros e n. rewrite dget_dset. destruct (eqb_spec (Some e) None) as [Q|_]; [discriminate|apply P0]. }
    revert S0. generalize (dset None (n0 + 1) cs0). clear. induction vals as [|a vals IH]; intros c0 S0; [exact S0|]. cbn [fold_left]. apply IH. unfold dincr.
    destruct (dget (Some a) c0) as [m|] eqn:G; (split; [apply NoDup_dset, S0|]); intros e n; rewrite dget_dset; destruct (eqb_spec (Some e) (Some a)) as [Q|_]; try (intros [= <-]; lia); apply S0.
Qed.
(** the counts of a source *)
Lemma counts_exact all raw extra emap (src tgt : list drec) d : shape raw src ->
  diffusion_count truthy letters all raw extra emap src tgt = Ok d ->
  forall v cs, dget (One v) d = Some cs ->
    NoDup (dkeys cs) /\ dget None cs = Some (total (cited_in truthy all src v) tgt) /\
    forall e, dget (Some e) cs = let n := if extra then total (fun t => cited_in truthy all src v t * extra_in emap e t) tgt else 0 in if n =? 0 then None else Some n.
Proof.
  intros SH D v cs G. destruct (count_positive _ _ _ _ _ _ D (One v) G) as [ND PO]. split; [exact ND|].
  destruct (@count_spec V C E _ _ _ truthy letters all raw extra emap src tgt SH) as (d' & E1 & _ & _ & A3 & A4). rewrite D in E1. injection E1 as <-. split.
  - specialize (A3 v). unfold total_for, counts in *. rewrite G in A3. apply A3. apply dget_In in G. apply in_map_iff. exists (One v, cs). auto.
  - intros e. specialize (A4 v e). unfold extra_for, counts in *. rewrite G in A4. cbv zeta. rewrite <- A4. destruct (dget (Some e) cs) as [n|] eqn:Q; [|reflexivity].
    specialize (PO e n Q). destruct (Nat.eqb_spec n 0); [lia|reflexivity].
Qed.

(** ** columns *)
Lemma append_all (ncs : list (str * cell)) : forall t : table V E F, NoDup (map fst ncs) -> (forall n, In n (map fst ncs) -> In n (dkeys t)) ->
  exists t', iter (@append V E F) ncs t = Ok t' /\ dkeys t' = dkeys t /\
    (forall n c, In (n, c) ncs -> exists l, dget n t = Some l /\ dget n t' = Some (l ++ [c])) /\
    forall n, ~ In n (map fst ncs) -> dget n t' = dget n t.
Proof.
  induction ncs as [|[n c] ncs IH]; intros t ND IN; [exists t; split; [reflexivity|]; split; [reflexivity|]; split; [intros n c []|reflexivity]|].
  inversion ND as [|? ? NI ND']; subst. cbn [iter]. unfold append at 1. cbn [fst snd].
  destruct (dget n t) as [l|] eqn:G; [|exfalso; apply dget_None in G; apply G, IN; left; reflexivity]. cbn [bind].
  assert (KD : dkeys (dset n (l ++ [c]) t) = dkeys t) by (rewrite dkeys_dset; destruct (dhas n t) eqn:Q; [reflexivity|]; exfalso; rewrite dhas_dget in Q; unfold table in *; rewrite G in Q; discriminate).
  destruct (IH (dset n (l ++ [c]) t) ND') as (t' & E1 & K & A & B); [intros m I1; rewrite KD; apply IN; right; exact I1|].
  exists t'. split; [exact E1|]. split; [congruence|]. split.
  - intros m c' [Q|I1].
    + injection Q as <- <-. exists l. split; [exact G|]. rewrite B by exact NI. apply dget_dset_same.
    + destruct (A m c' I1) as (l' & Q1 & Q2). exists l'. split; [|exact Q2]. rewrite dget_dset in Q1. destruct (eqb_spec m n) as [->|_]; [|exact Q1].
      exfalso. apply NI. apply in_map_iff. exists (n, c'). auto.
  - intros m N1. rewrite B by (intros I1; apply N1; right; exact I1). apply dget_dset_other. intros ->. apply N1. left. reflexivity.
Qed.

Variable fields : V -> list str.
Variable field : V -> str -> option F.
Variable authors : V -> option nat.
Lemma retrieved_spec rs : forall t, In t (retrieved fields rs) <-> exists r, In r rs /\ In t (fields r).
Proof.
  unfold retrieved. assert (G : forall acc t, In t (fold_left (fun acc r => acc ++ filter (fun t => negb (mem t acc)) (fields r)) rs acc) <-> In t acc \/ exists r, In r rs /\ In t (fields r)).
  { induction rs as [|r rs IH]; intros acc t; cbn [fold_left]; [split; [auto|intros [I1|(r & [] & _)]; exact I1]|].
    rewrite IH, in_app_iff, filter_In. split.
    - intros [[I1|[I1 _]]|(r' & I1 & I2)]; [auto|right; exists r; split; [left; reflexivity|exact I1]|right; exists r'; split; [right; exact I1|exact I2]].
    - intros [I1|(r' & [<-|I1] & I2)]; [auto| |right; exists r'; auto]. destruct (mem t acc) eqn:M; [left; left; apply mem_In, M|left; right; split; [exact I2|reflexivity]]. }
  intros t. rewrite G. split; [intros [[]|X]; exact X|auto].
Qed.
Lemma retrieved_NoDup rs : (forall r, In r rs -> NoDup (fields r)) -> NoDup (retrieved fields rs).
Proof.
  intros NF. unfold retrieved. assert (G : forall acc, NoDup acc -> NoDup (fold_left (fun acc r => acc ++ filter (fun t => negb (mem t acc)) (fields r)) rs acc)).
  { induction rs as [|r rs IH]; intros acc ND; cbn [fold_left]; [exact ND|]. apply IH; [intros r' I1; apply NF; right; exact I1|].
    assert (NR : NoDup (fields r)) by (apply NF; left; reflexivity). clear IH NF. apply NoDup_app_disjoint; [exact ND|apply NoDup_filter, NR|].
    intros x I1 I2. apply filter_In in I2. destruct I2 as [_ I2]. apply negb_true_iff, mem_not_In in I2. exact (I2 I1). }
  apply G. constructor.
Qed.

(** ** rows: a record, an extra value, its count and its count in the sources *)
Definition trow : Type := V * option E * nat * nat.
Variables (numAuthors compare : bool) (extra : option str) (tags : list str).
Definition cells (r : trow) : list (str * cell) :=
  match r with
  | (v, x, n, m) =>
    (match extra with Some e => [(e, CExtra x)] | None => [] end)
    ++ (if numAuthors then [(numAuthors_, CNum (match authors v with Some k => k | None => 0 end))] else [])
    ++ map (fun tag => (tag, CField (field v tag))) tags ++ [(TargetCount, CNum n)]
    ++ (if compare then [(SourceCount, CNum m)] else [])
  end.
Definition col_names : list str :=
  (match extra with Some e => [e] | None => [] end) ++ (if numAuthors then [numAuthors_] else []) ++ tags ++ [TargetCount] ++ (if compare then [SourceCount] else []).
Lemma cells_names r : map fst (cells r) = col_names.
Proof.
  destruct r as [[[v x] n] m]. unfold cells, col_names. rewrite !map_app, map_map. cbn [fst]. rewrite map_id. destruct extra, numAuthors, compare; reflexivity.
Qed.
Definition col (name : str) (l : list trow) : list cell := map (fun r => match dget name (cells r) with Some c => c | None => CNum 0 end) l.
Definition holds (l : list trow) (t : table V E F) : Prop := forall name, In name col_names -> dget name t = Some (col name l).
Lemma holds_row l t v x n m : NoDup col_names -> holds l t -> (numAuthors = true -> authors v <> None) ->
  exists t', raw_row field authors numAuthors extra tags v x n (if compare then Some m else None) t = Ok t' /\ holds (l ++ [(v, x, n, m)]) t' /\ dkeys t' = dkeys t.
Proof.
  intros ND HO NA. unfold raw_row.
  assert (SAME : (let* na := if numAuthors then match authors v with Some k => Ok [(numAuthors_, CNum k)] | None => Raise TypeError end else Ok [] in
     iter (@append V E F) ((match extra with Some e => [(e, CExtra x)] | None => [] end)
               ++ na ++ map (fun tag => (tag, CField (field v tag))) tags ++ [(TargetCount, CNum n)]
               ++ (match (if compare then Some m else None) with Some m => [(SourceCount, CNum m)] | None => [] end)) t) = iter (@append V E F) (cells (v, x, n, m)) t).
  { unfold cells. destruct numAuthors; [specialize (NA eq_refl); destruct (authors v); [|congruence]|]; cbn [bind]; destruct compare; reflexivity. }
  rewrite SAME. destruct (append_all (cells (v, x, n, m)) t) as (t' & E1 & K & A & B).
  - rewrite cells_names. exact ND.
  - rewrite cells_names. intros name I1. specialize (HO name I1). destruct (In_dec (fun a b : str => eq_dec a b) name (dkeys t)) as [I2|N1]; [exact I2|]. apply dget_None in N1. congruence.
  - exists t'. split; [exact E1|]. split; [|exact K]. intros name I1. pose proof I1 as I2. rewrite <- (cells_names (v, x, n, m)) in I2. apply in_map_iff in I2. destruct I2 as ([n' c] & Q & I2). cbn in Q. subst n'.
    destruct (A name c I2) as (l0 & G & G'). rewrite (HO name I1) in G. injection G as <-. rewrite G'. unfold col at 2. rewrite map_app. cbn [map].
    rewrite (In_dget name c (cells (v, x, n, m))); [reflexivity|unfold dkeys; rewrite cells_names; exact ND|exact I2].
Qed.
Lemma first_names : forall n, In n (dkeys (first_columns (V:=V) (E:=E) (F:=F) numAuthors compare extra)) <-> (In n col_names /\ ~ In n tags) \/ (In n tags /\ In n (dkeys (first_columns (V:=V) (E:=E) (F:=F) numAuthors compare extra))).
Proof.
  intros n. assert (G : In n (dkeys (first_columns (V:=V) (E:=E) (F:=F) numAuthors compare extra)) <-> n = TargetCount \/ (numAuthors = true /\ n = numAuthors_) \/ (compare = true /\ n = SourceCount) \/ extra = Some n).
  { unfold first_columns. destruct numAuthors, compare, extra as [e|]; rewrite ?In_dkeys_dset; cbn [dkeys map In]; intuition (try congruence). }
  destruct (In_dec (fun a b : str => eq_dec a b) n tags) as [I1|N1]; [tauto|]. rewrite G. unfold col_names. rewrite !in_app_iff.
  destruct numAuthors, compare, extra as [e|]; cbn [In]; intuition (try congruence).
Qed.
Lemma start_holds : holds [] (fold_left (fun t tag => dset tag [] t) tags (first_columns numAuthors compare extra)) /\
  forall n, In n (dkeys (fold_left (fun t tag => dset tag [] t) tags (first_columns (V:=V) (E:=E) (F:=F) numAuthors compare extra))) <-> In n col_names.
Proof.
  assert (ALL : forall n l, dget n (first_columns (V:=V) (E:=E) (F:=F) numAuthors compare extra) = Some l -> l = []).
  { intros n l. unfold first_columns. destruct numAuthors, compare, extra as [e|]; rewrite ?dget_dset;
      repeat (match goal with |- context [eqb ?a ?b] => destruct (eqb a b) end; [intros [= <-]; reflexivity|]); discriminate. }
  assert (G : forall ts (t : table V E F), (forall n l, dget n t = Some l -> l = []) ->
     (forall n l, dget n (fold_left (fun t tag => dset tag [] t) ts t) = Some l -> l = []) /\
     forall n, In n (dkeys (fold_left (fun t tag => dset tag [] t) ts t)) <-> In n ts \/ In n (dkeys t)).
  { induction ts as [|a ts IH]; intros t A; [split; [exact A|]; intros n; cbn; tauto|]. cbn [fold_left]. destruct (IH (dset a [] t)) as [B1 B2].
    - intros n l. rewrite dget_dset. destruct (eqb n a); [intros [= <-]; reflexivity|apply A].
    - split; [exact B1|]. intros n. rewrite B2, In_dkeys_dset. cbn [In]. intuition congruence. }
  destruct (G tags _ ALL) as [B1 B2].
  assert (KN : forall n, In n (dkeys (fold_left (fun t tag => dset tag [] t) tags (first_columns (V:=V) (E:=E) (F:=F) numAuthors compare extra))) <-> In n col_names).
  { intros n. rewrite B2, first_names. unfold col_names. rewrite !in_app_iff. destruct (In_dec (fun a b : str => eq_dec a b) n tags) as [I1|N1]; tauto. }
  split; [|exact KN]. intros name I1. unfold col. cbn [map]. destruct (dget name _) as [l|] eqn:Q; [rewrite (B1 _ _ Q); reflexivity|]. apply dget_None in Q. apply KN in I1. contradiction.
Qed.

Definition count_of (cs : counts (E:=E)) (x : option E) : nat := match dget x cs with Some n => n | None => 0 end.
Definition rows_raw (loc : dict (fval V) (counts (E:=E))) (kc : fval V * counts (E:=E)) : list trow :=
  match fst kc with
  | Many _ => []
  | One r => let m x := match dget (One r) loc with Some cs => count_of cs x | None => 0 end in
             match extra with
             | Some _ => map (fun en => (r, fst en, snd en, m (fst en))) (snd kc)
             | None => [(r, None, count_of (snd kc) None, m None)]
             end
  end.
Lemma raw_rows_ok loc : NoDup col_names -> forall d l t, holds l t ->
  (forall k cs, In (k, cs) d -> exists r, k = One r /\ (numAuthors = true -> authors r <> None) /\
     (extra = None -> dget None cs <> None /\ (compare = true -> exists cs', dget (One r) loc = Some cs' /\ dget None cs' <> None))) ->
  exists t', iter (raw_rows field authors numAuthors compare extra tags loc) d t = Ok t' /\ holds (l ++ flat_map (rows_raw loc) d) t' /\ dkeys t' = dkeys t.
Proof.
  intros ND. induction d as [|[k cs] d IH]; intros l t HO OK; [exists t; cbn [flat_map]; rewrite app_nil_r; auto|].
  destruct (OK k cs (or_introl eq_refl)) as (r & -> & NA & EX). cbn [iter flat_map].
  assert (STEP : exists t1, raw_rows field authors numAuthors compare extra tags loc (One r, cs) t = Ok t1 /\ holds (l ++ rows_raw loc (One r, cs)) t1 /\ dkeys t1 = dkeys t).
  { unfold raw_rows, rows_raw. cbn [fst snd]. destruct extra as [e|] eqn:QE.
    - rewrite <- QE in *. clear EX OK IH. revert l t HO. induction cs as [|[x n] cs IH]; intros l t HO; [exists t; cbn [iter map]; rewrite app_nil_r; auto|]. cbn [iter map fst snd].
      destruct (@holds_row l t r x n (match dget (One r) loc with Some cs0 => count_of cs0 x | None => 0 end) ND HO NA) as (t1 & E1 & HH1 & K1). match goal with |- context [bind ?X _] => replace X with (Ok t1) by (symmetry; exact E1) end. cbn [bind].
      destruct (IH _ _ HH1) as (t2 & E2 & HH2 & K2). exists t2. split; [exact E2|]. split; [|congruence]. rewrite <- app_assoc in HH2. exact HH2.
    - destruct (EX eq_refl) as [T CO]. rewrite <- QE. unfold count_of. destruct (dget None cs) as [n|] eqn:Qn; [|congruence].
      assert (M : (if compare then match dget (One r) loc with Some cs0 => match dget None cs0 with Some m => Ok (Some m) | None => Raise KeyError end | None => Raise KeyError end else Ok None) =
         Ok (if compare then Some (match dget (One r) loc with Some cs0 => match dget None cs0 with Some m => m | None => 0 end | None => 0 end) else None)).
      { destruct compare; [|reflexivity]. destruct (CO eq_refl) as (cs' & -> & Q). destruct (dget None cs'); [reflexivity|congruence]. }
      match goal with |- context [bind ?X _] => replace X with (Ok (A := option nat) (if compare then Some (match dget (One r) loc with Some cs0 => match dget None cs0 with Some m => m | None => 0 end | None => 0 end) else None)) by (symmetry; exact M) end.
      cbn [bind]. apply holds_row; assumption. }
  destruct STEP as (t1 & E1 & HH1 & K1). rewrite E1. cbn [bind]. destruct (IH _ _ HH1) as (t2 & E2 & HH2 & K2); [intros k' cs' I1; apply OK; right; exact I1|].
  exists t2. split; [exact E2|]. split; [|congruence]. rewrite <- app_assoc in HH2. exact HH2.
Qed.
End Proofs.
