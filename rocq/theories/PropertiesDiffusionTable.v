(** C58: the tables of diffusionCount for the type 'raw', and the names of the columns. *)
From Coq Require Import String Lia Permutation.
From Verif Require Import Base PyStr Nx NxFacts RecordView SeriesSpec RecordViewFacts NetModel NetSpec NetFacts DiffusionModel DiffusionSpec DiffusionProofs DiffusionProofs2 DiffusionProofs3 DiffusionTableModel DiffusionTableProofs.
Set Implicit Arguments.

Section Raw.
Context {V C E F : Type} `{EqDec V} `{EqDec C} `{EqDec E}.
Variable truthy : V -> bool.
Variable letters : V -> option (list V).
Variable fields : V -> list str.
Variable field : V -> str -> option F.
Variable authors : V -> option nat.
Notation drec := (drec V C E).

(** how often record [v] is cited in [l], by the documents with extra value [x] if one is given *)
Definition times (all : bool) (emap : E -> E) (src : list drec) (v : V) (x : option E) (l : list drec) : nat :=
  match x with
  | None => total (cited_in truthy all src v) l
  | Some e => total (fun t => cited_in truthy all src v t * extra_in emap e t) l
  end.
(** some citation names the record *)
Definition nameable (all : bool) (src : list drec) (v : V) : Prop := exists s c, cited truthy all src c = Some s /\ d_id s = Some (One v).
(** the columns that are not fields of the records *)
Definition own_columns (numAuthors compare : bool) (extra : option str) : list str :=
  [$"TargetCount"] ++ (if numAuthors then [$"numAuthors"] else []) ++ (if compare then [$"SourceCount"] else []) ++ (match extra with Some e => [e] | None => [] end).

Lemma col_names_perm numAuthors compare extra tags : Permutation (col_names numAuthors compare extra tags) (own_columns numAuthors compare extra ++ tags).
Proof.
  unfold col_names, own_columns.
  assert (G : forall a n g t s : list str, Permutation (a ++ n ++ g ++ t ++ s) ((t ++ n ++ s ++ a) ++ g)).
  { intros a n g t s. rewrite <- !app_assoc. rewrite (Permutation_app_swap_app g t s), (Permutation_app_swap_app n t), (Permutation_app_swap_app a t). apply Permutation_app_head.
    rewrite (Permutation_app_swap_app a n). apply Permutation_app_head. rewrite (Permutation_app_comm g s). apply Permutation_app_swap_app. }
  apply G.
Qed.

Lemma rows_NoDup extra loc (d : dict (fval V) (counts (E:=E))) : NoDup (dkeys d) -> (forall k cs, In (k, cs) d -> exists v, k = One v /\ NoDup (dkeys cs)) ->
  NoDup (map (fun r => fst (fst r)) (flat_map (rows_raw extra loc) d)).
Proof.
  induction d as [|[k cs] d IH]; intros ND OK; [constructor|]. inversion ND as [|? ? NI ND']; subst. cbn [flat_map]. rewrite map_app.
  destruct (OK k cs (or_introl eq_refl)) as (v & -> & NC).
  assert (OF : forall r, In r (rows_raw extra loc (One v, cs)) -> fst (fst (fst r)) = v).
  { intros r. unfold rows_raw. cbn [fst snd]. destruct extra; [|intros [<-|[]]; reflexivity]. intros I1. apply in_map_iff in I1. destruct I1 as (en & <- & _). reflexivity. }
  apply NoDup_app_disjoint.
  - unfold rows_raw. cbn [fst snd]. destruct extra; [|repeat constructor; intros []]. rewrite map_map. cbn [fst].
    clear -NC. unfold dkeys in NC. induction cs as [|[a n] cs IH]; [constructor|]. cbn [map fst] in *. inversion NC as [|? ? NI NC']; subst. constructor; [|apply IH, NC'].
    intros I1. apply NI. apply in_map_iff in I1. destruct I1 as (en & Q & I1). injection Q as <-. apply in_map_iff. exists en. auto.
  - apply IH; [exact ND'|]. intros k' cs' I1. apply OK. right. exact I1.
  - intros [v' x] I1 I2. apply in_map_iff in I1. destruct I1 as (r1 & Q1 & I1). apply OF in I1. rewrite Q1 in I1. cbn in I1. subst v'.
    apply in_map_iff in I2. destruct I2 as (r2 & Q2 & I2). apply in_flat_map in I2. destruct I2 as ([k' cs'] & I2 & I3). destruct (OK k' cs' (or_intror I2)) as (v2 & -> & _).
    assert (OF2 : fst (fst (fst r2)) = v2).
    { revert I3. unfold rows_raw. cbn [fst snd]. destruct extra; [|intros [<-|[]]; reflexivity]. intros I3. apply in_map_iff in I3. destruct I3 as (en & <- & _). reflexivity. }
    rewrite Q2 in OF2. cbn in OF2. subst v2. apply NI. apply in_map_iff. exists (One v, cs'). auto.
Qed.

(** C58, 'raw': there is one row for each record (and each extra value it is cited with); a row has the fields of the
    record, the number of its authors, its count and its count in the sources; the columns are those of all the fields of
    the records and the table's own.  The names of the table's own columns must not be names of fields. *)
Theorem C58_raw (all numAuthors compare : bool) (extra : option str) (emap : E -> E) (src tgt : list drec) :
  lone_only src -> (compare = true -> extra = None -> all = true) -> NoDup (own_columns numAuthors compare extra) ->
  (forall s v, In s src -> d_id s = Some (One v) -> NoDup (fields v) /\ (numAuthors = true -> authors v <> None) /\
     forall t, In t (fields v) -> ~ In t (own_columns numAuthors compare extra)) ->
  exists t (rows : list (V * option E)), raw_table truthy letters fields field authors all numAuthors compare extra emap src tgt = Ok t /\
    NoDup rows /\
    (forall v x, In (v, x) rows <-> nameable all src v /\ (forall e, x = Some e -> extra <> None /\ times all emap src v x tgt > 0)) /\
    (forall name, In name (dkeys t) <-> In name (own_columns numAuthors compare extra) \/ exists r, In r rows /\ In name (fields (fst r))) /\
    (forall name r, In r rows -> In name (fields (fst r)) -> dget name t = Some (map (fun r => CField (field (fst r) name)) rows)) /\
    dget $"TargetCount" t = Some (map (fun r => CNum (times all emap src (fst r) (snd r) tgt)) rows) /\
    (numAuthors = true -> exists ns, dget $"numAuthors" t = Some (map CNum ns) /\ map Some ns = map (fun r => authors (fst r)) rows) /\
    (compare = true -> dget $"SourceCount" t = Some (map (fun r => CNum (times true (fun e => e) src (fst r) (snd r) src)) rows)) /\
    forall name, extra = Some name -> dget name t = Some (map (fun r => CExtra (snd r)) rows).
Proof.
  intros LO CA NO FA. set (b := match extra with Some _ => true | None => false end).
  assert (SH : shape true src) by (right; exact LO).
  destruct (@count_spec V C E _ _ _ truthy letters all true b emap src tgt SH) as (d & D1 & ND & K & _).
  destruct (@count_spec V C E _ _ _ truthy letters true true b (fun e => e) src src SH) as (l & L1 & NL & KL & _).
  pose proof (@counts_exact V C E _ _ _ truthy letters _ _ _ _ _ _ _ SH D1) as XD. pose proof (@counts_exact V C E _ _ _ truthy letters _ _ _ _ _ _ _ SH L1) as XL.
  assert (KN : forall k cs, In (k, cs) d -> exists v, k = One v /\ nameable all src v /\ dget k d = Some cs).
  { intros k cs I1. destruct (proj1 (K k)) as (v & s & c & -> & Q & I2); [apply in_map_iff; exists (k, cs); auto|]. exists v. split; [reflexivity|]. split; [|apply In_dget; assumption].
    exists s, c. split; [exact Q|]. destruct (cited_sound truthy all src c Q) as (I3 & P & _). destruct (present_id _ _ P) as [f Hf]. destruct (LO s f I3 Hf) as [v' ->].
    unfold entries_of in I2. rewrite Hf in *. destruct I2 as [<-|[]]. reflexivity. }
  assert (NK : forall v, nameable all src v -> exists cs, In (One v, cs) d).
  { intros v (s & c & Q & Hf). assert (I1 : In (One v) (dkeys d)) by (apply K; exists v, s, c; split; [reflexivity|]; split; [exact Q|]; unfold entries_of; rewrite Hf; left; reflexivity).
    apply in_map_iff in I1. destruct I1 as ([k cs] & <- & I1). exists cs. exact I1. }
  assert (NS : forall v, nameable all src v -> exists s, In s src /\ d_id s = Some (One v)).
  { intros v (s & c & Q & Hf). exists s. split; [|exact Hf]. apply (cited_sound truthy all src c Q). }
  set (loc := if compare then l else []).
  assert (LE : (if compare then diffusion_count truthy letters true true b (fun e => e) src src else Ok []) = Ok loc) by (unfold loc; destruct compare; [exact L1|reflexivity]).
  set (tags := retrieved fields (raw_records d)).
  assert (RR : forall v, In v (raw_records d) <-> nameable all src v).
  { intros v. unfold raw_records. rewrite in_flat_map. split.
    - intros ([k cs] & I1 & I2). destruct (KN k cs I1) as (v' & -> & NB & _). destruct I2 as [<-|[]]. exact NB.
    - intros NB. destruct (NK v NB) as [cs I1]. exists (One v, cs). split; [exact I1|left; reflexivity]. }
  assert (TG : forall t, In t tags -> exists s v, In s src /\ d_id s = Some (One v) /\ In t (fields v)).
  { intros t I1. apply retrieved_spec in I1. destruct I1 as (v & I1 & I2). apply RR, NS in I1. destruct I1 as (s & I1 & Hf). eauto. }
  assert (NDT : NoDup tags).
  { apply retrieved_NoDup. intros v I1. apply RR, NS in I1. destruct I1 as (s & I1 & Hf). apply (FA s v I1 Hf). }
  set (own := own_columns numAuthors compare extra) in *.
  assert (PN : Permutation (col_names numAuthors compare extra tags) (own ++ tags)) by apply col_names_perm.
  assert (NC : NoDup (col_names numAuthors compare extra tags)).
  { eapply Permutation_NoDup; [symmetry; exact PN|]. apply NoDup_app_disjoint; [exact NO|exact NDT|]. intros x I1 I2. destruct (TG x I2) as (s & v & I3 & Hf & I4). destruct (FA s v I3 Hf) as (_ & _ & A). exact (A x I4 I1). }
  destruct (start_holds (V:=V) (E:=E) (F:=F) field authors numAuthors compare extra tags) as [HO0 KO0].
  assert (LK : forall v, nameable true src v -> exists cs, dget (One v) l = Some cs).
  { intros v (s & c & Q & Hf). assert (I1 : In (One v) (dkeys l)) by (apply KL; exists v, s, c; split; [reflexivity|]; split; [exact Q|]; unfold entries_of; rewrite Hf; left; reflexivity).
    destruct (dget (One v) l) as [cs|] eqn:G; [eauto|]. apply dget_None in G. contradiction. }
  destruct (@raw_rows_ok V E F _ _ field authors numAuthors compare extra tags loc NC d [] _ HO0) as (t & RT & HT & KT).
  { intros k cs I1. destruct (KN k cs I1) as (v & -> & NB & G). exists v. split; [reflexivity|]. split.
    - intros NA. destruct (NS v NB) as (s & I2 & Hf). apply (FA s v I2 Hf), NA.
    - intros EN. destruct (XD v cs G) as (_ & T & _). split; [unfold counts in *; congruence|]. intros CT. pose proof (CA CT EN) as ->. destruct (LK v NB) as [cs' G']. exists cs'. unfold loc. rewrite CT.
      split; [exact G'|]. destruct (XL v cs' G') as (_ & T' & _). unfold counts in *; congruence. }
  cbn [app] in HT. set (R := flat_map (rows_raw extra loc) d) in *.
  exists t, (map (fun r => fst (fst r)) R).
  assert (RI : forall v x n m, In (v, x, n, m) R <-> exists cs, In (One v, cs) d /\ (extra = None -> x = None) /\ dget x cs = Some n /\ m = match dget (One v) loc with Some cs' => count_of cs' x | None => 0 end).
  { intros v x n m. unfold R. rewrite in_flat_map. split.
    - intros ([k cs] & I1 & I2). destruct (KN k cs I1) as (v' & -> & NB & G). unfold rows_raw in I2. cbn [fst snd] in I2. destruct (XD v' cs G) as (N0 & T & _). destruct extra as [e|] eqn:QE.
      + apply in_map_iff in I2. destruct I2 as ([x' n'] & Q & I2). injection Q as <- <- <- <-. exists cs. split; [exact I1|]. split; [discriminate|]. split; [apply In_dget; assumption|reflexivity].
      + destruct I2 as [Q|[]]. injection Q as <- <- <- <-. exists cs. split; [exact I1|]. split; [reflexivity|]. unfold count_of, counts in *. rewrite T. auto.
    - intros (cs & I1 & EX & G & ->). exists (One v, cs). split; [exact I1|]. unfold rows_raw. cbn [fst snd]. destruct extra as [e|].
      + apply in_map_iff. exists (x, n). split; [reflexivity|]. apply dget_In, G.
      + rewrite (EX eq_refl) in *. left. unfold count_of, counts in *. rewrite G. reflexivity. }
  assert (RV : forall r, In r R -> snd (fst r) = times all emap src (fst (fst (fst r))) (snd (fst (fst r))) tgt /\ (compare = true -> snd r = times true (fun e => e) src (fst (fst (fst r))) (snd (fst (fst r))) src)).
  { intros [[[v x] n] m] I1. apply RI in I1. destruct I1 as (cs & I1 & EX & G & ->). cbn [fst snd]. split.
    - destruct (KN _ _ I1) as (v' & Q & NB & G'). injection Q as <-. destruct (XD v cs G') as (_ & T & XE). unfold times. destruct x as [e|]; [|unfold counts in *; congruence].
      specialize (XE e). cbv zeta in XE. unfold counts in *. rewrite G in XE. unfold b in XE. destruct extra as [e'|]; [|specialize (EX eq_refl); discriminate].
      match type of XE with context [?a =? 0] => destruct (a =? 0) end; [discriminate|]. congruence.
    - intros CT. unfold loc. rewrite CT. unfold times. destruct (dget (One v) l) as [cs'|] eqn:G'.
      + destruct (XL v cs' G') as (_ & T & XE). unfold count_of. destruct x as [e|]; [|unfold counts in *; rewrite T; reflexivity]. specialize (XE e). cbv zeta in XE. unfold counts in *. rewrite XE. unfold b.
        destruct extra as [e'|]; [|specialize (EX eq_refl); discriminate]. match goal with |- context [?a =? 0] => destruct (Nat.eqb_spec a 0) as [Z|Z] end; [symmetry; exact Z|reflexivity].
      + assert (ZZ : forall t0, cited_in truthy true src v t0 = 0).
        { intros t0. unfold cited_in. transitivity (total (fun _ : C => 0) (refs t0)); [|apply total_zero]. apply total_ext. intros c _. destruct (cited truthy true src c) as [s|] eqn:Q; [|reflexivity].
          destruct (mem v (entries_of s)) eqn:M.
          - apply mem_In in M. exfalso. apply dget_None in G'. apply G', KL. eauto 6.
          - apply mem_not_In in M. clear -M. induction (entries_of s) as [|a u IH]; [reflexivity|]. cbn [count]. destruct (eqb_spec v a) as [->|N1]; [exfalso; apply M; left; reflexivity|]. cbn. apply IH. intros I1. apply M. right. exact I1. }
        destruct x as [e|]; symmetry.
        * transitivity (total (fun _ : drec => 0) src); [|apply total_zero]. apply total_ext. intros t0 _. rewrite ZZ. reflexivity.
        * transitivity (total (fun _ : drec => 0) src); [|apply total_zero]. apply total_ext. intros t0 _. apply ZZ. }
  assert (RM : forall v x, In (v, x) (map (fun r => fst (fst r)) R) <-> nameable all src v /\ (forall e, x = Some e -> extra <> None /\ times all emap src v x tgt > 0)).
  { intros v x. split.
    - intros I1. apply in_map_iff in I1. destruct I1 as ([[[v' x'] n] m] & Q & I1). cbn [fst] in Q. injection Q as -> ->. pose proof (RV _ I1) as [RV1 _]. cbn [fst snd] in RV1. apply RI in I1. destruct I1 as (cs & I1 & EX & G & _).
      destruct (KN _ _ I1) as (v' & Q & NB & G'). injection Q as <-. split; [exact NB|]. intros e ->. split; [intros EN; specialize (EX EN); discriminate|]. rewrite <- RV1.
      apply (@count_positive V C E _ _ _ truthy letters all true b emap src tgt d D1 (One v) cs G' ) in G. exact G.
    - intros [NB PO]. destruct (NK v NB) as [cs I1]. destruct (KN _ _ I1) as (v' & Q & _ & G'). injection Q as <-. destruct (XD v cs G') as (_ & T & XE).
      assert (GX : exists n, dget x cs = Some n).
      { destruct x as [e|]; [|eexists; exact T]. destruct (PO e eq_refl) as [EN PP]. specialize (XE e). cbv zeta in XE. unfold b, times in *. destruct extra as [e'|]; [|congruence]. unfold counts in *. rewrite XE.
        match goal with |- context [?a =? 0] => destruct (Nat.eqb_spec a 0) end; [lia|eauto]. }
      destruct GX as [n GX]. apply in_map_iff. eexists (v, x, n, _). split; [reflexivity|]. apply RI. exists cs. split; [exact I1|]. split; [|split; [exact GX|reflexivity]].
      intros EN. destruct x as [e|]; [|reflexivity]. destruct (PO e eq_refl) as [EN' _]. congruence. }
  assert (RN : NoDup (map (fun r => fst (fst r)) R)).
  { apply rows_NoDup; [exact ND|]. intros k cs I1. destruct (KN k cs I1) as (v & -> & _ & G). exists v. split; [reflexivity|]. apply (XD v cs G). }
  split; [unfold raw_table; fold b; rewrite D1; cbn [bind]; rewrite LE; cbn [bind]; exact RT|].
  split; [exact RN|]. split; [exact RM|].
  assert (FI : forall name, In name tags <-> exists r, In r (map (fun r => fst (fst r)) R) /\ In name (fields (fst r))).
  { intros name. unfold tags. rewrite retrieved_spec. split.
    - intros (v & I1 & I2). exists (v, None). split; [|exact I2]. apply RM. split; [apply RR, I1|]. intros e Q. discriminate.
    - intros ([v x] & I1 & I2). exists v. split; [|exact I2]. apply RR. apply RM in I1. apply I1. }
  split.
  { intros name. rewrite KT, KO0, (Permutation_in' eq_refl PN), in_app_iff, FI. reflexivity. }
  assert (COL : forall name (c : trow (V:=V) (E:=E) -> cell V E F), In name (own ++ tags) -> (forall r, In r R -> In (name, c r) (cells field authors numAuthors compare extra tags r)) -> dget name t = Some (map c R)).
  { intros name c I1 A. rewrite (HT name) by (rewrite (Permutation_in' eq_refl PN); exact I1). f_equal. unfold col. apply map_ext_in. intros r I2.
    rewrite (In_dget name (c r)); [reflexivity| |apply A, I2]. unfold dkeys. rewrite cells_names. exact NC. }
  assert (OW : forall name, In name own -> In name (own ++ tags)) by (intros name I1; apply in_app_iff; auto).
  split; [|split; [|split; [|split]]].
  - intros name r I1 I2. assert (IT : In name tags) by (apply FI; exists r; auto). rewrite map_map. apply (COL name (fun r => CField (field (fst (fst (fst r))) name))); [apply in_app_iff; auto|].
    intros [[[v x] n] m] _. unfold cells. rewrite !in_app_iff. right; right; left. apply in_map_iff. exists name. auto.
  - rewrite map_map. rewrite (COL $"TargetCount" (fun r => CNum (snd (fst r)))).
    + f_equal. apply map_ext_in. intros r I1. f_equal. apply (RV r I1).
    + apply OW. left. reflexivity.
    + intros [[[v x] n] m] _. unfold cells. rewrite !in_app_iff. right; right; right; left. left. reflexivity.
  - intros NA. exists (map (fun r => match authors (fst (fst (fst r))) with Some k => k | None => 0 end) R). split.
    + rewrite map_map. apply (COL $"numAuthors" (fun r => CNum (match authors (fst (fst (fst r))) with Some k => k | None => 0 end))).
      * apply OW. unfold own, own_columns. rewrite NA. right. left. reflexivity.
      * intros [[[v x] n] m] _. unfold cells. rewrite NA, !in_app_iff. right; left. left. reflexivity.
    + rewrite !map_map. apply map_ext_in. intros [[[v x] n] m] I1. cbn [fst]. apply RI in I1. destruct I1 as (cs & I1 & _). destruct (KN _ _ I1) as (v' & Q & NB & _). injection Q as <-.
      destruct (NS v NB) as (s & I2 & Hf). destruct (FA s v I2 Hf) as (_ & A & _). specialize (A NA). destruct (authors v); [reflexivity|congruence].
  - intros CT. rewrite map_map. rewrite (COL $"SourceCount" (fun r => CNum (snd r))).
    + f_equal. apply map_ext_in. intros r I1. f_equal. apply (RV r I1), CT.
    + apply OW. unfold own, own_columns. rewrite CT, !in_app_iff. right; right; left. left. reflexivity.
    + intros [[[v x] n] m] _. unfold cells. rewrite CT, !in_app_iff. right; right; right; right. left. reflexivity.
  - intros name EN. rewrite map_map. apply (COL name (fun r => CExtra (snd (fst (fst r))))).
    + apply OW. unfold own, own_columns. rewrite EN, !in_app_iff. right; right; right. left. reflexivity.
    + intros [[[v x] n] m] _. unfold cells. rewrite EN, !in_app_iff. left. left. reflexivity.
Qed.
End Raw.

Section Named.
Context {V C E F : Type} `{EqDec V} `{EqDec C} `{EqDec E}.
Variable truthy : V -> bool.
Variable letters : V -> option (list V).
(** C58, a tag: the columns (see [C58_table], [C58_extra_partial]) are found under their names, and there are no others,
    if the names differ. *)
Theorem C58_names (all compare : bool) (sourceType : str) (extra : option str) (tag : option E) (emap : E -> E) (src tgt : list (drec V C E)) rs es ns ls :
  diffusion_table truthy letters all (match extra with Some _ => true | None => false end) compare tag emap src tgt = Ok (rs, es, ns, ls) ->
  NoDup (sourceType :: own_columns false compare extra) ->
  exists t : table V E F, tag_table truthy letters all compare sourceType extra tag emap src tgt = Ok t /\
    (forall name, In name (dkeys t) <-> In name (sourceType :: own_columns false compare extra)) /\
    dget sourceType t = Some (map CKey rs) /\ dget $"TargetCount" t = Some (map CNum ns) /\
    (compare = true -> dget $"SourceCount" t = Some (map CNum ls)) /\
    forall e, extra = Some e -> dget e t = Some (map CExtra es).
Proof.
  intros T ND. unfold tag_table. rewrite T. cbn [bind]. eexists. split; [reflexivity|]. unfold name_columns, own_columns in *. cbn [app] in *. set (tc := TargetCount) in *. set (sc := SourceCount) in *.
  change ($"TargetCount") with tc in *. change ($"SourceCount") with sc in *. clearbody tc sc.
  inversion ND as [|? ? N1 ND1]; subst. inversion ND1 as [|? ? N2 ND2]; subst. split; [|split; [|split; [|split]]].
  - intros name. destruct compare, extra as [e|]; rewrite ?In_dkeys_dset; cbn [app In dkeys map]; intuition congruence.
  - destruct compare, extra as [e|]; cbn [app In] in *; rewrite ?dget_dset; repeat (match goal with |- context [eqb ?a ?b] => destruct (eqb_spec a b) as [?|_] end; [exfalso; subst; tauto || reflexivity|] || idtac); try rewrite eqb_refl; try reflexivity.
    all: repeat (match goal with |- context [eqb ?a ?b] => destruct (eqb_spec a b) as [?|?] end; try reflexivity; try (exfalso; subst; tauto)).
  - destruct compare, extra as [e|]; cbn [app In] in *; rewrite ?dget_dset; repeat (match goal with |- context [eqb ?a ?b] => destruct (eqb_spec a b) as [?|?] end; try reflexivity; try (exfalso; subst; tauto)).
  - intros ->. inversion ND2 as [|? ? N3 ND3]; subst. destruct extra as [e|]; cbn [app In] in *; rewrite ?dget_dset; repeat (match goal with |- context [eqb ?a ?b] => destruct (eqb_spec a b) as [?|?] end; try reflexivity; try (exfalso; subst; tauto)).
  - intros e ->. rewrite dget_dset_same. reflexivity.
Qed.
End Named.

(** ** concrete records: their names, the fields are looked up in a table *)
Definition chars2 (s : str) : option (list str) := Some (map (fun c => [c]) s).
Definition named2 (s : str) : bool := match s with [] => false | _ => true end.
Definition papers : dict str (dict str str) := [($"R1", [($"UT", $"R1"); ($"TI", $"One"); ($"PY", $"1990")]); ($"R2", [($"UT", $"R2"); ($"VL", $"7")])].
Definition p_fields (v : str) : list str := match dget v papers with Some d => dkeys d | None => [] end.
Definition p_field (v : str) (tag : str) : option str := match dget v papers with Some d => dget tag d | None => None end.
Definition p_authors (v : str) : option nat := if eqb v $"R1" then Some 2 else if eqb v $"R2" then Some 1 else None.
Definition mk2 (v : str) (c : nat) (cs cites : list nat) (e : option (fval nat)) : drec str nat nat :=
  {| d_id := Some (One v); d_first := c; d_all := cs; d_cites := Some cites; d_extra := e |}.
Definition src2 := [mk2 $"R1" 1 [1; 11] [2] (Some (One 1990)); mk2 $"R2" 2 [2] [] None].
Definition tgt2 := [mk2 $"T1" 7 [7] [1; 2; 11] (Some (One 2001)); mk2 $"T2" 8 [8] [2] None].
Example C58_raw_ok : lone_only src2 /\ NoDup (own_columns true true (Some $"year")) /\
  (forall s v, In s src2 -> d_id s = Some (One v) -> NoDup (p_fields v) /\ (true = true -> p_authors v <> None) /\ forall t, In t (p_fields v) -> ~ In t (own_columns true true (Some $"year"))).
Proof.
  split; [|split].
  - intros s f [<-|[<-|[]]] Q; injection Q as <-; eauto.
  - apply nodupb_NoDup. vm_compute. reflexivity.
  - intros s v [<-|[<-|[]]] Q; injection Q as <-; (split; [apply nodupb_NoDup; vm_compute; reflexivity|]); (split; [intros _ Q; vm_compute in Q; discriminate|]); intros t I1; apply mem_not_In; revert t I1; apply Forall_forall; vm_compute; auto.
Qed.
Example C58_raw_ex : raw_table named2 chars2 p_fields p_field p_authors true true true (Some $"year") (fun e => e) src2 tgt2 =
  Ok [($"TargetCount", [CNum 2; CNum 2; CNum 2; CNum 1]); ($"numAuthors", [CNum 2; CNum 2; CNum 1; CNum 1]); ($"SourceCount", [CNum 0; CNum 0; CNum 1; CNum 0]);
      ($"year", [CExtra None; CExtra (Some 2001); CExtra None; CExtra (Some 2001)]);
      ($"UT", [CField (Some $"R1"); CField (Some $"R1"); CField (Some $"R2"); CField (Some $"R2")]);
      ($"TI", [CField (Some $"One"); CField (Some $"One"); CField None; CField None]);
      ($"PY", [CField (Some $"1990"); CField (Some $"1990"); CField None; CField None]);
      ($"VL", [CField None; CField None; CField (Some $"7"); CField (Some $"7")])].
Proof. vm_compute. reflexivity. Qed.
(** C58: an extra value given by the tag the records have ('PY', not 'year') makes its column twice as long as the others *)
Theorem C58_clash_refuted : exists t, raw_table named2 chars2 p_fields p_field p_authors true true false (Some $"PY") (fun e => e) src2 tgt2 = Ok t /\
  option_map (@List.length _) (dget $"PY" t) = Some 8 /\ option_map (@List.length _) (dget $"TargetCount" t) = Some 4.
Proof. eexists. split; [vm_compute; reflexivity|]. split; vm_compute; reflexivity. Qed.
(** C58: a record without authors has no length of the list of its authors *)
Theorem C58_authors_refuted : raw_table named2 chars2 p_fields p_field (fun _ => None) true true false None (fun e => e) src2 tgt2 = Raise TypeError /\
  exists t, raw_table named2 chars2 p_fields p_field (fun _ => None) true false false None (fun e => e) src2 tgt2 = Ok t.
Proof. split; [vm_compute; reflexivity|]. eexists. vm_compute. reflexivity. Qed.
(** C58: [extraMapping] is not applied to the extra values of the sources: the source counts of a row are those of another
    value.  R2 is cited by R1, whose extra value is mapped to that of the row. *)
Theorem C58_mapping_refuted : exists emap t, raw_table named2 chars2 p_fields p_field p_authors true false true (Some $"year") emap src2 src2 = Ok t /\
  dget $"year" t = Some [CExtra None; CExtra None; CExtra (Some 1)] /\ dget $"TargetCount" t = Some [CNum 0; CNum 1; CNum 1] /\ dget $"SourceCount" t = Some [CNum 0; CNum 1; CNum 0].
Proof. exists (fun _ => 1). eexists. split; [vm_compute; reflexivity|]. repeat split; vm_compute; reflexivity. Qed.
(** C58: if the extra tag is the type asked for, the sources are not in the table *)
Theorem C58_same_refuted : exists t : table str nat str, tag_table named2 chars2 true false $"year" (Some $"year") None (fun e => e) src2 tgt2 = Ok t /\
  dkeys t = [$"year"; $"TargetCount"] /\ dget $"year" t = Some [CExtra None; CExtra (Some 2001); CExtra None; CExtra (Some 2001)].
Proof. eexists. split; [vm_compute; reflexivity|]. split; vm_compute; reflexivity. Qed.

Print Assumptions C58_raw.
Print Assumptions C58_names.
Print Assumptions C58_clash_refuted.
Print Assumptions C58_authors_refuted.
Print Assumptions C58_mapping_refuted.
Print Assumptions C58_same_refuted.
