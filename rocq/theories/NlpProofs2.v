(** Proofs for C66 and C67: the tables. *)
From Coq Require Import List ZArith Lia Bool Arith.
From Coq Require Import String.
From Verif Require Import Base PyStr TextModel NlpModel NlpSpec NlpProofs.
Import ListNotations.
Local Open Scope list_scope.

Section Columns.
Context {X : Type}.
Notation cellT := (@nfield X).
(** what is appended to a column *)
Definition into (k : str) (l : list (str * cellT)) : list cellT := map snd (filter (fun p => eqb (fst p) k) l).
Lemma append_all_ok : forall (l : list (str * cellT)) (t : dict str (list cellT)), (forall k, In k (map fst l) -> In k (dkeys t)) ->
  exists t', append_all l t = Ok t' /\ dkeys t' = dkeys t /\ forall k, dget k t' = option_map (fun c => c ++ into k l) (dget k t).
Proof.
  induction l as [|[k v] l IH]; intros t IN.
  - exists t. split; [reflexivity|]. split; [reflexivity|]. intros k. unfold into. cbn. destruct (dget k t); cbn; [rewrite app_nil_r|]; reflexivity.
  - cbn [append_all]. unfold append. assert (IK : In k (dkeys t)) by (apply IN; left; reflexivity). assert (HK := proj2 (dhas_spec k t) IK). rewrite dhas_dget in HK.
    destruct (dget k t) as [c|] eqn:G; [|discriminate]. cbn [bind].
    assert (DK : dkeys (dset k (c ++ [v]) t) = dkeys t) by (rewrite dkeys_dset; rewrite (proj2 (dhas_spec k t) IK); reflexivity).
    destruct (IH (dset k (c ++ [v]) t)) as (t' & A & B & C); [intros j J; rewrite DK; apply IN; right; exact J|]. exists t'. split; [exact A|]. split; [congruence|].
    intros j. rewrite C, dget_dset. unfold into. cbn [filter fst]. rewrite (eqb_sym j k). destruct (eqb_spec k j) as [<-|N].
    + rewrite G. cbn. rewrite <- app_assoc. reflexivity.
    + reflexivity.
Qed.
Lemma start_ok : forall extra (t : dict str (list cellT)), (forall k c, dget k t = Some c -> c = []) ->
  let t' := fold_left (fun t k => dset k [] t) extra t in
  (forall k c, dget k t' = Some c -> c = []) /\ (forall k, In k (dkeys t') <-> In k (dkeys t) \/ In k extra) /\
  (NoDup extra -> (forall k, In k extra -> ~ In k (dkeys t)) -> dkeys t' = dkeys t ++ extra).
Proof.
  induction extra as [|k extra IH]; intros t E; cbn [fold_left].
  - cbn. split; [exact E|]. split; [tauto|]. intros _ _. rewrite app_nil_r. reflexivity.
  - destruct (IH (dset k [] t)) as (A & B & C).
    + intros j c. rewrite dget_dset. destruct (eqb j k); [congruence|apply E].
    + cbv zeta in *. split; [exact A|]. split.
      * intros j. rewrite B. rewrite dkeys_dset. destruct (dhas k t) eqn:H.
        -- cbn. apply dhas_spec in H. split; [tauto|]. intros [J|[<-|J]]; auto.
        -- rewrite in_app_iff. cbn. tauto.
      * intros ND DJ. inversion ND; subst. rewrite C; [|assumption|].
        -- rewrite dkeys_dset. destruct (dhas k t) eqn:H; [apply dhas_spec in H; exfalso; apply (DJ k); [left; reflexivity|exact H]|]. rewrite <- app_assoc. reflexivity.
        -- intros j J K. rewrite dkeys_dset in K. destruct (dhas k t); [apply (DJ j); [right; exact J|exact K]|]. apply in_app_or in K. destruct K as [K|[->|[]]]; [apply (DJ j); [right; exact J|exact K]|contradiction].
Qed.
End Columns.

Section Nlp.
Context {R X : Type}.
Variables iss isw isd : char -> bool.
Variable lower : str -> str.
Variable ident : R -> @ncell X.
Variable get : R -> str -> option (@nfield X).
Variables (o : opts) (copyright : bool) (stemmer : option (str -> str)).
Notation row := (nlp_row iss isw isd lower ident get o copyright stemmer).
Definition columns_of (extra : list str) : list str := builtins ++ (if copyright then [$"copyright"] else []) ++ extra.
Lemma row_keys extra r : map fst (row extra r) = columns_of extra.
Proof using.
  unfold nlp_row, columns_of. destruct (abstract_text iss isw isd lower o copyright stemmer (get_text get r $"AB")) as [a c]. rewrite !map_app, map_map. cbn [map fst]. rewrite map_id. destruct copyright; reflexivity.
Qed.
Lemma rows_ok extra : forall rs t, (forall k, In k (columns_of extra) -> In k (dkeys t)) ->
  exists t', nlp_rows iss isw isd lower ident get o copyright stemmer extra rs t = Ok t' /\ dkeys t' = dkeys t /\
    forall k, dget k t' = option_map (fun c => c ++ flat_map (fun r => into k (row extra r)) rs) (dget k t).
Proof using.
  induction rs as [|r rs IH]; intros t IN.
  - exists t. split; [reflexivity|]. split; [reflexivity|]. intros k. cbn. destruct (dget k t); cbn; [rewrite app_nil_r|]; reflexivity.
  - cbn [nlp_rows]. destruct (append_all_ok (row extra r) t) as (t1 & A & B & C); [rewrite row_keys; exact IN|]. rewrite A. cbn [bind].
    destruct (IH t1) as (t2 & A2 & B2 & C2); [rewrite B; exact IN|]. exists t2. split; [exact A2|]. split; [congruence|].
    intros k. rewrite C2, C. destruct (dget k t); [|reflexivity]. cbn. rewrite <- app_assoc. reflexivity.
Qed.
Lemma nlp_ok extra rs : exists t, for_nlp iss isw isd lower ident get o copyright stemmer extra rs = (Ok t, extra_left extra) /\
  (forall k, In k (columns_of (extra_left extra)) -> dget k t = Some (flat_map (fun r => into k (row (extra_left extra) r)) rs)) /\
  (NoDup (columns_of (extra_left extra)) -> dkeys t = columns_of (extra_left extra)).
Proof using.
  unfold for_nlp. set (e := extra_left extra). set (t0 := map (fun k => (k, [])) (builtins ++ (if copyright then [$"copyright"] else [])) : dict str (list (@nfield X))).
  assert (K0 : dkeys t0 = builtins ++ (if copyright then [$"copyright"] else [])) by (unfold t0, dkeys; rewrite map_map; cbn; rewrite map_id; reflexivity).
  assert (E0 : forall k c, dget k t0 = Some c -> c = []).
  { intros k c G. apply dget_In in G. unfold t0 in G. apply in_map_iff in G. destruct G as (j & J & _). congruence. }
  destruct (start_ok e t0 E0) as (A & B & C). cbv zeta in *. set (t1 := fold_left (fun t k => dset k [] t) e t0) in *.
  destruct (rows_ok e rs t1) as (t2 & A2 & B2 & C2).
  { intros k I. apply B. rewrite K0. unfold columns_of in I. rewrite app_assoc in I. apply in_app_or in I. exact I. }
  exists t2. split; [rewrite A2; reflexivity|]. split.
  - intros k I. rewrite C2. assert (H : dhas k t1 = true). { apply dhas_spec, B. rewrite K0. unfold columns_of in I. rewrite app_assoc in I. apply in_app_or in I. exact I. }
    rewrite dhas_dget in H. destruct (dget k t1) as [c|] eqn:G; [|discriminate]. rewrite (A k c G). reflexivity.
  - intros ND. rewrite B2, C.
    + rewrite K0. unfold columns_of. rewrite app_assoc. reflexivity.
    + unfold columns_of in ND. rewrite app_assoc in ND. revert ND. generalize (builtins ++ (if copyright then [$"copyright"] else [])). intros l ND. induction l; [exact ND|]. inversion ND; auto.
    + intros k I J. rewrite K0 in J. unfold columns_of in ND. rewrite app_assoc in ND. revert ND J. generalize (builtins ++ (if copyright then [$"copyright"] else [])). intros l ND J. induction l as [|a l IH]; [destruct J|]. cbn in ND. inversion ND; subst. destruct J as [->|J]; [apply H1, in_or_app; right; exact I|auto].
Qed.
(** a column of a table whose columns are all different has one cell for each record *)
Lemma into_once (l : list (str * @nfield X)) k v : NoDup (map fst l) -> In (k, v) l -> into k l = [v].
Proof using.
  induction l as [|[j w] l IH]; intros ND I; [destruct I|]. cbn in ND. inversion ND; subst. unfold into in *. cbn [filter fst]. destruct I as [E|I].
  - injection E as -> ->. rewrite eqb_refl. cbn [map snd]. f_equal. replace (filter (fun p => eqb (fst p) k) l) with (@nil (str * @nfield X)); [reflexivity|].
    symmetry. clear -H1. induction l as [|[a b] l IH]; [reflexivity|]. cbn in H1 |- *. destruct (eqb_spec a k) as [->|N]; [tauto|]. apply IH. tauto.
  - destruct (eqb_spec j k) as [->|N]; [exfalso; apply H1; apply in_map_iff; exists (k, v); auto|]. apply IH; assumption.
Qed.
Lemma flat_once (f : R -> list (str * @nfield X)) k (g : R -> @nfield X) rs : (forall r, NoDup (map fst (f r))) -> (forall r, In (k, g r) (f r)) -> flat_map (fun r => into k (f r)) rs = map g rs.
Proof using. intros A B. induction rs as [|r rs IH]; [reflexivity|]. cbn. rewrite (into_once (f r) k (g r)) by auto. cbn. f_equal. exact IH. Qed.
End Nlp.

Lemma remove_one_filter b l : NoDup l -> remove_one b l = filter (fun x => negb (eqb x b)) l.
Proof.
  induction l as [|x l IH]; intros ND; [reflexivity|]. inversion ND; subst. cbn. destruct (eqb_spec b x) as [->|N].
  - rewrite eqb_refl. cbn. symmetry. clear -H1. induction l as [|y l IH]; [reflexivity|]. cbn in H1 |- *. destruct (eqb_spec y x) as [->|N]; [tauto|]. cbn. f_equal. apply IH. tauto.
  - rewrite (neq_eqb (x := x) (y := b)) by congruence. cbn. f_equal. auto.
Qed.
Lemma extra_left_filter extra : NoDup extra -> extra_left extra = filter (fun x => negb (mem x builtins)) extra.
Proof.
  intros ND. unfold extra_left.
  assert (G : forall bs l, NoDup l -> fold_left (fun l b => if mem b l then remove_one b l else l) bs l = filter (fun x => negb (mem x bs)) l).
  { clear. induction bs as [|b bs IH]; intros l ND; cbn [fold_left].
    - unfold mem. cbn. clear. induction l; cbn; congruence.
    - replace (if mem b l then remove_one b l else l) with (filter (fun x => negb (eqb x b)) l).
      + rewrite IH by (apply NoDup_filter, ND). clear. induction l as [|x l IH]; [reflexivity|]. cbn [filter]. unfold mem at 2. cbn [existsb]. destruct (eqb x b); cbn [negb orb filter]; [exact IH|]. fold (mem x bs). destruct (mem x bs); cbn [negb]; [exact IH|f_equal; exact IH].
      + destruct (mem b l) eqn:M; [symmetry; apply remove_one_filter, ND|]. assert (NB : ~ In b l) by (intros I; apply mem_In in I; congruence).
        clear -NB. induction l as [|x l IH]; [reflexivity|]. cbn in NB |- *. destruct (eqb_spec x b) as [->|N]; [tauto|]. cbn. f_equal. apply IH. tauto. }
  apply G, ND.
Qed.
Section Burst.
Context {R Y : Type}.
Variables iss isw isd : char -> bool.
Variable lower : str -> str.
Variable year : R -> option Y.
Variable value : R -> option bvalue.
Variables (o : opts) (stemmer : option (str -> str)).
Definition burst_rows (rs : list R) : list (Y * str) :=
  flat_map (fun r => match year r, value r with
                     | Some y, Some v => map (pair y) (burst_words iss isw isd lower o stemmer (bvalue_text v))
                     | _, _ => []
                     end) rs.
Lemma burst_ok : forall rs ys ws, for_burst iss isw isd lower year value o stemmer rs ys ws = (ys ++ map fst (burst_rows rs), ws ++ map snd (burst_rows rs)).
Proof using.
  induction rs as [|r rs IH]; intros ys ws; [cbn; rewrite !app_nil_r; reflexivity|]. cbn [for_burst burst_rows flat_map].
  destruct (year r) as [y|]; [|rewrite IH; reflexivity]. destruct (value r) as [v|]; [|rewrite IH; reflexivity].
  assert (G : forall (l : list str) (a : list Y) (b : list str), fold_left (fun (yw : list Y * list str) w => (fst yw ++ [y], snd yw ++ [w])) l (a, b) = (a ++ map fst (map (pair y) l), b ++ map snd (map (pair y) l))).
  { clear. induction l as [|w l IH]; intros a b; cbn [fold_left map fst snd]; [rewrite !app_nil_r; reflexivity|]. rewrite IH. rewrite <- !app_assoc. reflexivity. }
  rewrite G. rewrite IH. rewrite !map_app, <- !app_assoc. reflexivity.
Qed.
End Burst.
