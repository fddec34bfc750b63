(** Proofs for C64. *)
From Coq Require Import List ZArith Lia Bool Arith Permutation.
From Coq Require Import String.
From Verif Require Import Base PyStr SeriesSpec RecordViewFacts AnalysisModel CiteTableModel CiteTableSpec.
Import ListNotations.
Local Open Scope list_scope.

Lemma picked {R V} `{EqDec V} (cites : R -> option (list cite)) get values f :
  (forall c, f c = true <-> @asked V get values c) -> forall rs, col_citations cites (Some get) values rs = filter f (given cites rs).
Proof.
  intros F rs. assert (W : forall c, wanted get values c = f c).
  { intros c. apply eq_true_iff_eq. rewrite F. unfold wanted, asked, attr_value. destruct (get c); [split; [discriminate|tauto]| |]; (destruct values; [apply mem_In|tauto]). }
  unfold given. induction rs as [|r rs IH]; [reflexivity|]. cbn. rewrite filter_app, IH. f_equal. destruct (cites r); [|reflexivity]. apply filter_ext, W.
Qed.
Lemma picked_all {R V} `{EqDec V} (cites : R -> option (list cite)) (values : option (list (option V))) rs : col_citations cites None values rs = given cites rs.
Proof. unfold given. induction rs as [|r rs IH]; [reflexivity|]. cbn. rewrite IH. reflexivity. Qed.

Lemma seen_spec c seen : existsb (same_cite c) seen = true <-> In (q_id c) (map q_id seen).
Proof.
  rewrite existsb_exists, in_map_iff. unfold same_cite. split; intros (d & A & B).
  - exists d. apply eqb_eq in B. auto.
  - exists d. split; [exact B|]. rewrite A. apply eqb_refl.
Qed.
Lemma cite_set_once : forall cs seen,
  NoDup (map q_id (cite_set seen cs)) /\ (forall c, In c (cite_set seen cs) -> In c cs /\ ~ In (q_id c) (map q_id seen)) /\
  (forall c, In c cs -> In (q_id c) (map q_id seen) \/ exists d, In d (cite_set seen cs) /\ q_id d = q_id c).
Proof.
  induction cs as [|c cs IH]; intros seen; cbn [cite_set].
  - split; [constructor|]. split; intros d [].
  - destruct (existsb (same_cite c) seen) eqn:E.
    + apply seen_spec in E. destruct (IH seen) as (A & B & C). split; [exact A|]. split.
      * intros d I. destruct (B d I). cbn. auto.
      * intros d [<-|I]; auto.
    + destruct (IH (c :: seen)) as (A & B & C). assert (N : ~ In (q_id c) (map q_id seen)) by (intros X; apply seen_spec in X; congruence). split; [|split].
      * cbn. constructor; [|exact A]. intros X. apply in_map_iff in X. destruct X as (d & X & I). destruct (B d I) as [_ Q]. apply Q. cbn. auto.
      * intros d [<-|I]; [cbn; auto|]. destruct (B d I) as [P Q]. cbn in Q |- *. tauto.
      * intros d [<-|I]; [right; exists c; cbn; auto|]. destruct (C d I) as [X|(e & X & Y)]; [|right; exists e; cbn; auto].
        cbn in X. destruct X as [X|X]; [right; exists c; cbn; auto|auto].
Qed.
Lemma set_once order cs : (forall l : list cite, Permutation l (order l)) -> each_once (order (cite_set [] cs)) cs.
Proof.
  intros P. destruct (cite_set_once cs []) as (A & B & C). specialize (P (cite_set [] cs)). split; [|split].
  - apply (Permutation_NoDup (Permutation_map q_id P)), A.
  - intros c I. apply B, (Permutation_in _ (Permutation_sym P)), I.
  - intros c I. destruct (C c I) as [[]|(d & X & Y)]. exists d. split; [apply (Permutation_in _ P), X|exact Y].
Qed.

Lemma count_times all c : count (q_id c) (map q_id all) = times all c.
Proof.
  unfold times. induction all as [|d all IH]; [reflexivity|]. cbn [map count filter]. rewrite IH. destruct (list_eq_dec N.eq_dec (q_id d) (q_id c)) as [E|N].
  - rewrite E, eqb_refl. reflexivity.
  - replace (eqb (q_id c) (q_id d)) with false; [reflexivity|]. symmetry. apply neq_eqb. intros X. apply N. symmetry. exact X.
Qed.
Definition keys_of (c : cite) : list ckey :=
  KCite (q_id c) :: match attr_value (q_year c) with None => [] | Some y => [KYear y] end.
Lemma counts_keys : forall cs d, cite_counts cs d = fold_left (fun d k => dincr k d) (flat_map keys_of cs) d.
Proof. induction cs as [|c cs IH]; intros d; [reflexivity|]. cbn. destruct (attr_value (q_year c)); rewrite IH; reflexivity. Qed.
Lemma count_app' {A} `{EqDec A} (x : A) a b : count x (a ++ b) = count x a + count x b.
Proof. induction a; cbn; [reflexivity|]. rewrite IHa. lia. Qed.
Lemma count_cite all c : count (KCite (q_id c)) (flat_map keys_of all) = times all c.
Proof.
  rewrite <- count_times. induction all as [|d all IH]; [reflexivity|]. cbn [flat_map map]. rewrite count_app', IH. cbn [keys_of count].
  replace (count (KCite (q_id c)) match attr_value (q_year d) with None => [] | Some y => [KYear y] end) with 0.
  - replace (eqb (KCite (q_id c)) (KCite (q_id d))) with (eqb (q_id c) (q_id d)); [lia|].
    destruct (eqb_spec (q_id c) (q_id d)) as [E|N]; symmetry; [rewrite E; apply eqb_refl|apply neq_eqb; intros X; injection X; exact N].
  - destruct (attr_value (q_year d)); [|reflexivity]. cbn [count]. replace (eqb (KCite (q_id c)) (KYear o)) with false; [reflexivity|]. symmetry. apply neq_eqb. discriminate.
Qed.
Lemma count_year all c y : attr_value (q_year c) = Some y -> count (KYear y) (flat_map keys_of all) = in_year_of all c.
Proof.
  intros Y. unfold in_year_of. induction all as [|d all IH]; [reflexivity|]. cbn [flat_map filter]. rewrite count_app', IH. cbn [keys_of count].
  replace (@eqb ckey EqDec_ckey (KYear y) (KCite (q_id d))) with false by (symmetry; apply neq_eqb; discriminate). cbn [Nat.add].
  replace (count (KYear y) match attr_value (q_year d) with None => [] | Some z => [KYear z] end) with (if same_year c d then 1 else 0); [destruct (same_year c d); reflexivity|].
  unfold same_year. destruct (q_year c) as [| |a]; cbn in Y; [discriminate| |]; injection Y as <-; destruct (q_year d) as [| |b]; cbn [attr_value count]; try reflexivity.
  - destruct (Z.eqb_spec a b) as [->|N]; [rewrite eqb_refl; reflexivity|]. replace (@eqb ckey EqDec_ckey (KYear (Some a)) (KYear (Some b))) with false; [reflexivity|]. symmetry. apply neq_eqb. congruence.
Qed.
Lemma times_pos all c : In c all -> times all c <> 0.
Proof.
  intros I. unfold times. assert (J : In c (filter (fun d => if list_eq_dec N.eq_dec (q_id d) (q_id c) then true else false) all)) by (apply filter_In; split; [exact I|]; destruct (list_eq_dec N.eq_dec (q_id c) (q_id c)); congruence).
  intros E. apply length_zero_iff_nil in E. rewrite E in J. destruct J.
Qed.
Lemma year_pos all c y : attr_value (q_year c) = Some y -> In c all -> in_year_of all c <> 0.
Proof.
  intros Y I. unfold in_year_of. assert (J : In c (filter (same_year c) all)).
  { apply filter_In. split; [exact I|]. unfold same_year. destruct (q_year c); [discriminate|reflexivity|apply Z.eqb_refl]. }
  intros E. apply length_zero_iff_nil in E. rewrite E in J. destruct J.
Qed.
Lemma rows_counts all : forall l t, (forall c, In c l -> In c all) ->
  cite_rows true (cite_counts all []) (length all) l t = Ok
   {| t_text := t_text t ++ map q_original l; t_year := t_year t ++ map (fun c => cell_of (q_year c)) l;
      t_journal := t_journal t ++ map (fun c => cell_of (q_journal c)) l; t_author := t_author t ++ map (fun c => cell_of (q_author c)) l;
      t_num := t_num t ++ map (times all) l; t_overall := t_overall t ++ map (fun c => (times all c, length all)) l;
      t_in_year := t_in_year t ++ map (fun c => match q_year c with Lacks => None | _ => Some (times all c, in_year_of all c) end) l |}.
Proof.
  induction l as [|c l IH]; intros t IN.
  - cbn. rewrite !app_nil_r. destruct t; reflexivity.
  - cbn [cite_rows]. assert (IC : In c all) by (apply IN; left; reflexivity).
    assert (G : forall k, count k (flat_map keys_of all) <> 0 -> look k (cite_counts all []) = Ok (count k (flat_map keys_of all))).
    { intros k NZ. unfold look. rewrite counts_keys. destruct (fold_dincr (flat_map keys_of all) []) as [G _]. rewrite G. cbn [dget]. destruct (Nat.eqb_spec (count k (flat_map keys_of all)) 0); [contradiction|reflexivity]. }
    rewrite (G (KCite (q_id c))) by (rewrite count_cite; apply times_pos, IC). rewrite count_cite. cbn [bind]. unfold divide at 1.
    replace (length all =? 0) with false by (symmetry; apply Nat.eqb_neq; intros E; apply length_zero_iff_nil in E; rewrite E in IC; destruct IC). cbn [bind].
    assert (Q : match attr_value (q_year c) with
                | None => Ok None
                | Some y => let* m := look (KYear y) (cite_counts all []) in let* q := divide (times all c) m in Ok (Some q)
                end = Ok match q_year c with Lacks => None | _ => Some (times all c, in_year_of all c) end).
    { destruct (attr_value (q_year c)) as [y|] eqn:Y.
      - assert (YP := year_pos _ _ _ Y IC). rewrite (G (KYear y)) by (rewrite (count_year _ _ _ Y); exact YP). rewrite (count_year _ _ _ Y). cbn [bind]. unfold divide. destruct (Nat.eqb_spec (in_year_of all c) 0); [contradiction|]. cbn [bind]. destruct (q_year c); [discriminate|reflexivity|reflexivity].
      - destruct (q_year c); [reflexivity|discriminate|discriminate]. }
    rewrite Q. cbn [bind]. rewrite IH by (intros d I; apply IN; right; exact I). cbn. rewrite <- !app_assoc. cbn. reflexivity.
Qed.
Lemma rows_plain d n : forall l t, t_num t = [] -> t_overall t = [] -> t_in_year t = [] ->
  cite_rows false d n l t = Ok
   {| t_text := t_text t ++ map q_original l; t_year := t_year t ++ map (fun c => cell_of (q_year c)) l;
      t_journal := t_journal t ++ map (fun c => cell_of (q_journal c)) l; t_author := t_author t ++ map (fun c => cell_of (q_author c)) l;
      t_num := []; t_overall := []; t_in_year := [] |}.
Proof.
  induction l as [|c l IH]; intros t A B C.
  - cbn. rewrite !app_nil_r. destruct t; cbn in *; subst; reflexivity.
  - cbn [cite_rows]. rewrite IH by assumption. cbn. rewrite <- !app_assoc. cbn. reflexivity.
Qed.

(** the citations of a class add up *)
Lemma class_total (f : cite -> bool) all : (forall c d, In c all -> In d all -> q_id c = q_id d -> f c = f d) ->
  forall l, each_once l all -> total (times all) (filter f l) = length (filter f all).
Proof.
  intros FE l (ND & IN & EX).
  assert (G : forall all', (forall c, In c all' -> In c all) -> total (times all') (filter f l) = length (filter f all')).
  { induction all' as [|c all' IH]; intros SUB.
    - cbn. clear. induction (filter f l); [reflexivity|]. cbn. exact IHl0.
    - assert (S1 : forall d, times (c :: all') d = (if list_eq_dec N.eq_dec (q_id c) (q_id d) then 1 else 0) + times all' d).
      { intros d. unfold times. cbn [filter]. destruct (list_eq_dec N.eq_dec (q_id c) (q_id d)); reflexivity. }
      assert (S2 : forall m, total (times (c :: all')) m = total (fun d => if list_eq_dec N.eq_dec (q_id c) (q_id d) then 1 else 0) m + total (times all') m).
      { induction m as [|d m IHm]; [reflexivity|]. unfold total in *. cbn [fold_right]. rewrite S1, IHm. lia. }
      rewrite S2, IH by (intros d I; apply SUB; right; exact I). cbn [filter].
      assert (IC : In c all) by (apply SUB; left; reflexivity). destruct (EX c IC) as (d & ID & QD).
      assert (S3 : forall m, (forall e, In e m -> In e all) -> NoDup (map q_id m) -> total (fun e => if list_eq_dec N.eq_dec (q_id c) (q_id e) then 1 else 0) (filter f m) = if f c && existsb (fun e => if list_eq_dec N.eq_dec (q_id c) (q_id e) then true else false) m then 1 else 0).
      { induction m as [|e m IHm]; intros SM NM; [cbn; rewrite andb_false_r; reflexivity|]. cbn in NM. inversion NM; subst. cbn [filter existsb]. assert (IHm' := IHm (fun x I => SM x (or_intror I)) H2).
        destruct (list_eq_dec N.eq_dec (q_id c) (q_id e)) as [E|N].
        - assert (Z0 : existsb (fun x => if list_eq_dec N.eq_dec (q_id c) (q_id x) then true else false) m = false).
          { apply not_true_is_false. intros X. apply existsb_exists in X. destruct X as (x & IX & QX). destruct (list_eq_dec N.eq_dec (q_id c) (q_id x)) as [E2|]; [|discriminate]. apply H1. rewrite <- E, E2. apply in_map, IX. }
          rewrite Z0, andb_false_r in IHm'. rewrite <- (FE c e IC (SM e (or_introl eq_refl)) E). destruct (f c) eqn:FC; cbn [andb orb].
          + unfold total in *. cbn [fold_right]. destruct (list_eq_dec N.eq_dec (q_id c) (q_id e)); [|congruence]. rewrite IHm'. reflexivity.
          + exact IHm'.
        - cbn [orb]. destruct (f e); [|exact IHm']. cbn. destruct (list_eq_dec N.eq_dec (q_id c) (q_id e)); [congruence|]. exact IHm'. }
      rewrite S3 by assumption. replace (existsb _ l) with true.
      + destruct (f c); reflexivity.
      + symmetry. apply existsb_exists. exists d. split; [exact ID|]. destruct (list_eq_dec N.eq_dec (q_id c) (q_id d)); congruence. }
  apply G. auto.
Qed.
