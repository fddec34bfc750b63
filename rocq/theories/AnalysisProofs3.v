(** Proofs about the table of rpys and about makeDict. *)
From Coq Require Import List ZArith Lia Bool Arith Permutation Sorted.
From Coq Require Import String.
From Verif Require Import Base PyStr PyInt SeriesSpec RecordView RecordViewFacts CitationModel AnalysisModel AnalysisSpec AnalysisProofs AnalysisProofs2.
Import ListNotations.
Local Open Scope list_scope.
Set Implicit Arguments.

Section Rpys.
Context {R : Type}.
Variable cites : R -> option (list cite).
Variable year : R -> option yearval.
Variable order : list Z -> list Z.
Hypothesis Order : forall l, Permutation l (order l).
Variables lo hi : option Z.
Variable rs : list R.
Variables a b : Z.
Variable dy : drop.
Variable rank_empty : bool.
Hypothesis Text : not_text year rs.
Hypothesis First : first_year cites year rs lo hi a.
Hypothesis Last : last_year cites year rs lo hi b.
Hypothesis Drop : forall z, dy <> DropOne z.
Definition shown_years : list Z := order (filter (fun y => match dy with DropMany l => negb (mem y l) | _ => true end) (zrange a (b + 1))).
Let d := years_of cites year lo hi rs.
Definition devs : list (Z * Z) := map (fun y => (y, deviation d y)) shown_years.
Definition ranks : dict Z nat := enumerate_ranks (ssort snd Z.leb devs) 1 [].
Definition row_of (y : Z) : row :=
  {| w_year := y; w_count := count_at d y; w_deviation := deviation d y;
     w_rank := if Z.eqb (count_at d y) 0 && negb rank_empty then 0 else match dget y ranks with Some r => r | None => 0 end |}.
Lemma rpys_rows : rpys cites year order rs lo hi dy rank_empty = Ok (map row_of shown_years).
Proof.
  unfold rpys. rewrite (rpys_counts_ok cites lo hi Text). cbn [bind]. fold (years_of cites year lo hi rs). rewrite (@lower_ok R cites year lo hi rs a First), (@upper_ok R cites year lo hi rs b Last). cbn [bind].
  assert (T : targets dy (zrange a (b + 1)) = Ok (filter (fun y => match dy with DropMany l => negb (mem y l) | _ => true end) (zrange a (b + 1)))).
  { unfold targets. destruct dy as [|z|l]; [|exfalso; exact (@Drop z eq_refl)|reflexivity]. f_equal. induction (zrange a (b + 1)) as [|y l IH]; [reflexivity|]. cbn. rewrite <- IH. reflexivity. }
  rewrite T. reflexivity.
Qed.
Lemma shown_spec y : In y shown_years <-> (a <= y <= b)%Z /\ ~ dropped dy y.
Proof.
  unfold shown_years. assert (P := Order (filter (fun y => match dy with DropMany l => negb (mem y l) | _ => true end) (zrange a (b + 1)))).
  split.
  - intros I1. apply (Permutation_in _ (Permutation_sym P)) in I1. apply filter_In in I1 as [I1 E]. apply In_zrange in I1. split; [lia|]. destruct dy as [|z|l]; [intros []|exfalso; exact (@Drop z eq_refl)|].
    intros D. cbn in D. apply mem_In in D. rewrite D in E. discriminate.
  - intros [B ND]. apply (Permutation_in _ P). apply filter_In. split; [apply In_zrange; lia|]. destruct dy as [|z|l]; try reflexivity. apply negb_true_iff, mem_not_In. exact ND.
Qed.
Lemma NoDup_shown : NoDup shown_years.
Proof. eapply Permutation_NoDup; [apply Order|]. apply NoDup_filter, NoDup_zrange. Qed.
Lemma bounds_within y : (a <= y <= b)%Z -> within lo hi (y - 2) = true /\ within lo hi (y + 2) = true /\ within lo hi y = true.
Proof.
  intros B. rewrite !within_spec. assert (L : forall l, lo = Some l -> a = l) by (intros l E; unfold first_year in First; rewrite E in First; exact First).
  assert (U : forall h, hi = Some h -> b = h) by (intros l E; unfold last_year in Last; rewrite E in Last; exact Last).
  repeat split; intros l E; (specialize (L l E) || specialize (U l E)); lia.
Qed.
Lemma row_count y : (a <= y <= b)%Z -> w_count (row_of y) = Z.of_nat (cited_count cites year rs y).
Proof. intros B. cbn. unfold d. rewrite get_years. destruct (bounds_within B) as (_ & _ & ->). reflexivity. Qed.
Lemma row_deviation y : (a <= y <= b)%Z -> exists m, median5 m (window cites year rs y) /\ w_deviation (row_of y) = (w_count (row_of y) - m)%Z.
Proof.
  intros B. rewrite row_count by exact B. destruct (bounds_within B) as (W1 & W2 & _). destruct (deviation_spec cites year lo hi rs y W1 W2) as (m & M & E). exists m. split; [exact M|exact E].
Qed.
Lemma NoDup_devs : NoDup (map fst (ssort snd Z.leb devs)).
Proof.
  eapply Permutation_NoDup; [apply Permutation_map, ssort_perm|]. unfold devs. rewrite map_map. cbn. rewrite map_id. apply NoDup_shown.
Qed.
Lemma rank_place y : In y shown_years -> exists p, nth_error (ssort snd Z.leb devs) p = Some (y, deviation d y) /\ dget y ranks = Some (S p) /\ p < length shown_years.
Proof.
  intros I1. assert (I2 : In (y, deviation d y) (ssort snd Z.leb devs)).
  { apply (Permutation_in _ (ssort_perm snd Z.leb devs)). unfold devs. apply in_map_iff. exists y. auto. }
  apply In_nth_error in I2 as [p P]. exists p. split; [exact P|]. split; [apply (enum_nth _ NoDup_devs 1 [] p P)|].
  assert (L : p < length (ssort snd Z.leb devs)) by (apply nth_error_Some; congruence). rewrite ssort_length in L. unfold devs in L. rewrite map_length in L. exact L.
Qed.
Lemma devs_sorted : StronglySorted (fun x y => (snd x <= snd y)%Z) (ssort snd Z.leb devs).
Proof.
  assert (S1 : StronglySorted (fun x y : Z * Z => Z.leb (snd x) (snd y) = true) (ssort snd Z.leb devs)).
  { apply (ssort_ordered (@snd Z Z) Z.leb); [intros u v; rewrite !Z.leb_le; lia|intros u v c; rewrite !Z.leb_le; lia]. }
  induction S1 as [|x m S1 IH F]; constructor; [exact IH|]. revert F. apply Forall_impl. intros y. apply Z.leb_le.
Qed.
Lemma rank_order x y : In x shown_years -> In y shown_years -> w_rank (row_of x) <> 0 -> w_rank (row_of y) <> 0 ->
  (w_rank (row_of x) < w_rank (row_of y) -> (w_deviation (row_of x) <= w_deviation (row_of y))%Z) /\ (w_rank (row_of x) = w_rank (row_of y) -> x = y).
Proof.
  intros I1 I2. destruct (rank_place _ I1) as (p & P & G & _), (rank_place _ I2) as (q & Q & G' & _). cbn [row_of w_rank w_deviation]. rewrite G, G'.
  destruct (_ && _); [congruence|]. destruct (_ && _); [congruence|]. intros _ _. split.
  - intros L. exact (SS_nth devs_sorted (p := p) (q := q) ltac:(lia) P Q).
  - intros E. injection E as ->. congruence.
Qed.
Lemma rank_zero y : In y shown_years -> w_rank (row_of y) = 0 <-> cited_count cites year rs y = 0 /\ rank_empty = false.
Proof.
  intros I1. destruct (rank_place _ I1) as (p & P & G & _). pose proof (proj1 (shown_spec y) I1) as [B _]. pose proof (row_count B) as C. cbn [row_of w_count] in C. cbn [row_of w_rank]. rewrite G, C.
  destruct (Z.eqb_spec (Z.of_nat (cited_count cites year rs y)) 0) as [E|E], rank_empty; cbn [andb negb]; split; intros; try discriminate; try (split; [lia|reflexivity]); try (destruct H; congruence || lia); reflexivity.
Qed.
Lemma rank_bound y : In y shown_years -> w_rank (row_of y) <= length shown_years.
Proof. intros I1. destruct (rank_place _ I1) as (p & P & G & L). cbn [row_of w_rank]. rewrite G. destruct (_ && _); lia. Qed.
End Rpys.

(** ** makeDict *)
Section MakeDict.
Context {R V : Type}.
Variable keys : R -> list str.
Variable get : R -> str -> option V.
Variable authors : R -> nat.
Variable genders : R -> nat * nat * nat.
Variable to_tag to_full : dict str str.
Notation table := (table (V := V)).

Lemma push_all_ok (l : list (str * cell V)) : forall t : table, NoDup (map fst l) -> (forall k, In k (map fst l) -> In k (dkeys t)) ->
  exists t', push_all l t = Ok t' /\ (forall k, In k (dkeys t') <-> In k (dkeys t)) /\
    forall k, dget k t' = match dget k l with Some c => match dget k t with Some m => Some (m ++ [c]) | None => None end | None => dget k t end.
Proof.
  induction l as [|[k c] l IH]; intros t ND IN; [exists t; split; [reflexivity|]; split; [tauto|reflexivity]|].
  apply NoDup_cons_iff in ND as [NK ND]. cbn [push_all]. unfold push. destruct (dget k t) as [m|] eqn:G.
  - cbn [bind]. destruct (IH (dset k (m ++ [c]) t) ND) as (t' & P & K & D).
    { intros q I1. apply In_dkeys_dset. right. apply IN. right. exact I1. }
    exists t'. split; [exact P|]. split.
    + intros q. rewrite K, In_dkeys_dset. split; [intros [->|I1]; [apply (dget_Some_key _ _ G)|exact I1]|auto].
    + intros q. rewrite D. cbn [dget]. rewrite dget_dset. destruct (@eqb_spec str _ q k) as [->|N]; [|reflexivity]. rewrite G.
      destruct (dget k l) eqn:G2; [exfalso; apply NK; apply (dget_Some_key _ _ G2)|reflexivity].
  - apply dget_None in G. exfalso. apply G, IN. left. reflexivity.
Qed.
Lemma sub_dict_get r tags : forall d k, dget k (fold_left (fun d t => dset t (get r t) d) tags d) = if mem k tags then Some (get r k) else dget k d.
Proof.
  induction tags as [|t tags IH]; intros d k; [reflexivity|]. cbn [fold_left]. rewrite IH, dget_dset. unfold mem. cbn. destruct (existsb (eqb k) tags); [rewrite orb_true_r; reflexivity|]. rewrite orb_false_r.
  destruct (@eqb_spec str _ k t) as [->|N]; reflexivity.
Qed.
Lemma sub_dict_nodup r tags : forall d, NoDup (dkeys d) -> NoDup (dkeys (fold_left (fun d t => dset t (get r t) d) tags d)).
Proof. induction tags as [|t tags IH]; intros d N; [exact N|]. cbn. apply IH, NoDup_dset, N. Qed.
Variables num gend : bool.
Variable fields : list str.
Hypothesis Free : forall k, In k fields -> ~ In k (extra_columns num gend).
Notation cells := (record_cells get authors genders fields num gend).
Lemma dget_map_cell (l : dict str (option V)) k : dget k (map (fun '(k, v) => (k, CVal v)) l) = option_map CVal (dget k l).
Proof. induction l as [|[x v] l IH]; [reflexivity|]. cbn. rewrite IH. destruct (eqb k x); reflexivity. Qed.
Lemma dget_app (l m : list (str * cell V)) k : dget k (l ++ m) = match dget k l with Some c => Some c | None => dget k m end.
Proof. induction l as [|[x v] l IH]; [reflexivity|]. cbn. rewrite IH. destruct (eqb k x); reflexivity. Qed.
Lemma cells_fst r : map fst (cells r) = extra_columns num gend ++ dkeys (sub_dict get r fields).
Proof.
  unfold record_cells, extra_columns. destruct (genders r) as [[m f] u]. rewrite !map_app, map_map. unfold dkeys. rewrite <- !app_assoc. f_equal; [destruct num; reflexivity|]. f_equal; [destruct gend; reflexivity|].
  apply map_ext. intros [k v]. reflexivity.
Qed.
Lemma In_sub r k : In k (dkeys (sub_dict get r fields)) <-> In k fields.
Proof.
  unfold sub_dict. pose proof (sub_dict_get r fields [] k) as G. destruct (mem k fields) eqn:M.
  - apply mem_In in M. apply dget_Some_key in G. tauto.
  - cbn in G. apply dget_None in G. apply mem_not_In in M. tauto.
Qed.
Lemma cells_keys r k : In k (map fst (cells r)) <-> In k (extra_columns num gend) \/ In k fields.
Proof. rewrite cells_fst, in_app_iff, In_sub. reflexivity. Qed.
Lemma cells_nodup r : NoDup (map fst (cells r)).
Proof.
  rewrite cells_fst. assert (N1 : NoDup (extra_columns num gend)) by (destruct num, gend; cbn; repeat constructor; cbn; intuition discriminate).
  assert (N2 : NoDup (dkeys (sub_dict get r fields))) by (apply sub_dict_nodup; constructor).
  revert N1. assert (F : forall k, In k (extra_columns num gend) -> ~ In k (dkeys (sub_dict get r fields))) by (intros k I1 I2; apply In_sub in I2; exact (Free k I2 I1)).
  revert F. generalize (extra_columns num gend) as l. induction l as [|x l IH]; intros F N1; [exact N2|]. apply NoDup_cons_iff in N1 as [NX N1]. cbn. constructor.
  - rewrite in_app_iff. intros [Q|Q]; [contradiction|]. apply (F x (or_introl eq_refl) Q).
  - apply IH; [intros k I1; apply F; right; exact I1|exact N1].
Qed.
Lemma cells_get r k : In k (extra_columns num gend) \/ In k fields -> dget k (cells r) = Some (entry get authors genders num gend k r).
Proof.
  intros K. unfold record_cells, entry. destruct (genders r) as [[m f] u]. rewrite !dget_app, dget_map_cell. unfold sub_dict. rewrite sub_dict_get. unfold extra_columns in *.
  destruct num; cbn [andb app dget] in *.
  - destruct (@eqb_spec str _ k $"num-Authors") as [->|N1]; [reflexivity|].
    destruct gend; cbn [andb app dget] in *.
    + destruct (@eqb_spec str _ k $"num-Male") as [->|N2]; [reflexivity|]. destruct (@eqb_spec str _ k $"num-Female") as [->|N3]; [reflexivity|]. destruct (@eqb_spec str _ k $"num-Unknown") as [->|N4]; [reflexivity|].
      destruct K as [[Q|[Q|[Q|[Q|[]]]]]|K]; try congruence. apply mem_In in K. rewrite K. reflexivity.
    + destruct K as [[Q|[]]|K]; try congruence. apply mem_In in K. rewrite K. reflexivity.
  - destruct gend; cbn [andb app dget] in *.
    + destruct (@eqb_spec str _ k $"num-Male") as [->|N2]; [reflexivity|]. destruct (@eqb_spec str _ k $"num-Female") as [->|N3]; [reflexivity|]. destruct (@eqb_spec str _ k $"num-Unknown") as [->|N4]; [reflexivity|].
      destruct K as [[Q|[Q|[Q|[]]]]|K]; try congruence. apply mem_In in K. rewrite K. reflexivity.
    + destruct K as [[]|K]. apply mem_In in K. rewrite K. reflexivity.
Qed.
Lemma push_records_ok rs : forall t : table, (forall k, In k (dkeys t) <-> In k (extra_columns num gend) \/ In k fields) ->
  exists t', push_records get authors genders fields num gend rs t = Ok t' /\ (forall k, In k (dkeys t') <-> In k (extra_columns num gend) \/ In k fields) /\
    forall k l, dget k t = Some l -> dget k t' = Some (l ++ map (entry get authors genders num gend k) rs).
Proof.
  induction rs as [|r rs IH]; intros t K; [exists t; split; [reflexivity|]; split; [exact K|]; intros k l G; cbn; rewrite app_nil_r; exact G|].
  cbn [push_records]. destruct (@push_all_ok (cells r) t (cells_nodup r)) as (t1 & P & K1 & D1).
  { intros k I1. apply cells_keys in I1. apply K, I1. }
  rewrite P. cbn [bind]. destruct (IH t1) as (t2 & P2 & K2 & D2); [intros k; rewrite K1; apply K|]. exists t2. split; [exact P2|]. split; [exact K2|].
  intros k l G. assert (I1 : In k (extra_columns num gend) \/ In k fields) by (apply K, (dget_Some_key _ _ G)).
  rewrite (D2 k (l ++ [entry get authors genders num gend k r])); [rewrite <- app_assoc; reflexivity|]. rewrite D1, (cells_get r k I1), G. reflexivity.
Qed.
Lemma fold_empty ks : forall t : table, (forall k, In k (dkeys (fold_left (fun t k => dset k [] t) ks t)) <-> In k ks \/ In k (dkeys t)) /\
  forall k, In k ks -> dget k (fold_left (fun t k => dset k [] t) ks t) = Some [].
Proof.
  induction ks as [|x ks IH]; intros t; [split; [cbn; tauto|intros k []]|]. cbn [fold_left]. destruct (IH (dset x [] t)) as [A B]. split.
  - intros k. rewrite A, In_dkeys_dset. cbn. split; [intros [?|[->|?]]; auto|intros [[->|?]|?]; auto].
  - intros k [->|I1]; [|apply B, I1]. destruct (in_dec eq_dec k ks) as [I1|N]; [apply B, I1|]. clear A B IH. revert t. induction ks as [|y ks IH]; intros t; [cbn; apply dget_dset_same|].
    cbn [fold_left]. assert (NE : y <> k) by (intros ->; apply N; left; reflexivity).
    assert (SW : dget k (fold_left (fun t k => dset k [] t) ks (dset k [] (dset y [] t))) = Some []) by (apply IH; intros Q; apply N; right; exact Q).
    rewrite <- SW. clear SW IH. assert (E : forall l (t1 t2 : table), dget k t1 = dget k t2 -> dget k (fold_left (fun t k => dset k [] t) l t1) = dget k (fold_left (fun t k => dset k [] t) l t2)).
    { induction l as [|z l IH]; intros t1 t2 E; [exact E|]. cbn. apply IH. rewrite !dget_dset. destruct (eqb k z); [reflexivity|exact E]. }
    apply E. rewrite !dget_dset, eqb_refl. destruct (eqb k y); reflexivity.
Qed.
End MakeDict.
Section MakeDict2.
Context {R V : Type}.
Variable keys : R -> list str.
Variable get : R -> str -> option V.
Variable authors : R -> nat.
Variable genders : R -> nat * nat * nat.
Variable to_tag to_full : dict str str.
Lemma all_tags_spec rs t : In t (all_tags keys rs) <-> exists r, In r rs /\ In t (keys r).
Proof.
  unfold all_tags. assert (G : forall f, In t (fold_left (fun f r => f ++ filter (fun t => negb (mem t f)) (keys r)) rs f) <-> In t f \/ exists r, In r rs /\ In t (keys r)).
  { induction rs as [|r rs IH]; intros f; cbn [fold_left]; [split; [auto|intros [?|(r & [] & _)]; auto]|]. rewrite IH, in_app_iff, filter_In. split.
    - intros [[?|[I1 _]]|(q & I1 & I2)]; [left; assumption|right; exists r; split; [left; reflexivity|exact I1]|right; exists q; split; [right; exact I1|exact I2]].
    - intros [?|(q & [->|I1] & I2)]; [left; left; assumption| |right; exists q; auto]. destruct (mem t f) eqn:M; [left; left; apply mem_In, M|left; right; auto]. }
  rewrite G. split; [intros [[]|?]; assumption|auto].
Qed.
Definition fields_of (rs : list R) (only : list str) : list str := match only with [] => all_tags keys rs | _ => normal_tags to_tag only end.
Lemma chosen_spec rs only t : In t (fields_of rs only) <-> chosen keys to_tag rs only t.
Proof.
  unfold fields_of, chosen. destruct only as [|x only]; [apply all_tags_spec|]. unfold normal_tags. rewrite in_map_iff. split; intros (u & A & B); exists u; auto.
Qed.
Lemma long_names_ok l : (forall t, In t l -> dget t to_full <> None) -> exists l', long_names to_full l = Ok l' /\ forall k, In k l' <-> exists t, In t l /\ dget t to_full = Some k.
Proof.
  induction l as [|t l IH]; intros A; [exists []; split; [reflexivity|]; intros k; split; [intros []|intros (t & [] & _)]|]. cbn.
  destruct (dget t to_full) as [n|] eqn:G; [|exfalso; exact (A t (or_introl eq_refl) G)]. destruct IH as (l' & -> & S1); [intros q I1; apply A; right; exact I1|].
  exists (n :: l'). split; [reflexivity|]. intros k. cbn. rewrite S1. split.
  - intros [->|(q & I1 & I2)]; [exists t; auto|exists q; auto].
  - intros (q & [->|I1] & I2); [left; congruence|right; exists q; auto].
Qed.
Lemma long_names_raise l t : In t l -> dget t to_full = None -> long_names to_full l = Raise KeyError.
Proof.
  induction l as [|q l IH]; intros I1 G; [destruct I1|]. cbn. destruct (dget q to_full) eqn:G2; [|reflexivity]. destruct I1 as [->|I1]; [congruence|]. rewrite (IH I1 G). reflexivity.
Qed.
Lemma make_dict_ok (rs : list R) only long num gend :
  (long = true -> forall t, chosen keys to_tag rs only t -> dget t to_full <> None) ->
  (forall k, column keys to_tag to_full rs only long k -> ~ In k (extra_columns num gend)) ->
  exists t, make_dict keys get authors genders to_tag to_full rs only long num gend = Ok t /\
    (forall k, In k (dkeys t) <-> column keys to_tag to_full rs only long k \/ In k (extra_columns num gend)) /\
    forall k l, dget k t = Some l -> l = map (entry get authors genders num gend k) rs.
Proof.
  intros L F. unfold make_dict. fold (fields_of rs only).
  assert (FS : exists fs, (if long then long_names to_full (fields_of rs only) else Ok (fields_of rs only)) = Ok fs /\ forall k, In k fs <-> column keys to_tag to_full rs only long k).
  { unfold column. destruct long.
    - destruct (@long_names_ok (fields_of rs only)) as (l' & E & S1); [intros t I1; apply (L eq_refl), chosen_spec, I1|]. exists l'. split; [exact E|]. intros k. rewrite S1. split; intros (t & A & B); exists t; (split; [apply chosen_spec; exact A|exact B]).
    - exists (fields_of rs only). split; [reflexivity|]. intros k. rewrite chosen_spec. split; [intros A; exists k; auto|intros (t & A & ->); exact A]. }
  destruct FS as (fs & -> & FS). cbn [bind].
  match goal with |- context [push_records _ _ _ _ _ _ _ ?t] => set (t0 := t) end.
  assert (T0 : (forall k, In k (dkeys t0) <-> In k (extra_columns num gend) \/ In k fs) /\ forall k, In k (dkeys t0) -> dget k t0 = Some []).
  { destruct (@fold_empty V fs []) as [A B]. unfold t0, extra_columns.
    assert (Z : forall ks t, (forall k, In k (dkeys t) -> dget k t = Some []) -> forall k, In k (dkeys (fold_left (fun (t : dict str (list (cell V))) k => dset k [] t) ks t)) -> dget k (fold_left (fun (t : dict str (list (cell V))) k => dset k (@nil (cell V)) t) ks t) = Some []).
    { induction ks as [|x ks IH]; intros t H0 k I1; [apply H0, I1|]. cbn in *. apply IH; [|exact I1]. intros q Q. rewrite dget_dset. destruct (@eqb_spec str _ q x) as [->|N]; [reflexivity|]. apply In_dkeys_dset in Q as [Q|Q]; [congruence|apply H0, Q]. }
    assert (Z0 : forall k, In k (dkeys (fold_left (fun (t : dict str (list (cell V))) k => dset k [] t) fs [])) -> dget k (fold_left (fun (t : dict str (list (cell V))) k => dset k (@nil (cell V)) t) fs []) = Some []) by (intros k; apply (Z fs []); intros q []).
    set (t1 := fold_left (fun (t : dict str (list (cell V))) k => dset k [] t) fs []) in *.
    set (t2 := if num then dset $"num-Authors" [] t1 else t1).
    assert (A2 : forall k, In k (dkeys t2) <-> In k (if num then [$"num-Authors"] else []) \/ In k fs).
    { intros k. unfold t2. destruct num; [rewrite In_dkeys_dset, A; cbn; split; [intros [->|[?|[]]]; auto|intros [[<-|[]]|?]; auto]|rewrite A; cbn; tauto]. }
    assert (Z2 : forall k, In k (dkeys t2) -> dget k t2 = Some []).
    { intros k. unfold t2. destruct num; [|apply Z0]. intros I1. rewrite dget_dset. destruct (@eqb_spec str _ k $"num-Authors") as [->|N]; [reflexivity|]. apply In_dkeys_dset in I1 as [I1|I1]; [congruence|apply Z0, I1]. }
    destruct gend.
    - destruct (@fold_empty V [$"num-Male"; $"num-Female"; $"num-Unknown"] t2) as [A3 _]. split; [intros k; rewrite A3, A2, in_app_iff; tauto|intros k; apply (Z [$"num-Male"; $"num-Female"; $"num-Unknown"] t2), Z2].
    - split; [intros k; rewrite A2, in_app_iff; cbn; tauto|exact Z2]. }
  destruct T0 as [K0 D0]. destruct (@push_records_ok R V keys get authors genders num gend fs (fun k I1 => F k (proj1 (FS k) I1)) rs t0 K0) as (t' & P & K & D).
  exists t'. split; [exact P|]. split; [intros k; rewrite K, FS; tauto|]. intros k l G. assert (I1 : In k (dkeys t0)) by (apply K0, K, (dget_Some_key _ _ G)).
    specialize (D k [] (D0 k I1)). rewrite G in D. injection D as ->. reflexivity.
Qed.
End MakeDict2.
