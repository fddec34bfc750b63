(** Proofs about rpys, genderStats and makeDict. *)
From Coq Require Import List ZArith Lia Bool Arith Permutation Sorted.
From Coq Require Import String.
From Verif Require Import Base PyStr PyInt SeriesSpec RecordView RecordViewFacts CitationModel AnalysisModel AnalysisSpec AnalysisProofs JournalProofs.
Import ListNotations.
Local Open Scope list_scope.
Set Implicit Arguments.

(** ** rpys *)
Lemma count_app {A} `{EqDec A} (x : A) l m : count x (l ++ m) = count x l + count x m.
Proof. induction l as [|y l IH]; [reflexivity|]. cbn. rewrite IH. destruct (eqb x y); reflexivity. Qed.
Lemma In_zrange a b y : In y (zrange a b) <-> (a <= y < b)%Z.
Proof.
  unfold zrange. rewrite in_map_iff. split.
  - intros (i & <- & I1). apply in_seq in I1. lia.
  - intros B. exists (Z.to_nat (y - a)). split; [lia|]. apply in_seq. lia.
Qed.
Lemma NoDup_zrange a b : NoDup (zrange a b).
Proof.
  unfold zrange. generalize (seq_NoDup (Z.to_nat (b - a)) 0). generalize (seq 0 (Z.to_nat (b - a))). intros l N. induction N as [|i l I1 N IH]; cbn; constructor; [|exact IH].
  intros Q. apply in_map_iff in Q as (j & E & J). replace j with i in J by lia. contradiction.
Qed.
Lemma zmin_spec l : forall x, In (zmin x l) (x :: l) /\ forall y, In y (x :: l) -> (zmin x l <= y)%Z.
Proof.
  induction l as [|z l IH]; intros x; cbn [zmin].
  - split; [left; reflexivity|intros y [<-|[]]; lia].
  - destruct (IH (Z.min x z)) as [A B]. split.
    + destruct A as [A|A]; [|right; right; exact A]. rewrite <- A. destruct (Z.min_spec x z) as [[_ ->]|[_ ->]]; [left|right; left]; reflexivity.
    + intros y [<-|[<-|I1]]; [specialize (B (Z.min x z) (or_introl eq_refl)); lia|specialize (B (Z.min x z) (or_introl eq_refl)); lia|apply B; right; exact I1].
Qed.
Lemma zmax_spec l : forall x, In (zmax x l) (x :: l) /\ forall y, In y (x :: l) -> (y <= zmax x l)%Z.
Proof.
  induction l as [|z l IH]; intros x; cbn [zmax].
  - split; [left; reflexivity|intros y [<-|[]]; lia].
  - destruct (IH (Z.max x z)) as [A B]. split.
    + destruct A as [A|A]; [|right; right; exact A]. rewrite <- A. destruct (Z.max_spec x z) as [[_ ->]|[_ ->]]; [right; left|left]; reflexivity.
    + intros y [<-|[<-|I1]]; [specialize (B (Z.max x z) (or_introl eq_refl)); lia|specialize (B (Z.max x z) (or_introl eq_refl)); lia|apply B; right; exact I1].
Qed.
(** the median *)
Lemma zsort_perm l : Permutation l (zsort l).
Proof. apply ssort_perm. Qed.
Lemma zsort_sorted l : StronglySorted Z.le (zsort l).
Proof.
  assert (S1 : StronglySorted (fun x y => Z.leb x y = true) (zsort l)).
  { apply (ssort_ordered (fun x : Z => x) Z.leb); [intros a b; rewrite !Z.leb_le; lia|intros a b c; rewrite !Z.leb_le; lia]. }
  induction S1 as [|x m S1 IH F]; constructor; [exact IH|]. revert F. apply Forall_impl. intros y. apply Z.leb_le.
Qed.
Lemma filter_perm {A} (p : A -> bool) l m : Permutation l m -> length (filter p l) = length (filter p m).
Proof. intros P. induction P; cbn; try congruence; [destruct (p x); cbn; congruence|destruct (p x), (p y); cbn; congruence]. Qed.
Lemma median_spec l : length l = 5 -> median5 (nth 2 (zsort l) 0%Z) l.
Proof.
  intros L. pose proof (zsort_perm l) as P. pose proof (zsort_sorted l) as S1. pose proof (Permutation_length P) as L1. rewrite L in L1.
  destruct (zsort l) as [|a [|b [|c [|d [|e [|f m]]]]]]; try discriminate. cbn [nth].
  split; [exact L|]. split; [apply (Permutation_in _ (Permutation_sym P)); right; right; left; reflexivity|].
  repeat match goal with Q : StronglySorted _ (_ :: _) |- _ => apply StronglySorted_inv in Q as [? Q]; repeat (apply Forall_cons_iff in Q as [? Q]) end.
  rewrite !(filter_perm _ P). split; cbn.
  - rewrite (proj2 (Z.leb_le a c)) by lia. rewrite (proj2 (Z.leb_le b c)) by lia. rewrite (proj2 (Z.leb_le c c)) by lia. cbn. lia.
  - rewrite (proj2 (Z.leb_le c c)) by lia. rewrite (proj2 (Z.leb_le c d)) by lia. rewrite (proj2 (Z.leb_le c e)) by lia. destruct (c <=? a)%Z, (c <=? b)%Z; cbn; lia.
Qed.
Lemma median_perm m l l' : Permutation l l' -> median5 m l -> median5 m l'.
Proof.
  intros P (A & B & C & D). split; [rewrite <- (Permutation_length P); exact A|]. split; [apply (Permutation_in _ P), B|]. rewrite <- !(filter_perm _ P). auto.
Qed.

Section Rpys.
Context {R : Type}.
Variable cites : R -> option (list cite).
Variable year : R -> option yearval.
Variable order : list Z -> list Z.
Variables lo hi : option Z.
Definition within (y : Z) : bool := negb (match hi with Some h => (h + 2 <? y)%Z | None => false end || match lo with Some l => (y <? l - 2)%Z | None => false end).
Definition kept (r : R) (c : cite) : list Z :=
  match q_year c with
  | Has z => if within z && match year r with Some (YNum q) => (z + 2 <=? q)%Z | _ => true end then [z] else []
  | _ => []
  end.
Definition stream_of (rs : list R) : list Z := flat_map (fun r => flat_map (kept r) (refs cites r)) rs.
Lemma rpys_cite_ok r d c : (forall s, year r <> Some (YText s)) -> rpys_cite lo hi (year r) d c = Ok (fold_left (fun d y => dincr y d) (kept r c) d).
Proof.
  intros T. unfold rpys_cite, kept, within. destruct (q_year c) as [| |z]; try reflexivity.
  destruct (_ || _); [reflexivity|]. cbn [negb andb]. destruct (year r) as [[q|s]|]; [|exfalso; exact (T s eq_refl)|reflexivity].
  destruct (Z.ltb_spec q (z + 2)); destruct (Z.leb_spec (z + 2) q); try lia; reflexivity.
Qed.
Lemma rpys_cites_ok r cs : (forall s, year r <> Some (YText s)) -> forall d, rpys_cites lo hi (year r) cs d = Ok (fold_left (fun d y => dincr y d) (flat_map (kept r) cs) d).
Proof.
  intros T. induction cs as [|c cs IH]; intros d; [reflexivity|]. cbn [rpys_cites flat_map]. rewrite rpys_cite_ok by exact T. cbn [bind]. rewrite IH, fold_left_app. reflexivity.
Qed.
Lemma rpys_counts_ok rs : not_text year rs -> forall d, rpys_counts cites year lo hi rs d = Ok (fold_left (fun d y => dincr y d) (stream_of rs) d).
Proof.
  induction rs as [|r rs IH]; intros T d; [reflexivity|]. cbn [rpys_counts]. unfold stream_of in *. cbn [flat_map].
  assert (T1 : forall s, year r <> Some (YText s)) by (intros s; apply T; left; reflexivity).
  assert (T2 : not_text year rs) by (intros q s I1; apply T; right; exact I1).
  rewrite fold_left_app. assert (RF : refs cites r = match cites r with Some cs => cs | None => [] end) by reflexivity. rewrite RF. clear RF. destruct (cites r) as [cs|]; cbn [flat_map fold_left].
  - rewrite rpys_cites_ok by exact T1. cbn [bind]. rewrite IH by exact T2. reflexivity.
  - cbn [bind]. rewrite IH by exact T2. reflexivity.
Qed.
Lemma count_kept y r cs : count y (flat_map (kept r) cs) = if within y then length (filter (counts_for year y r) cs) else 0.
Proof.
  induction cs as [|c cs IH]; [destruct (within y); reflexivity|]. cbn [flat_map filter].
  rewrite count_app, IH. unfold kept, counts_for. destruct (q_year c) as [| |z]; try (cbn; destruct (within y); reflexivity).
  destruct (Z.eqb_spec z y) as [->|N].
  - destruct (within y); cbn [andb]; [|reflexivity]. destruct (match year r with Some (YNum q) => (y + 2 <=? q)%Z | _ => true end); [|reflexivity].
    cbn. rewrite eqb_refl. reflexivity.
  - cbn [andb]. destruct (within z && _); [|reflexivity]. cbn. rewrite neq_eqb by congruence. reflexivity.
Qed.
Lemma count_stream rs y : count y (stream_of rs) = if within y then cited_count cites year rs y else 0.
Proof.
  unfold stream_of, cited_count. induction rs as [|r rs IH]; [destruct (within y); reflexivity|]. cbn [flat_map]. rewrite count_app, IH, count_kept. destruct (within y); reflexivity.
Qed.
Definition years_of (rs : list R) : dict Z nat := fold_left (fun d y => dincr y d) (stream_of rs) [].
Lemma get_years rs y : count_at (years_of rs) y = if within y then Z.of_nat (cited_count cites year rs y) else 0%Z.
Proof.
  unfold count_at, years_of. destruct (fold_dincr (stream_of rs) []) as [G _]. rewrite G. cbn [dget]. rewrite count_stream. destruct (within y); [|reflexivity].
  destruct (cited_count cites year rs y); reflexivity.
Qed.
Lemma within_spec y : within y = true <-> (forall l, lo = Some l -> (l - 2 <= y)%Z) /\ (forall h, hi = Some h -> (y <= h + 2)%Z).
Proof.
  unfold within. rewrite negb_true_iff, orb_false_iff. destruct lo as [l|], hi as [h|]; rewrite ?Z.ltb_ge; split; try (intros [A B]); try split; intros; try congruence; try lia;
    repeat match goal with Q : Some _ = Some _ |- _ => injection Q as <- | Q : forall l, Some ?x = Some l -> _ |- _ => specialize (Q x eq_refl) end; try lia; try discriminate.
Qed.
Lemma In_years rs y : In y (dkeys (years_of rs)) <-> counted cites year rs lo hi y.
Proof.
  unfold years_of. destruct (fold_dincr (stream_of rs) []) as [G _]. unfold counted, ever_cited. rewrite <- within_spec.
  specialize (G y). cbn [dget] in G. rewrite count_stream in G. split.
  - intros I1. destruct (within y) eqn:W.
    + split; [|reflexivity]. destruct (cited_count cites year rs y); [|lia]. cbn in G. apply dget_None in G. contradiction.
    + cbn in G. apply dget_None in G. contradiction.
  - intros [P W]. rewrite W in G. destruct (cited_count cites year rs y); [lia|]. cbn in G. apply dget_Some_key in G. exact G.
Qed.
Lemma lower_ok rs a : first_year cites year rs lo hi a -> lower_bound lo (dkeys (years_of rs)) = Ok a.
Proof.
  unfold first_year, lower_bound. destruct lo as [l|] eqn:EL; [intros ->; reflexivity|]. intros (B & C & M). rewrite <- EL in C, M.
  apply In_years in C. assert (M' : forall y, In y (dkeys (years_of rs)) -> (a <= y)%Z) by (intros y I1; apply M, In_years, I1). clear M.
  destruct (dkeys (years_of rs)) as [|y ys]; [destruct C|]. destruct (zmin_spec ys y) as [Z1 Z2]. assert (zmin y ys = a) as -> by (specialize (Z2 a C); specialize (M' _ Z1); lia).
  destruct (Z.ltb_spec 1000 a); [reflexivity|lia].
Qed.
Lemma upper_ok rs b : last_year cites year rs lo hi b -> upper_bound hi (dkeys (years_of rs)) = Ok b.
Proof.
  unfold last_year, upper_bound. destruct hi as [l|] eqn:EL; [intros ->; reflexivity|]. intros (B & C & M). rewrite <- EL in C, M.
  apply In_years in C. assert (M' : forall y, In y (dkeys (years_of rs)) -> (y <= b)%Z) by (intros y I1; apply M, In_years, I1). clear M.
  destruct (dkeys (years_of rs)) as [|y ys]; [destruct C|]. destruct (zmax_spec ys y) as [Z1 Z2]. assert (zmax y ys = b) as -> by (specialize (Z2 b C); specialize (M' _ Z1); lia).
  destruct (Z.ltb_spec b 2100); [reflexivity|lia].
Qed.
Lemma deviation_spec rs y : within (y - 2) = true -> within (y + 2) = true ->
  exists m, median5 m (window cites year rs y) /\ deviation (years_of rs) y = (Z.of_nat (cited_count cites year rs y) - m)%Z.
Proof.
  intros W1 W2. assert (W : forall i, (-2 <= i <= 2)%Z -> within (y + i) = true).
  { intros i B. apply within_spec. apply within_spec in W1 as [W1 _], W2 as [_ W2]. split; intros l E; [specialize (W1 l E)|specialize (W2 l E)]; lia. }
  assert (C : forall i, (-2 <= i <= 2)%Z -> count_at (years_of rs) (y + i) = Z.of_nat (cited_count cites year rs (y + i))) by (intros i B; rewrite get_years, W by exact B; reflexivity).
  unfold deviation. pose proof (C 0%Z ltac:(lia)) as C0. rewrite Z.add_0_r in C0. rewrite C0. eexists. split; [|reflexivity].
  eapply median_perm; [|apply median_spec; reflexivity]. unfold window. cbn [map]. rewrite !C by lia. rewrite Z.add_0_r.
  set (p := Z.of_nat (cited_count cites year rs y)). apply Permutation_sym. etransitivity; [|apply perm_swap]. apply perm_skip. apply Permutation_sym. etransitivity; [apply perm_swap|reflexivity].
Qed.
End Rpys.
Lemma enum_other l : forall i (d : dict Z nat) y, ~ In y (map fst l) -> dget y (enumerate_ranks l i d) = dget y d.
Proof.
  induction l as [|[z v] l IH]; intros i d y N; [reflexivity|]. cbn [enumerate_ranks]. rewrite IH by (intros Q; apply N; right; exact Q). apply dget_dset_other. intros ->. apply N. left. reflexivity.
Qed.
Lemma enum_nth l : NoDup (map fst l) -> forall i (d : dict Z nat) p y v, nth_error l p = Some (y, v) -> dget y (enumerate_ranks l i d) = Some (i + p).
Proof.
  induction l as [|[z w] l IH]; intros ND i d p y v Q; [destruct p; discriminate|]. apply NoDup_cons_iff in ND as [N ND]. destruct p as [|p]; cbn [enumerate_ranks].
  - injection Q as -> ->. rewrite enum_other by exact N. rewrite dget_dset_same. f_equal. lia.
  - rewrite (IH ND _ _ p y v Q). f_equal. lia.
Qed.
Lemma SS_nth {A} (P : A -> A -> Prop) l : StronglySorted P l -> forall p q x y, p < q -> nth_error l p = Some x -> nth_error l q = Some y -> P x y.
Proof.
  induction 1 as [|z l S1 IH F]; intros p q x y L P1 Q1; [destruct p; discriminate|]. destruct q as [|q]; [lia|]. destruct p as [|p].
  - injection P1 as ->. cbn [nth_error] in Q1. apply nth_error_In in Q1. rewrite Forall_forall in F. apply F, Q1.
  - apply (IH p q); [lia|exact P1|exact Q1].
Qed.

(** ** Genders *)
Section Genders.
Variable title : str -> str.
Variable mapping : dict str gender.
Context {R : Type}.
Variable full_names : R -> list str.
Notation G := (name_gender title mapping).
Lemma fold_names l : fold_left (fun d n => dset n (G n) d) l [] = map (fun n => (n, G n)) (first_seen l).
Proof.
  induction l as [|n l IH] using rev_ind; [reflexivity|]. rewrite fold_left_app. cbn [fold_left]. rewrite IH.
  assert (FS : first_seen (l ++ [n]) = if mem n (first_seen l) then first_seen l else first_seen l ++ [n]).
  { clear IH. revert n. induction l as [|x l IH]; intros n; [reflexivity|]. cbn [app first_seen]. rewrite IH.
    unfold mem in *. cbn [existsb]. destruct (eqb_spec n x) as [->|N]; cbn [orb].
    - f_equal. destruct (existsb (eqb x) (first_seen l)); [reflexivity|]. rewrite filter_app. cbn. rewrite eqb_refl. cbn. apply app_nil_r.
    - replace (existsb (eqb n) (filter (fun y => negb (eqb y x)) (first_seen l))) with (existsb (eqb n) (first_seen l)).
      + destruct (existsb (eqb n) (first_seen l)); [reflexivity|]. rewrite filter_app. cbn. rewrite (neq_eqb N). reflexivity.
      + clear IH. induction (first_seen l) as [|z zs IH]; [reflexivity|]. cbn. destruct (eqb_spec z x) as [->|N2]; cbn; [rewrite (neq_eqb N); exact IH|rewrite IH; reflexivity]. }
  rewrite FS. clear IH FS. pose proof (NoDup_first_seen l) as ND. induction (first_seen l) as [|x xs IH]; [reflexivity|]. cbn [map dset]. unfold mem in *. cbn [existsb].
  destruct (eqb_spec n x) as [->|N]; [reflexivity|]. cbn [orb]. apply NoDup_cons_iff in ND as [_ ND]. rewrite (IH ND). destruct (existsb (eqb n) xs); reflexivity.
Qed.
Lemma tally_spec g r : tally g (record_genders title mapping full_names r) = length (filter (fun n => eqb (G n) g) (first_seen (full_names r))).
Proof.
  unfold tally, record_genders. rewrite fold_names. unfold dvals. rewrite map_map. cbn [snd]. induction (first_seen (full_names r)) as [|n l IH]; [reflexivity|]. cbn [map count_occ filter].
  destruct (eq_dec (G n) g) as [->|N]; [rewrite eqb_refl; cbn [length]; rewrite IH; reflexivity|rewrite neq_eqb by exact N; exact IH].
Qed.
Lemma stats_spec rs : gender_stats title mapping full_names rs = (names_of full_names G Male rs, names_of full_names G Female rs, names_of full_names G Unknown rs).
Proof.
  unfold gender_stats, names_of. assert (Q : forall m f u, fold_left (fun '(m, f, u) r => let '(m', f', u') := gender_counts title mapping full_names r in (m + m', f + f', u + u')) rs (m, f, u)
    = (m + total (fun r => length (filter (fun n => eqb (G n) Male) (first_seen (full_names r)))) rs, f + total (fun r => length (filter (fun n => eqb (G n) Female) (first_seen (full_names r)))) rs, u + total (fun r => length (filter (fun n => eqb (G n) Unknown) (first_seen (full_names r)))) rs)).
  { induction rs as [|r rs IH]; intros m f u; [cbn; rewrite !Nat.add_0_r; reflexivity|]. cbn [fold_left total fold_right]. unfold gender_counts at 2. rewrite !tally_spec. rewrite IH. unfold total. repeat (f_equal; try lia). }
  apply Q.
Qed.
Lemma split_three {A} (p q s : A -> bool) l : (forall x, In x l -> (p x = true /\ q x = false /\ s x = false) \/ (p x = false /\ q x = true /\ s x = false) \/ (p x = false /\ q x = false /\ s x = true)) ->
  length (filter p l) + length (filter q l) + length (filter s l) = length l.
Proof.
  induction l as [|x l IH]; intros E; [reflexivity|]. cbn. specialize (IH (fun y Q => E y (or_intror Q))). destruct (E x (or_introl eq_refl)) as [(-> & -> & ->)|[(-> & -> & ->)|(-> & -> & ->)]]; cbn; lia.
Qed.
Lemma stats_total rs : (forall n, G n <> OtherGender) ->
  names_of full_names G Male rs + names_of full_names G Female rs + names_of full_names G Unknown rs = total (fun r => length (first_seen (full_names r))) rs.
Proof.
  intros NO. unfold names_of. rewrite <- !total_plus. apply total_ext. intros r _. apply split_three. intros n _. specialize (NO n). destruct (G n); cbn; [left|right; left|right; right|congruence]; repeat split; reflexivity.
Qed.
Lemma first_seen_NoDup {A} `{EqDec A} (l : list A) : NoDup l -> first_seen l = l.
Proof.
  induction 1 as [|x l I1 N IH]; [reflexivity|]. cbn. rewrite IH. f_equal. clear IH N. induction l as [|y l IH]; [reflexivity|]. cbn. destruct (eqb_spec y x) as [->|N]; [exfalso; apply I1; left; reflexivity|].
  cbn. f_equal. apply IH. intros Q. apply I1. right. exact Q.
Qed.
Lemma cut2_first a b u w : ~ In a u -> cut2 a b (u ++ a :: b :: w) = u :: cut2 a b w.
Proof.
  induction u as [|x u IH]; intros N; [cbn; rewrite !eqb_refl; reflexivity|].
  change (cut2 a b ((x :: u) ++ a :: b :: w)) with (match u ++ a :: b :: w with y :: s'' => if eqb x a && eqb y b then [] :: cut2 a b s'' else match cut2 a b (u ++ a :: b :: w) with v :: ws => (x :: v) :: ws | [] => [[x]] end | [] => [[x]] end).
  rewrite (@neq_eqb char _ x a) by (intros ->; apply N; left; reflexivity). rewrite IH by (intros Q; apply N; right; exact Q). destruct u; reflexivity.
Qed.
Lemma cut2_word a b u w : ~ In a u -> w = [] \/ (exists w', w = a :: b :: w') \/ (exists c w', w = c :: w' /\ c <> a) -> exists v ws, cut2 a b (u ++ w) = (u ++ v) :: ws /\ (v = [] \/ exists c v', v = c :: v' /\ exists w', w = c :: w' /\ c <> a).
Proof.
  intros N [->|[(w' & ->)|(c & w' & -> & NC)]].
  - exists [], []. split; [|left; reflexivity]. rewrite !app_nil_r. induction u as [|x u IH]; [reflexivity|]. cbn. destruct u as [|y u]; [reflexivity|].
    rewrite (@neq_eqb char _ x a) by (intros ->; apply N; left; reflexivity). cbn [andb]. rewrite IH by (intros Q; apply N; right; exact Q). reflexivity.
  - exists [], (cut2 a b w'). split; [|left; reflexivity]. rewrite app_nil_r. apply cut2_first, N.
  - induction u as [|x u IH].
    + cbn [app]. destruct w' as [|y w'].
      * exists [c], []. split; [reflexivity|]. right. exists c, []. split; [reflexivity|]. exists []. auto.
      * change (cut2 a b (c :: y :: w')) with (if eqb c a && eqb y b then [] :: cut2 a b w' else match cut2 a b (y :: w') with v :: ws => (c :: v) :: ws | [] => [[c]] end).
        rewrite (@neq_eqb char _ c a) by exact NC. cbn [andb]. destruct (cut2 a b (y :: w')) as [|v ws].
        { exists [c], []. split; [reflexivity|]. right. exists c, []. split; [reflexivity|]. exists (y :: w'). auto. }
        exists (c :: v), ws. split; [reflexivity|]. right. exists c, v. split; [reflexivity|]. exists (y :: w'). auto.
    + destruct IH as (v & ws & E & K); [intros Q; apply N; right; exact Q|]. exists v, ws. split; [|exact K].
      change (cut2 a b ((x :: u) ++ c :: w')) with (match u ++ c :: w' with y :: s'' => if eqb x a && eqb y b then [] :: cut2 a b s'' else match cut2 a b (u ++ c :: w') with v :: ws => (x :: v) :: ws | [] => [[x]] end | [] => [[x]] end).
      rewrite (@neq_eqb char _ x a) by (intros ->; apply N; left; reflexivity). rewrite E. destruct u; reflexivity.
Qed.
Lemma name_spec (last first rest : str) : ~ In 44%N last -> ~ In 44%N first -> ~ In sp first -> rest = [] \/ (exists r, rest = sp :: r) \/ (exists r, rest = 44%N :: sp :: r) ->
  G (last ++ $", " ++ first ++ rest) = match dget (title first) mapping with Some g => g | None => Unknown end.
Proof.
  intros NL NF NS RS. unfold name_gender. change ($", " ++ first ++ rest) with (44%N :: sp :: (first ++ rest)). rewrite cut2_first by exact NL.
  destruct (@cut2_word 44%N sp first rest NF) as (v & ws & -> & K).
  { destruct RS as [->|[(r & ->)|(r & ->)]]; [left; reflexivity|right; right; exists sp, r; split; [reflexivity|discriminate]|right; left; exists r; reflexivity]. }
  assert (SC : split_char sp (first ++ v) = match v with [] => [first] | _ :: v' => first :: split_char sp v' end).
  { destruct K as [->|(c & v' & -> & w' & E & NC)].
    - rewrite app_nil_r. apply split_char_last, NS.
    - destruct RS as [->|[(r & ->)|(r & ->)]]; [discriminate| |]; injection E as <- <-; [|congruence]. apply split_char_line, NS. }
  rewrite SC. destruct v; reflexivity.
Qed.
End Genders.
