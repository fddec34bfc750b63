(** Proofs about rankedSeries, timeSeries and cooccurrenceCounts. *)
From Coq Require Import String Lia Sorted.
From Verif Require Import Base PyStr RecordView RecordViewFacts SeriesModel SeriesSpec.
Set Implicit Arguments.

(** ** order *)
Lemma before_filter {A} (p : A -> bool) l v w : before (filter p l) v w -> before l v w.
Proof.
  assert (S : forall l a x b, filter p l = a ++ x :: b -> exists a' b', l = a' ++ x :: b' /\ filter p b' = b /\ filter p a' = a).
  { clear. induction l as [|y l IH]; intros a x b E; cbn in E; [destruct a; discriminate|].
    destruct (p y) eqn:P.
    - destruct a as [|z a]; cbn in E; injection E as <- E.
      + exists [], l. auto.
      + destruct (IH _ _ _ E) as (a' & b' & -> & Eb & Ea). exists (y :: a'), b'. cbn. rewrite P, Ea. auto.
    - destruct (IH _ _ _ E) as (a' & b' & -> & Eb & Ea). exists (y :: a'), b'. cbn. rewrite P, Ea. auto. }
  intros (a & b & c & E). destruct (S _ _ _ _ E) as (a' & b' & -> & E2 & _). destruct (S _ _ _ _ E2) as (b2 & c2 & -> & _).
  exists a', b2, c2. reflexivity.
Qed.
Lemma before_in_filter {A} (p : A -> bool) l v w : before l v w -> p v = true -> p w = true -> before (filter p l) v w.
Proof.
  intros (a & b & c & ->) Pv Pw. exists (filter p a), (filter p b), (filter p c). rewrite filter_app. cbn. rewrite Pv, filter_app. cbn. rewrite Pw. reflexivity.
Qed.
Lemma before_map {A B} (f : A -> B) l v w : before l v w -> before (map f l) (f v) (f w).
Proof. intros (a & b & c & ->). exists (map f a), (map f b), (map f c). rewrite map_app. cbn. rewrite map_app. reflexivity. Qed.
Lemma before_map_inv {A B} (f : A -> B) l x y : before (map f l) x y -> exists v w, before l v w /\ f v = x /\ f w = y.
Proof.
  intros (a & b & c & E). apply map_eq_app in E. destruct E as (a' & r & -> & <- & E). apply map_eq_cons in E. destruct E as (v & r2 & -> & <- & E).
  apply map_eq_app in E. destruct E as (b' & r3 & -> & <- & E). apply map_eq_cons in E. destruct E as (w & c' & -> & <- & <-).
  exists v, w. split; [|auto]. exists a', b', c'. reflexivity.
Qed.
Lemma before_rev {A} (l : list A) v w : before (rev l) v w <-> before l w v.
Proof.
  assert (S : forall (l : list A) v w, before l v w -> before (rev l) w v).
  { clear. intros l v w (a & b & c & ->). exists (rev c), (rev b), (rev a). rewrite rev_app_distr. cbn. rewrite rev_app_distr. cbn. rewrite <- !app_assoc. reflexivity. }
  split; intros B; [rewrite <- (rev_involutive l)|]; apply S, B.
Qed.
Lemma before_cons {A} (x : A) l v w : before l v w -> before (x :: l) v w.
Proof. intros (a & b & c & ->). exists (x :: a), b, c. reflexivity. Qed.
Lemma StronglySorted_before {A} (P : A -> A -> Prop) l : StronglySorted P l <-> forall v w, before l v w -> P v w.
Proof.
  split.
  - induction 1 as [|x l S IH F]; intros v w (a & b & c & E); [destruct a; discriminate|].
    destruct a as [|y a]; cbn in E; injection E as <- ->.
    + rewrite Forall_forall in F. apply F. apply in_or_app. right; left; reflexivity.
    + apply IH. exists a, b, c. reflexivity.
  - induction l as [|x l IH]; intros B; constructor.
    + apply IH. intros v w Bl. apply B, before_cons, Bl.
    + apply Forall_forall. intros y I. apply in_split in I. destruct I as (b & c & ->). apply B. exists [], b, c. reflexivity.
Qed.

(** ** dictionaries *)
Lemma dict_as_map {K V} `{EqDec K} (d : dict K V) (f : K -> V) :
  NoDup (dkeys d) -> (forall k, In k (dkeys d) -> dget k d = Some (f k)) -> d = map (fun k => (k, f k)) (dkeys d).
Proof.
  induction d as [|[k v] d IH]; intros ND G; [reflexivity|]. inversion ND as [|? ? N1 N2]; subst. cbn [dkeys map fst].
  fold (dkeys d). rewrite <- IH; [|exact N2|].
  - f_equal. f_equal. specialize (G k (or_introl eq_refl)). cbn in G. rewrite eqb_refl in G. congruence.
  - intros k' I. rewrite <- (G k' (or_intror I)). cbn. rewrite neq_eqb; [reflexivity|]. intros ->; contradiction.
Qed.

Section Ranked.
Context {R V : Type} `{EqDec V}.
Variable lookup : R -> str -> res (fval V).
Variables (tag : str) (limit : list V).

Lemma allowed_spec v : allowed limit v = true <-> permitted limit v.
Proof.
  unfold allowed, permitted. destruct limit as [|x l]; [split; auto|]. rewrite mem_In. split; [auto|]. intros [Q|I]; [discriminate | exact I].
Qed.
Definition kept (rs : list R) : list V := filter (allowed limit) (stream lookup tag rs).
Lemma fold_allowed {D} (f : D -> V -> D) l : forall d,
  fold_left (fun d v => if allowed limit v then f d v else d) l d = fold_left f (filter (allowed limit) l) d.
Proof. induction l as [|v l IH]; intros d; cbn; [reflexivity|]. destruct (allowed limit v); cbn; apply IH. Qed.
Lemma count_values_ok rs : readable lookup tag rs -> forall d,
  count_values lookup tag limit rs d = Ok (fold_left (fun d v => dincr v d) (kept rs) d).
Proof.
  induction rs as [|r rs IH]; intros RD d; [reflexivity|]. unfold kept, stream. cbn [count_values flat_map].
  rewrite filter_app, fold_left_app.
  assert (RD' : readable lookup tag rs) by (intros r' e I; apply RD; right; exact I).
  unfold values_of at 2. destruct (lookup r tag) as [f|e] eqn:L.
  - rewrite (IH RD'), fold_allowed. reflexivity.
  - rewrite (RD r e (or_introl eq_refl) L). rewrite (IH RD'). reflexivity.
Qed.
Definition cnt (rs : list R) (v : V) : nat := count v (kept rs).
Lemma cnt_occ rs v : cnt rs v = if allowed limit v then occurrences lookup tag rs v else 0.
Proof. unfold cnt, kept, occurrences, stream. rewrite count_filter, count_flat_map. reflexivity. Qed.
Lemma counts_dict rs : fold_left (fun d v => dincr v d) (kept rs) [] = map (fun v => (v, cnt rs v)) (first_seen (kept rs)).
Proof.
  destruct (fold_dincr (kept rs) []) as [G K].
  assert (K' : dkeys (fold_left (fun d v => dincr v d) (kept rs) []) = first_seen (kept rs)).
  { rewrite K. cbn [dkeys map app]. rewrite uniq_first_seen. cbn. clear. induction (first_seen (kept rs)) as [|x l IH]; cbn; [reflexivity|]. rewrite IH; reflexivity. }
  rewrite <- K'. apply dict_as_map.
  - rewrite K'. apply NoDup_first_seen.
  - intros k I. rewrite K', In_first_seen in I. rewrite G. cbn. unfold cnt. apply count_In in I. destruct (Nat.eqb_spec (count k (kept rs)) 0); [lia|reflexivity].
Qed.

Definition cmp (greatest : bool) : nat -> nat -> bool := if greatest then (fun a b => b <=? a) else (fun a b => a <=? b).
Lemma cmp_total g a b : cmp g a b = true \/ cmp g b a = true.
Proof. destruct g; cbn; rewrite !Nat.leb_le; lia. Qed.
Lemma cmp_trans g a b c : cmp g a b = true -> cmp g b c = true -> cmp g a c = true.
Proof. destruct g; cbn; rewrite !Nat.leb_le; lia. Qed.

(** the sorted list has every value that occurs once, with its count, in the order asked for *)
Record good_counts (rs : list R) (greatest : bool) (l : list (V * nat)) : Prop := {
  gc_nodup : NoDup (map fst l);
  gc_in : forall v n, In (v, n) l <-> permitted limit v /\ n = occurrences lookup tag rs v /\ 0 < n;
  gc_sorted : forall x y, before l x y -> if greatest then snd y <= snd x else snd x <= snd y;
  gc_ties : forall v w n, before l (v, n) (w, n) -> before (first_seen (stream lookup tag rs)) v w
}.
Lemma by_count_good rs greatest : good_counts rs greatest (by_count greatest (map (fun v => (v, cnt rs v)) (first_seen (kept rs)))).
Proof.
  set (base := map (fun v => (v, cnt rs v)) (first_seen (kept rs))).
  assert (P : Permutation base (by_count greatest base)) by apply ssort_perm.
  assert (B : map fst base = first_seen (kept rs)) by (unfold base; rewrite map_map; apply map_id).
  split.
  - eapply Permutation_NoDup; [apply Permutation_map, P|]. rewrite B. apply NoDup_first_seen.
  - intros v n. transitivity (In (v, n) base); [split; apply Permutation_in; [apply Permutation_sym|]; exact P|].
    unfold base. rewrite in_map_iff. pose proof (allowed_spec v) as AS. split.
    + intros (x & E & I). injection E as -> <-. rewrite In_first_seen in I. unfold kept in I. rewrite filter_In in I. destruct I as [I A].
      rewrite cnt_occ, A. split; [apply AS, A|]. split; [reflexivity|]. unfold occurrences. rewrite <- count_flat_map. apply count_In. exact I.
    + intros (A & -> & P0). apply AS in A. exists v. rewrite cnt_occ, A. split; [reflexivity|]. rewrite In_first_seen. unfold kept. rewrite filter_In.
      split; [|exact A]. unfold occurrences in P0. rewrite <- count_flat_map in P0. apply count_In in P0. exact P0.
  - intros x y Bf. pose proof (@ssort_ordered (V * nat) nat snd (cmp greatest) (cmp_total greatest) (cmp_trans greatest) base) as S.
    unfold ordered in S. rewrite StronglySorted_before in S. specialize (S x y Bf). destruct greatest; cbn in S; apply Nat.leb_le in S; exact S.
  - intros v w n Bf.
    assert (E : filter (fun x => snd x =? n) (by_count greatest base) = filter (fun x => snd x =? n) base).
    { apply ssort_stable.
      - apply (cmp_total greatest).
      - intros x y. rewrite !Nat.eqb_eq. congruence. }
    apply (before_in_filter (fun x => snd x =? n)) in Bf; cbn [snd]; [|apply Nat.eqb_refl|apply Nat.eqb_refl].
    rewrite E in Bf. apply before_filter in Bf. apply (before_map fst) in Bf. cbn [fst] in Bf. rewrite B in Bf.
    unfold kept in Bf. rewrite first_seen_filter in Bf. apply before_filter in Bf. exact Bf.
Qed.

(** ** ranks *)
Lemma dense_rank_same l l' n : (forall x, In x l <-> In x l') -> dense_rank l n = dense_rank l' n.
Proof.
  intros E. unfold dense_rank. f_equal. apply NoDup_same_length; [apply NoDup_first_seen|apply NoDup_first_seen|].
  intros x. rewrite !In_first_seen, !filter_In, E. reflexivity.
Qed.
(** different counts strictly between *)
Definition mid (cs : list nat) (lo hi : nat) : nat := length (first_seen (filter (fun m => (lo <? m) && (m <? hi)) cs)).
Lemma mid_none cs lo hi : (forall m, In m cs -> m <= lo) -> mid cs lo hi = 0.
Proof.
  intros L. unfold mid. rewrite (proj2 (length_zero_iff_nil _)); [reflexivity|].
  destruct (first_seen _) as [|x l] eqn:E; [reflexivity|]. assert (I : In x (first_seen (filter (fun m => (lo <? m) && (m <? hi)) cs))) by (rewrite E; left; reflexivity).
  rewrite In_first_seen, filter_In, andb_true_iff, Nat.ltb_lt in I. destruct I as (I & Q & _). apply L in I. lia.
Qed.
Lemma mid_cons cs c lo hi : (forall m, In m cs -> m <= c) -> c < hi -> lo <= c ->
  mid (c :: cs) lo hi = mid cs lo c + (if lo <? c then 1 else 0).
Proof.
  intros L C LO. unfold mid. destruct (Nat.ltb_spec lo c) as [LT|GE].
  - rewrite Nat.add_1_r. change (S (length ?l)) with (length (c :: l)).
    apply NoDup_same_length; [apply NoDup_first_seen| |].
    + constructor; [|apply NoDup_first_seen]. rewrite In_first_seen, filter_In, andb_true_iff, !Nat.ltb_lt. lia.
    + intros x. cbn [In]. rewrite !In_first_seen, !filter_In, !andb_true_iff, !Nat.ltb_lt. cbn [In]. split.
      * intros ([->|I] & A & B); [auto|]. destruct (Nat.eq_dec c x) as [->|N]; [auto|]. right. specialize (L x I). split; [exact I|lia].
      * intros [->|(I & A & B)]; [split; [auto|lia]|]. split; [auto|lia].
  - assert (Q : c = lo) by lia. subst lo. rewrite Nat.add_0_r. fold (mid (c :: cs) c hi) (mid cs c c). rewrite !mid_none; [reflexivity|exact L|].
    intros m [<-|I]; [lia|auto].
Qed.
Lemma rank_loop_spec (l : list (V * nat)) : forall rank cur,
  (forall x y, before l x y -> snd y <= snd x) -> (forall x, In x l -> snd x <= cur) ->
  map fst (rank_loop rank cur l) = l /\
  forall v c r, In (v, c, r) (rank_loop rank cur l) -> r = rank + mid (map snd l) c cur + (if c <? cur then 1 else 0).
Proof.
  induction l as [|[v0 c0] l IH]; intros rank cur S B; [split; [reflexivity | intros ? ? ? []]|].
  assert (S' : forall x y, before l x y -> snd y <= snd x) by (intros; apply S, before_cons; assumption).
  assert (Hc : forall x, In x l -> snd x <= c0).
  { intros x I. apply (S (v0, c0) x). apply in_split in I. destruct I as (b & c & ->). exists [], b, c. reflexivity. }
  assert (Hc' : forall m, In m (map snd l) -> m <= c0) by (intros m I; apply in_map_iff in I; destruct I as (x & <- & I); auto).
  assert (B0 : c0 <= cur) by (apply (B (v0, c0)); left; reflexivity).
  cbn [rank_loop map snd]. destruct (Nat.ltb_spec c0 cur) as [LT|GE].
  - destruct (IH (rank + 1) c0 S' Hc) as [M F]. split; [cbn [map fst]; rewrite M; reflexivity|].
    intros v c r [Q|I].
    + injection Q as <- <- <-. rewrite mid_none; [|intros m [<-|I]; [lia|auto]]. destruct (Nat.ltb_spec c0 cur); lia.
    + rewrite (F _ _ _ I). assert (C : c <= c0).
      { apply (Hc (v, c)). rewrite <- M. apply in_map_iff. exists (v, c, r). auto. }
      rewrite mid_cons by (auto; lia). destruct (Nat.ltb_spec c cur); [|lia]. destruct (c <? c0); lia.
  - assert (Q : c0 = cur) by lia. subst cur. destruct (IH rank c0 S' Hc) as [M F]. split; [cbn [map fst]; rewrite M; reflexivity|].
    intros v c r [Q|I].
    + injection Q as <- <- <-. rewrite mid_none; [|intros m [<-|I]; [lia|auto]]. destruct (Nat.ltb_spec c0 c0); lia.
    + rewrite (F _ _ _ I). f_equal. f_equal. unfold mid. f_equal. cbn [filter]. rewrite Nat.ltb_irrefl, andb_false_r. reflexivity.
Qed.
Lemma ranked_spec (l : list (V * nat)) : (forall x y, before l x y -> snd y <= snd x) ->
  map fst (ranked l) = l /\ forall v c r, In (v, c, r) (ranked l) -> r = dense_rank (map snd l) c.
Proof.
  intros S. destruct l as [|[v0 c0] l]; [split; [reflexivity | intros ? ? ? []]|]. unfold ranked.
  assert (Hc : forall x, In x ((v0, c0) :: l) -> snd x <= c0).
  { intros x [<-|I]; [reflexivity|]. apply (S (v0, c0) x). apply in_split in I. destruct I as (b & c & ->). exists [], b, c. reflexivity. }
  destruct (rank_loop_spec 1 S Hc) as [M F]. split; [exact M|]. intros v c r I. rewrite (F _ _ _ I).
  assert (C : c <= c0). { apply (Hc (v, c)). rewrite <- M. apply in_map_iff. exists (v, c, r). auto. }
  unfold dense_rank. cbn [Nat.add]. f_equal. unfold mid. set (cs := map snd ((v0, c0) :: l)).
  destruct (Nat.ltb_spec c c0) as [LT|GE].
  - rewrite Nat.add_1_r. change (Datatypes.S (length ?l)) with (length (c0 :: l)). apply NoDup_same_length; [|apply NoDup_first_seen|].
    + constructor; [|apply NoDup_first_seen]. rewrite In_first_seen, filter_In, andb_true_iff, !Nat.ltb_lt. lia.
    + intros x. cbn [In]. rewrite !In_first_seen, !filter_In, andb_true_iff, !Nat.ltb_lt. split.
      * intros [<-|(A & B & D)]; [split; [left; reflexivity|exact LT]|]. auto.
      * intros (A & B). apply in_map_iff in A. destruct A as (y & <- & A). pose proof (Hc y A). destruct (Nat.eq_dec c0 (snd y)); [auto|]. right.
        split; [apply in_map_iff; eauto|lia].
  - rewrite Nat.add_0_r. apply NoDup_same_length; [apply NoDup_first_seen|apply NoDup_first_seen|].
    intros x. rewrite !In_first_seen, !filter_In, andb_true_iff, !Nat.ltb_lt. split; [tauto|].
    intros (A & B). apply in_map_iff in A. destruct A as (y & <- & A). pose proof (Hc y A). lia.
Qed.
Lemma good_counts_occ rs greatest l : good_counts rs greatest l -> map snd l = map (occurrences lookup tag rs) (map fst l).
Proof.
  intros [_ G _ _]. rewrite map_map. apply map_ext_in. intros [v n] I. apply G in I. cbn. tauto.
Qed.
End Ranked.

(** ** years *)
Section Years.
Context {R V : Type} `{EqDec V}.
Variable lookup : R -> str -> res (fval V).
Variable year_of : R -> res Z.
Variables (tag : str) (limit : list V).

(** the (value, year) pairs met, in order *)
Definition pairs_of (r : R) : list (V * Z) :=
  match year_of r with Ok y => map (fun v => (v, y)) (filter (allowed limit) (values_of lookup tag r)) | Raise _ => [] end.
Definition add_pair (d : dict V (dict Z nat)) (vy : V * Z) : dict V (dict Z nat) := add_year (snd vy) d (fst vy).
Lemma fold_left_map' {A B C} (f : A -> B -> A) (g : C -> B) l : forall a, fold_left f (map g l) a = fold_left (fun a c => f a (g c)) l a.
Proof. induction l as [|x l IH]; intros a; cbn; [reflexivity|apply IH]. Qed.
Lemma count_years_ok rs : years_readable year_of rs -> readable lookup tag (filter (has_year year_of) rs) -> forall d,
  count_years lookup year_of tag limit rs d = Ok (fold_left add_pair (flat_map pairs_of rs) d).
Proof.
  induction rs as [|r rs IH]; intros YR RD d; [reflexivity|]. cbn [count_years flat_map]. rewrite fold_left_app.
  assert (YR' : years_readable year_of rs) by (intros r' e I; apply YR; right; exact I).
  assert (RD' : readable lookup tag (filter (has_year year_of) rs)).
  { intros r' e I. apply RD. cbn. destruct (has_year year_of r); [right; exact I|exact I]. }
  unfold pairs_of at 2. destruct (year_of r) as [y|e] eqn:Y.
  - unfold values_of. destruct (lookup r tag) as [f|e] eqn:L.
    + rewrite (IH YR' RD'), fold_allowed, fold_left_map'. reflexivity.
    + assert (e = KeyError) as ->. { apply (RD r e); [|exact L]. cbn. unfold has_year. rewrite Y. left; reflexivity. }
      rewrite (IH YR' RD'). reflexivity.
  - rewrite (YR r e (or_introl eq_refl) Y). rewrite (IH YR' RD'). reflexivity.
Qed.
(** nested look-up *)
Definition dget2 (v : V) (y : Z) (d : dict V (dict Z nat)) : option nat := match dget v d with Some yd => dget y yd | None => None end.
Record nested_ok (l : list (V * Z)) (d : dict V (dict Z nat)) : Prop := {
  no_keys : dkeys d = first_seen (map fst l);
  no_inner : forall v yd, dget v d = Some yd -> yd <> [] /\ NoDup (dkeys yd);
  no_get : forall v y, dget2 v y d = if count (v, y) l =? 0 then None else Some (count (v, y) l)
}.
Lemma first_seen_snoc {A} `{EqDec A} (l : list A) x : first_seen (l ++ [x]) = if mem x l then first_seen l else first_seen l ++ [x].
Proof.
  assert (E : forall l : list A, first_seen l = uniq_acc [] l).
  { clear. intros l. rewrite uniq_first_seen. cbn. induction (first_seen l) as [|y m IH]; cbn; [reflexivity|]. rewrite <- IH; reflexivity. }
  rewrite !E. assert (G : forall l seen, uniq_acc seen (l ++ [x]) = if mem x (seen ++ l) then uniq_acc seen l else uniq_acc seen l ++ [x]).
  { clear. induction l as [|y l IH]; intros seen; cbn [app uniq_acc].
    - rewrite app_nil_r. destruct (mem x seen); reflexivity.
    - destruct (mem y seen) eqn:M.
      + rewrite IH. replace (mem x (seen ++ y :: l)) with (mem x (seen ++ l)); [reflexivity|]. unfold mem in *. rewrite !existsb_app. cbn.
        destruct (eqb_spec x y) as [->|N]; [rewrite M; reflexivity|reflexivity].
      + rewrite IH. replace (mem x ((y :: seen) ++ l)) with (mem x (seen ++ y :: l)); [destruct (mem x (seen ++ y :: l)); reflexivity|].
        unfold mem. rewrite !existsb_app. cbn. rewrite !orb_assoc. rewrite (orb_comm (existsb _ seen)). reflexivity. }
  apply G.
Qed.
Lemma nested_snoc l d v y : nested_ok l d -> nested_ok (l ++ [(v, y)]) (add_pair d (v, y)).
Proof.
  intros [K I G]. unfold add_pair; cbn [fst snd]. unfold add_year. destruct (dget v d) as [yd|] eqn:E.
  - split.
    + rewrite dkeys_dset. pose proof (dget_Some_key _ _ E) as Kv. unfold dhas. rewrite (proj2 (mem_In v (dkeys d)) Kv).
      rewrite map_app. cbn [map fst]. rewrite first_seen_snoc. rewrite K, In_first_seen in Kv. rewrite (proj2 (mem_In v _) Kv). exact K.
    + intros w wd. rewrite dget_dset. destruct (eqb_spec w v) as [->|N]; [|apply I]. intros Q; injection Q as <-.
      destruct (I v yd E) as [NE ND]. split.
      * unfold dincr. destruct yd as [|[a b] yd]; [congruence|]. cbn. destruct (eqb y a); [discriminate|]. destruct (dget y yd); discriminate.
      * unfold dincr. destruct (dget y yd); apply NoDup_dset; exact ND.
    + intros w z. rewrite count_app. cbn [count]. specialize (G w z). unfold dget2 in *. rewrite dget_dset.
      destruct (eqb_spec w v) as [->|N].
      * rewrite E in G. rewrite dget_dincr. destruct (eqb_spec z y) as [->|NZ].
        -- rewrite eqb_refl. rewrite G. destruct (Nat.eqb_spec (count (v, y) l) 0) as [Z0|Z0]; destruct (Nat.eqb_spec (count (v, y) l + (1 + 0)) 0); try lia; f_equal; lia.
        -- rewrite (neq_eqb (x := (v, z))) by congruence. cbn [Nat.add]. rewrite Nat.add_0_r. exact G.
      * rewrite (neq_eqb (x := (w, z))) by congruence. cbn [Nat.add]. rewrite Nat.add_0_r. exact G.
  - pose proof E as Kv. apply dget_None in Kv. split.
    + rewrite dkeys_dset. unfold dhas. rewrite (proj2 (mem_not_In v (dkeys d)) Kv). rewrite map_app. cbn [map fst]. rewrite first_seen_snoc.
      rewrite K, In_first_seen in Kv. rewrite (proj2 (mem_not_In v _) Kv). rewrite K; reflexivity.
    + intros w wd. rewrite dget_dset. destruct (eqb_spec w v) as [->|N]; [|apply I]. intros Q; injection Q as <-. split; [discriminate|]. cbn. constructor; [intros []|constructor].
    + intros w z. rewrite count_app. cbn [count]. specialize (G w z). unfold dget2 in *. rewrite dget_dset.
      destruct (eqb_spec w v) as [->|N].
      * rewrite E in G. assert (C0 : count (v, z) l = 0) by (destruct (Nat.eqb_spec (count (v, z) l) 0); [assumption|discriminate]). rewrite C0.
        cbn [dget]. destruct (eqb_spec z y) as [->|NZ]; [rewrite eqb_refl; reflexivity|]. rewrite (neq_eqb (x := (v, z))) by congruence. reflexivity.
      * rewrite (neq_eqb (x := (w, z))) by congruence. cbn [Nat.add]. rewrite Nat.add_0_r. exact G.
Qed.
Lemma nested_fold l : nested_ok l (fold_left add_pair l []).
Proof.
  induction l as [|x l IH] using rev_ind; [split; [reflexivity | intros ? ? Q; discriminate | intros; reflexivity]|].
  rewrite fold_left_app. cbn [fold_left]. destruct x as [v y]. apply nested_snoc, IH.
Qed.
Lemma count_pairs rs v y : count (v, y) (flat_map pairs_of rs) = if allowed limit v then occurrences_in lookup year_of tag rs y v else 0.
Proof.
  rewrite count_flat_map.
  transitivity (total (fun r => if in_year year_of y r then if allowed limit v then count v (values_of lookup tag r) else 0 else 0) rs).
  - apply total_ext. intros r _. unfold pairs_of, in_year. destruct (year_of r) as [z|e]; [|reflexivity].
    rewrite <- (count_filter (allowed limit)). destruct (Z.eqb_spec z y) as [->|N].
    + induction (filter (allowed limit) (values_of lookup tag r)) as [|w l IH]; [reflexivity|]. cbn [map count]. rewrite IH. f_equal.
      destruct (eqb_spec v w) as [->|NV]; [rewrite eqb_refl; reflexivity|]. rewrite (neq_eqb (x := (v, y))) by congruence. reflexivity.
    + induction (filter (allowed limit) (values_of lookup tag r)) as [|w l IH]; [reflexivity|]. cbn [map count]. rewrite IH.
      rewrite (neq_eqb (x := (v, y))) by congruence. reflexivity.
  - unfold occurrences_in, occurrences. destruct (allowed limit v).
    + induction rs as [|r rs IH]; [reflexivity|]. cbn [filter]. unfold total in *. cbn [fold_right]. rewrite IH. destruct (in_year year_of y r); reflexivity.
    + transitivity (total (fun _ : R => 0) rs); [|apply total_zero]. apply total_ext. intros r _. destruct (in_year year_of y r); reflexivity.
Qed.
End Years.

(** ** sorting by year, for any dictionary of dictionaries *)
Section ByYear.
Context {E : Type} `{EqDec E}.
Definition flat (d : dict E (dict Z nat)) : list (E * Z) := flat_map (fun ev => map (fun y => (fst ev, y)) (dkeys (snd ev))) d.
Definition zcmp (greatest : bool) : Z -> Z -> bool := if greatest then (fun a b => (b <=? a)%Z) else (fun a b => (a <=? b)%Z).
Lemma zcmp_total g a b : zcmp g a b = true \/ zcmp g b a = true.
Proof. destruct g; cbn; rewrite !Z.leb_le; lia. Qed.
Lemma zcmp_trans g a b c : zcmp g a b = true -> zcmp g b c = true -> zcmp g a c = true.
Proof. destruct g; cbn; rewrite !Z.leb_le; lia. Qed.
Lemma In_flat d v y : In (v, y) (flat d) <-> exists yd, In (v, yd) d /\ In y (dkeys yd).
Proof.
  unfold flat. rewrite in_flat_map. split.
  - intros ([w yd] & I & J). cbn in J. apply in_map_iff in J. destruct J as (z & Q & J). injection Q as <- <-. eauto.
  - intros (yd & I & J). exists (v, yd). split; [exact I|]. cbn. apply in_map_iff. eauto.
Qed.
Lemma NoDup_flat d : NoDup (dkeys d) -> (forall v yd, In (v, yd) d -> NoDup (dkeys yd)) -> NoDup (flat d).
Proof.
  induction d as [|[v yd] d IH]; intros ND I; [constructor|]. inversion ND as [|? ? N1 N2]; subst. unfold flat. cbn [flat_map fst snd].
  fold (flat d). assert (F : NoDup (flat d)) by (apply IH; [exact N2 | intros w wd J; apply (I w wd); right; exact J]).
  assert (A : NoDup (map (fun y => (v, y)) (dkeys yd))).
  { assert (Q : NoDup (dkeys yd)) by (apply (I v yd); left; reflexivity). induction Q as [|y l NI Q IHl]; cbn; constructor; [|exact IHl].
    rewrite in_map_iff. intros (z & Qz & J). injection Qz as ->. contradiction. }
  revert A. generalize (dkeys yd) as ys. intros ys A. induction ys as [|y ys IHy]; cbn; [exact F|].
  inversion A as [|? ? A1 A2]; subst. constructor; [|apply IHy, A2]. rewrite in_app_iff. intros [J|J]; [contradiction|].
  apply In_flat in J. destruct J as (wd & J & _). apply N1. apply (in_map fst) in J. exact J.
Qed.
(** entries of one year, in the order of the dictionary *)
Lemma flat_year d y v w : NoDup (dkeys d) -> before (flat d) (v, y) (w, y) -> (forall v yd, In (v, yd) d -> NoDup (dkeys yd)) -> before (dkeys d) v w.
Proof.
  intros ND B I.
  assert (Q : before (filter (fun ey => Z.eqb (snd ey) y) (flat d)) (v, y) (w, y)).
  { apply before_in_filter; [exact B| |]; cbn; apply Z.eqb_refl. }
  assert (Eq : filter (fun ey => Z.eqb (snd ey) y) (flat d) = map (fun k => (k, y)) (map fst (filter (fun ev => mem y (dkeys (snd ev))) d))).
  { clear B Q ND. induction d as [|[k yd] d IH]; [reflexivity|]. unfold flat. cbn [flat_map fst snd filter]. fold (flat d). rewrite filter_app, IH by (intros a b J; apply (I a b); right; exact J).
    assert (Y : filter (fun ey : E * Z => Z.eqb (snd ey) y) (map (fun y => (k, y)) (dkeys yd)) = if mem y (dkeys yd) then [(k, y)] else []).
    { assert (N : NoDup (dkeys yd)) by (apply (I k yd); left; reflexivity). revert N. generalize (dkeys yd) as ys. clear. induction ys as [|z ys IH]; intros N; [reflexivity|].
      inversion N as [|? ? N1 N2]; subst. cbn [map filter snd]. unfold mem in *. cbn [existsb]. rewrite (IH N2). destruct (Z.eqb_spec z y) as [->|NE].
      - rewrite eqb_refl. cbn [orb]. destruct (existsb (eqb y) ys) eqn:X; [|reflexivity]. exfalso. apply N1. apply (mem_In y ys). exact X.
      - rewrite (neq_eqb (x := y) (y := z)) by congruence. reflexivity. }
    rewrite Y. destruct (mem y (dkeys yd)); reflexivity. }
  rewrite Eq in Q. apply before_map_inv in Q. destruct Q as (v' & w' & Q & E1 & E2). injection E1 as ->. injection E2 as ->.
  apply before_map_inv in Q. destruct Q as (x1 & x2 & Q & <- & <-). apply before_filter in Q. apply (before_map fst) in Q. exact Q.
Qed.
Lemma by_year_spec (d : dict E (dict Z nat)) greatest : NoDup (dkeys d) -> (forall v yd, In (v, yd) d -> NoDup (dkeys yd)) ->
  let l := by_year greatest d in
  NoDup l /\ (forall v y, In (v, y) l <-> exists yd n, dget v d = Some yd /\ dget y yd = Some n) /\
  (forall a b, before l a b -> if greatest then (snd b <= snd a)%Z else (snd a <= snd b)%Z) /\
  (forall v w y, before l (v, y) (w, y) -> before (dkeys d) v w).
Proof.
  intros ND I l. assert (P : Permutation (flat d) l) by apply ssort_perm. split; [|split; [|split]].
  - eapply Permutation_NoDup; [exact P|]. apply NoDup_flat; assumption.
  - intros v y. transitivity (In (v, y) (flat d)); [split; apply Permutation_in; [apply Permutation_sym|]; exact P|]. rewrite In_flat. split.
    + intros (yd & J & K). exists yd. apply In_dget in J; [|exact ND]. destruct (dget y yd) as [n|] eqn:G; [|apply dget_None in G; contradiction]. exists n. auto.
    + intros (yd & n & J & K). exists yd. split; [apply dget_In; exact J | eapply dget_Some_key; exact K].
  - intros a b B. pose proof (@ssort_ordered (E * Z) Z snd (zcmp greatest) (zcmp_total greatest) (zcmp_trans greatest) (flat d)) as S.
    unfold ordered in S. rewrite StronglySorted_before in S. specialize (S a b B). destruct greatest; cbn in S; apply Z.leb_le in S; exact S.
  - intros v w y B. apply (flat_year d (y := y) ND); [|exact I].
    assert (Eq : filter (fun x => Z.eqb (snd x) y) l = filter (fun x => Z.eqb (snd x) y) (flat d)).
    { apply ssort_stable; [apply (zcmp_total greatest)|]. intros a b. rewrite !Z.eqb_eq. congruence. }
    apply (before_in_filter (fun x => Z.eqb (snd x) y)) in B; cbn [snd]; [|apply Z.eqb_refl|apply Z.eqb_refl]. rewrite Eq in B. apply before_filter in B. exact B.
Qed.
End ByYear.

(** ** co-occurrences *)
Section Cooccur.
Context {R V : Type} `{EqDec V}.
Variable lookup : R -> str -> res (fval V).
Variable none : V.
Notation occd := (dict V (dict V nat)).
Definition inner (d : occd) (a b : V) : option nat := match dget a d with Some i => dget b i | None => None end.
Definition num (o : option nat) : nat := match o with Some n => n | None => 0 end.
Definition positive (d : occd) : Prop := forall a b n, inner d a b = Some n -> 0 < n.
(** [d'] is [d] with [f a b] more counted, and no new outer key *)
Definition grown (d d' : occd) (f : V -> V -> nat) : Prop :=
  (forall a, In a (dkeys d') <-> In a (dkeys d)) /\ positive d' /\ forall a b, num (inner d' a b) = num (inner d a b) + f a b.
Lemma grown_trans d1 d2 d3 f g : grown d1 d2 f -> grown d2 d3 g -> grown d1 d3 (fun a b => f a b + g a b).
Proof. intros (K1 & P1 & C1) (K2 & P2 & C2). split; [|split; [exact P2|]]; [intros a; rewrite K2, K1; reflexivity | intros a b; rewrite C2, C1; lia]. Qed.
Lemma grown_ext d d' f g : (forall a b, f a b = g a b) -> grown d d' f -> grown d d' g.
Proof. intros E (K & P & C). split; [exact K|split; [exact P|]]. intros a b. rewrite <- E. apply C. Qed.
Lemma grown_refl d : positive d -> grown d d (fun _ _ => 0).
Proof. intros P. split; [reflexivity|split; [exact P|]]. intros; lia. Qed.
Lemma occ_incr_ok k v d : positive d -> In k (dkeys d) ->
  exists d', occ_incr k v d = Ok d' /\ grown d d' (fun a b => if eqb a k && eqb b v then 1 else 0).
Proof.
  intros P I. unfold occ_incr. destruct (dget k d) as [i|] eqn:E; [|apply dget_None in E; contradiction].
  eexists; split; [reflexivity|].
  assert (IN : forall a b, inner (dset k (dincr v i) d) a b = if eqb a k && eqb b v then Some (num (inner d k v) + 1) else inner d a b).
  { intros a b. unfold inner. rewrite dget_dset. destruct (eqb_spec a k) as [->|N]; cbn [andb]; [|reflexivity].
    rewrite dget_dincr, E. destruct (eqb_spec b v) as [->|NB]; [|reflexivity]. destruct (dget v i); reflexivity. }
  split; [|split].
  - intros a. rewrite In_dkeys_dset. split; [intros [->|J]; assumption | auto].
  - intros a b n. rewrite IN. destruct (eqb a k && eqb b v); [intros Q; injection Q as <-; lia | apply P].
  - intros a b. rewrite IN. destruct (eqb_spec a k) as [->|N]; cbn [andb]; [|lia]. destruct (eqb_spec b v) as [->|NB]; cbn [num]; lia.
Qed.
Lemma occ_keys_ok ks v : forall d, positive d -> (forall k, In k ks -> In k (dkeys d)) ->
  exists d', occ_keys ks v d = Ok d' /\ grown d d' (fun a b => if eqb b v then count a ks else 0).
Proof.
  induction ks as [|k ks IH]; intros d P I; cbn [occ_keys].
  - exists d; split; [reflexivity|]. eapply grown_ext; [|apply grown_refl, P]. intros; cbn. destruct (eqb b v); reflexivity.
  - destruct (@occ_incr_ok k v d P (I k (or_introl eq_refl))) as (d1 & -> & G1). cbn [bind].
    destruct (IH d1) as (d2 & -> & G2); [apply G1 | intros k' J; apply (proj1 G1), I; right; exact J|].
    exists d2; split; [reflexivity|]. eapply grown_ext; [|eapply grown_trans; [exact G1 | exact G2]].
    intros a b. cbn [count]. destruct (eqb a k), (eqb b v); reflexivity.
Qed.
Lemma occ_vals_ok ks vs : forall d, positive d -> (forall k, In k ks -> In k (dkeys d)) ->
  exists d', occ_vals ks vs d = Ok d' /\ grown d d' (fun a b => count a ks * count b vs).
Proof.
  induction vs as [|v vs IH]; intros d P I; cbn [occ_vals].
  - exists d; split; [reflexivity|]. eapply grown_ext; [|apply grown_refl, P]. intros; cbn. lia.
  - destruct (@occ_keys_ok ks v d P I) as (d1 & -> & G1). cbn [bind].
    destruct (IH d1) as (d2 & -> & G2); [apply G1 | intros k' J; apply (proj1 G1), I; exact J|].
    exists d2; split; [reflexivity|]. eapply grown_ext; [|eapply grown_trans; [exact G1 | exact G2]].
    intros a b. cbn [count]. destruct (eqb b v); lia.
Qed.
Lemma get_list_ok r t : (forall e, lookup r t = Raise e -> e = KeyError) ->
  (exists l, get_list lookup none r t = Ok (Some l) /\ shown lookup none t r = l) \/
  (get_list lookup none r t = Ok None /\ shown lookup none t r = []).
Proof.
  intros RD. unfold get_list, shown. destruct (lookup r t) as [[v|l]|e] eqn:L.
  - destruct (eqb v none); [right; auto|left; eauto].
  - left; eauto.
  - rewrite (RD e eq_refl). right; auto.
Qed.
Lemma occ_tags_ok ks r ts : (forall t, In t ts -> forall e, lookup r t = Raise e -> e = KeyError) ->
  forall d, positive d -> (forall k, In k ks -> In k (dkeys d)) ->
  exists d', occ_tags lookup none ks r ts d = Ok d' /\
    grown d d' (fun a b => total (fun t => count a ks * count b (shown lookup none t r)) ts).
Proof.
  induction ts as [|t ts IH]; intros RD d P I; cbn [occ_tags].
  - exists d; split; [reflexivity|]. eapply grown_ext; [|apply grown_refl, P]. reflexivity.
  - assert (RD' : forall t, In t ts -> forall e, lookup r t = Raise e -> e = KeyError) by (intros t' J; apply RD; right; exact J).
    destruct (@get_list_ok r t (RD t (or_introl eq_refl))) as [(l & -> & S)|(-> & S)]; cbn [bind].
    + destruct (@occ_vals_ok ks l d P I) as (d1 & -> & G1). cbn [bind].
      destruct (IH RD' d1) as (d2 & -> & G2); [apply G1 | intros k' J; apply (proj1 G1), I; exact J|].
      exists d2; split; [reflexivity|]. eapply grown_ext; [|eapply grown_trans; [exact G1 | exact G2]].
      intros a b. unfold total. cbn [fold_right]. rewrite S. reflexivity.
    + destruct (IH RD' d P I) as (d2 & -> & G2). exists d2; split; [reflexivity|]. eapply grown_ext; [|exact G2].
      intros a b. unfold total. cbn [fold_right]. rewrite S. cbn [count]. lia.
Qed.
Lemma occ_init_ok ks : forall d, positive d -> let d' := occ_init ks d in
  (forall a, In a (dkeys d') <-> In a ks \/ In a (dkeys d)) /\ (forall a b, inner d' a b = inner d a b).
Proof.
  unfold occ_init. induction ks as [|k ks IH]; intros d P; cbn [fold_left].
  - split; [intros a; cbn; tauto | reflexivity].
  - destruct (dhas k d) eqn:D.
    + destruct (IH d P) as [K I]. split; [|exact I]. intros a. rewrite K. cbn [In]. apply dhas_spec in D. intuition congruence.
    + assert (IN : forall a b, inner (dset k [] d) a b = inner d a b).
      { intros a b. unfold inner. rewrite dget_dset. destruct (eqb_spec a k) as [->|N]; [|reflexivity].
        rewrite dhas_dget in D. destruct (dget k d); [discriminate|reflexivity]. }
      destruct (IH (dset k [] d)) as [K I]; [intros a b n; rewrite IN; apply P|].
      split; [|intros a b; rewrite I; apply IN]. intros a. rewrite K, In_dkeys_dset. cbn [In]. intuition congruence.
Qed.
Lemma occ_records_ok kt ts rs : (forall t, In t (kt :: ts) -> readable lookup t rs) ->
  forall d, positive d -> exists d', occ_records lookup none kt ts rs d = Ok d' /\ positive d' /\
    (forall a, In a (dkeys d') <-> In a (dkeys d) \/ exists r, In r rs /\ In a (shown lookup none kt r)) /\
    forall a b, num (inner d' a b) = num (inner d a b) + total (fun t => together lookup none rs kt t a b) ts.
Proof.
  induction rs as [|r rs IH]; intros RD d P; cbn [occ_records].
  - exists d. split; [reflexivity|]. split; [exact P|]. split; [intros a; split; [auto | intros [J|(? & [] & _)]; exact J]|].
    intros a b. unfold together. cbn [total fold_right]. fold (total (fun _ : str => 0) ts). rewrite total_zero. lia.
  - assert (RD' : forall t, In t (kt :: ts) -> readable lookup t rs) by (intros t I r' e J; apply (RD t I); right; exact J).
    destruct (@get_list_ok r kt (fun e => RD kt (or_introl eq_refl) r e (or_introl eq_refl))) as [(ks & -> & S)|(-> & S)]; cbn [bind].
    + destruct (occ_init_ok ks P) as [K0 I0]. set (d0 := occ_init ks d) in *.
      assert (P0 : positive d0) by (intros a b n; rewrite I0; apply P).
      destruct (@occ_tags_ok ks r ts (fun t J e => RD t (or_intror J) r e (or_introl eq_refl)) d0 P0) as (d1 & -> & K1 & P1 & C1); [intros k J; apply K0; auto|].
      cbn [bind]. destruct (IH RD' d1 P1) as (d2 & -> & P2 & K2 & C2). exists d2. split; [reflexivity|]. split; [exact P2|]. split.
      * intros a. rewrite K2, K1, K0. rewrite <- S. split.
        -- intros [[J|J]|(r' & J & A)]; [right; exists r; split; [left; reflexivity|exact J] | auto | right; exists r'; split; [right; exact J|exact A]].
        -- intros [J|(r' & [<-|J] & A)]; [auto|auto|right; exists r'; auto].
      * intros a b. rewrite C2, C1, I0. unfold together. rewrite <- Nat.add_assoc, <- total_plus. f_equal. apply total_ext. intros t _. cbn [total fold_right]. rewrite S. reflexivity.
    + destruct (IH RD' d P) as (d2 & -> & P2 & K2 & C2). exists d2. split; [reflexivity|]. split; [exact P2|]. split.
      * intros a. rewrite K2. split; [intros [J|(r' & J & A)]; [auto|right; exists r'; split; [right; exact J|exact A]]|].
        intros [J|(r' & [<-|J] & A)]; [auto|rewrite S in A; destruct A|right; exists r'; auto].
      * intros a b. rewrite C2. f_equal. apply total_ext. intros t _. unfold together. cbn [total fold_right]. rewrite S. reflexivity.
Qed.
End Cooccur.
