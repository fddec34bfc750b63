(** Lemmas for C49. *)
From Coq Require Import List ZArith Lia Bool Arith Permutation.
From Coq Require Import String.
From Verif Require Import Base PyStr RecordView RecordViewFacts SeriesModel SeriesSpec SeriesProofs TextModel TextSpec TextProofs GlimpseModel GlimpseSpec.
Import ListNotations.
Local Open Scope list_scope.

Lemma center_centred w t : (Z.of_nat (length t) <= w)%Z -> centred w t (center 45%N w t).
Proof.
  intros L. split; [apply center_wide; exact L|]. unfold center. set (p := Z.to_nat _). eexists _, _. split; [reflexivity|].
  pose proof (Nat.div_mod p 2 ltac:(lia)). pose proof (Nat.mod_upper_bound p 2 ltac:(lia)). lia.
Qed.
Lemma entry_cell h v r : (3 <= h)%Z -> (Z.of_nat (length (dec_Z r)) <= 2)%Z -> cell h v r (prep_entry h v r).
Proof.
  intros H3 D. split; [apply entry_wide; assumption|]. unfold prep_entry, pad_right, rjust. destruct (Z.leb_spec (Z.of_nat (length v)) (h - 2)) as [L|L].
  - eexists (_ + _). rewrite repeat_app, <- !app_assoc. split; [|left; reflexivity]. lia.
  - eexists. rewrite <- !app_assoc. split; [|right; split; [lia|split]]. 1, 2: cycle 1.
    3: { exists (upto (h - 3) v), (skipn (Z.to_nat (h - 3)) v). unfold upto. destruct (Z.ltb_spec (h - 3) 0); [lia|]. split; [symmetry; apply firstn_skipn|]. split; [|reflexivity].
         intros E. apply (f_equal (@length _)) in E. rewrite skipn_length in E. cbn in E. lia. }
    all: lia.
Qed.
Definition col_shows (height : nat) (x : Z * (str * list (str * Z))) (c : list str) : Prop :=
  length c = S height /\ centred (fst x) (fst (snd x)) (nth 0 c []) /\
  forall i, i < height -> cell (fst x) (fst (entry_at i (snd (snd x)))) (snd (entry_at i (snd (snd x)))) (nth (S i) c []).
Lemma firstn_nth {A} (l : list A) n i d : i < n -> nth i (firstn n l) d = nth i l d.
Proof. revert n i. induction l as [|x l IH]; intros [|n] [|i] L; cbn; try lia; try reflexivity. apply IH. lia. Qed.
Lemma padded_nth {A} (l : list A) (d : A) n i : nth i (l ++ repeat d n) d = nth i l d.
Proof.
  destruct (Nat.lt_ge_cases i (length l)) as [L|L]; [apply app_nth1; exact L|]. rewrite app_nth2 by exact L. rewrite (nth_overflow l) by exact L. apply nth_repeat.
Qed.
Lemma column_shows height w t rows : (Z.of_nat (length t) <= w)%Z -> (3 <= w)%Z ->
  (forall v r, In (v, r) (firstn height rows) -> (Z.of_nat (length (dec_Z r)) <= 2)%Z) -> col_shows height (w, (t, rows)) (column height (center 45%N w t) rows).
Proof.
  intros LT W3 RK. pose proof (center_centred w t LT) as CC. pose proof (proj1 CC) as CW. unfold wide in CW. split; [|split].
  - unfold column. cbn [length]. rewrite map_length, firstn_length, app_length, repeat_length. lia.
  - exact CC.
  - intros i LI. cbn [fst snd]. unfold column. rewrite CW. cbn [nth].
    set (f := fun '(v, r) => prep_entry w v r). set (rows' := rows ++ _).
    rewrite (nth_indep (map f (firstn height rows')) [] (f ($"NA", (-1)%Z))) by (rewrite map_length, firstn_length; unfold rows'; rewrite app_length, repeat_length; lia).
    rewrite map_nth, firstn_nth by exact LI. unfold rows'. rewrite padded_nth. fold (entry_at i rows). destruct (entry_at i rows) as [v r] eqn:E. cbn [f fst snd]. apply entry_cell; [exact W3|].
    destruct (Nat.lt_ge_cases i (length rows)) as [L|L].
    + apply (RK v). rewrite <- E. unfold entry_at. rewrite <- (firstn_nth rows height) by exact LI. apply nth_In. rewrite firstn_length. lia.
    + unfold entry_at in E. rewrite nth_overflow in E by exact L. injection E as <- <-. vm_compute. discriminate.
Qed.
Lemma columns_show height w : forall values rem, (3 <= w - 1)%Z ->
  (forall t rows, In (t, rows) values -> (Z.of_nat (length t) <= w - 1)%Z /\ forall v r, In (v, r) (firstn height rows) -> (Z.of_nat (length (dec_Z r)) <= 2)%Z) ->
  exists cs, columns w rem height values = Ok cs /\ Forall2 (col_shows height) (combine (widths w rem (length values)) values) cs.
Proof.
  induction values as [|[t rows] values IH]; intros rem W3 V; [exists []; split; [reflexivity|constructor]|].
  destruct (V t rows (or_introl eq_refl)) as [VT VR]. cbn [columns widths length].
  assert (IH' : forall rem, exists cs, columns w rem height values = Ok cs /\ Forall2 (col_shows height) (combine (widths w rem (length values)) values) cs).
  { intros rem'. apply IH; [exact W3|]. intros t' r' I1. apply V. right. exact I1. }
  unfold heading. destruct (0 <? rem)%Z; [|destruct (rem <? 0)%Z].
  - destruct (Z.ltb_spec (w + 1) 0); [lia|]. cbn [bind snd fst]. destruct (IH' (rem - 1)%Z) as (cs & -> & F). eexists. split; [reflexivity|]. constructor; [|exact F]. apply column_shows; [lia|lia|exact VR].
  - destruct (Z.ltb_spec (w - 1) 0); [lia|]. cbn [bind snd fst]. destruct (IH' (rem + 1)%Z) as (cs & -> & F). eexists. split; [reflexivity|]. constructor; [|exact F]. apply column_shows; [lia|lia|exact VR].
  - destruct (Z.ltb_spec w 0); [lia|]. cbn [bind snd fst]. destruct (IH' rem) as (cs & -> & F). eexists. split; [reflexivity|]. constructor; [|exact F]. apply column_shows; [lia|lia|exact VR].
Qed.
Lemma widths_length w n : forall rem, length (widths w rem n) = n.
Proof. induction n as [|n IH]; intros rem; [reflexivity|]. cbn. destruct (0 <? rem)%Z; [|destruct (rem <? 0)%Z]; cbn; rewrite IH; reflexivity. Qed.
Lemma widths_pos w n : forall rem x, (0 <= rem)%Z -> In x (widths w rem n) -> (w <= x <= w + 1)%Z.
Proof.
  induction n as [|n IH]; intros rem x P I1; [destruct I1|]. cbn in I1. destruct (Z.ltb_spec 0 rem); [|destruct (Z.ltb_spec rem 0)]; destruct I1 as [<-|I1]; try lia; apply (fun Q => IH _ _ Q I1); lia.
Qed.
Lemma widths_zero w n : forall x, In x (widths w 0 n) -> x = w.
Proof. induction n as [|n IH]; intros x I1; [destruct I1|]. cbn in I1. destruct I1 as [<-|I1]; auto. Qed.
Lemma widths_even w n rem x y : (-1 <= rem)%Z -> In x (widths w rem n) -> In y (widths w rem n) -> (x <= y + 1)%Z.
Proof.
  intros P I1 I2. destruct (Z.ltb_spec rem 0) as [N|N].
  - assert (rem = -1)%Z as -> by lia. destruct n as [|n]; [destruct I1|]. cbn in I1, I2. destruct I1 as [<-|I1], I2 as [<-|I2]; rewrite ?(widths_zero _ _ _ I1), ?(widths_zero _ _ _ I2); lia.
  - pose proof (widths_pos w n rem x N I1). pose proof (widths_pos w n rem y N I2). lia.
Qed.
Lemma fold_zsum l a : fold_right Z.add a l = (zsum l + a)%Z.
Proof. induction l as [|x l IH]; cbn; [lia|]. unfold zsum in IH. rewrite IH. unfold zsum. lia. Qed.
Lemma Forall2_map_r {A B C} (P : A -> C -> Prop) (f : B -> C) l m : Forall2 (fun a b => P a (f b)) l m -> Forall2 P l (map f m).
Proof. intros F. induction F; cbn; constructor; assumption. Qed.
Lemma Forall2_len {A B} (P : A -> B -> Prop) l m : Forall2 P l m -> length l = length m.
Proof. intros F. induction F; cbn; congruence. Qed.
Lemma Forall2_weaken {A B} (P Q : A -> B -> Prop) l m : (forall a b, P a b -> Q a b) -> Forall2 P l m -> Forall2 Q l m.
Proof. intros W F. induction F; constructor; auto. Qed.
Lemma table_shown values height width : values <> [] -> (0 <= height)%Z -> (5 <= width / Z.of_nat (length values))%Z ->
  (forall t rows, In (t, rows) values -> (Z.of_nat (length t) <= width / Z.of_nat (length values) - 2)%Z /\ forall v r, In (v, r) (firstn (Z.to_nat height) rows) -> (Z.of_nat (length (dec_Z r)) <= 2)%Z) ->
  exists ls, table_compact values height width = Ok ls /\ table_shows values width (Z.to_nat height) ls.
Proof.
  intros NE H0 W5 V. unfold table_compact. destruct values as [|v0 vs] eqn:EV; [congruence|]. rewrite <- EV in *. clear NE. cbv zeta.
  set (n := Z.of_nat (length values)) in *. assert (NP : (1 <= n)%Z) by (unfold n; rewrite EV; cbn [length]; lia).
  destruct (columns_show (Z.to_nat height) (width / n - 1) values (width mod n - 1)) as (cs & EC & F); [lia| |].
  { intros t rows I1. destruct (V t rows I1) as [A B]. split; [lia|exact B]. }
  match goal with |- context [bind ?X _] => change X with (columns (width / n - 1) (width mod n - 1) (Z.to_nat height) values) end. rewrite EC. cbn [bind]. destruct (Z.ltb_spec height 0); [lia|]. eexists. split; [reflexivity|].
  pose proof (Z.mod_pos_bound width n ltac:(lia)) as MB. pose proof (Z.div_mod width n ltac:(lia)) as DM.
  exists (widths (width / n - 1) (width mod n - 1) (length values)). split; [apply widths_length|]. split; [split|split].
  - rewrite fold_zsum, widths_sum, widths_length; [fold n; nia|fold n; lia|intros E; unfold n in NP; rewrite E in NP; cbn in NP; lia].
  - intros x y. apply widths_even. lia.
  - cbn [length]. rewrite map_length, seq_length. reflexivity.
  - split.
    + exists (map (fun c => nth 0 c []) cs). split; [reflexivity|]. apply Forall2_map_r. eapply Forall2_weaken; [|exact F]. intros x c (_ & C & _). exact C.
    + intros i LI. exists (map (fun c => nth (S i) c []) cs). split.
      * cbn [nth]. rewrite (nth_indep _ [] (line_at $"|" cs 0)) by (rewrite map_length, seq_length; exact LI). rewrite map_nth, seq_nth by exact LI. reflexivity.
      * apply Forall2_map_r. eapply Forall2_weaken; [|exact F]. intros x c (_ & _ & C). apply C. exact LI.
Qed.
Lemma header_shown first second w : header_shows first second w (header first second w true).
Proof.
  unfold header, header_shows. change (Z.of_nat (length description)) with 76%Z.
  assert (F : forall s n, filled ($"+" ++ s) ($"+" ++ pad_right 43%N n s)) by (intros s n; unfold pad_right; eexists; cbn; reflexivity).
  assert (B : forall s n, boxed s ($"|" ++ pad_right 43%N n s ++ $"|")) by (intros s n; unfold pad_right; eexists; rewrite <- app_assoc; reflexivity).
  do 3 eexists. split; [reflexivity|]. split; [apply F|]. split; [apply B|].
  destruct (Z.ltb_spec (w - 2) 76), (Z.ltb_spec w 78); try lia; repeat constructor; apply B.
Qed.
(** the entries under the lines shown do not count *)
Lemma column_cut height head rows : column height head (firstn height rows) = column height head rows.
Proof.
  unfold column. f_equal. f_equal. rewrite firstn_length. destruct (Nat.le_gt_cases height (length rows)) as [L|L].
  - rewrite (Nat.min_l _ _ L). replace (height - height) with 0 by lia. replace (height - length rows) with 0 by lia. cbn [repeat]. rewrite !app_nil_r. rewrite firstn_firstn. f_equal. lia.
  - rewrite (Nat.min_r height (length rows)) by lia. rewrite (firstn_all2 rows) by lia. reflexivity.
Qed.
Lemma columns_cut height w : forall values rem, columns w rem height (map (fun x => (fst x, firstn height (snd x))) values) = columns w rem height values.
Proof.
  induction values as [|[t rows] values IH]; intros rem; [reflexivity|]. cbn [map columns fst snd]. destruct (heading w rem t) as [hr|e]; [|reflexivity]. cbn [bind]. rewrite IH, column_cut. reflexivity.
Qed.
Lemma table_cut values height width : table_compact (map (fun x => (fst x, firstn (Z.to_nat height) (snd x))) values) height width = table_compact values height width.
Proof.
  unfold table_compact. destruct values as [|v vs]; [reflexivity|]. cbv zeta. cbn [map]. change ((fst v, firstn (Z.to_nat height) (snd v)) :: map (fun x => (fst x, firstn (Z.to_nat height) (snd x))) vs) with (map (fun x : str * list (str * Z) => (fst x, firstn (Z.to_nat height) (snd x))) (v :: vs)).
  rewrite map_length, columns_cut. reflexivity.
Qed.
(** the plain table *)
Lemma upto_cut w s : (0 <= w)%Z -> exists rest, s = upto w s ++ rest /\ (rest = [] \/ wide w (upto w s)).
Proof.
  intros P. unfold upto. destruct (Z.ltb_spec w 0); [lia|]. exists (skipn (Z.to_nat w) s). split; [symmetry; apply firstn_skipn|].
  destruct (Nat.le_gt_cases (length s) (Z.to_nat w)) as [L|L]; [left; apply skipn_all2; exact L|right]. unfold wide. rewrite firstn_length. lia.
Qed.
Lemma plain_shown width height values : (forall t es v r, In (t, es) values -> In (v, r) es -> (Z.of_nat (length (dec_Z r)) < width)%Z) ->
  plain_table width (rows_upto (height / 2)) values (table_long values height width).
Proof.
  induction values as [|[t es] values IH]; intros V; [constructor|]. unfold table_long. cbn [flat_map app]. fold (table_long values height width).
  constructor; [|apply IH; intros t' es' v r I1; apply (V t' es'); right; exact I1].
  assert (W : forall v r, In (v, r) (rows_upto (height / 2) es) -> (Z.of_nat (length (dec_Z r)) < width)%Z).
  { intros v r I1. apply (V t es v r); [left; reflexivity|]. revert I1. unfold rows_upto. generalize (Z.to_nat (if (height / 2 <? 0)%Z then Z.of_nat (length es) + height / 2 else height / 2)). clear. induction es as [|x e IH]; intros [|n]; cbn; try tauto. intros [->|I1]; [auto|right; apply (IH _ I1)]. }
  revert W. generalize (rows_upto (height / 2) es). intros l. clear. induction l as [|[v r] l IH]; intros W; cbn [map]; constructor; [|apply IH; intros v' r' I1; apply (W v'); right; exact I1].
  specialize (W v r (or_introl eq_refl)). destruct (upto_cut (width - Z.of_nat (length (dec_Z r)) - 1) v) as (rest & E & R); [lia|]. eexists _, rest. split; [exact E|]. split; [reflexivity|].
  destruct R as [R|R]; [left; exact R|right]. unfold wide in *. cbn [snd]. rewrite !app_length. change (length $" ") with 1. lia.
Qed.
(** the columns asked for *)
Lemma dset_seen (t : str) l : dset t t (map (fun x => (x, x)) l) = map (fun x => (x, x)) (if mem t l then l else l ++ [t]).
Proof.
  induction l as [|x l IH]; [reflexivity|]. cbn [map dset mem existsb]. unfold mem. cbn [existsb]. destruct (eqb t x) eqn:E.
  - apply (proj1 (eqb_true _ _)) in E. subst x. cbn [orb map]. reflexivity.
  - cbn [orb]. rewrite IH. unfold mem. destruct (existsb (eqb t) l); reflexivity.
Qed.
Lemma columns_asked tags : glimpse_columns tags = asked tags.
Proof.
  unfold glimpse_columns, asked. destruct tags as [|t tags]; [reflexivity|]. generalize (t :: tags). clear. intros l.
  change (@nil (str * str)) with (map (fun x : str => (x, x)) (first_seen [])). change l with ([] ++ l) at 2. generalize (@nil str) as acc. induction l as [|t l IH]; intros acc; [rewrite app_nil_r; reflexivity|].
  cbn [fold_left]. rewrite dset_seen. replace (if mem t (first_seen acc) then first_seen acc else first_seen acc ++ [t]) with (first_seen (acc ++ [t])).
  - rewrite IH, <- app_assoc. reflexivity.
  - rewrite first_seen_snoc. destruct (mem t acc) eqn:M, (mem t (first_seen acc)) eqn:M'; try reflexivity.
    + apply mem_In in M. apply mem_not_In in M'. exfalso. apply M'. apply In_first_seen. exact M.
    + apply mem_not_In in M. apply mem_In in M'. exfalso. apply M. apply (proj1 (In_first_seen _ _)). exact M'.
Qed.
(** the rank of an entry is at most its place *)
Lemma first_seen_le {A} `{EqDec A} (l : list A) : length (first_seen l) <= length l.
Proof.
  apply NoDup_incl_length; [apply NoDup_first_seen|]. intros x. apply In_first_seen.
Qed.
Lemma In_firstn_at {A} (l : list A) n x : In x (firstn n l) -> exists i, i < n /\ nth_error l i = Some x.
Proof. revert n. induction l as [|y l IH]; intros [|n]; cbn; try tauto. intros [->|I1]; [exists 0; cbn; split; [lia|reflexivity]|]. destruct (IH n I1) as (i & L & E). exists (S i). split; [lia|exact E]. Qed.
Section Rank.
Context {R V : Type} `{EqDec V}.
Variables (lookup : R -> str -> res (fval V)) (tag : str) (rs : list R) (l : list (V * nat)).
Lemma rank_place i v k : ranking lookup tag rs l -> nth_error l i = Some (v, k) -> 1 <= k <= S i.
Proof.
  intros (ND & IN & SO) E. apply nth_error_split in E as (a & b & E & L). pose proof (proj1 (IN v k)) as (_ & EK); [rewrite E; apply in_elt|].
  unfold dense_rank in EK. rewrite EK. split; [lia|]. apply le_n_S. set (o := occurrences lookup tag rs) in *.
  etransitivity; [apply first_seen_le|]. rewrite E, !map_app, filter_app, app_length. cbn [map fst].
  replace (filter (fun m => o v <? m) (o v :: map o (map fst b))) with (@nil nat).
  - cbn [length]. rewrite <- L, <- (map_length fst a), <- (map_length o (map fst a)). generalize (map o (map fst a)). intros q. clear. induction q as [|x q IH]; cbn [filter length]; [lia|]. destruct (o v <? x); cbn [length]; lia.
  - symmetry. assert (F : forall m, In m (o v :: map o (map fst b)) -> (o v <? m) = false).
    { intros m [<-|I1]; [apply Nat.ltb_ge; lia|]. apply in_map_iff in I1 as (w & <- & I1). apply in_map_iff in I1 as (x & <- & I1). apply Nat.ltb_ge. apply (SO (v, k) x). apply in_split in I1 as (b1 & b2 & ->). exists a, b1, b2. exact E. }
    revert F. generalize (o v :: map o (map fst b)). intros q F. induction q as [|x q IH]; [reflexivity|]. cbn [filter]. rewrite (F x) by (left; reflexivity). apply IH. intros m I1. apply F. right. exact I1.
Qed.
End Rank.
