From Coq Require Import String.
From Verif Require Import Base CollectionModel CollectionHeap.

Section P.
Context {E K : Type} {HK : EqDec K} {EL : Elem E K}.
Notation heap := (heap E).

Lemma fupd_eq {A} (f : nat -> A) n a : fupd f n a n = a.
Proof. unfold fupd; rewrite Nat.eqb_refl; reflexivity. Qed.
Lemma fupd_ne {A} (f : nat -> A) n m a : m <> n -> fupd f n a m = f m.
Proof. unfold fupd; intros N; apply Nat.eqb_neq in N; rewrite N; reflexivity. Qed.

Lemma nth_lupd_eq {A} (l : list A) i a x : nth_error l i = Some x -> nth_error (lupd l i a) i = Some a.
Proof. revert i; induction l as [|y l IH]; intros [|i]; cbn; try discriminate; auto. Qed.
Lemma nth_lupd_ne {A} (l : list A) i j a : i <> j -> nth_error (lupd l i a) j = nth_error l j.
Proof. revert i j; induction l as [|y l IH]; intros [|i] [|j] N; cbn; try congruence; auto. Qed.
Lemma length_lupd {A} (l : list A) i a : length (lupd l i a) = length l.
Proof. revert i; induction l as [|y l IH]; intros [|i]; cbn; auto. Qed.
Lemma map_lupd {A B} (f : A -> B) l i a : map f (lupd l i a) = lupd (map f l) i (f a).
Proof. revert i; induction l as [|y l IH]; intros [|i]; cbn; auto; rewrite IH; reflexivity. Qed.
Lemma lupd_same {A} (l : list A) i a : nth_error l i = Some a -> lupd l i a = l.
Proof. revert i; induction l as [|y l IH]; intros [|i]; cbn; try discriminate; [congruence|]. intros H; rewrite IH; auto. Qed.
Lemma list_ext {A} (l m : list A) : (forall i, nth_error l i = nth_error m i) -> l = m.
Proof.
  revert m; induction l as [|x l IH]; intros [|y m] H; [reflexivity | specialize (H 0); discriminate | specialize (H 0); discriminate|].
  f_equal; [specialize (H 0); cbn in H; congruence | apply IH; intros i; apply (H (S i))].
Qed.

(** every reference is in use by one object only, and none is unallocated *)
Record Sep (h : heap) : Prop := {
  sep_lt : forall i o, nth_error (objs h) i = Some o -> o_set o < nxt h /\ o_types o < nxt h /\ o_errs o < nxt h;
  sep_ne : forall i j o p, nth_error (objs h) i = Some o -> nth_error (objs h) j = Some p -> i <> j ->
     o_set o <> o_set p /\ o_types o <> o_types p /\ o_errs o <> o_errs p }.

Lemma Sep0 : Sep (heap0 : heap).
Proof. split; intros [|i]; cbn; discriminate. Qed.

Lemma nth_push {A} (l : list A) x i y : nth_error (l ++ [x]) i = Some y ->
  (i < length l /\ nth_error l i = Some y) \/ (i = length l /\ y = x).
Proof.
  intros H. destruct (Nat.lt_ge_cases i (length l)) as [L|L].
  - rewrite nth_error_app1 in H by assumption; auto.
  - rewrite nth_error_app2 in H by assumption. destruct (i - length l) as [|k] eqn:Q; cbn in H.
    + inversion H; right; split; [lia|reflexivity].
    + destruct k; discriminate.
Qed.
Lemma nth_lt {A} (l : list A) i x : nth_error l i = Some x -> i < length l.
Proof. intros H; apply nth_error_Some; congruence. Qed.
Lemma nth_lupd_inv {A} (l : list A) i a j y : nth_error (lupd l i a) j = Some y ->
  (j = i /\ y = a /\ exists x, nth_error l i = Some x) \/ (j <> i /\ nth_error l j = Some y).
Proof.
  destruct (Nat.eq_dec j i) as [->|N].
  - intros H. left; split; [reflexivity|]. destruct (nth_error l i) as [x|] eqn:G.
    + rewrite (nth_lupd_eq _ _ _ _ G) in H; split; [congruence | exists x; reflexivity].
    + exfalso. apply nth_error_None in G. apply nth_lt in H. rewrite length_lupd in H; lia.
  - rewrite nth_lupd_ne by congruence; auto.
Qed.

Lemma views_nth (h : heap) i : nth_error (views h) i = option_map (view h) (nth_error (objs h) i).
Proof. unfold views; apply nth_error_map. Qed.

Ltac sep := repeat match goal with
  | H : nth_error (_ ++ [_]) _ = Some _ |- _ => apply nth_push in H; destruct H as [[? H]|[? ?]]; subst
  | H : nth_error (lupd _ _ _) _ = Some _ |- _ => apply nth_lupd_inv in H; destruct H as [(? & ? & ? & H)|[? H]]; subst
  end; cbn in *.

(** the constructor *)
Lemma new_ok it name (h h' : heap) : Sep h -> h_new it name h = Ok h' ->
  Sep h' /\ exists c, from_iterable it name = Ok c /\ views h' = views h ++ [c] /\
  length (objs h') = S (length (objs h)) /\
  (forall i, i < length (objs h) -> nth_error (objs h') i = nth_error (objs h) i).
Proof.
  intros [LT NE] H. unfold h_new in H. unfold from_iterable.
  destruct (forallb allowed (first_walk it)); [|discriminate]. cbn in H. inversion H; subst; clear H. split.
  - split; cbn.
    + intros i o Hi. apply nth_push in Hi as [[L Hi]|[-> ->]]; cbn; [apply LT in Hi; lia | lia].
    + intros i j o p Hi Hj N. apply nth_push in Hi as [[L Hi]|[-> ->]]; apply nth_push in Hj as [[L' Hj]|[-> ->]]; cbn.
      * eapply NE; eassumption.
      * apply LT in Hi; lia.
      * apply LT in Hj; lia.
      * congruence.
  - eexists; split; [reflexivity|]. split; [|split].
    + unfold views; cbn. rewrite map_app; cbn. f_equal.
      * apply map_ext_in. intros o I. apply In_nth_error in I as (i & I). apply LT in I.
        unfold view; cbn. rewrite !fupd_ne by lia; reflexivity.
      * unfold view; cbn. rewrite !fupd_eq; reflexivity.
    + cbn; rewrite app_length; cbn; lia.
    + intros i L; cbn; rewrite nth_error_app1 by assumption; reflexivity.
Qed.
Lemma new_exn it name (h : heap) e : h_new it name h = Raise e -> from_iterable it name = Raise e.
Proof. unfold h_new, from_iterable; destruct (forallb allowed (first_walk it)); cbn; [discriminate|intros H; inversion H; reflexivity]. Qed.

Lemma add_ok i o x (h h' : heap) : Sep h -> nth_error (objs h) i = Some o -> h_add o x h = Ok h' ->
  Sep h' /\ exists c, coll_add x (view h o) = Ok c /\ views h' = lupd (views h) i c.
Proof.
  intros [LT NE] Hi H. unfold h_add in H; unfold coll_add. destruct (allowed x); [|discriminate].
  inversion H; subst; clear H. split; [split; cbn; assumption|].
  eexists; split; [reflexivity|]. apply list_ext; intros j. rewrite views_nth; cbn [objs put_set put_tset].
  destruct (Nat.eq_dec i j) as [<-|N].
  - rewrite Hi. erewrite nth_lupd_eq; [|rewrite views_nth, Hi; reflexivity].
    cbn. unfold view; cbn. rewrite !fupd_eq; reflexivity.
  - rewrite nth_lupd_ne by assumption. rewrite views_nth. destruct (nth_error (objs h) j) as [p|] eqn:Hj; [|reflexivity].
    cbn. destruct (NE i j o p Hi Hj N) as (A & B & C). unfold view; cbn. rewrite !fupd_ne by congruence; reflexivity.
Qed.
Lemma add_exn o x (h : heap) e : h_add o x h = Raise e -> coll_add x (view h o) = Raise e.
Proof. unfold h_add, coll_add; destruct (allowed x); [discriminate|intros H; inversion H; reflexivity]. Qed.

Lemma discard_ok i o x (h : heap) : Sep h -> nth_error (objs h) i = Some o ->
  Sep (h_discard o x h) /\ views (h_discard o x h) = lupd (views h) i (coll_discard x (view h o)).
Proof.
  intros [LT NE] Hi. split; [split; cbn; assumption|].
  apply list_ext; intros j. rewrite views_nth; cbn [objs put_set h_discard].
  destruct (Nat.eq_dec i j) as [<-|N].
  - rewrite Hi. erewrite nth_lupd_eq; [|rewrite views_nth, Hi; reflexivity].
    cbn. unfold view, coll_discard, set_members; cbn. rewrite !fupd_eq; reflexivity.
  - rewrite nth_lupd_ne by assumption. rewrite views_nth. destruct (nth_error (objs h) j) as [p|] eqn:Hj; [|reflexivity].
    cbn. destruct (NE i j o p Hi Hj N) as (A & B & C). unfold view; cbn. rewrite !fupd_ne by congruence; reflexivity.
Qed.

Lemma clear_ok i o (h : heap) : Sep h -> nth_error (objs h) i = Some o ->
  Sep (h_clear i o h) /\ views (h_clear i o h) = lupd (views h) i (coll_clear (view h o)).
Proof.
  intros [LT NE] Hi. split; [split; cbn|].
  - intros j p Hj. apply nth_lupd_inv in Hj as [(-> & -> & _)|[N Hj]]; cbn; [apply LT in Hi; lia | apply LT in Hj; lia].
  - intros j k p q Hj Hk N. apply nth_lupd_inv in Hj as [(-> & -> & _)|[Nj Hj]]; apply nth_lupd_inv in Hk as [(-> & -> & _)|[Nk Hk]]; cbn.
    + congruence.
    + specialize (NE i k o q Hi Hk N). apply LT in Hk. repeat split; try apply NE; lia.
    + specialize (NE j i p o Hj Hi N). apply LT in Hj. repeat split; try apply NE; lia.
    + eapply NE; eassumption.
  - apply list_ext; intros j. rewrite views_nth. unfold h_clear; cbn [objs put_set put_obj new_dict].
    destruct (Nat.eq_dec i j) as [<-|N].
    + erewrite nth_lupd_eq by eassumption. erewrite nth_lupd_eq; [|rewrite views_nth, Hi; reflexivity].
      cbn. unfold view, coll_clear; cbn. rewrite !fupd_eq; reflexivity.
    + rewrite !nth_lupd_ne by assumption. rewrite views_nth. destruct (nth_error (objs h) j) as [p|] eqn:Hj; [|reflexivity].
      cbn. destruct (NE i j o p Hi Hj N) as (A & B & C). apply LT in Hj. unfold view; cbn. rewrite !fupd_ne by lia; reflexivity.
Qed.

Lemma dropBad_ok i o (h : heap) : Sep h -> nth_error (objs h) i = Some o ->
  Sep (h_dropBad i o h) /\ views (h_dropBad i o h) = lupd (views h) i (coll_dropBadEntries (view h o)).
Proof.
  intros [LT NE] Hi. split; [split; cbn|].
  - intros j p Hj. apply nth_lupd_inv in Hj as [(-> & -> & _)|[N Hj]]; cbn; [apply LT in Hi; lia | apply LT in Hj; lia].
  - intros j k p q Hj Hk N. apply nth_lupd_inv in Hj as [(-> & -> & _)|[Nj Hj]]; apply nth_lupd_inv in Hk as [(-> & -> & _)|[Nk Hk]]; cbn.
    + congruence.
    + specialize (NE i k o q Hi Hk N). apply LT in Hk. repeat split; try apply NE; lia.
    + specialize (NE j i p o Hj Hi N). apply LT in Hj. repeat split; try apply NE; lia.
    + eapply NE; eassumption.
  - apply list_ext; intros j. rewrite views_nth. unfold h_dropBad; cbn [objs put_set put_obj new_dict new_set].
    destruct (Nat.eq_dec i j) as [<-|N].
    + erewrite nth_lupd_eq by eassumption. erewrite nth_lupd_eq; [|rewrite views_nth, Hi; reflexivity].
      unfold view, coll_dropBadEntries; cbn -[set_of filter].
      rewrite !fupd_eq; reflexivity.
    + rewrite !nth_lupd_ne by assumption. rewrite views_nth. destruct (nth_error (objs h) j) as [p|] eqn:Hj; [|reflexivity].
      cbn [option_map]. destruct (NE i j o p Hi Hj N) as (A & B & C). apply LT in Hj.
      unfold view; cbn -[set_of filter]. rewrite !fupd_ne by lia; reflexivity.
Qed.

Lemma copy_ok i o (h : heap) : Sep h -> nth_error (objs h) i = Some o ->
  Sep (h_copy i o h) /\ views (h_copy i o h) = views h ++ [view h o].
Proof.
  intros [LT NE] Hi. assert (Li := LT _ _ Hi). split; [split; cbn|].
  - intros j p Hj. apply nth_push in Hj as [[L Hj]|[-> ->]]; [|cbn; lia].
    apply nth_lupd_inv in Hj as [(-> & -> & _)|[N Hj]]; cbn; [lia | apply LT in Hj; lia].
  - intros j k p q Hj Hk N.
    apply nth_push in Hj as [[Lj Hj]|[-> ->]]; apply nth_push in Hk as [[Lk Hk]|[-> ->]]; cbn.
    + apply nth_lupd_inv in Hj as [(-> & -> & _)|[Nj Hj]]; apply nth_lupd_inv in Hk as [(-> & -> & _)|[Nk Hk]]; cbn.
      * congruence.
      * specialize (NE i k o q Hi Hk N). apply LT in Hk. lia.
      * specialize (NE j i p o Hj Hi N). apply LT in Hj. lia.
      * eapply NE; eassumption.
    + apply nth_lupd_inv in Hj as [(-> & -> & _)|[Nj Hj]]; cbn; [lia|].
      specialize (NE j i p o Hj Hi Nj). apply LT in Hj. lia.
    + apply nth_lupd_inv in Hk as [(-> & -> & _)|[Nk Hk]]; cbn; [lia|].
      specialize (NE k i q o Hk Hi Nk). apply LT in Hk. lia.
    + congruence.
  - apply list_ext; intros j. rewrite views_nth. unfold h_copy; cbn [objs push_obj put_obj new_dict new_set new_tset].
    assert (LL : length (lupd (objs h) i (mkObj (o_set o) (S (nxt h)) (o_errs o) (o_name o) (o_bad o))) = length (objs h))
      by apply length_lupd.
    destruct (Nat.lt_trichotomy j (length (objs h))) as [L|[->|G]].
    + rewrite nth_error_app1 by (cbn in *; lia). rewrite nth_error_app1 by (unfold views; rewrite map_length; assumption).
      rewrite views_nth.
      destruct (Nat.eq_dec i j) as [<-|N].
      * cbn. erewrite nth_lupd_eq by eassumption. rewrite Hi. cbn. unfold view; cbn.
        rewrite !fupd_eq, !fupd_ne by lia. reflexivity.
      * cbn. rewrite nth_lupd_ne by assumption. destruct (nth_error (objs h) j) as [p|] eqn:Hj; [|reflexivity].
        cbn. apply LT in Hj. unfold view; cbn. rewrite !fupd_ne by lia; reflexivity.
    + cbn. rewrite nth_error_app2 by lia. rewrite nth_error_app2 by (unfold views; rewrite map_length; lia).
      replace (length (objs h) - _) with 0 by lia. unfold views; rewrite map_length, Nat.sub_diag; cbn.
      unfold view; cbn. rewrite !fupd_eq, !fupd_ne by lia; reflexivity.
    + cbn in *. rewrite !(proj2 (nth_error_None _ _)); [reflexivity| |].
      * rewrite app_length; unfold views; rewrite map_length; cbn; lia.
      * rewrite app_length; cbn; lia.
Qed.

Lemma inplace_ok f nm i j o p (h : heap) : Sep h -> nth_error (objs h) i = Some o -> nth_error (objs h) j = Some p ->
  Sep (h_inplace f nm i o p h) /\
  views (h_inplace f nm i o p h) = lupd (views h) i (inplace f nm (view h o) (view h p)).
Proof.
  intros [LT NE] Hi Hj. unfold h_inplace.
  assert (PEQ : i = j -> o = p) by (intros ->; congruence).
  assert (TP : forall t, (if Nat.eqb (o_types p) t then 1 else 1) = 1) by (intros; destruct (Nat.eqb _ _); auto).
  set (name := o_name o ++ nm ++ o_name p).
  assert (SEP : forall b h', nxt h' = nxt h ->
     objs h' = lupd (objs h) i (mkObj (o_set o) (o_types o) (o_errs o) name b) -> Sep h').
  { intros b h' Qn Qo. split; rewrite ?Qn, Qo.
    - intros k q Hk. apply nth_lupd_inv in Hk as [(-> & -> & _)|[N Hk]]; cbn; [apply LT in Hi; lia | apply LT in Hk; lia].
    - intros k l q r Hk Hl N. apply nth_lupd_inv in Hk as [(-> & -> & _)|[Nk Hk]]; apply nth_lupd_inv in Hl as [(-> & -> & _)|[Nl Hl]]; cbn.
      + congruence.
      + exact (NE i l o r Hi Hl N).
      + exact (NE k i q o Hk Hi N).
      + eapply NE; eassumption. }
  destruct (o_bad p || o_bad o) eqn:B.
  - split; [apply (SEP true); reflexivity|].
    apply list_ext; intros k. rewrite views_nth; cbn [objs put_dict put_obj put_tset put_set].
    destruct (Nat.eq_dec i k) as [<-|N].
    + erewrite nth_lupd_eq by eassumption. erewrite nth_lupd_eq; [|rewrite views_nth, Hi; reflexivity].
      cbn [option_map]. unfold view, inplace; cbn. rewrite B, !fupd_eq. reflexivity.
    + rewrite !nth_lupd_ne by assumption. rewrite views_nth. destruct (nth_error (objs h) k) as [q|] eqn:Hk; [|reflexivity].
      cbn. destruct (NE i k o q Hi Hk N) as (A1 & B1 & C1). unfold view; cbn. rewrite !fupd_ne by congruence; reflexivity.
  - split; [apply (SEP (o_bad o)); reflexivity|].
    apply list_ext; intros k. rewrite views_nth; cbn [objs put_dict put_obj put_tset put_set].
    destruct (Nat.eq_dec i k) as [<-|N].
    + erewrite nth_lupd_eq by eassumption. erewrite nth_lupd_eq; [|rewrite views_nth, Hi; reflexivity].
      cbn [option_map]. unfold view, inplace; cbn. rewrite B, !fupd_eq. reflexivity.
    + rewrite !nth_lupd_ne by assumption. rewrite views_nth. destruct (nth_error (objs h) k) as [q|] eqn:Hk; [|reflexivity].
      cbn. destruct (NE i k o q Hi Hk N) as (A1 & B1 & C1). unfold view; cbn. rewrite !fupd_ne by congruence; reflexivity.
Qed.

Lemma lupd_app_last {A} (l : list A) x y : lupd (l ++ [x]) (length l) y = l ++ [y].
Proof. induction l as [|z l IH]; cbn; [reflexivity|]. rewrite IH; reflexivity. Qed.

Lemma views_ext (h h' : heap) : objs h' = objs h ->
  (forall o, In o (objs h) -> sets h' (o_set o) = sets h (o_set o) /\ tsets h' (o_types o) = tsets h (o_types o) /\ dicts h' (o_errs o) = dicts h (o_errs o)) ->
  views h' = views h.
Proof.
  intros Q H. unfold views; rewrite Q. apply map_ext_in. intros o I. destruct (H o I) as (A & B & C).
  unfold view; rewrite A, B, C; reflexivity.
Qed.

Lemma binary_sim f nm i j o p (h h' : heap) : Sep h -> nth_error (objs h) i = Some o -> nth_error (objs h) j = Some p ->
  h_binary f nm o p h = Ok h' ->
  Sep h' /\ exists c, binary f nm (view h o) (view h p) = Ok c /\ views h' = views h ++ [c].
Proof.
  intros S Hi Hj H. assert (S0 := S). destruct S0 as [LT0 NE0].
  unfold h_binary in H. destruct (h_new _ _ h) as [h1|e] eqn:Q; cbn [bind] in H; [|discriminate].
  destruct (new_ok _ _ _ _ S Q) as (S1 & c & FC & V1 & LEN & SAME).
  unfold binary; cbn [members view cname] in *. rewrite FC; cbn [bind].
  destruct (nth_error (objs h1) (length (objs h))) as [r|] eqn:Hr; [|discriminate].
  assert (VR : view h1 r = c).
  { assert (X : nth_error (views h1) (length (objs h)) = Some c).
    { rewrite V1, nth_error_app2; unfold views; rewrite map_length; [rewrite Nat.sub_diag; reflexivity | lia]. }
    rewrite views_nth, Hr in X; cbn in X; congruence. }
  cbn [cbad view]. destruct (o_bad p || o_bad o) eqn:B; inversion H; subst h'; clear H.
  - destruct S1 as [LT NE].
    assert (Lj := nth_lt _ _ _ Hj). assert (Hj1 : nth_error (objs h1) j = Some p) by (rewrite SAME; assumption).
    split.
    + split; cbn.
      * intros k q Hk. apply nth_lupd_inv in Hk as [(-> & -> & _)|[N Hk]]; cbn; [apply LT in Hr; lia | apply LT in Hk; lia].
      * intros k l q z Hk Hl N. apply nth_lupd_inv in Hk as [(-> & -> & _)|[Nk Hk]]; apply nth_lupd_inv in Hl as [(-> & -> & _)|[Nl Hl]]; cbn.
        -- congruence.
        -- exact (NE _ l r z Hr Hl N).
        -- exact (NE k _ q r Hk Hr N).
        -- eapply NE; eassumption.
    + eexists; split; [reflexivity|]. rewrite <- VR.
      replace (views h) with (firstn (length (objs h)) (views h1)).
      2:{ rewrite V1, firstn_app. unfold views; rewrite map_length, Nat.sub_diag; cbn. rewrite app_nil_r.
          apply firstn_all2; rewrite map_length; lia. }
      apply list_ext; intros k. rewrite views_nth; cbn [objs put_dict put_obj].
      assert (LF : length (firstn (length (objs h)) (views h1)) = length (objs h)).
      { rewrite firstn_length; unfold views; rewrite map_length; lia. }
      destruct (Nat.lt_trichotomy k (length (objs h))) as [L|[->|G]].
      * rewrite nth_lupd_ne by lia. rewrite nth_error_app1 by lia.
        assert (FN : forall (l : list (coll E)) n k, k < n -> nth_error (firstn n l) k = nth_error l k).
        { clear. induction l as [|x l IH]; intros [|n] [|k] L; cbn; try lia; auto. apply IH; lia. }
        rewrite FN by assumption. rewrite views_nth. destruct (nth_error (objs h1) k) as [q|] eqn:Hk; [|reflexivity].
        cbn. assert (N : length (objs h) <> k) by lia. destruct (NE _ _ _ _ Hr Hk N) as (A1 & B1 & C1).
        unfold view; cbn. rewrite !fupd_ne by congruence; reflexivity.
      * erewrite nth_lupd_eq by eassumption. rewrite nth_error_app2 by lia. rewrite LF, Nat.sub_diag.
        cbn. unfold view; cbn. rewrite !fupd_eq.
        assert (DP : dicts h1 (o_errs p) = dicts h (o_errs p)).
        { assert (X : nth_error (views h1) j = nth_error (views h) j).
          { rewrite V1, nth_error_app1; [reflexivity | unfold views; rewrite map_length; assumption]. }
          rewrite !views_nth, Hj1, Hj in X; cbn [option_map] in X. assert (Y : cerrors (view h1 p) = cerrors (view h p)) by congruence. exact Y. }
        rewrite DP; reflexivity.
      * rewrite !(proj2 (nth_error_None _ _)); [reflexivity| |].
        -- rewrite app_length, LF; cbn; lia.
        -- rewrite length_lupd; lia.
  - split; [assumption|]. eexists; split; [reflexivity|]. assumption.
Qed.
Lemma binary_exn f nm i j o p (h : heap) e : Sep h -> nth_error (objs h) i = Some o -> nth_error (objs h) j = Some p ->
  h_binary f nm o p h = Raise e -> binary f nm (view h o) (view h p) = Raise e.
Proof.
  intros S Hi Hj H. unfold h_binary in H. unfold binary; cbn [members view cname].
  destruct (h_new _ _ h) as [h1|e'] eqn:Q; cbn [bind] in H.
  - destruct (new_ok _ _ _ _ S Q) as (S1 & c & FC & V1 & LEN & SAME).
    destruct (nth_error (objs h1) (length (objs h))) as [r|] eqn:Hr.
    + destruct (o_bad p || o_bad o); discriminate.
    + apply nth_error_None in Hr; lia.
  - inversion H; subst. apply new_exn in Q. rewrite Q; reflexivity.
Qed.

Lemma exec_sim c (h : heap) : Sep h -> Sep (exec' c h) /\ views (exec' c h) = vexec' c (views h).
Proof.
  intros S. unfold exec', vexec'. destruct c as [l name|i|i x|i x|i|i|s i j|s i j]; cbn [exec vexec].
  - destruct (h_new (Reiterable l) name h) as [h'|e] eqn:Q.
    + destruct (new_ok _ _ _ _ S Q) as (S1 & c & FC & V1 & _). rewrite FC; cbn [bind]. auto.
    + apply new_exn in Q; rewrite Q; auto.
  - rewrite views_nth. destruct (nth_error (objs h) i) as [o|] eqn:Hi; cbn; [apply copy_ok; assumption | auto].
  - rewrite views_nth. destruct (nth_error (objs h) i) as [o|] eqn:Hi; cbn; [|auto].
    destruct (h_add o x h) as [h'|e] eqn:Q.
    + destruct (add_ok _ _ _ _ _ S Hi Q) as (S1 & c & A & V). rewrite A; auto.
    + apply add_exn in Q; rewrite Q; auto.
  - rewrite views_nth. destruct (nth_error (objs h) i) as [o|] eqn:Hi; cbn; [apply discard_ok; assumption | auto].
  - rewrite views_nth. destruct (nth_error (objs h) i) as [o|] eqn:Hi; cbn; [apply clear_ok; assumption | auto].
  - rewrite views_nth. destruct (nth_error (objs h) i) as [o|] eqn:Hi; cbn [option_map]; [apply dropBad_ok; assumption | auto].
  - rewrite !views_nth. destruct (nth_error (objs h) i) as [o|] eqn:Hi; cbn [option_map]; [|auto].
    destruct (nth_error (objs h) j) as [p|] eqn:Hj; cbn [option_map]; [|auto].
    apply inplace_ok with (j := j); assumption.
  - rewrite !views_nth. destruct (nth_error (objs h) i) as [o|] eqn:Hi; cbn [option_map]; [|auto].
    destruct (nth_error (objs h) j) as [p|] eqn:Hj; cbn [option_map]; [|auto].
    destruct (h_binary (fun_of s) (bname s) o p h) as [h'|e] eqn:Q.
    + destruct (binary_sim _ _ _ _ _ _ _ _ S Hi Hj Q) as (S1 & c & A & V). rewrite A; auto.
    + rewrite (binary_exn _ _ _ _ _ _ _ _ S Hi Hj Q); auto.
Qed.

Lemma run_sim cs (h : heap) : Sep h -> Sep (run cs h) /\ views (run cs h) = vrun cs (views h).
Proof.
  unfold run, vrun; revert h; induction cs as [|c cs IH]; intros h S; cbn [fold_left]; [auto|].
  destruct (exec_sim c h S) as [S1 V1]. rewrite <- V1. apply IH; assumption.
Qed.

Lemma vexec_other c vs i v : nth_error vs i = Some v -> ~ In i (targets c) -> nth_error (vexec' c vs) i = Some v.
Proof.
  intros Hi N. assert (L := nth_lt _ _ _ Hi).
  unfold vexec'; destruct c as [l name|k|k x|k x|k|k|s k j|s k j]; cbn [vexec targets In] in *.
  - destruct (from_iterable (Reiterable l) name); cbn [bind]; [rewrite nth_error_app1|]; assumption.
  - destruct (nth_error vs k); [rewrite nth_error_app1|]; assumption.
  - destruct (nth_error vs k) as [w|]; [|assumption]. destruct (coll_add x w); cbn [bind]; [|assumption].
    rewrite nth_lupd_ne; [assumption|intuition].
  - destruct (nth_error vs k) as [w|]; [|assumption]. rewrite nth_lupd_ne; [assumption|intuition].
  - destruct (nth_error vs k) as [w|]; [|assumption]. rewrite nth_lupd_ne; [assumption|intuition].
  - destruct (nth_error vs k) as [w|]; [|assumption]. rewrite nth_lupd_ne; [assumption|intuition].
  - destruct (nth_error vs k) as [w|]; [|assumption]. destruct (nth_error vs j) as [z|]; [|assumption].
    rewrite nth_lupd_ne; [assumption|intuition].
  - destruct (nth_error vs k) as [w|]; [|assumption]. destruct (nth_error vs j) as [z|]; [|assumption].
    destruct (binary (fun_of s) (bname s) w z); cbn [bind]; [rewrite nth_error_app1|]; assumption.
Qed.

Lemma isolation cs (h : heap) i v : Sep h -> nth_error (views h) i = Some v ->
  (forall c, In c cs -> ~ In i (targets c)) -> nth_error (views (run cs h)) i = Some v.
Proof.
  intros S Hi N. destruct (run_sim cs h S) as [_ ->]. unfold vrun. revert Hi. generalize (views h).
  induction cs as [|c cs IH]; intros vs Hi; cbn [fold_left]; [assumption|].
  apply IH; [intros c' I; apply N; right; assumption|].
  apply vexec_other; [assumption | apply N; left; reflexivity].
Qed.
End P.
