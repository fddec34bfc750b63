(** Proofs about WriteFileModel. *)
From Coq Require Import List ZArith Lia Bool Arith.
From Coq Require Import String.
From Verif Require Import Base PyStr FileModel FileProofs WriteFileModel WriteFileSpec.
From Verif Require WosModel MedlineModel ProQuestModel ScopusModel.
Import ListNotations.
Local Open Scope list_scope.

(** ** The disk *)
Lemma dset_twice {V} (f : str) (a b : V) d : dset f b (dset f a d) = dset f b d.
Proof.
  induction d as [|[k v] d IH]; cbn [dset]; [rewrite eqb_refl; reflexivity|]. destruct (eqb f k) eqn:E; cbn [dset]; rewrite E; [reflexivity|]. now rewrite IH.
Qed.
Lemma run_puts f d bs : forall o, run (dset f o d) (map (Put f) bs) = dset f (o ++ concat bs) d.
Proof.
  induction bs as [|b bs IH]; intros o; cbn [map concat]; [now rewrite app_nil_r|]. unfold run in *. cbn [fold_left happen]. rewrite dget_dset_same, dset_twice, IH, app_assoc. reflexivity.
Qed.
Lemma run_write f d bs : run d (Open f :: map (Put f) bs) = dset f (concat bs) d.
Proof. unfold run. cbn [fold_left happen]. apply (run_puts f d bs []). Qed.
Lemma split_map (A B : Type) (g : A -> B) l : forall x y, map g l = x ++ y -> exists u v, l = u ++ v /\ x = map g u /\ y = map g v.
Proof.
  induction l as [|a l IH]; intros x y E.
  - destruct x; [|discriminate]. cbn in E. subst. exists [], []. auto.
  - destruct x as [|z x]; cbn in E.
    + subst. exists [], (a :: l). auto.
    + injection E as <- E. destruct (IH _ _ E) as (u & v & -> & -> & ->). exists (a :: u), v. auto.
Qed.
Lemma seen_write f d bs d' : seen d (Open f :: map (Put f) bs) d' -> d' = d \/ exists b1 b2, concat bs = b1 ++ b2 /\ d' = dset f b1 d.
Proof.
  intros (x & y & E & H). destruct x as [|e x].
  - cbn in E. destruct H as [->|(g & b1 & b2 & z & Q & _)]; [left; reflexivity|]. subst. discriminate.
  - right. injection E as <- E. destruct (split_map _ _ _ _ _ _ E) as (u & v & -> & -> & ->). destruct H as [->|(g & b1 & b2 & z & Q & ->)].
    + exists (concat u), (concat v). rewrite <- concat_app. split; [reflexivity|apply run_write].
    + destruct v as [|w v]; [discriminate|]. cbn in Q. injection Q as <- -> _. exists (concat u ++ b1), (b2 ++ concat v). split; [rewrite concat_app; cbn [concat]; rewrite <- !app_assoc; reflexivity|].
      replace ((Open f :: map (Put f) u) ++ [Put f b1]) with (Open f :: map (Put f) (u ++ [b1])) by (rewrite map_app; reflexivity).
      rewrite run_write, concat_app. cbn [concat]. rewrite app_nil_r. reflexivity.
Qed.

(** ** Texts in parts *)
Lemma encode_app c s t : encode c (s ++ t) = (let* a := encode c s in let* b := encode c t in Ok (a ++ b)).
Proof.
  destruct c; cbn [encode].
  - unfold utf8_encode. rewrite existsb_app, flat_map_app. destruct (existsb no_code s), (existsb no_code t); reflexivity.
  - unfold latin_encode. assert (Q : forallb (fun c : N => (c <? 256)%N) (s ++ t) = forallb (fun c : N => (c <? 256)%N) s && forallb (fun c : N => (c <? 256)%N) t) by apply forallb_app.
    unfold str, char in *. rewrite Q. destruct (forallb (fun c : N => (c <? 256)%N) s), (forallb (fun c : N => (c <? 256)%N) t); reflexivity.
Qed.
Lemma encode_nil c : encode c [] = Ok [].
Proof. destruct c; reflexivity. Qed.
Lemma encode_raise c s e : encode c s = Raise e -> e = ValueError.
Proof. destruct c; cbn [encode]; unfold utf8_encode, latin_encode; match goal with |- context [if ?x then _ else _] => destruct x end; congruence. Qed.
Lemma encode_all_spec c ps :
  match encode_all c ps with
  | (bs, None) => encode c (concat ps) = Ok (concat bs)
  | (bs, Some e) => e = ValueError /\ exists q1 q2, ps = q1 ++ q2 /\ encode c (concat q1) = Ok (concat bs) /\ (exists e', encode c (concat ps) = Raise e')
  end.
Proof.
  induction ps as [|p ps IH]; cbn [encode_all]; [apply encode_nil|]. destruct (encode c p) as [b|e] eqn:E.
  - destruct (encode_all c ps) as [bs [e|]].
    + destruct IH as (-> & q1 & q2 & -> & Q & e' & R). split; [reflexivity|]. exists (p :: q1), q2. split; [reflexivity|].
      split; [cbn [concat]; rewrite encode_app, E, Q; reflexivity|]. exists e'. change (concat (p :: q1 ++ q2)) with (p ++ concat (q1 ++ q2)). rewrite encode_app, E, R. reflexivity.
    + cbn [concat]. rewrite encode_app, E, IH. reflexivity.
  - split; [eapply encode_raise; exact E|]. exists [], (p :: ps). split; [reflexivity|]. split; [apply encode_nil|]. exists e. cbn [concat]. rewrite encode_app, E. reflexivity.
Qed.
Lemma wos_text d : concat (wos_writes d) = WosModel.write_fields d.
Proof.
  unfold wos_writes, WosModel.write_fields. rewrite concat_app. f_equal.
  induction d as [|[t vs] d IH]; [reflexivity|]. cbn [flat_map map concat]. rewrite concat_app, IH. f_equal. unfold WosModel.write_field. cbn [fst snd]. destruct vs as [|v vs]; [reflexivity|].
  cbn [concat]. rewrite <- !app_assoc. do 4 f_equal. induction vs as [|w vs IV]; [reflexivity|]. cbn [flat_map map concat app]. rewrite IV. cbn [app]. rewrite <- !app_assoc. reflexivity.
Qed.
Lemma medline_text d : concat (medline_writes d) = MedlineModel.write_medline d.
Proof.
  unfold medline_writes, MedlineModel.write_medline. generalize (MedlineModel.author_lines d). intros al.
  induction d as [|[t vs] d IH]; [reflexivity|]. cbn [flat_map map concat fst snd]. rewrite concat_app, IH. f_equal. destruct (mem t MedlineModel.author_tags); [reflexivity|].
  induction vs as [|v vs IV]; [reflexivity|]. cbn [flat_map map concat]. rewrite concat_app, IV. cbn [concat]. rewrite <- !app_assoc. f_equal. destruct (eqb t $"AU"); reflexivity.
Qed.
Lemma record_writes_spec r : match record_writes r with (p, None) => has_text r (concat p) | (p, Some e) => p = [] /\ text_of r = Raise e end.
Proof.
  unfold has_text. destruct r as [r|r|r|r]; cbn [record_writes text_of].
  - unfold WosModel.write_record. destruct (WosModel.wbad r); [auto|now rewrite wos_text].
  - unfold MedlineModel.write_mrec. destruct (MedlineModel.mbad r); [auto|now rewrite medline_text].
  - auto.
  - unfold ScopusModel.write_srec. destruct (ScopusModel.sbad r); [auto|]. cbn [concat]. now rewrite app_nil_r.
Qed.
Lemma all_writes_spec rs :
  match all_writes rs with
  | (p, None) => exists ts, Forall2 has_text rs ts /\ concat p = body ts
  | (p, Some e) => exists before r after ts, rs = before ++ r :: after /\ Forall2 has_text before ts /\ text_of r = Raise e /\ concat p = body ts
  end.
Proof.
  induction rs as [|r rs IH]; cbn [all_writes]; [exists []; split; [constructor|reflexivity]|].
  pose proof (record_writes_spec r) as R. destruct (record_writes r) as [p [e|]].
  - destruct R as [-> R]. exists [], r, rs, []. repeat split; [constructor|exact R].
  - destruct (all_writes rs) as [q [e|]].
    + destruct IH as (b & r' & a & ts & -> & F & T & C). exists (r :: b), r', a, (concat p :: ts). split; [reflexivity|]. split; [constructor; assumption|]. split; [exact T|].
      rewrite concat_app. cbn [concat]. rewrite C. unfold body. cbn [map concat]. rewrite <- app_assoc. reflexivity.
    + destruct IH as (ts & F & C). exists (concat p :: ts). split; [constructor; assumption|]. rewrite concat_app. cbn [concat]. rewrite C. unfold body. cbn [map concat]. rewrite <- app_assoc. reflexivity.
Qed.
Lemma head_text types : concat (head_writes types) = first_lines types.
Proof.
  unfold head_writes, first_lines. destruct (eqb types _); [vm_compute; reflexivity|]. destruct (eqb types _); [reflexivity|]. destruct (eqb types _); [cbn [concat]; now rewrite app_nil_r|reflexivity].
Qed.
Lemma foot_text types : concat (foot_writes types) = last_line types.
Proof. unfold foot_writes, last_line. destruct (eqb types _); reflexivity. Qed.
Lemma file_writes_spec types rs :
  match file_writes types rs with
  | (p, None) => exists ts, Forall2 has_text rs ts /\ concat p = first_lines types ++ body ts ++ last_line types
  | (p, Some e) => exists before r after ts, rs = before ++ r :: after /\ Forall2 has_text before ts /\ text_of r = Raise e /\ concat p = first_lines types ++ body ts
  end.
Proof.
  unfold file_writes. pose proof (all_writes_spec rs) as A. destruct (all_writes rs) as [p [e|]].
  - destruct A as (b & r & a & ts & E & F & T & C). exists b, r, a, ts. repeat split; auto. rewrite app_nil_r, concat_app, head_text, C. reflexivity.
  - destruct A as (ts & F & C). exists ts. split; [exact F|]. rewrite !concat_app, head_text, foot_text, C. reflexivity.
Qed.
Lemma texts_unique rs ts ts' : Forall2 has_text rs ts -> Forall2 has_text rs ts' -> ts = ts'.
Proof.
  intros F. revert ts'. induction F as [|r t rs ts H F IH]; intros ts' G; inversion G as [|r' t' rs' ts'' H' G']; subst; [reflexivity|]. f_equal; [unfold has_text in *; congruence|apply IH; exact G'].
Qed.
Lemma codec_spec types rs c : (if length types <? 2 then option_map rec_codec (hd_error rs) else Some Utf8) = Some c <-> codec_for types rs c.
Proof.
  unfold codec_for. destruct (length types <? 2) eqn:L.
  - apply Nat.ltb_lt in L. destruct rs as [|r rs]; cbn; split.
    + discriminate.
    + intros [[H _]|(_ & r & rs' & E & _)]; [lia|discriminate].
    + intros Q. injection Q as <-. right. split; [exact L|]. exists r, rs. auto.
    + intros [[H _]|(_ & r' & rs' & E & ->)]; [lia|]. injection E as <- _. reflexivity.
  - apply Nat.ltb_ge in L. split.
    + intros Q. injection Q as <-. left. auto.
    + intros [[_ ->]|[H _]]; [reflexivity|lia].
Qed.
