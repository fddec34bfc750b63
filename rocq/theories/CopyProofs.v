(** Proofs about copies of records. *)
From Coq Require Import List ZArith Lia Bool Arith.
From Coq Require Import String.
From Verif Require Import Base TagNames CopyModel.
Import ListNotations.
Local Open Scope list_scope.

Lemma put_length {A} (x : A) : forall l n, length (put n x l) = length l.
Proof. induction l as [|y l IH]; intros [|n]; cbn; auto. Qed.
Lemma put_same {A} (x y : A) : forall l n, nth_error l n = Some y -> nth_error (put n x l) n = Some x.
Proof. induction l as [|z l IH]; intros [|n] H; cbn in *; try discriminate; auto. Qed.
Lemma put_other {A} (x : A) : forall l n m, n <> m -> nth_error (put n x l) m = nth_error l m.
Proof. induction l as [|z l IH]; intros [|n] [|m] H; cbn; auto; congruence. Qed.
Lemma nth_app_old {A} (l m : list A) n x : nth_error l n = Some x -> nth_error (l ++ m) n = Some x.
Proof. intros H. rewrite nth_error_app1; [exact H|]. apply nth_error_Some. congruence. Qed.
Lemma nth_app_new {A} (l : list A) x : nth_error (l ++ [x]) (length l) = Some x.
Proof. rewrite nth_error_app2 by lia. rewrite Nat.sub_diag. reflexivity. Qed.
Lemma nth_lt {A} (l : list A) n x : nth_error l n = Some x -> n < length l.
Proof. intros H. apply nth_error_Some. congruence. Qed.

Section Numbered.
Context {V : Type}.
Lemma numbered_get t : forall (fd : dict str V) m, match dget t (numbered m fd) with
  | Some l => exists v, dget t fd = Some v /\ m <= l /\ nth_error (map snd fd) (l - m) = Some v
  | None => dget t fd = None
  end.
Proof.
  induction fd as [|[u v] fd IH]; intros m; cbn [numbered dget]; [reflexivity|]. destruct (eqb t u).
  - exists v. rewrite Nat.sub_diag. cbn. auto.
  - specialize (IH (S m)). destruct (dget t (numbered (S m) fd)) as [l|]; [|exact IH]. destruct IH as (x & A & B & C). exists x. split; [exact A|]. split; [lia|]. replace (l - m) with (S (l - S m)) by lia. exact C.
Qed.
Lemma numbered_contents (h : list V) : forall (fd : dict str V) m, (forall i v, nth_error (map snd fd) i = Some v -> nth_error h (m + i) = Some v) ->
  flat_map (fun e : str * nat => match nth_error h (snd e) with Some v => [(fst e, v)] | None => [] end) (numbered m fd) = fd.
Proof.
  induction fd as [|[u v] fd IH]; intros m H; cbn [numbered flat_map]; [reflexivity|]. cbn [fst snd]. rewrite (H 0 v eq_refl : nth_error h (m + 0) = Some v) || (pose proof (H 0 v eq_refl) as X; rewrite Nat.add_0_r in X; rewrite X).
  cbn [app]. f_equal. apply IH. intros i x E. specialize (H (S i) x E). replace (S m + i) with (m + S i) by lia. exact H.
Qed.
End Numbered.

Section Proofs.
Context {V : Type}.
Variable k : kind V.
Hypothesis RM : remembers k = true.
Hypothesis back : forall x a, altname k x = Some a -> altname k a = Some x.
Hypothesis lone : forall x, special k x <> None -> altname k x = None.
Variable fd : dict str V.
Hypothesis one : forall x y, In x (dkeys fd) -> In y (dkeys fd) -> altname k x = Some y -> x = y.
Variable r : nat.
Notation n := (length fd).
(** the pure lookup *)
Definition field_of (key : str) : option (str * V) :=
  match dget key fd with
  | Some v => Some (key, v)
  | None => match altname k key with Some a => match dget a fd with Some v => Some (a, v) | None => None end | None => None end
  end.
Definition value (key : str) : option V :=
  match field_of key with
  | Some (t, v) => match func k t with None => Some v | Some f => Some (f v) end
  | None => match special k key with Some f => f fd | None => None end
  end.
Definition is_new (key : str) : bool :=
  match field_of key with Some (t, _) => match func k t with None => false | Some _ => true end | None => true end.
Lemma field_again key t v : field_of key = Some (t, v) -> field_of t = Some (t, v) /\ forall a, altname k t = Some a -> field_of a = Some (t, v).
Proof.
  intros H. assert (D : dget t fd = Some v).
  { unfold field_of in H. destruct (dget key fd) eqn:E; [congruence|]. destruct (altname k key); [|discriminate]. destruct (dget s fd) eqn:E2; [congruence|discriminate]. }
  split; [unfold field_of; rewrite D; reflexivity|]. intros a A. unfold field_of. destruct (dget a fd) as [x|] eqn:E.
  - assert (a = t) by (symmetry; apply one; [eapply dget_Some_key; exact D|eapply dget_Some_key; exact E|exact A]). congruence.
  - rewrite (back _ _ A), D. reflexivity.
Qed.
Record inv (own : nat -> nat) (w : world V) (done : list (call V)) : Prop := {
  iraw : forall l, l < n -> nth_error (heap w) l = nth_error (map snd fd) l;
  ilen : n <= length (heap w);
  ifld : forall q o, nth_error (objs w) q = Some o -> fields o = numbered 0 fd;
  icmp : forall q o key l, nth_error (objs w) q = Some o -> dget key (computed o) = Some l ->
           l < length (heap w) /\ (if is_new key then n <= l /\ own l = q else l < n) /\ (q = r -> nth_error (heap w) l = value key);
  igvl : length (given w) = length done;
  igvn : forall i l q key, nth_error (given w) i = Some (Some l) -> nth_error done i = Some (Get q key) -> is_new key = true -> n <= l /\ own l = q;
  igvs : forall i l, nth_error (given w) i = Some (Some l) -> l < length (heap w) }.
Lemma stands own w done q o key : inv own w done -> nth_error (objs w) q = Some o ->
  match stands_for k o key with
  | Some (t, l) => exists v, field_of key = Some (t, v) /\ l < n /\ nth_error (heap w) l = Some v
  | None => field_of key = None
  end.
Proof.
  intros I1 N. unfold stands_for, field_of. rewrite (ifld _ _ _ I1 _ _ N).
  assert (G : forall t, match dget t (numbered 0 fd) with Some l => exists v, dget t fd = Some v /\ l < n /\ nth_error (heap w) l = Some v | None => dget t fd = None end).
  { intros t. pose proof (numbered_get t fd 0) as H. destruct (dget t (numbered 0 fd)) as [l|]; [|exact H]. destruct H as (v & A & _ & B). rewrite Nat.sub_0_r in B. exists v. split; [exact A|]. assert (L : l < n) by (rewrite <- (map_length snd fd); eapply nth_lt; exact B). split; [exact L|]. rewrite (iraw _ _ _ I1 l L). exact B. }
  pose proof (G key) as GK. destruct (dget key (numbered 0 fd)) as [l|].
  - destruct GK as (v & A & B). exists v. rewrite A. auto.
  - rewrite GK. destruct (altname k key) as [a|]; [|reflexivity]. pose proof (G a) as GA. destruct (dget a (numbered 0 fd)) as [l|].
    + destruct GA as (v & A & B). exists v. rewrite A. auto.
    + rewrite GA. reflexivity.
Qed.
Lemma contents_fd own w done q o : inv own w done -> nth_error (objs w) q = Some o -> contents w o = fd.
Proof.
  intros I1 N. unfold contents. rewrite (ifld _ _ _ I1 _ _ N). apply numbered_contents. intros i v E. cbn [Nat.add]. rewrite (iraw _ _ _ I1); [exact E|]. rewrite <- (map_length snd fd). eapply nth_lt. exact E.
Qed.
(** remembering l under key, whose other name means the same *)
Lemma remembered own w done q o key l h own' :
  inv own w done -> nth_error (objs w) q = Some o ->
  (length (heap w) <= length h) -> (forall m, m < length (heap w) -> nth_error h m = nth_error (heap w) m /\ own' m = own m) ->
  l < length h -> (if is_new key then n <= l /\ own' l = q else l < n) -> nth_error h l = value key ->
  (forall a, altname k key = Some a -> value a = value key /\ is_new a = is_new key) ->
  inv own' (mkWorld h (put q (remember k key l o) (objs w)) (given w)) done.
Proof.
  intros I1 N LE OLD L NW VL AL. assert (ND : forall x, dget x (computed (remember k key l o)) = Some l /\ (x = key \/ altname k key = Some x) \/ dget x (computed (remember k key l o)) = dget x (computed o)).
  { intros x. unfold remember. rewrite RM. cbn [computed]. destruct (altname k key) as [a|] eqn:A.
    - rewrite !dget_dset. destruct (eqb_spec x a) as [->|]; [left; auto|]. destruct (eqb_spec x key) as [->|]; [left; auto|right; reflexivity].
    - rewrite dget_dset. destruct (eqb_spec x key) as [->|]; [left; auto|right; reflexivity]. }
  constructor; cbn [heap objs given].
  - intros m M. rewrite (proj1 (OLD m ltac:(pose proof (ilen _ _ _ I1); lia))). apply (iraw _ _ _ I1 m M).
  - pose proof (ilen _ _ _ I1). lia.
  - intros p o' NP. destruct (Nat.eq_dec q p) as [<-|NE]; [rewrite (put_same _ _ _ _ N) in NP; injection NP as <-; unfold remember; rewrite RM; cbn [fields]; apply (ifld _ _ _ I1 _ _ N)|rewrite put_other in NP by exact NE; apply (ifld _ _ _ I1 _ _ NP)].
  - intros p o' x m NP D. destruct (Nat.eq_dec q p) as [<-|NE].
    + rewrite (put_same _ _ _ _ N) in NP. injection NP as <-. destruct (ND x) as [[E X]|E]; rewrite E in D.
      * injection D as <-. assert (VX : value x = value key /\ is_new x = is_new key) by (destruct X as [->|X]; [auto|apply AL, X]). destruct VX as [VX NX]. rewrite VX, NX. auto.
      * destruct (icmp _ _ _ I1 _ _ _ _ N D) as (A & B & C). destruct (OLD m A) as [O1 O2]. split; [lia|]. split; [rewrite O2; exact B|]. intros Q. rewrite O1. apply C, Q.
    + rewrite put_other in NP by exact NE. destruct (icmp _ _ _ I1 _ _ _ _ NP D) as (A & B & C). destruct (OLD m A) as [O1 O2]. split; [lia|]. split; [rewrite O2; exact B|]. intros Q. rewrite O1. apply C, Q.
  - apply (igvl _ _ _ I1).
  - intros i m p x G D NX. pose proof (igvs _ _ _ I1 i m G) as LT. rewrite (proj2 (OLD m LT)). apply (igvn _ _ _ I1 i m p x G D NX).
  - intros i m G. pose proof (igvs _ _ _ I1 i m G) as LT. lia.
Qed.
Lemma get_inv own w done q key : inv own w done ->
  exists own', inv own' (fst (getitem k w q key)) done /\
    match snd (getitem k w q key) with
    | Some l => l < length (heap (fst (getitem k w q key))) /\ (is_new key = true -> n <= l /\ own' l = q) /\ (q = r -> nth_error (heap (fst (getitem k w q key))) l = value key)
    | None => q < length (objs w) -> value key = None
    end.
Proof.
  intros I1. unfold getitem. rewrite RM. destruct (nth_error (objs w) q) as [o|] eqn:N; [|exists own; split; [exact I1|]; cbn [snd]; intros L; apply nth_error_Some in L; congruence].
  destruct (dget key (computed o)) as [l|] eqn:D.
  { exists own. cbn [fst snd]. split; [exact I1|]. destruct (icmp _ _ _ I1 _ _ _ _ N D) as (A & B & C). split; [exact A|]. split; [intros NX; rewrite NX in B; exact B|exact C]. }
  pose proof (stands own w done q o key I1 N) as ST. destruct (stands_for k o key) as [[t l]|] eqn:S1.
  - destruct ST as (v & F & L & HV). destruct (field_again _ _ _ F) as [FT FA].
    assert (AL : forall a, altname k t = Some a -> value a = value t /\ is_new a = is_new t) by (intros a A; unfold value, is_new; rewrite (FA a A), FT; auto).
    assert (VT : value key = value t /\ is_new key = is_new t) by (unfold value, is_new; rewrite F, FT; auto). destruct VT as [VT NT].
    pose proof (ilen _ _ _ I1) as LN. destruct (func k t) as [f|] eqn:FN.
    + rewrite HV. cbn [fst snd]. assert (NEW : is_new t = true) by (unfold is_new; rewrite FT, FN; reflexivity). assert (VV : value t = Some (f v)) by (unfold value; rewrite FT, FN; reflexivity).
      exists (fun m => if m =? length (heap w) then q else own m). cbn [heap]. split.
      * apply (remembered own _ done _ o _ _ _ _ I1 N); auto.
        -- rewrite app_length. cbn. lia.
        -- intros m M. rewrite nth_error_app1 by exact M. destruct (Nat.eqb_spec m (length (heap w))); [lia|]. auto.
        -- rewrite app_length. cbn. lia.
        -- rewrite NEW, Nat.eqb_refl. auto.
        -- rewrite nth_app_new, VV. reflexivity.
      * rewrite app_length. cbn [length]. split; [lia|]. split; [intros _; rewrite Nat.eqb_refl; auto|]. intros _. rewrite nth_app_new, VT, VV. reflexivity.
    + cbn [fst snd heap]. assert (NEW : is_new t = false) by (unfold is_new; rewrite FT, FN; reflexivity). assert (VV : value t = Some v) by (unfold value; rewrite FT, FN; reflexivity).
      exists own. split.
      * apply (remembered own _ done _ o _ _ _ _ I1 N); auto; [lia|rewrite NEW; exact L|congruence].
      * split; [lia|]. split; [intros X; congruence|]. intros _. congruence.
  - assert (VK : value key = match special k key with Some f => f fd | None => None end) by (unfold value; rewrite ST; reflexivity). assert (NEW : is_new key = true) by (unfold is_new; rewrite ST; reflexivity).
    destruct (special k key) as [f|] eqn:SP; [|exists own; cbn [fst snd]; auto]. rewrite (contents_fd own w done q o I1 N). destruct (f fd) as [v|] eqn:FV; [|exists own; cbn [fst snd]; auto].
    cbn [fst snd]. pose proof (ilen _ _ _ I1) as LN. assert (NA : altname k key = None) by (apply lone; congruence).
    exists (fun m => if m =? length (heap w) then q else own m). cbn [heap]. split.
    * apply (remembered own _ done _ o _ _ _ _ I1 N); auto.
      -- rewrite app_length. cbn. lia.
      -- intros m M. rewrite nth_error_app1 by exact M. destruct (Nat.eqb_spec m (length (heap w))); [lia|]. auto.
      -- rewrite app_length. cbn. lia.
      -- rewrite NEW, Nat.eqb_refl. auto.
      -- rewrite nth_app_new, VK. reflexivity.
      -- intros a A. congruence.
    * rewrite app_length. cbn [length]. split; [lia|]. split; [intros _; rewrite Nat.eqb_refl; auto|]. intros _. rewrite nth_app_new, VK. reflexivity.
Qed.
(** one more call *)
Definition quiet (done : list (call V)) (c : call V) : Prop :=
  match c with
  | Copy _ | Get _ _ | Raw _ _ => True
  | Change i v => i < length done -> exists q key, nth_error done i = Some (Get q key) /\ q <> r /\ is_new key = true
  | _ => False
  end.
Lemma given_more own w done c x : inv own w done ->
  match x with Some l => l < length (heap w) /\ (forall q key, c = Get q key -> is_new key = true -> n <= l /\ own l = q) | None => True end ->
  inv own (returns (w, x)) (done ++ [c]).
Proof.
  intros I1 X. unfold returns. cbn [fst snd]. constructor; cbn [heap objs given]; try apply I1.
  - rewrite !app_length, (igvl _ _ _ I1). reflexivity.
  - intros i l q key G D NW. pose proof (igvl _ _ _ I1) as LG. destruct (Nat.lt_ge_cases i (length done)) as [LT|GE].
    + rewrite nth_error_app1 in G by lia. rewrite nth_error_app1 in D by lia. eapply (igvn _ _ _ I1); eassumption.
    + rewrite nth_error_app2 in G by lia. rewrite nth_error_app2 in D by lia. rewrite LG in G. destruct (i - length done) as [|m]; [|destruct m; discriminate]. cbn in G, D. injection G as ->. injection D as ->. destruct X as [_ X]. apply (X q key eq_refl NW).
  - intros i l G. pose proof (igvl _ _ _ I1) as LG. destruct (Nat.lt_ge_cases i (length (given w))) as [LT|GE]; [rewrite nth_error_app1 in G by lia; eapply (igvs _ _ _ I1); exact G|].
    rewrite nth_error_app2 in G by lia. destruct (i - length (given w)) as [|m]; [|destruct m; discriminate]. cbn in G. injection G as ->. apply X.
Qed.
Lemma step_inv own w done c : inv own w done -> quiet done c -> exists own', inv own' (step k w c) (done ++ [c]).
Proof.
  intros I1 Q. destruct c as [q|q key|q key|i v|q key v|q key|q p]; try (destruct Q; fail); cbn [step].
  - exists own. apply given_more; [|exact I]. destruct (nth_error (objs w) q) as [o|] eqn:N; [|exact I1]. pose proof (ifld _ _ _ I1 _ _ N) as FO.
    assert (OB : forall p o', nth_error (objs w ++ [mkObj (fields o) []]) p = Some o' -> nth_error (objs w) p = Some o' \/ o' = mkObj (fields o) []).
    { intros p o' NP. destruct (Nat.lt_ge_cases p (length (objs w))) as [LT|GE]; [rewrite nth_error_app1 in NP by lia; auto|]. rewrite nth_error_app2 in NP by lia. destruct (p - length (objs w)) as [|m]; [|destruct m; discriminate]. cbn in NP. injection NP as <-. auto. }
    constructor; cbn [heap objs given]; try apply I1.
    + intros p o' NP. destruct (OB p o' NP) as [NP'| ->]; [apply (ifld _ _ _ I1 _ _ NP')|exact FO].
    + intros p o' key l NP D. destruct (OB p o' NP) as [NP'| ->]; [apply (icmp _ _ _ I1 _ _ _ _ NP' D)|discriminate].
  - destruct (get_inv own w done q key I1) as (own' & I2 & R). exists own'. rewrite (surjective_pairing (getitem k w q key)). apply given_more; [exact I2|]. destruct (snd (getitem k w q key)) as [l|]; [|exact I]. destruct R as (A & B & _). split; [exact A|]. intros p x E. injection E as <- <-. exact B.
  - exists own. apply given_more; [exact I1|]. destruct (nth_error (objs w) q) as [o|] eqn:N; [|exact I]. pose proof (stands own w done q o key I1 N) as ST. destruct (stands_for k o key) as [[t l]|]; [|exact I]. destruct ST as (v & _ & L & _). cbn [option_map snd]. pose proof (ilen _ _ _ I1). split; [lia|]. intros p x E. discriminate.
  - exists own. apply given_more; [|exact I]. destruct (nth_error (given w) i) as [[l|]|] eqn:GI; try exact I1. cbn [quiet] in Q. rewrite <- (igvl _ _ _ I1) in Q. destruct (Q (nth_lt _ _ _ GI)) as (q & key & G & NR & NW). destruct (igvn _ _ _ I1 _ _ _ _ GI G NW) as [LN OW].
    constructor; cbn [heap objs given]; try apply I1.
    + intros m M. rewrite put_other by lia. apply (iraw _ _ _ I1 m M).
    + rewrite put_length. apply I1.
    + intros p o key' m NP D. rewrite put_length. destruct (icmp _ _ _ I1 _ _ _ _ NP D) as (A & B & C). split; [exact A|]. split; [exact B|]. intros ->. rewrite put_other; [apply C; reflexivity|]. intros <-. destruct (is_new key'); [destruct B; congruence|lia].
    + intros j m GJ. rewrite put_length. apply (igvs _ _ _ I1 j m GJ).
Qed.
Lemma fresh_inv : inv (fun _ => 0) (fresh fd) [].
Proof.
  unfold fresh. constructor; cbn [heap objs given].
  - reflexivity.
  - rewrite map_length. lia.
  - intros [|q] o N; cbn in N; [injection N as <-; reflexivity|destruct q; discriminate].
  - intros [|q] o key l N; cbn in N; [injection N as <-; discriminate|destruct q; discriminate].
  - reflexivity.
  - intros [|i]; discriminate.
  - intros [|i]; discriminate.
Qed.
Lemma run_inv cs : forall done own w, inv own w done -> (forall i c, nth_error cs i = Some c -> quiet (done ++ firstn i cs) c) -> exists own', inv own' (run k cs w) (done ++ cs).
Proof.
  induction cs as [|c cs IH]; intros done own w I1 Q; [exists own; rewrite app_nil_r; exact I1|]. pose proof (Q 0 c eq_refl) as Q0. cbn [firstn] in Q0. rewrite app_nil_r in Q0.
  destruct (step_inv own w done c I1 Q0) as (own1 & I2). cbn [run fold_left]. destruct (IH (done ++ [c]) own1 (step k w c) I2) as (own2 & I3); [|exists own2; rewrite <- app_assoc in I3; exact I3].
  intros i c' N. rewrite <- app_assoc. apply (Q (S i) c' N).
Qed.
Lemma shown_value own w done : inv own w done -> r < length (objs w) -> forall key, shown k w r key = value key.
Proof.
  intros I1 L key. unfold shown. destruct (get_inv own w done r key I1) as (own' & I2 & R). destruct (getitem k w r key) as [w' [l|]]; cbn [fst snd] in R; [apply R; reflexivity|symmetry; apply R, L].
Qed.
Lemma raw_all own w done : inv own w done -> r < length (objs w) -> raw_fields w r = Some fd.
Proof. intros I1 L. unfold raw_fields. destruct (nth_error (objs w) r) as [o|] eqn:N; [|apply nth_error_Some in L; congruence]. cbn [option_map]. rewrite (contents_fd own w done r o I1 N). reflexivity. Qed.
End Proofs.
