From Coq Require Import List ZArith Lia Bool Arith.
From Coq Require Import String.
From Verif Require Import Base IdentityModel IdentitySpec.
Import ListNotations.
Local Open Scope list_scope.

Section Facts.
Context {V : Type}.
Variable shown : list V -> str.
Variable hash : str -> Z.
Variable nf : dict str V -> dict str V -> dict str V.
Notation hs := (obj_hash shown hash).
Notation beq := (obj_eq shown hash).
Lemma related_derived c d : related c d <-> derived c d = true \/ derived d c = true.
Proof.
  split.
  - unfold derived. intros [->|[->|[->|[[-> I0]|[-> I0]]]]].
    + left. rewrite eqb_refl. reflexivity.
    + right. apply orb_true_r.
    + left. apply orb_true_r.
    + right. apply orb_true_iff. right. cbn in I0. destruct I0 as [<-|[<-|[<-|[<-|[<-|[<-|[]]]]]]]; reflexivity.
    + left. apply orb_true_iff. right. cbn in I0. destruct I0 as [<-|[<-|[<-|[<-|[<-|[<-|[]]]]]]]; reflexivity.
  - assert (G : forall c, a_grant c = true -> c = GrantC \/ In c [MedlineGC; ScopusGC; NsercC; NsfC; CihrC; FallbackC]) by (intros x; destruct x; cbn; intros H; try discriminate H; tauto).
    unfold derived. intros [H|H]; apply orb_true_iff in H; destruct H as [H|H]; try (apply eqb_eq in H; left; congruence).
    + destruct d; try discriminate H; [right; right; left; reflexivity|]. destruct (G _ H) as [->|I0]; [left; reflexivity|]. do 4 right. auto.
    + destruct c; try discriminate H; [right; left; reflexivity|]. destruct (G _ H) as [->|I0]; [left; reflexivity|]. do 3 right. left. auto.
Qed.
Lemma beq_iff x y : beq x y = true <-> related (o_cls x) (o_cls y) /\ hs x = hs y.
Proof.
  rewrite related_derived. unfold obj_eq, eq_method.
  destruct (derived (o_cls y) (o_cls x)) eqn:A, (derived (o_cls x) (o_cls y)) eqn:B, (eqb (o_cls x) (o_cls y)); cbn [andb negb]; rewrite ?Z.eqb_eq.
  all: split; [intros E|intros [[E|E] E']].
  all: try discriminate E; try congruence; split; auto; congruence.
Qed.
Lemma leaf_related c d : from_files c -> from_files d -> related c d -> c = d.
Proof.
  assert (L : forall x, from_files x -> x <> RecordC /\ x <> GrantC) by (intros x I0; split; intros ->; cbn in I0; repeat destruct I0 as [I0|I0]; try discriminate I0; exact I0).
  intros A B H. apply L in A, B. destruct H as [H|[H|[H|[[H _]|[H _]]]]]; [exact H|exfalso; tauto..].
Qed.

Lemma nth_set_obj r (o : @obj V) l i : nth_error (set_obj r o l) i = if Nat.eqb i r then match nth_error l r with Some _ => Some o | None => None end else nth_error l i.
Proof.
  unfold set_obj. revert r i. induction l as [|x l IH]; intros r i.
  - rewrite firstn_nil, skipn_nil. cbn [app]. destruct (Nat.eqb i r), i, r; reflexivity.
  - destruct r as [|r]; cbn [firstn skipn app].
    + destruct i; reflexivity.
    + destruct i as [|i]; [reflexivity|]. cbn [nth_error Nat.eqb]. apply IH.
Qed.
Section History.
Variable l0 : list (@obj V).
Hypothesis GOOD : forall o, In o l0 -> o_bad o = false.
Hypothesis LEAF : forall o, In o l0 -> from_files (o_cls o).
Hypothesis FREE : forall o p, In o l0 -> In p l0 -> hash (o_id o) = hash (o_id p) -> o_id o = o_id p.
(** what an object is known by *)
Definition face (o : @obj V) := (o_cls o, o_id o, o_bad o).
Definition key (i : nat) : option (cls * str) := option_map (fun o => (o_cls o, o_id o)) (nth_error l0 i).
Definition faces (l : list (@obj V)) : Prop := forall i, option_map face (nth_error l i) = option_map face (nth_error l0 i).
Record Inv (w : @world V) : Prop := mkInv {
  i_objs : faces (w_objs w);
  i_hash : forall h i, In (h, i) (w_set w) -> exists o, nth_error l0 i = Some o /\ h = hash (o_id o);
  i_once : NoDup (map (fun e => key (snd e)) (w_set w)) }.
Lemma same_key i j : same l0 i j = match key i, key j with Some a, Some b => eqb a b | _, _ => false end.
Proof.
  unfold same, key. destruct (nth_error l0 i) as [x|]; [|reflexivity]. cbn [option_map]. destruct (nth_error l0 j) as [y|]; [|reflexivity]. cbn [option_map].
  destruct (eqb_spec (o_cls x) (o_cls y)) as [A|A], (eqb_spec (o_id x) (o_id y)) as [B|B]; cbn [andb]; symmetry; [apply eqb_true; congruence|apply neq_eqb; congruence..].
Qed.
Lemma face_obj l i o : faces l -> nth_error l i = Some o -> exists o0, nth_error l0 i = Some o0 /\ o_cls o = o_cls o0 /\ o_id o = o_id o0 /\ o_bad o = false /\ In o0 l0.
Proof.
  intros F E. specialize (F i). rewrite E in F. cbn [option_map] in F. destruct (nth_error l0 i) as [o0|] eqn:E0; [|discriminate]. injection F as A B C. exists o0. pose proof (nth_error_In _ _ E0) as I0. rewrite C, (GOOD o0 I0). auto.
Qed.
Lemma finds_key w r e : Inv w -> In e (w_set w) -> finds shown hash w r e = match key r with Some _ => eqb (key (snd e)) (key r) | None => false end.
Proof.
  intros I0 Ie. destruct e as [h i]. destruct (i_hash _ I0 _ _ Ie) as (oi & Ei & ->). cbn [snd]. unfold finds. cbn [fst snd].
  pose proof (i_objs _ I0 i) as Fi. rewrite Ei in Fi. destruct (nth_error (w_objs w) i) as [o'|] eqn:Eo'; [|discriminate Fi]. clear Fi. destruct (face_obj _ _ _ (i_objs _ I0) Eo') as (oi' & Ei' & C1 & D1 & B1 & In1). assert (oi' = oi) by congruence. subst oi'.
  pose proof (i_objs _ I0 r) as Fr. destruct (nth_error (w_objs w) r) as [o|] eqn:Eo.
  - destruct (face_obj _ _ _ (i_objs _ I0) Eo) as (o0 & E0 & C2 & D2 & B2 & In2). unfold key. rewrite Ei, E0. cbn [option_map].
    assert (H1 : hs o = hash (o_id o0)) by (unfold obj_hash; rewrite B2, D2; reflexivity). assert (H2 : hs o' = hash (o_id oi)) by (unfold obj_hash; rewrite B1, D1; reflexivity).
    apply eq_true_iff_eq. rewrite andb_true_iff, orb_true_iff, Z.eqb_eq, Nat.eqb_eq, beq_iff, H1, H2, C1, C2. rewrite eqb_true. split.
    + intros [A [->|[B _]]]; [congruence|]. apply leaf_related in B; [|apply LEAF; assumption..]. rewrite B, (FREE _ _ In1 In2 A). reflexivity.
    + intros E. injection E as E1 E2. split; [congruence|]. right. split; [left; exact E1|congruence].
  - unfold key. cbn [option_map] in Fr. destruct (nth_error l0 r); [discriminate Fr|reflexivity].
Qed.
Lemma contains_key w r : Inv w -> contains shown hash w r = match key r with Some _ => mem (key r) (map (fun e => key (snd e)) (w_set w)) | None => false end.
Proof.
  intros I0. unfold contains. assert (G : forall s, incl s (w_set w) -> existsb (finds shown hash w r) s = match key r with Some _ => mem (key r) (map (fun e => key (snd e)) s) | None => false end).
  { induction s as [|e s IH]; intros S; [destruct (key r); reflexivity|]. cbn [existsb map]. rewrite IH by (intros x Ix; apply S; right; exact Ix). rewrite (finds_key w r e I0) by (apply S; left; reflexivity).
    destruct (key r) as [k|]; [|reflexivity]. unfold mem at 2. cbn [existsb]. f_equal. apply eqb_sym. }
  apply G. intros x; auto.
Qed.
Lemma faces_set r o o' l : faces l -> nth_error l r = Some o -> face o' = face o -> faces (set_obj r o' l).
Proof.
  intros F E H i. rewrite nth_set_obj. destruct (Nat.eqb_spec i r) as [->|]; [|apply F]. rewrite E. cbn [option_map]. rewrite H, <- F, E. reflexivity.
Qed.
Lemma remove_first_in {A} (p : A -> bool) l x : In x (remove_first p l) -> In x l.
Proof. induction l as [|y l IH]; cbn [remove_first]; [auto|]. destruct (p y); [right; assumption|]. intros [->|I0]; [left; reflexivity|right; auto]. Qed.
Lemma remove_first_nodup {A B} (f : A -> B) p l : NoDup (map f l) -> NoDup (map f (remove_first p l)).
Proof.
  induction l as [|y l IH]; cbn [remove_first map]; [auto|]. intros N. inversion N as [|? ? N1 N2]; subst. destruct (p y); [exact N2|]. cbn [map]. constructor; [|auto].
  intros I0. apply N1. apply in_map_iff in I0 as (z & <- & I0). apply in_map, (remove_first_in _ _ _ I0).
Qed.
Lemma remove_first_mem {A B} `{EqDec B} (f : A -> B) p l k : NoDup (map f l) -> (forall x, In x l -> p x = eqb (f x) k) ->
  forall k', mem k' (map f (remove_first p l)) = mem k' (map f l) && negb (eqb k' k).
Proof.
  induction l as [|y l IH]; intros N P k'; [reflexivity|]. cbn [remove_first map] in *. inversion N as [|? ? N1 N2]; subst. rewrite (P y) by (left; reflexivity).
  destruct (eqb_spec (f y) k) as [E|E].
  - subst k. unfold mem at 2. cbn [existsb]. fold (mem k' (map f l)). destruct (eqb_spec k' (f y)) as [->|NE]; cbn [orb negb]; [rewrite andb_false_r; apply mem_not_In; exact N1|rewrite andb_true_r; reflexivity].
  - cbn [map]. unfold mem in *. cbn [existsb]. rewrite IH by (auto; intros x Ix; apply P; right; exact Ix). destruct (eqb_spec k' (f y)) as [->|NE]; cbn [orb]; [rewrite neq_eqb by exact E; reflexivity|reflexivity].
Qed.
Lemma act_inv w a : Inv w -> Inv (act shown hash nf w a).
Proof.
  intros I0. destruct a as [r|r|r k v|r k|r q]; cbn [act].
  - destruct (nth_error (w_objs w) r) as [o|] eqn:E; [|exact I0]. destruct (contains shown hash w r) eqn:C; [exact I0|]. destruct (face_obj _ _ _ (i_objs _ I0) E) as (o0 & E0 & _ & D & B & _).
    constructor; cbn [w_objs w_set].
    + apply I0.
    + intros h i Ii. apply in_app_iff in Ii. destruct Ii as [Ii|[Ii|[]]]; [apply (i_hash _ I0 _ _ Ii)|]. injection Ii as <- <-. exists o0. split; [exact E0|]. unfold obj_hash. rewrite B, D. reflexivity.
    + rewrite map_app. cbn [map snd]. rewrite (contains_key w r I0) in C. unfold key in C at 1. rewrite E0 in C. cbn [option_map] in C. apply mem_not_In in C.
      clear -I0 C. pose proof (i_once _ I0) as N. revert C. generalize (key r). generalize dependent (map (fun e : Z * nat => key (snd e)) (w_set w)). intros m N x C.
      induction m as [|y m IH]; cbn [app]; [constructor; [auto|constructor]|]. inversion N as [|? ? N1 N2]; subst. constructor; [rewrite in_app_iff; cbn; intros [H|[H|[]]]; [auto|apply C; left; auto]|apply IH; [exact N2|intros H; apply C; right; exact H]].
  - constructor; cbn [w_objs w_set].
    + apply I0.
    + intros h i Ii. apply remove_first_in in Ii. apply (i_hash _ I0 _ _ Ii).
    + apply remove_first_nodup, I0.
  - destruct (nth_error (w_objs w) r) as [o|] eqn:E; [|exact I0]. constructor; cbn [w_objs w_set]; try apply I0. apply (faces_set r o); [apply I0|exact E|reflexivity].
  - destruct (nth_error (w_objs w) r) as [o|] eqn:E; [|exact I0]. constructor; cbn [w_objs w_set]; try apply I0. apply (faces_set r o); [apply I0|exact E|reflexivity].
  - destruct (nth_error (w_objs w) r) as [o|] eqn:E; [|exact I0]. destruct (nth_error (w_objs w) q) as [p|] eqn:E2; [|exact I0]. destruct (face_obj _ _ _ (i_objs _ I0) E2) as (_ & _ & _ & _ & B & _).
    destruct (eqb (o_cls o) NsercC).
    + constructor; cbn [w_objs w_set]; try apply I0. apply (faces_set r o); [apply I0|exact E|reflexivity].
    + destruct (eqb (o_cls o) (o_cls p)); [|exact I0]. constructor; cbn [w_objs w_set]; try apply I0. apply (faces_set r o); [apply I0|exact E|]. rewrite B. reflexivity.
Qed.
Lemma act_contains w a r : Inv w -> contains shown hash (act shown hash nf w a) r =
  match a with Add q => contains shown hash w r || same l0 q r | Discard q => contains shown hash w r && negb (same l0 q r) | _ => contains shown hash w r end.
Proof.
  intros I0. pose proof (act_inv w a I0) as I1. rewrite (contains_key _ r I1). destruct a as [q|q|q k v|q k|q q2].
  - rewrite (contains_key w r I0), same_key. cbn [act] in *. destruct (key r) as [kr|] eqn:K; [|destruct (key q); reflexivity].
    destruct (nth_error (w_objs w) q) as [o|] eqn:E.
    + destruct (face_obj _ _ _ (i_objs _ I0) E) as (o0 & E0 & _). destruct (key q) as [kq|] eqn:Q; [|unfold key in Q; rewrite E0 in Q; discriminate].
      pose proof (contains_key w q I0) as C. rewrite Q in C. destruct (contains shown hash w q) eqn:CQ.
      * destruct (eqb_spec kq kr) as [->|NE]; [rewrite <- C; rewrite orb_true_r; reflexivity|rewrite orb_false_r; reflexivity].
      * cbn [w_set]. rewrite map_app. unfold mem. rewrite existsb_app. cbn [map existsb snd]. rewrite orb_false_r. f_equal. rewrite Q. destruct (eqb_spec kq kr) as [->|NE]; [apply eqb_refl|apply neq_eqb; congruence].
    + pose proof (i_objs _ I0 q) as F. rewrite E in F. assert (Q : key q = None) by (unfold key; destruct (nth_error l0 q); [discriminate F|reflexivity]). rewrite Q, orb_false_r. reflexivity.
  - rewrite (contains_key w r I0), same_key. cbn [act w_set] in *. destruct (key r) as [kr|] eqn:K; [|destruct (key q); reflexivity]. destruct (key q) as [kq|] eqn:Q.
    + rewrite (remove_first_mem (fun e => key (snd e)) _ _ (Some kq)); [|apply I0|intros e Ie; rewrite (finds_key w q e I0 Ie), Q; reflexivity]. f_equal. f_equal. destruct (eqb_spec kq kr) as [->|NE]; [apply eqb_refl|apply neq_eqb; congruence].
    + rewrite andb_true_r. f_equal. f_equal. assert (N : forall e, In e (w_set w) -> finds shown hash w q e = false) by (intros e Ie; rewrite (finds_key w q e I0 Ie), Q; reflexivity). revert N. generalize (w_set w). induction l as [|e l IH]; intros N; [reflexivity|]. cbn [remove_first]. rewrite N by (left; reflexivity). f_equal. apply IH. intros x Ix. apply N. right. exact Ix.
  - rewrite (contains_key w r I0). cbn [act]. destruct (nth_error (w_objs w) q); reflexivity.
  - rewrite (contains_key w r I0). cbn [act]. destruct (nth_error (w_objs w) q); reflexivity.
  - rewrite (contains_key w r I0). cbn [act]. destruct (nth_error (w_objs w) q) as [o|]; [|reflexivity]. destruct (nth_error (w_objs w) q2) as [p|]; [|reflexivity]. destruct (eqb (o_cls o) NsercC); [reflexivity|]. destruct (eqb (o_cls o) (o_cls p)); reflexivity.
Qed.
Lemma start_inv : Inv (mkWorld l0 []).
Proof. constructor; cbn [w_objs w_set]; [intros i; reflexivity|intros h i []|constructor]. Qed.
Lemma acts_contains h r : contains shown hash (acts shown hash nf (mkWorld l0 []) h) r = inside l0 h r /\ Inv (acts shown hash nf (mkWorld l0 []) h).
Proof.
  unfold inside, acts. change false with (contains shown hash (mkWorld l0 []) r). generalize start_inv. generalize (mkWorld l0 (@nil (Z * nat))). induction h as [|a h IH]; intros w I0; [auto|]. cbn [fold_left].
  pose proof (act_contains w a r I0) as A. destruct (IH _ (act_inv w a I0)) as [B C]. split; [|exact C]. rewrite B. rewrite A. reflexivity.
Qed.
(** no two elements have the same class and id *)
Lemma listing_once w : Inv w -> forall i j a b, nth_error (listing w) a = Some i -> nth_error (listing w) b = Some j -> same l0 i j = true -> a = b.
Proof.
  intros I0 i j a b A B S. rewrite same_key in S. destruct (key i) as [ki|] eqn:Ki; [|discriminate]. destruct (key j) as [kj|] eqn:Kj; [|discriminate]. apply eqb_eq in S. subst kj.
  pose proof (i_once _ I0) as N. rewrite NoDup_nth_error in N. unfold listing in A, B. rewrite nth_error_map in A, B. apply N.
  - rewrite map_length. apply nth_error_Some. destruct (nth_error (w_set w) a); discriminate.
  - rewrite !nth_error_map. destruct (nth_error (w_set w) a) as [ea|]; [|discriminate A]. destruct (nth_error (w_set w) b) as [eb|]; [|discriminate B]. cbn [option_map] in *. injection A as <-. injection B as <-. congruence.
Qed.
End History.
End Facts.
