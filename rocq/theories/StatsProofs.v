(** Proofs about graphStats. *)
From Coq Require Import List ZArith Lia Bool Arith QArith.
From Coq Require Import String.
From Verif Require Import Base PyStr DecFacts Nx NxFacts GraphHelpersModel GraphHelpersSpec GraphHelpersProofs StatsModel StatsSpec.
Import ListNotations.
Local Open Scope list_scope.
Local Open Scope nat_scope.
Set Implicit Arguments.

Lemma length_flat_map {A B : Type} (f : A -> list B) l : length (flat_map f l) = list_sum (map (fun a => length (f a)) l).
Proof. induction l as [|a l IH]; cbn; [reflexivity|]. rewrite app_length, IH. reflexivity. Qed.

Lemma NoDup_app_apart {A : Type} (l m : list A) : NoDup l -> NoDup m -> (forall x, In x l -> ~ In x m) -> NoDup (l ++ m).
Proof.
  induction l as [|a l IH]; cbn; intros L M D; [assumption|]. inversion L; subst. constructor.
  - rewrite in_app_iff. intros [I|I]; [contradiction|]. exact (D a (or_introl eq_refl) I).
  - apply IH; auto.
Qed.
Lemma NoDup_flat_map_by {A B K : Type} (f : A -> list B) (ka : A -> K) (kb : B -> K) l :
  NoDup (map ka l) -> (forall a, In a l -> NoDup (f a)) -> (forall a b, In a l -> In b (f a) -> kb b = ka a) -> NoDup (flat_map f l).
Proof.
  induction l as [|a l IH]; cbn; intros N F P; [constructor|]. inversion N; subst. apply NoDup_app_apart.
  - apply F; auto.
  - apply IH; auto.
  - intros b I J. apply in_flat_map in J. destruct J as (a' & J & J'). apply H1. apply in_map_iff. exists a'. split; [|assumption].
    rewrite <- (P a' b), <- (P a b); auto.
Qed.
Lemma counts_fun {A : Type} (P : A -> Prop) n m : counts P n -> counts P m -> n = m.
Proof.
  intros (l & N & I & L) (k & N' & I' & L'). subst.
  apply Nat.le_antisymm; apply NoDup_incl_length; try assumption; intros x J; [apply I', I|apply I, I']; assumption.
Qed.

Section SP.
  Context {V : Type} `{EqDec V}.
  Implicit Types (g : graph V) (u v w x : V).

  Lemma nodes_ok g : WF g -> nodes_count g (length (nodes g)).
  Proof.
    intros W. exists (nodes g). split; [apply (wf_nodup W)|]. split; [|reflexivity].
    intros x. rewrite nd_In. unfold is_node. split; [intros [a ->]; discriminate|]. destruct (nd g x); [eauto|congruence].
  Qed.

  Lemma edges_ok g : WF g -> edges_count g (length (edges g)).
  Proof.
    intros W. exists (map fst (edges g)). split; [apply (edges_NoDup W)|]. split; [apply map_length|]. split; [|split].
    - intros u v I. apply in_map_iff in I. destruct I as ([[u' v'] a] & Q & I). cbn in Q. inversion Q; subst.
      apply (edges_sound _ _ _ W) in I. unfold linked. rewrite I. discriminate.
    - intros u v L. unfold linked in L. destruct (ed g u v) as [a|] eqn:E; [|congruence].
      destruct (edges_complete _ _ W E) as [I|[D I]]; [left|right; split; [assumption|]]; apply in_map_iff; eexists; split; try apply I; reflexivity.
    - intros D u v I J. apply in_map_iff in I, J. destruct I as ([[u1 v1] a] & Q & I), J as ([[u2 v2] b] & Q' & J).
      cbn in Q, Q'. inversion Q; inversion Q'; subst. exact (edges_one_orientation _ _ _ _ W D I J).
  Qed.

  Lemma linked_row g u v : linked g u v <-> exists r, dget u (gadj g) = Some r /\ In v (dkeys r).
  Proof.
    unfold linked, ed. destruct (dget u (gadj g)) as [r|].
    - split.
      + intros E. exists r. split; [reflexivity|]. destruct (dget v r) eqn:X; [|congruence]. apply dget_Some_key in X. assumption.
      + intros (r' & Q & I). inversion Q; subst. intros E. apply dget_None in E. contradiction.
    - split; [congruence|]. intros (r & Q & _). discriminate.
  Qed.
  Lemma rowed g : WF g -> forall u r, In (u, r) (gadj g) <-> dget u (gadj g) = Some r.
  Proof.
    intros W u r. split; [|intros E; apply dget_In; assumption]. intros I. apply In_dget; [|assumption].
    rewrite (wf_keys W). apply (wf_nodup W).
  Qed.
  Lemma linked_in g u r v : WF g -> In (u, r) (gadj g) -> linked g u v <-> In v (dkeys r).
  Proof.
    intros W I. rewrite linked_row. apply (rowed W) in I. rewrite I. split; [|eauto]. intros (r' & Q & J). inversion Q; subst. assumption.
  Qed.
  Lemma adj_nodup g : WF g -> NoDup (map fst (gadj g)).
  Proof. intros W. change (NoDup (dkeys (gadj g))). rewrite (wf_keys W). apply (wf_nodup W). Qed.
  Lemma adj_node g u : WF g -> In u (map fst (gadj g)) <-> is_node g u.
  Proof.
    intros W. change (map fst (gadj g)) with (dkeys (gadj g)). rewrite (wf_keys W). change (dkeys (gnodes g)) with (nodes g). rewrite nd_In.
    unfold is_node. split; [intros [a ->]; discriminate|]. destruct (nd g u); [eauto|congruence].
  Qed.
  Lemma NoDup_map_filter {A B : Type} (f : A -> B) (p : A -> bool) l : NoDup (map f l) -> NoDup (map f (filter p l)).
  Proof.
    induction l as [|a l IH]; cbn; intros N; [constructor|]. inversion N; subst. destruct (p a); [|auto]. cbn. constructor; [|auto].
    intros I. apply H2. apply in_map_iff in I. destruct I as (b & Q & I). apply filter_In in I. apply in_map_iff. exists b. tauto.
  Qed.
  Lemma length0 {A : Type} (l : list A) : length l = 0 <-> forall y, ~ In y l.
  Proof. destruct l as [|a l]; cbn; [firstorder|]. split; [discriminate|]. intros D. destruct (D a); auto. Qed.

  Lemma isolated g u r : WF g -> In (u, r) (gadj g) -> degree_of g u r = 0 <-> forall y, ~ linked g u y /\ ~ linked g y u.
  Proof.
    intros W I.
    assert (R : length r = 0 <-> forall y, ~ linked g u y).
    { rewrite length0. split.
      - intros D y L. apply (linked_in _ _ _ W I) in L. unfold dkeys in L. apply in_map_iff in L. destruct L as (p & _ & J). exact (D p J).
      - intros D [y a] J. apply (D y). apply (linked_in _ _ _ W I). unfold dkeys. apply in_map_iff. exists (y, a). auto. }
    unfold degree_of. destruct (gdir g) eqn:D.
    - assert (P : length (filter (fun ur => dhas u (snd ur)) (gadj g)) = 0 <-> forall y, ~ linked g y u).
      { rewrite length0. split.
        - intros E y L. apply linked_row in L. destruct L as (r' & Q & J). apply (rowed W) in Q. apply (E (y, r')).
          apply filter_In. split; [assumption|]. cbn. apply dhas_spec. assumption.
        - intros E [y r'] J. apply filter_In in J. destruct J as [J K]. cbn in K. apply dhas_spec in K. apply (E y). apply (linked_in _ _ _ W J). assumption. }
      split.
      + intros Z y. split; [apply R|apply P]; lia.
      + intros Z. apply Nat.eq_add_0. split; [apply R|apply P]; intros y; apply Z.
    - split.
      + intros Z y. assert (Z1 : length r = 0) by lia. pose proof (proj1 R Z1) as R1. split; [apply R1|].
        unfold linked. rewrite (wf_sym W D). apply R1.
      + intros Z. assert (Z1 : length r = 0) by (apply R; intros y; apply Z). destruct r; [reflexivity|discriminate].
  Qed.
  Lemma isolates_ok g : WF g -> isolates_count g (length (isolates g)).
  Proof.
    intros W. exists (isolates g). split; [apply NoDup_map_filter, adj_nodup; assumption|]. split; [|reflexivity].
    intros x. unfold isolates. rewrite in_map_iff. split.
    - intros ([u r] & Q & I). cbn in Q. subst u. apply filter_In in I. destruct I as [I Z]. cbn in Z. apply Nat.eqb_eq in Z. split.
      + apply (adj_node _ W). apply in_map_iff. exists (x, r). auto.
      + apply (isolated _ _ W I). assumption.
    - intros [N Z]. apply (adj_node _ W) in N. apply in_map_iff in N. destruct N as ([u r] & Q & I). cbn in Q. subst u.
      exists (x, r). split; [reflexivity|]. apply filter_In. split; [assumption|]. cbn. apply Nat.eqb_eq. apply (isolated _ _ W I). assumption.
  Qed.

  Lemma loops_ok g : WF g -> loops_count g (length (selfloops g)).
  Proof.
    intros W. exists (map fst (selfloops g)). split; [|split; [|apply map_length]].
    - unfold selfloops.
      assert (E : map fst (flat_map (fun ur => if dhas (fst ur) (snd ur) then [(fst ur, fst ur)] else []) (gadj g))
                  = map fst (filter (fun ur => dhas (fst ur) (snd ur)) (gadj g))).
      { induction (gadj g) as [|[u r] t IH]; [reflexivity|]. cbn [flat_map map filter fst snd]. rewrite map_app, IH. destruct (dhas u r); reflexivity. }
      rewrite E. apply NoDup_map_filter, adj_nodup; assumption.
    - intros x. rewrite in_map_iff. split.
      + intros ([y z] & Q & I). cbn in Q. subst y. apply (selfloops_spec _ _ W) in I. destruct I as [<- [a E]]. unfold linked. rewrite E. discriminate.
      + intros L. exists (x, x). split; [reflexivity|]. apply (selfloops_spec _ _ W). split; [reflexivity|].
        unfold linked in L. destruct (ed g x x); [eauto|congruence].
  Qed.

  Lemma others_In v r w : In w (others v r) <-> In w (dkeys r) /\ w <> v.
  Proof. unfold others. rewrite filter_In. destruct (eqb_spec w v) as [->|D]; cbn [negb]; intuition congruence. Qed.
  Lemma others_nodup g v r : WF g -> In (v, r) (gadj g) -> NoDup (others v r).
  Proof. intros W I. apply NoDup_filter. apply (rows_of_WF W) in I. assumption. Qed.
  Lemma others_row g w x : WF g -> In x (others w (row_of g w)) <-> linked g w x /\ x <> w.
  Proof.
    intros W. rewrite others_In, linked_row. unfold row_of. destruct (dget w (gadj g)) as [r|].
    - split; [intros [I N]; split; eauto|]. intros [(r' & Q & I) N]. inversion Q; subst. auto.
    - split; [intros [[] _]|]. intros [(r' & Q & I) N]. discriminate.
  Qed.

  Definition closed_list g : list (V * V * V) :=
    flat_map (fun vr => let vs := others (fst vr) (snd vr) in
      flat_map (fun w => map (fun x => (fst vr, w, x)) (filter (fun x => mem x (others w (row_of g w))) vs)) vs) (gadj g).
  Definition triad_list g : list (V * V * V) :=
    flat_map (fun vr => let vs := others (fst vr) (snd vr) in
      flat_map (fun w => map (fun x => (fst vr, w, x)) (filter (fun x => negb (eqb x w)) vs)) vs) (gadj g).

  Lemma NoDup_triples (p : V -> V -> bool) g : WF g ->
    NoDup (flat_map (fun vr => let vs := others (fst vr) (snd vr) in
      flat_map (fun w => map (fun x => (fst vr, w, x)) (filter (p w) vs)) vs) (gadj g)).
  Proof.
    intros W. apply (NoDup_flat_map_by _ fst (fun t => fst (fst t))); [apply adj_nodup; assumption| |].
    - intros [v r] I. cbn [fst snd]. pose proof (others_nodup _ _ W I) as N.
      apply (NoDup_flat_map_by _ (fun w => w) (fun t => snd (fst t))); [rewrite map_id; assumption| |].
      + intros w J. apply FinFun.Injective_map_NoDup; [intros a b Q; inversion Q; reflexivity|]. apply NoDup_filter. assumption.
      + intros w [[a b] c] J K. apply in_map_iff in K. destruct K as (x & Q & K). inversion Q; reflexivity.
    - intros [v r] [[a b] c] I J. cbn [fst snd] in *. apply in_flat_map in J. destruct J as (w & J & K).
      apply in_map_iff in K. destruct K as (x & Q & K). inversion Q; reflexivity.
  Qed.
  Lemma In_triples (p : V -> V -> bool) g v w x : WF g ->
    In (v, w, x) (flat_map (fun vr => let vs := others (fst vr) (snd vr) in
      flat_map (fun w => map (fun x => (fst vr, w, x)) (filter (p w) vs)) vs) (gadj g))
    <-> linked g v w /\ w <> v /\ linked g v x /\ x <> v /\ p w x = true.
  Proof.
    intros W. rewrite in_flat_map. split.
    - intros ([v' r] & I & J). cbn [fst snd] in J. apply in_flat_map in J. destruct J as (w' & J & K).
      apply in_map_iff in K. destruct K as (x' & Q & K). inversion Q; subst. apply filter_In in K. destruct K as [K P].
      apply others_In in J, K. destruct J as [J J'], K as [K K']. rewrite !(linked_in _ _ _ W I). auto.
    - intros (L & N & L' & N' & P). pose proof L as R. apply linked_row in R. destruct R as (r & R & _). apply (rowed W) in R.
      apply (linked_in _ _ _ W R) in L, L'. exists (v, r). split; [assumption|]. cbn [fst snd]. apply in_flat_map. exists w.
      split; [apply others_In; auto|]. apply in_map_iff. exists x. split; [reflexivity|]. apply filter_In. split; [apply others_In; auto|assumption].
  Qed.
  Lemma closed_ok g : WF g -> closed_count g (list_sum (map (fun vr => triangles_of g (fst vr) (snd vr)) (gadj g))).
  Proof.
    intros W. exists (closed_list g). split; [apply NoDup_triples; assumption|]. split.
    - intros [[v w] x]. unfold closed_list. rewrite (In_triples (fun w x => mem x (others w (row_of g w)))); [|assumption].
      rewrite mem_In, (others_row _ _ W). intuition congruence.
    - unfold closed_list. rewrite length_flat_map. f_equal. apply map_ext. intros [v r]. cbn [fst snd].
      rewrite length_flat_map. unfold triangles_of. f_equal. apply map_ext. intros w. apply map_length.
  Qed.
  Lemma without_one (l : list V) w : NoDup l -> In w l -> length (filter (fun x => negb (eqb x w)) l) = length l - 1.
  Proof.
    induction l as [|a l IH]; intros N I; [contradiction|]. inversion N; subst. cbn [filter length]. destruct (eqb_spec a w) as [->|D]; cbn [negb].
    - rewrite Nat.sub_0_r || idtac. assert (E : filter (fun x => negb (eqb x w)) l = l).
      { clear IH N I H3. induction l as [|b l IH]; [reflexivity|]. cbn. destruct (eqb_spec b w) as [->|D]; cbn [negb].
        - destruct H2. left; reflexivity.
        - f_equal. apply IH. intros J. apply H2. right; assumption. }
      rewrite E. lia.
    - destruct I as [->|I]; [congruence|]. cbn [length]. rewrite IH by assumption. destruct l; [contradiction|]. cbn [length]. lia.
  Qed.
  Lemma sum_const {A : Type} (f : A -> nat) k (l : list A) : (forall a, In a l -> f a = k) -> list_sum (map f l) = length l * k.
  Proof. induction l as [|a l IH]; intros E; [reflexivity|]. change (list_sum (map f (a :: l))) with (f a + list_sum (map f l)). rewrite IH by (intros b J; apply E; right; assumption). rewrite E by (left; reflexivity). reflexivity. Qed.
  Lemma triads_ok g : WF g -> triads_count g (list_sum (map (fun vr => let d := length (others (fst vr) (snd vr)) in d * (d - 1)) (gadj g))).
  Proof.
    intros W. exists (triad_list g). split; [apply NoDup_triples; assumption|]. split.
    - intros [[v w] x]. unfold triad_list. rewrite (In_triples (fun w x => negb (eqb x w))); [|assumption].
      destruct (eqb_spec x w) as [->|D]; cbn [negb]; intuition congruence.
    - unfold triad_list. rewrite length_flat_map. f_equal. apply map_ext_in. intros [v r] I. cbn [fst snd].
      rewrite length_flat_map. cbv zeta. apply sum_const. intros w J. rewrite map_length. apply without_one; [|assumption].
      apply (others_nodup _ _ W I).
  Qed.
  Lemma closed_le g c t : closed_count g c -> triads_count g t -> c <= t.
  Proof.
    intros (l & N & I & <-) (k & N' & I' & <-). apply NoDup_incl_length; [assumption|]. intros [[v w] x] J. apply I in J. apply I'. tauto.
  Qed.

  Lemma div_ok p q : 0 < q -> exists f, py_div p q = Ok (Float f) /\ (f * inject_Z (Z.of_nat q) == inject_Z (Z.of_nat p))%Q.
  Proof.
    intros P. destruct q as [|q]; [lia|]. eexists. split; [reflexivity|]. unfold Qeq, Qmult, inject_Z. cbn [Qnum Qden].
    rewrite Pos.mul_1_r. rewrite Z.mul_1_r. f_equal. rewrite <- Pos.of_nat_succ. apply Zpos_P_of_succ_nat || (rewrite Zpos_P_of_succ_nat; lia) || idtac.
  Qed.
  Lemma density_ok g : WF g -> exists k, density g = Ok k /\ density_is g (number_Q k).
  Proof.
    intros W. unfold density. destruct (length (edges g) =? 0) eqn:M; cbn [orb].
    - exists (Int 0). split; [reflexivity|]. exists (length (nodes g)), (length (edges g)). split; [apply nodes_ok; assumption|]. split; [apply edges_ok; assumption|].
      apply Nat.eqb_eq in M. rewrite M. destruct (length (nodes g) <=? 1); [reflexivity|]. destruct (gdir g); cbn [number_Q]; change (inject_Z (Z.of_nat 0)) with (0%Q); apply Qmult_0_l.
    - destruct (length (nodes g) <=? 1) eqn:N.
      + exists (Int 0). split; [reflexivity|]. exists (length (nodes g)), (length (edges g)). split; [apply nodes_ok; assumption|]. split; [apply edges_ok; assumption|].
        rewrite N. reflexivity.
      + apply Nat.leb_gt in N as N'. destruct (@div_ok (if gdir g then length (edges g) else 2 * length (edges g)) (length (nodes g) * (length (nodes g) - 1))) as (f & E & Q).
        { apply Nat.mul_pos_pos; lia. }
        exists (Float f). split; [exact E|]. exists (length (nodes g)), (length (edges g)). split; [apply nodes_ok; assumption|]. split; [apply edges_ok; assumption|].
        rewrite N. exact Q.
  Qed.
  Lemma transitivity_ok g : WF g -> exists k, transitivity g = Ok k /\ transitivity_is g (number_Q k).
  Proof.
    intros W. unfold transitivity. pose proof (closed_ok W) as C. pose proof (triads_ok W) as T. pose proof (closed_le C T) as L.
    set (c := list_sum (map (fun vr => triangles_of g (fst vr) (snd vr)) (gadj g))) in *.
    set (t := list_sum (map (fun vr => let d := length (others (fst vr) (snd vr)) in d * (d - 1)) (gadj g))) in *.
    destruct (c =? 0) eqn:Z.
    - exists (Int 0). split; [reflexivity|]. exists c, t. split; [assumption|]. split; [assumption|]. apply Nat.eqb_eq in Z.
      destruct (t =? 0); [reflexivity|]. rewrite Z. cbn [number_Q]. change (inject_Z (Z.of_nat 0)) with (0%Q). apply Qmult_0_l.
    - apply Nat.eqb_neq in Z. destruct (@div_ok c t) as (f & E & Q); [lia|]. exists (Float f). split; [exact E|]. exists c, t. split; [assumption|]. split; [assumption|].
      destruct (t =? 0) eqn:Z'; [apply Nat.eqb_eq in Z'; lia|]. exact Q.
  Qed.
End SP.

(** * Bounds *)
Section Bounds.
  Context {V : Type} `{EqDec V}.
  Implicit Types g : graph V.

  Definition apart (l : list V) : list (V * V) := flat_map (fun u => map (fun v => (u, v)) (filter (fun v => negb (eqb v u)) l)) l.
  Lemma apart_In l u v : In (u, v) (apart l) <-> In u l /\ In v l /\ u <> v.
  Proof.
    unfold apart. rewrite in_flat_map. split.
    - intros (u' & I & J). apply in_map_iff in J. destruct J as (v' & Q & J). inversion Q; subst. apply filter_In in J. destruct J as [J N].
      destruct (eqb_spec v u) as [->|D]; [discriminate|]. auto.
    - intros (I & J & N). exists u. split; [assumption|]. apply in_map_iff. exists v. split; [reflexivity|]. apply filter_In. split; [assumption|].
      destruct (eqb_spec v u); [congruence|reflexivity].
  Qed.
  Lemma apart_length l : NoDup l -> length (apart l) = length l * (length l - 1).
  Proof.
    intros N. unfold apart. rewrite length_flat_map. apply sum_const. intros u I. rewrite map_length. apply without_one; assumption.
  Qed.
  Lemma linked_nodes g u v : WF g -> linked g u v -> is_node g u /\ is_node g v.
  Proof.
    unfold linked, is_node. intros W L. destruct (ed g u v) as [a|] eqn:E; [|congruence]. split.
    - apply (ed_source _ _ W) in E. apply nd_In in E. destruct E as [b ->]. discriminate.
    - apply (wf_ends W) in E. apply nd_In in E. destruct E as [b ->]. discriminate.
  Qed.
  Lemma edges_bound g n m : WF g -> (forall v, ~ linked g v v) -> nodes_count g n -> edges_count g m ->
    (if gdir g then m else 2 * m) <= n * (n - 1).
  Proof.
    intros W NL (ns & NN & IN & <-) (es & NE & <- & S & C & O). rewrite <- (apart_length NN).
    assert (A : forall u v, In (u, v) es -> In (u, v) (apart ns) /\ In (v, u) (apart ns)).
    { intros u v I. apply S in I. pose proof (linked_nodes W I) as [L1 L2]. apply IN in L1, L2. rewrite !apart_In.
      assert (u <> v) by (intros ->; exact (NL _ I)). auto. }
    destruct (gdir g) eqn:D.
    - apply NoDup_incl_length; [assumption|]. intros [u v] I. exact (proj1 (A _ _ I)).
    - replace (2 * length es) with (length (es ++ map (fun e => (snd e, fst e)) es)) by (rewrite app_length, map_length; lia).
      apply NoDup_incl_length.
      + apply NoDup_app_apart; [assumption| |].
        * apply FinFun.Injective_map_NoDup; [|assumption]. intros [a b] [c d] Q. cbn in Q. congruence.
        * intros [u v] I J. apply in_map_iff in J. destruct J as ([a b] & Q & J). cbn in Q. inversion Q; subst.
          pose proof (O eq_refl _ _ I J). subst. apply (NL v). apply S. assumption.
      + intros [u v] I. apply in_app_iff in I. destruct I as [I|I]; [exact (proj1 (A _ _ I))|].
        apply in_map_iff in I. destruct I as ([a b] & Q & J). cbn in Q. inversion Q; subst. exact (proj2 (A _ _ J)).
  Qed.

  Lemma quotient_bound (q : Q) a b : 0 < b -> a <= b -> (q * inject_Z (Z.of_nat b) == inject_Z (Z.of_nat a))%Q -> (0 <= q <= 1)%Q.
  Proof.
    intros P L E. destruct q as [p d]. unfold Qeq, Qmult, Qle, inject_Z in *. cbn [Qnum Qden] in *. rewrite Pos.mul_1_r in E. rewrite Z.mul_1_r in *. split; nia.
  Qed.
  Lemma density_bound g q : WF g -> (forall v, ~ linked g v v) -> density_is g q -> (0 <= q <= 1)%Q.
  Proof.
    intros W NL (n & m & N & M & E). pose proof (edges_bound W NL N M) as B. destruct (n <=? 1) eqn:L.
    - rewrite E. split; discriminate.
    - apply Nat.leb_gt in L. eapply quotient_bound; [|exact B|exact E]. apply Nat.mul_pos_pos; lia.
  Qed.
  Lemma transitivity_bound g q : transitivity_is g q -> (0 <= q <= 1)%Q.
  Proof.
    intros (c & t & C & T & E). pose proof (closed_le C T) as B. destruct (t =? 0) eqn:L.
    - rewrite E. split; discriminate.
    - apply Nat.eqb_neq in L. eapply quotient_bound; [|exact B|exact E]. lia.
  Qed.
End Bounds.

(** * The texts *)
Lemma format_small n : (n < 1000000)%N -> format_G n = dec_N n.
Proof.
  intros L. unfold format_G. pose proof (@dec_N_length 5 n L) as B. destruct (Nat.leb_spec (length (dec_N n)) 6); [reflexivity|lia].
Qed.

Lemma mem_str_In (x : str) l : mem x l = true <-> In x l.
Proof. apply mem_In. Qed.

Section Run.
  Context {V : Type} `{EqDec V}.
  Variable gq : Q -> str.
  Implicit Types g : graph V.

  (** the value of each statistic, given the two that are computed *)
  Definition value_of g (d t : number) (s : str) : number :=
    if eqb s $"nodes" then Int (length (nodes g)) else if eqb s $"edges" then Int (length (edges g))
    else if eqb s $"isolates" then Int (length (isolates g)) else if eqb s $"loops" then Int (length (selfloops g))
    else if eqb s $"density" then d else t.

  Lemma valued g d t s : WF g -> density_is g (number_Q d) -> transitivity_is g (number_Q t) -> In s six -> stat_is g s (value_of g d t s).
  Proof.
    intros W D T I. unfold stat_is, value_of, six in *. cbn [In] in I.
    destruct I as [<-|[<-|[<-|[<-|[<-|[<-|[]]]]]]].
    - left. split; [reflexivity|]. eexists. split; [reflexivity|apply nodes_ok; assumption].
    - right; left. split; [reflexivity|]. eexists. split; [reflexivity|apply edges_ok; assumption].
    - right; right; left. split; [reflexivity|]. eexists. split; [reflexivity|apply isolates_ok; assumption].
    - right; right; right; left. split; [reflexivity|]. eexists. split; [reflexivity|apply loops_ok; assumption].
    - right; right; right; right; left. split; [reflexivity|]. exact D.
    - right; right; right; right; right. split; [reflexivity|]. exact T.
  Qed.

  Definition texts_of g d t (sentence : bool) (stats l : list str) : list str :=
    map (fun s => (if sentence then phrase_of else line_of) s (shown_G gq (value_of g d t s))) (filter (fun s => mem s stats) l).

  Lemma block_text stats (sentence : bool) name before after line g d t texts vs :
    (if sentence then phrase_of else line_of) name (shown_G gq (value_of g d t name)) =
      (if sentence then before ++ shown_G gq (value_of g d t name) ++ after else line ++ shown_G gq (value_of g d t name)) ->
    block gq stats true sentence name before after line (Ok (value_of g d t name)) (Ok (texts, vs))
    = Ok (texts ++ texts_of g d t sentence stats [name], vs).
  Proof.
    intros E. unfold block, texts_of. cbn [bind filter]. destruct (mem name stats); cbn [map]; [|rewrite app_nil_r; reflexivity]. rewrite E. reflexivity.
  Qed.
  Lemma texts_app g d t sentence stats l m : texts_of g d t sentence stats (l ++ m) = texts_of g d t sentence stats l ++ texts_of g d t sentence stats m.
  Proof. unfold texts_of. rewrite filter_app, map_app. reflexivity. Qed.

  Lemma all_valid stats : (forall s, In s stats -> In s six) <-> forallb (fun s => mem s stat_names) stats = true.
  Proof.
    rewrite forallb_forall. split; intros A s I; specialize (A s I).
    - apply mem_str_In. exact A.
    - apply mem_str_In in A. exact A.
  Qed.

  Lemma text_ok g d t stats sentence : density g = Ok d -> transitivity g = Ok t -> (forall s, In s stats -> In s six) ->
    graph_stats gq g stats true sentence =
      let texts := texts_of g d t sentence stats six in
      if sentence then
        match texts with
        | [] => Ok (Text $"The graph has ")
        | [t] => Ok (Text ($"The graph has " ++ t))
        | _ => Ok (Text ($"The graph has " ++ join $", " (removelast texts) ++ $" and " ++ last texts []))
        end
      else Ok (Text (join [nl] texts)).
  Proof.
    intros D T A. unfold graph_stats. apply all_valid in A. rewrite A. cbv zeta.
    change (Ok (Int (length (nodes g)))) with (Ok (value_of g d t $"nodes")).
    change (Ok (Int (length (edges g)))) with (Ok (value_of g d t $"edges")).
    change (Ok (Int (length (isolates g)))) with (Ok (value_of g d t $"isolates")).
    change (Ok (Int (length (selfloops g)))) with (Ok (value_of g d t $"loops")).
    rewrite D, T. change (@Ok number d) with (Ok (value_of g d t $"density")). change (@Ok number t) with (Ok (value_of g d t $"transitivity")).
    rewrite !block_text by (destruct sentence; cbn [app]; rewrite ?app_nil_r; reflexivity).
    cbn [app bind]. rewrite <- !texts_app. reflexivity.
  Qed.

  Lemma block_value stats sentence name before after line x vs ts :
    block gq stats false sentence name before after line (Ok x) (Ok (ts, vs))
    = Ok (ts, if mem name stats then dset name x vs else vs).
  Proof. unfold block. cbn [bind]. destruct (mem name stats); reflexivity. Qed.

  Lemma gather_ok (value : str -> number) vs stats : (forall s, In s stats -> dget s vs = Some (value s)) ->
    gather vs stats = Ok (map value stats).
  Proof.
    induction stats as [|s stats IH]; intros A; [reflexivity|]. cbn [gather map]. rewrite A by (left; reflexivity).
    rewrite IH by (intros s' I; apply A; right; assumption). reflexivity.
  Qed.

  Lemma put_some stats name (x : number) (vs : dict str number) s : In s stats ->
    dget s (if mem name stats then dset name x vs else vs) = if eqb s name then Some x else dget s vs.
  Proof.
    intros I. destruct (mem name stats) eqn:M.
    - rewrite dget_dset. destruct (eqb_spec s name) as [->|N]; [rewrite ?eqb_refl; reflexivity|]. destruct (eqb_spec name s); [congruence|reflexivity].
    - destruct (eqb_spec s name) as [->|N]; [|reflexivity]. apply mem_str_In in I. rewrite I in M. discriminate.
  Qed.

  Lemma tuple_ok g d t stats sentence : density g = Ok d -> transitivity g = Ok t -> (forall s, In s stats -> In s six) ->
    graph_stats gq g stats false sentence = Ok (Tuple (map (value_of g d t) stats)).
  Proof.
    intros D T A. unfold graph_stats. pose proof A as A'. apply all_valid in A. rewrite A. cbv zeta. rewrite D, T. rewrite !block_value. cbn [bind].
    rewrite (gather_ok (value_of g d t)); [reflexivity|]. intros s I. rewrite !put_some by assumption.
    specialize (A' s I). unfold six in A'. cbn [In] in A'. destruct A' as [<-|[<-|[<-|[<-|[<-|[<-|[]]]]]]]; reflexivity.
  Qed.
End Run.
