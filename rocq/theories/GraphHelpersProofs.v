From Coq Require Import String.
From Verif Require Import Base PyStr PyInt Nx NxFacts GraphHelpersModel GraphHelpersSpec.
Set Implicit Arguments.

Lemma out_of_range_spec lo hi z : ext_gt z hi || ext_lt z lo = false <-> in_range lo z hi.
Proof.
  unfold in_range, ext_gt, ext_lt. rewrite orb_false_iff. destruct lo, hi; rewrite ?Z.ltb_ge; intuition (try lia; try congruence).
Qed.
Lemma out_of_range_spec' lo hi z : ext_lt z lo || ext_gt z hi = false <-> in_range lo z hi.
Proof. rewrite orb_comm. apply out_of_range_spec. Qed.
Lemma in_range_dec lo z hi : {in_range lo z hi} + {~ in_range lo z hi}.
Proof.
  destruct (ext_gt z hi || ext_lt z lo) eqn:E; [right|left; apply out_of_range_spec; assumption].
  rewrite <- out_of_range_spec, E. discriminate.
Qed.

Section GHP.
  Context {V : Type} `{EqDec V}.
  Implicit Types (g : graph V) (u v n : V) (a : attrs).

  (** * dropEdges *)
  Lemma selfloops_spec g x y : WF g -> In (x, y) (selfloops g) <-> x = y /\ exists a, ed g x x = Some a.
  Proof.
    intros W. unfold selfloops. rewrite in_flat_map. split.
    - intros ([u r] & I & J). cbn [fst snd] in J. destruct (dhas u r) eqn:D; [|contradiction].
      destruct J as [J|[]]. inversion J; subst. split; [reflexivity|]. unfold ed.
      rewrite (In_dget y r (gadj g)); [|rewrite (wf_keys W); apply (wf_nodup W)|assumption].
      apply dhas_spec in D. destruct (dget y r) as [b|] eqn:E; [eauto|]. apply dget_None in E. contradiction.
    - intros [-> [a E]]. unfold ed in E. destruct (dget y (gadj g)) as [r|] eqn:R; [|discriminate].
      exists (y, r). split; [apply dget_In; assumption|]. cbn [fst snd].
      apply dget_Some_key, dhas_spec in E. rewrite E. left; reflexivity.
  Qed.

  Lemma scan_ok lo hi k ign es l : drop_edges_scan (V:=V) lo hi k ign es = Ok l ->
    (forall u v, In (u, v) l <-> exists a z, In (u, v, a) es /\ int_attr k a z /\ ~ in_range lo z hi)
    /\ (forall u v a, In (u, v, a) es -> dget k a = None -> ign = true)
    /\ (forall u v a x, In (u, v, a) es -> dget k a = Some x -> as_int x <> None).
  Proof.
    revert l. induction es as [|[[u v] a] es IH]; cbn [drop_edges_scan]; intros l Q.
    - inversion Q; subst. split; [|split; [intros ? ? ? []|intros ? ? ? ? []]].
      intros u v. split; [intros []|intros (? & ? & [] & _)].
    - destruct (dget k a) as [x|] eqn:K.
      + destruct (as_int x) as [z|] eqn:A; [|discriminate].
        destruct (drop_edges_scan lo hi k ign es) as [r|e] eqn:S; [|discriminate]. cbn [bind] in Q.
        destruct (IH r eq_refl) as (I1 & I2 & I3). split; [|split].
        * intros p q. destruct (ext_gt z hi || ext_lt z lo) eqn:O; inversion Q; subst; cbn [In]; rewrite I1; split.
          -- intros [E|(b & y & J & T)]; [inversion E; subst|exists b, y; auto].
             exists a, z. split; [left; reflexivity|]. split; [exists x; auto|]. rewrite <- out_of_range_spec, O. discriminate.
          -- intros (b & y & [E|J] & T); [inversion E; subst; left; reflexivity|right; exists b, y; auto].
          -- intros (b & y & J & T); exists b, y; auto.
          -- intros (b & y & [E|J] & T); [|exists b, y; auto]. exfalso. inversion E; subst. destruct T as [(x' & D & D') T].
             apply T. apply out_of_range_spec. rewrite K in D. inversion D; subst. rewrite A in D'. inversion D'; subst. assumption.
        * intros p q b [E|J] D; [inversion E; subst; congruence|eauto].
        * intros p q b y [E|J] D; [inversion E; subst|eauto]. rewrite K in D; inversion D; subst. congruence.
      + destruct ign; [|discriminate]. destruct (IH l Q) as (I1 & I2 & I3). split; [|split].
        * intros p q. rewrite I1. split.
          -- intros (b & y & J & T); exists b, y; cbn; auto.
          -- intros (b & y & [E|J] & T); [|exists b, y; auto]. exfalso. inversion E; subst. destruct T as [(x' & D & _) _]. congruence.
        * reflexivity.
        * intros p q b y [E|J] D; [inversion E; subst; congruence|eauto].
  Qed.
  Lemma scan_total lo hi k ign es :
    (forall u v a, In (u, v, a) es -> (dget k a = None /\ ign = true) \/ exists z, int_attr k a z) ->
    exists l, drop_edges_scan (V:=V) lo hi k ign es = Ok l.
  Proof.
    induction es as [|[[u v] a] es IH]; cbn [drop_edges_scan]; intros T; [eauto|].
    destruct IH as [l E]; [intros; eapply T; right; eassumption|].
    destruct (T u v a) as [[K I]|(z & x & K & A)]; [left; reflexivity| |]; rewrite K.
    - rewrite I in *. eauto.
    - rewrite A, E. cbn. eauto.
  Qed.
  Lemma scan_raise lo hi k ign es e : drop_edges_scan (V:=V) lo hi k ign es = Raise e ->
    (e = KeyError /\ ign = false /\ exists u v a, In (u, v, a) es /\ dget k a = None)
    \/ (e = TypeError /\ exists u v a x, In (u, v, a) es /\ dget k a = Some x /\ as_int x = None).
  Proof.
    induction es as [|[[u v] a] es IH]; cbn [drop_edges_scan]; intros Q; [discriminate|].
    destruct (dget k a) as [x|] eqn:K.
    - destruct (as_int x) as [z|] eqn:A.
      + destruct (drop_edges_scan lo hi k ign es) as [r|e'] eqn:S; [discriminate|]. cbn in Q. inversion Q; subst.
        destruct (IH eq_refl) as [(E & I & p & q & b & J & D)|(E & p & q & b & y & J & D & D')].
        * left. split; [assumption|]. split; [assumption|]. exists p, q, b. cbn; auto.
        * right. split; [assumption|]. exists p, q, b, y. cbn; auto.
      + inversion Q; subst. right. split; [reflexivity|]. exists u, v, a, x. cbn; auto.
    - destruct ign.
      + destruct (IH Q) as [(E & I & p & q & b & J & D)|(E & p & q & b & y & J & D & D')]; [discriminate|].
        right. split; [assumption|]. exists p, q, b, y. cbn; auto.
      + inversion Q; subst. left. split; [reflexivity|]. split; [reflexivity|]. exists u, v, a. cbn; auto.
  Qed.

  (** the graph without its loops *)
  Lemma drop_loops g : WF g -> let g1 := remove_edges_from (selfloops g) g in
    WF g1 /\ gdir g1 = gdir g /\ gnodes g1 = gnodes g
    /\ forall x y, ed g1 x y = if eqb x y then None else ed g x y.
  Proof.
    intros W g1. destruct (remove_edges_from_spec (selfloops g) W) as (W1 & D1 & N1 & E1). fold g1 in W1, D1, N1, E1.
    split; [assumption|]. split; [assumption|]. split; [assumption|]. intros x y. rewrite E1.
    destruct (existsb _ (selfloops g)) eqn:X.
    - apply existsb_exists in X. destruct X as ([p q] & I & S). apply selfloops_spec in I; [|assumption].
      destruct I as [-> _]. apply same_edge_true in S. cbn in S.
      assert (x = y) by (destruct S as [[? ?]|(? & ? & ?)]; congruence). subst. rewrite eqb_refl. reflexivity.
    - destruct (eqb_spec x y) as [->|N]; [|reflexivity]. destruct (ed g y y) as [a|] eqn:E; [|reflexivity].
      exfalso. assert (T : existsb (fun e => same_edge (gdir g) (fst e) (snd e) y y) (selfloops g) = true).
      { apply existsb_exists. exists (y, y). split; [apply selfloops_spec; eauto|]. apply same_edge_refl. }
      congruence.
  Qed.
  Definition loopless (loops : bool) g := if loops then remove_edges_from (selfloops g) g else g.
  Lemma loopless_spec loops g : WF g -> let g1 := loopless loops g in
    WF g1 /\ gdir g1 = gdir g /\ gnodes g1 = gnodes g
    /\ forall x y a, ed g1 x y = Some a <-> ed g x y = Some a /\ (loops = true -> x <> y).
  Proof.
    intros W. unfold loopless. destruct loops.
    - destruct (drop_loops W) as (W1 & D1 & N1 & E1). split; [assumption|]. split; [assumption|]. split; [assumption|].
      intros x y a. rewrite E1. destruct (eqb_spec x y) as [->|N]; [|tauto].
      split; [discriminate|]. intros [_ Q]. exfalso; apply Q; reflexivity.
    - cbn. split; [assumption|]. split; [reflexivity|]. split; [reflexivity|]. intros x y a. split; [|tauto].
      intros E. split; [assumption|discriminate].
  Qed.

  Definition kept (lo hi : ext) (k : str) a : Prop :=
    (lo = MInf /\ hi = PInf) \/ dget k a = None \/ exists z, int_attr k a z /\ in_range lo z hi.

  Lemma drop_edges_ok lo hi k ign loops g g' : WF g -> drop_edges lo hi k ign loops g = (g', None) ->
    WF g' /\ gdir g' = gdir g /\ gnodes g' = gnodes g
    /\ forall x y a, ed g' x y = Some a <-> ed g x y = Some a /\ (loops = true -> x <> y) /\ kept lo hi k a.
  Proof.
    intros W Q. destruct (loopless_spec loops W) as (W1 & D1 & N1 & E1). unfold drop_edges in Q.
    fold (loopless loops g) in Q. set (g1 := loopless loops g) in *.
    destruct (negb (eqb lo MInf) || negb (eqb hi PInf)) eqn:B.
    - destruct (drop_edges_scan lo hi k ign (edges g1)) as [l|e] eqn:S; inversion Q; subst.
      destruct (scan_ok _ _ _ _ _ S) as (I1 & I2 & I3).
      destruct (remove_edges_from_spec l W1) as (W2 & D2 & N2 & E2).
      split; [assumption|]. split; [congruence|]. split; [congruence|]. intros x y a. rewrite E2.
      destruct (existsb _ l) eqn:X.
      + split; [discriminate|]. intros (E & L & K). exfalso.
        apply existsb_exists in X. destruct X as ([p q] & I & T). cbn [fst snd] in T.
        apply I1 in I. destruct I as (b & z & J & A & R). apply (edges_sound _ _ _ W1) in J.
        assert (Q' : ed g1 x y = Some a) by (apply E1; auto).
        assert (Q'' : b = a).
        { apply same_edge_true in T. destruct T as [[-> ->]|(T & -> & ->)]; [congruence|].
          rewrite (wf_sym W1 T) in Q'. congruence. }
        subst b. destruct K as [[-> ->]|[K|(z' & A' & R')]].
        * rewrite !eqb_refl in B. discriminate.
        * destruct A as (w & A & _). congruence.
        * destruct A as (w & A1 & A2), A' as (w' & A1' & A2'). congruence.
      + rewrite E1. split; [|tauto]. intros [E L]. split; [assumption|]. split; [assumption|]. right.
        destruct (dget k a) as [w|] eqn:K; [right|left; reflexivity].
        assert (Q' : ed g1 x y = Some a) by (apply E1; auto).
        assert (exists p q, In (p, q, a) (edges g1) /\ same_edge (gdir g1) p q x y = true) as (p & q & I & T).
        { destruct (edges_complete _ _ W1 Q') as [I|[D I]]; [exists x, y|exists y, x]; (split; [assumption|]);
            apply same_edge_true; auto. }
        destruct (as_int w) as [z|] eqn:A; [|exfalso; eapply I3; eassumption].
        exists z. split; [exists w; auto|]. destruct (in_range_dec lo z hi) as [R|R]; [assumption|].
        exfalso. assert (J : In (p, q) l) by (apply I1; exists a, z; split; [assumption|]; split; [exists w; auto|assumption]).
        assert (existsb (fun e => same_edge (gdir g1) (fst e) (snd e) x y) l = true) by (apply existsb_exists; exists (p, q); auto).
        congruence.
    - inversion Q; subst. rewrite orb_false_iff, !negb_false_iff, !eqb_true in B. destruct B as [-> ->].
      split; [assumption|]. split; [assumption|]. split; [assumption|]. intros x y a. rewrite E1. unfold kept. tauto.
  Qed.
  Lemma drop_edges_raises lo hi k ign loops g g' e : WF g -> drop_edges lo hi k ign loops g = (g', Some e) ->
    (gnodes g' = gnodes g /\ gdir g' = gdir g /\ forall x y a, ed g' x y = Some a <-> ed g x y = Some a /\ (loops = true -> x <> y))
    /\ ~ (lo = MInf /\ hi = PInf)
    /\ ((e = KeyError /\ ign = false /\ exists u v a, ed g u v = Some a /\ dget k a = None)
        \/ (e = TypeError /\ exists u v a x, ed g u v = Some a /\ dget k a = Some x /\ as_int x = None)).
  Proof.
    intros W Q. destruct (loopless_spec loops W) as (W1 & D1 & N1 & E1). unfold drop_edges in Q.
    fold (loopless loops g) in Q. set (g1 := loopless loops g) in *.
    destruct (negb (eqb lo MInf) || negb (eqb hi PInf)) eqn:B; [|discriminate].
    destruct (drop_edges_scan lo hi k ign (edges g1)) as [l|e'] eqn:S; inversion Q; subst.
    split; [|split].
    - split; [assumption|]. split; assumption.
    - intros [-> ->]. rewrite !eqb_refl in B. discriminate.
    - destruct (scan_raise _ _ _ _ _ S) as [(E & I & u & v & a & J & K)|(E & u & v & a & x & J & K & A)];
        apply (edges_sound _ _ _ W1), E1 in J; destruct J as [J _]; [left|right].
      + split; [assumption|]. split; [assumption|]. exists u, v, a; auto.
      + split; [assumption|]. exists u, v, a, x; auto.
  Qed.
  Lemma drop_edges_total lo hi k ign loops g : WF g ->
    (forall u v a, ed g u v = Some a -> (dget k a = None /\ ign = true) \/ exists z, int_attr k a z) ->
    exists g', drop_edges lo hi k ign loops g = (g', None).
  Proof.
    intros W T. destruct (loopless_spec loops W) as (W1 & D1 & N1 & E1). unfold drop_edges.
    fold (loopless loops g). set (g1 := loopless loops g) in *. destruct (_ || _); [|eauto].
    destruct (@scan_total lo hi k ign (edges g1)) as [l L].
    - intros u v a I. apply (edges_sound _ _ _ W1), E1 in I. apply (T u v). apply I.
    - rewrite L. eauto.
  Qed.

  (** * dropNodesByDegree *)
  Lemma degree_loop_ok k inc es : forall z (v : val), degree_loop (V:=V) k inc es (VInt z) = Ok v ->
    v = VInt (z + zsum (map (weight_or_1 k) es)) /\
    (inc = false -> forall u w a, In (u, w, a) es -> dget k a <> None).
  Proof.
    induction es as [|[[u w] a] es IH]; cbn [degree_loop map zsum]; intros z v Q.
    - inversion Q. split; [f_equal; lia|]. intros _ ? ? ? [].
    - unfold weight_or_1 at 1. cbn [snd]. destruct (dget k a) as [x|] eqn:K.
      + unfold vadd in Q. destruct x; cbn in Q; try discriminate; apply IH in Q; destruct Q as [-> Q]; cbn [as_int].
        * split; [f_equal; lia|]. intros E p q b [T|T]; [inversion T; subst; congruence|eapply Q; eauto].
        * split; [f_equal; lia|]. intros E p q c [T|T]; [inversion T; subst; congruence|eapply Q; eauto].
      + destruct inc; [|discriminate]. cbn in Q. apply IH in Q. destruct Q as [-> Q]. split; [f_equal; lia|]. discriminate.
  Qed.
  Lemma degree_loop_total k inc es : forall z,
    (forall u w a, In (u, w, a) es -> (dget k a = None /\ inc = true) \/ exists y, int_attr k a y) ->
    exists v : val, degree_loop (V:=V) k inc es (VInt z) = Ok v.
  Proof.
    induction es as [|[[u w] a] es IH]; cbn [degree_loop]; intros z T; [eauto|].
    destruct (T u w a) as [[K I]|(y & x & K & A)]; [left; reflexivity| |]; rewrite K.
    - subst inc. cbn. apply IH. intros; eapply T; right; eassumption.
    - destruct x as [i| |b|]; cbn in A; try discriminate; cbn; apply IH; intros; eapply T; right; eassumption.
  Qed.

  (** the weights of the edges counted for [n] *)
  Definition counted (d : bool) n := if d then leaves (V:=V) n else touches n.
  Definition deg (use_weight : bool) k g n : Z :=
    zsum (map (if use_weight then weight_or_1 (V:=V) k else one (V:=V)) (filter (counted (gdir g) n) (edges g))).

  Lemma edges_of_spec g n x y a : WF g -> In (x, y, a) (edges_of g n) <-> x = n /\ ed g n y = Some a.
  Proof.
    intros W. unfold edges_of, ed. destruct (dget n (gadj g)) as [r|] eqn:R.
    - rewrite In_row_edges. split; intros [-> I]; (split; [reflexivity|]).
      + apply In_dget; [eapply (wf_row W); eassumption|assumption].
      + apply dget_In; assumption.
    - split; [intros []|intros [_ Q]; discriminate].
  Qed.
  Lemma zsum_perm l m : Permutation l m -> zsum l = zsum m.
  Proof. induction 1; cbn; lia. Qed.
  Lemma zsum_app l m : zsum (l ++ m) = (zsum l + zsum m)%Z.
  Proof. induction l as [|x l IH]; cbn; [reflexivity|]. rewrite IH. lia. Qed.
  Definition orient n (e : V * V * attrs) : V * V * attrs :=
    if eqb (fst (fst e)) n then e else (snd (fst e), fst (fst e), snd e).
  Lemma NoDup_of_map (A B : Type) (f : A -> B) l : NoDup (map f l) -> NoDup l.
  Proof.
    induction l as [|x l IH]; cbn; intros ND; [constructor|]. inversion ND; subst. constructor; [|auto].
    intros I; apply H2. apply in_map. assumption.
  Qed.
  Lemma NoDup_map_on (A B : Type) (f : A -> B) l : NoDup l -> (forall x y, In x l -> In y l -> f x = f y -> x = y) -> NoDup (map f l).
  Proof.
    induction 1 as [|x l NI ND IH]; cbn; intros I; [constructor|]. constructor.
    - intros J. apply in_map_iff in J. destruct J as (y & E & J). apply I in E; auto. subst; contradiction.
    - apply IH. auto.
  Qed.
  Lemma edges_of_perm g n : WF g -> Permutation (map (orient n) (filter (counted (gdir g) n) (edges g))) (edges_of g n).
  Proof.
    intros W. assert (NDe : NoDup (edges g)) by (eapply NoDup_of_map; apply edges_NoDup; assumption).
    apply NoDup_Permutation.
    - apply NoDup_map_on; [apply NoDup_filter; assumption|].
      intros [[x y] a] [[x' y'] a'] I J Q. apply filter_In in I, J. destruct I as [I Ci], J as [J Cj].
      destruct (gdir g) eqn:D; unfold counted, leaves, touches, orient in *; cbn [fst snd] in *.
      + rewrite Ci, Cj in Q. assumption.
      + destruct (eqb_spec x n) as [->|N]; destruct (eqb_spec x' n) as [->|N']; cbn [orb] in *; try congruence.
        * apply eqb_eq in Cj. subst y'. inversion Q; subst.
          pose proof (edges_one_orientation _ _ _ _ W D I J). subst. reflexivity.
        * apply eqb_eq in Ci. subst y. inversion Q; subst.
          pose proof (edges_one_orientation _ _ _ _ W D I J). subst. reflexivity.
    - unfold edges_of. destruct (dget n (gadj g)) as [r|] eqn:R; [|constructor].
      eapply NoDup_of_map. apply NoDup_row_edges. eapply (wf_row W); eassumption.
    - intros [[x y] a]. rewrite edges_of_spec by assumption. rewrite in_map_iff. split.
      + intros ([[p q] b] & Q & I). apply filter_In in I. destruct I as [I C]. apply (edges_sound _ _ _ W) in I.
        destruct (gdir g) eqn:D; unfold counted, leaves, touches, orient in *; cbn [fst snd] in *.
        * rewrite C in Q. apply eqb_eq in C. inversion Q; subst. auto.
        * destruct (eqb_spec p n) as [->|N]; inversion Q; subst; [auto|]. cbn in C. apply eqb_eq in C. subst.
          split; [reflexivity|]. rewrite (wf_sym W D). assumption.
      + intros [-> E]. destruct (edges_complete _ _ W E) as [I|[D I]].
        * exists (n, y, a). unfold orient; cbn [fst snd]. rewrite eqb_refl. split; [reflexivity|].
          apply filter_In. split; [assumption|]. destruct (gdir g); unfold counted, leaves, touches; cbn [fst snd]; rewrite eqb_refl; reflexivity.
        * exists (y, n, a). unfold orient; cbn [fst snd]. split.
          -- destruct (eqb_spec y n) as [->|N]; reflexivity.
          -- apply filter_In. split; [assumption|]. rewrite D. unfold counted, touches; cbn [fst snd]. rewrite eqb_refl, orb_true_r. reflexivity.
  Qed.
  Lemma deg_edges_of (use_weight : bool) k g n : WF g ->
    zsum (map (if use_weight then weight_or_1 (V:=V) k else one (V:=V)) (edges_of g n)) = deg use_weight k g n.
  Proof.
    intros W. unfold deg. rewrite <- (zsum_perm (Permutation_map _ (edges_of_perm n W))). rewrite map_map. f_equal.
    apply map_ext. intros [[x y] a]. unfold orient; cbn [fst snd]. destruct (eqb x n); [reflexivity|].
    destruct use_weight; reflexivity.
  Qed.
  Lemma node_degree_ok uw k inc g n (v : val) : WF g -> node_degree uw k inc g n = Ok v -> v = VInt (deg uw k g n).
  Proof.
    intros W. unfold node_degree. rewrite <- (deg_edges_of uw k n W). destruct uw.
    - intros Q. apply degree_loop_ok in Q. destruct Q as [-> _]. reflexivity.
    - intros Q; inversion Q as [Q1]. f_equal. clear Q Q1. induction (edges_of g n) as [|e l IH]; cbn [map zsum length]; [reflexivity|].
      unfold one at 1. rewrite Nat2Z.inj_succ, IH. lia.
  Qed.
  Lemma bad_by_degree_ok lo hi uw k inc g ns : forall l, WF g -> bad_by_degree lo hi uw k inc g ns = Ok l ->
    forall n, In n l <-> In n ns /\ ~ in_range lo (deg uw k g n) hi.
  Proof.
    induction ns as [|m ns IH]; cbn [bad_by_degree]; intros l W Q n.
    - inversion Q; subst. cbn. tauto.
    - destruct (node_degree uw k inc g m) as [v|] eqn:D; [|discriminate]. apply node_degree_ok in D; [|assumption]. subst v. cbn [bind as_int] in Q.
      destruct (bad_by_degree lo hi uw k inc g ns) as [r|] eqn:B; [|discriminate]. cbn [bind] in Q.
      pose proof (IH r W eq_refl n) as I. destruct (ext_lt _ lo || ext_gt _ hi) eqn:O; inversion Q; subst; cbn [In].
      + rewrite I. split; [|tauto]. intros [->|T]; [|tauto]. split; [auto|]. rewrite <- out_of_range_spec', O. discriminate.
      + rewrite I. apply out_of_range_spec' in O. split; [tauto|]. intros [[->|T] R]; [contradiction|auto].
  Qed.
  Lemma drop_nodes_by_degree_ok lo hi uw k inc g g' : WF g -> drop_nodes_by_degree lo hi uw k inc g = (g', None) ->
    WF g' /\ gdir g' = gdir g
    /\ (forall n a, nd g' n = Some a <-> nd g n = Some a /\ in_range lo (deg uw k g n) hi)
    /\ (forall x y a, ed g' x y = Some a <-> ed g x y = Some a /\ in_range lo (deg uw k g x) hi /\ in_range lo (deg uw k g y) hi).
  Proof.
    intros W Q. unfold drop_nodes_by_degree in Q. destruct (bad_by_degree _ _ _ _ _ _ _) as [l|] eqn:B; inversion Q; subst.
    pose proof (bad_by_degree_ok _ _ _ _ _ _ W B) as I. destruct (remove_nodes_from_spec l W) as (W' & D & N & E).
    assert (M : forall n, In n (nodes g) -> mem n l = false <-> in_range lo (deg uw k g n) hi).
    { intros n J. rewrite mem_not_In, I. destruct (in_range_dec lo (deg uw k g n) hi); tauto. }
    split; [assumption|]. split; [assumption|]. split.
    - intros n a. rewrite N. split.
      + destruct (mem n l) eqn:T; [discriminate|]. intros E'. split; [assumption|]. apply M; [apply nd_In; eauto|assumption].
      + intros [E' R]. apply M in R; [|apply nd_In; eauto]. rewrite R. assumption.
    - intros x y a. rewrite E. split.
      + destruct (mem x l) eqn:T1; [discriminate|]. destruct (mem y l) eqn:T2; [discriminate|]. cbn. intros E'.
        split; [assumption|]. split; apply M; try assumption; [eapply ed_source; eassumption|eapply wf_ends; eassumption].
      + intros (E' & R1 & R2). apply M in R1; [|eapply ed_source; eassumption]. apply M in R2; [|eapply wf_ends; eassumption].
        rewrite R1, R2. assumption.
  Qed.
  Lemma drop_nodes_by_degree_total lo hi uw k inc g : WF g ->
    (uw = true -> forall u v a, ed g u v = Some a -> (dget k a = None /\ inc = true) \/ exists z, int_attr k a z) ->
    exists g', drop_nodes_by_degree lo hi uw k inc g = (g', None).
  Proof.
    intros W T. unfold drop_nodes_by_degree.
    assert (B : forall ns, exists l, bad_by_degree lo hi uw k inc g ns = Ok l).
    { induction ns as [|n ns [l IH]]; cbn [bad_by_degree]; [eauto|].
      assert (exists v : val, node_degree uw k inc g n = Ok v) as [v D].
      { unfold node_degree. destruct uw; [|eauto]. apply degree_loop_total. intros u w a I. apply edges_of_spec in I; [|assumption].
        destruct I as [-> I]. eapply T; [reflexivity|eassumption]. }
      rewrite D. apply node_degree_ok in D; [|assumption]. subst v. cbn [bind as_int]. rewrite IH. cbn. eauto. }
    destruct (B (nodes g)) as [l ->]. eauto.
  Qed.
  Lemma drop_nodes_by_degree_raises lo hi uw k inc g g' e :
    drop_nodes_by_degree lo hi uw k inc g = (g', Some e) -> g' = g.
  Proof. unfold drop_nodes_by_degree. destruct (bad_by_degree _ _ _ _ _ _ _); intros Q; inversion Q; reflexivity. Qed.

  (** * dropNodesByCount *)
  Lemma bad_by_count_ok lo hi k ign ns : forall l, bad_by_count (V:=V) lo hi k ign ns = Ok l ->
    (forall n, In n l <-> exists a z, In (n, a) ns /\ int_attr k a z /\ ~ in_range lo z hi)
    /\ (forall n a, In (n, a) ns -> dget k a = None -> ign = true)
    /\ (forall n a x, In (n, a) ns -> dget k a = Some x -> as_int x <> None).
  Proof.
    induction ns as [|[m a] ns IH]; cbn [bad_by_count]; intros l Q.
    - inversion Q; subst. split; [|split; [intros ? ? []|intros ? ? ? []]].
      intros n. split; [intros []|intros (? & ? & [] & _)].
    - destruct (dget k a) as [x|] eqn:K.
      + destruct (as_int x) as [z|] eqn:A; [|discriminate].
        destruct (bad_by_count lo hi k ign ns) as [r|e] eqn:S; [|discriminate]. cbn [bind] in Q.
        destruct (IH r eq_refl) as (I1 & I2 & I3). split; [|split].
        * intros p. destruct (ext_lt z lo || ext_gt z hi) eqn:O; inversion Q; subst; cbn [In]; rewrite I1; split.
          -- intros [E|(b & y & J & T)]; [subst|exists b, y; auto].
             exists a, z. split; [left; reflexivity|]. split; [exists x; auto|]. rewrite <- out_of_range_spec', O. discriminate.
          -- intros (b & y & [E|J] & T); [inversion E; subst; left; reflexivity|right; exists b, y; auto].
          -- intros (b & y & J & T); exists b, y; auto.
          -- intros (b & y & [E|J] & T); [|exists b, y; auto]. exfalso. inversion E; subst. destruct T as [(x' & D & D') T].
             apply T. apply out_of_range_spec'. rewrite K in D. inversion D; subst. rewrite A in D'. inversion D'; subst. assumption.
        * intros p b [E|J] D; [inversion E; subst; congruence|eauto].
        * intros p b y [E|J] D; [inversion E; subst|eauto]. rewrite K in D; inversion D; subst. congruence.
      + destruct ign; [|discriminate]. destruct (IH l Q) as (I1 & I2 & I3). split; [|split].
        * intros p. rewrite I1. split.
          -- intros (b & y & J & T); exists b, y; cbn; auto.
          -- intros (b & y & [E|J] & T); [|exists b, y; auto]. exfalso. inversion E; subst. destruct T as [(x' & D & _) _]. congruence.
        * reflexivity.
        * intros p b y [E|J] D; [inversion E; subst; congruence|eauto].
  Qed.
  Definition kept_count (lo hi : ext) (k : str) a : Prop := dget k a = None \/ exists z, int_attr k a z /\ in_range lo z hi.
  Lemma drop_nodes_by_count_ok lo hi k ign g g' : WF g -> drop_nodes_by_count lo hi k ign g = (g', None) ->
    WF g' /\ gdir g' = gdir g
    /\ (forall n a, nd g' n = Some a <-> nd g n = Some a /\ kept_count lo hi k a)
    /\ (forall x y a, ed g' x y = Some a <-> ed g x y = Some a /\ nd g' x <> None /\ nd g' y <> None).
  Proof.
    intros W Q. unfold drop_nodes_by_count in Q. destruct (bad_by_count _ _ _ _ _) as [l|] eqn:B; inversion Q; subst.
    destruct (bad_by_count_ok _ _ _ _ _ B) as (I1 & I2 & I3). destruct (remove_nodes_from_spec l W) as (W' & D & N & E).
    assert (M : forall n a, nd g n = Some a -> mem n l = false <-> kept_count lo hi k a).
    { intros n a J. rewrite mem_not_In, I1. split.
      - intros NI. unfold kept_count. destruct (dget k a) as [x|] eqn:K; [right|left; reflexivity].
        assert (J' : In (n, a) (gnodes g)) by (apply dget_In; exact J).
        destruct (as_int x) as [z|] eqn:A; [|exfalso; eapply I3; eassumption]. exists z. split; [exists x; auto|].
        destruct (in_range_dec lo z hi) as [R|R]; [assumption|]. exfalso. apply NI. exists a, z. split; [assumption|]. split; [exists x; auto|assumption].
      - intros K (b & z & J' & A & R). assert (Q' : nd g n = Some b) by (apply In_dget; [apply (wf_nodup W)|assumption]).
        assert (b = a) by congruence. subst b. destruct K as [K|(z' & A' & R')].
        + destruct A as (? & A & _); congruence.
        + destruct A as (w & A1 & A2), A' as (w' & A1' & A2'). congruence. }
    split; [assumption|]. split; [assumption|]. split.
    - intros n a. rewrite N. split.
      + destruct (mem n l) eqn:T; [discriminate|]. intros E'. split; [assumption|]. apply (M n); assumption.
      + intros [E' R]. apply (M n) in R; [|assumption]. rewrite R. assumption.
    - intros x y a. rewrite E, !N. split.
      + destruct (mem x l) eqn:T1; [discriminate|]. destruct (mem y l) eqn:T2; [discriminate|]. cbn. intros E'.
        split; [assumption|]. split.
        * intros Q'. apply nd_not_In in Q'. apply Q'. eapply ed_source; eassumption.
        * intros Q'. apply nd_not_In in Q'. apply Q'. eapply wf_ends; eassumption.
      + intros (E' & R1 & R2). destruct (mem x l); [congruence|]. destruct (mem y l); [congruence|]. assumption.
  Qed.
  Lemma drop_nodes_by_count_total lo hi k ign g : WF g ->
    (forall n a, nd g n = Some a -> (dget k a = None /\ ign = true) \/ exists z, int_attr k a z) ->
    exists g', drop_nodes_by_count lo hi k ign g = (g', None).
  Proof.
    intros W T. unfold drop_nodes_by_count.
    assert (B : forall ns, (forall n a, In (n, a) ns -> (dget k a = None /\ ign = true) \/ exists z, int_attr k a z) ->
       exists l, bad_by_count (V:=V) lo hi k ign ns = Ok l).
    { induction ns as [|[n a] ns IH]; cbn [bad_by_count]; intros T'; [eauto|].
      destruct IH as [l E]; [intros; eapply T'; right; eassumption|].
      destruct (T' n a) as [[K I]|(z & x & K & A)]; [left; reflexivity| |]; rewrite K.
      - rewrite I in *. eauto.
      - rewrite A, E. cbn. eauto. }
    destruct (B (gnodes g)) as [l ->]; [|eauto]. intros n a I. apply (T n). apply In_dget; [apply (wf_nodup W)|assumption].
  Qed.
End GHP.
