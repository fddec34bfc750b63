From Coq Require Import String.
From Verif Require Import Base PyStr PyInt Nx NxFacts GraphHelpersModel GraphHelpersSpec GraphHelpersProofs.
Set Implicit Arguments.

Section GHP2.
  Context {V : Type} `{EqDec V}.
  Implicit Types (g : graph V) (u v n : V) (a : attrs).

  (** * degrees *)
  Lemma zadd_keys n z (d d' : dict V Z) : zadd n z d = Ok d' -> dkeys d' = dkeys d.
  Proof.
    unfold zadd. destruct (dget n d) eqn:E; [|discriminate]. intros Q; inversion Q; subst.
    rewrite dkeys_dset. apply dget_Some_key, dhas_spec in E. rewrite E. reflexivity.
  Qed.
  Lemma zadd_get n z (d d' : dict V Z) m : zadd n z d = Ok d' ->
    dget m d' = match dget m d with Some y => Some (y + (if eqb n m then z else 0))%Z | None => None end.
  Proof.
    unfold zadd. destruct (dget n d) as [y|] eqn:E; [|discriminate]. intros Q; inversion Q; subst.
    rewrite dget_dset, (eqb_sym m n). destruct (eqb_spec n m) as [->|N]; [rewrite E; reflexivity|].
    destruct (dget m d); [f_equal; lia|reflexivity].
  Qed.
  Lemma zsum_dset n y w (d : dict V Z) : dget n d = Some y -> zsum (dvals (dset n w d)) = (zsum (dvals d) - y + w)%Z.
  Proof.
    unfold dvals. induction d as [|[k x] d IH]; cbn [dget dset map snd zsum]; [discriminate|].
    destruct (eqb_spec n k) as [->|N]; cbn [map snd zsum].
    - intros Q; inversion Q; lia.
    - intros Q. rewrite IH by assumption. lia.
  Qed.
  Lemma zadd_sum n z (d d' : dict V Z) : zadd n z d = Ok d' -> zsum (dvals d') = (zsum (dvals d) + z)%Z.
  Proof.
    unfold zadd. destruct (dget n d) as [y|] eqn:E; [|discriminate]. intros Q; inversion Q; subst.
    rewrite (zsum_dset _ _ _ E). lia.
  Qed.
  Lemma edge_val_weight wname strict u v a z : edge_val wname strict a = Ok z -> z = edge_weight (V:=V) wname (u, v, a).
  Proof.
    unfold edge_val, edge_weight. cbn [snd]. destruct wname as [k|]; [|congruence].
    destruct (dget k a) as [x|]; [|destruct strict; congruence]. intros ->. reflexivity.
  Qed.
  Definition ends_in (es : list (V * V * attrs)) (d : dict V Z) : Prop :=
    forall u v a, In (u, v, a) es -> In u (dkeys d) /\ In v (dkeys d).

  Definition factor (t : etype) : Z := match t with Bi => 2 | In_ => 1 | Out_ => 1 | Other => 0 end.
  Lemma degrees_loop_ok wname strict t es : forall d d', degrees_loop (V:=V) wname strict t es d = Ok d' ->
    dkeys d' = dkeys d
    /\ (t = Other -> es = [])
    /\ (forall n z, dget n d = Some z -> dget n d' = Some (z + zsum (map (fun e => incidence t n e * edge_weight wname e) es))%Z)
    /\ zsum (dvals d') = (zsum (dvals d) + factor t * zsum (map (edge_weight wname) es))%Z.
  Proof.
    induction es as [|[[u v] a] es IH]; intros d d' Q; cbn [degrees_loop] in Q.
    - inversion Q; subst. split; [reflexivity|]. split; [reflexivity|]. cbn. split; [intros; rewrite Z.add_0_r; assumption|lia].
    - destruct (edge_val wname strict a) as [z|] eqn:EV; [|discriminate]. apply (edge_val_weight _ _ u v) in EV. cbn [bind] in Q.
      cbn [map zsum]. rewrite <- EV.
      destruct t; try discriminate.
      + destruct (zadd u z d) as [d1|] eqn:Z1; [|discriminate]. cbn [bind] in Q.
        destruct (zadd v z d1) as [d2|] eqn:Z2; [|discriminate]. cbn [bind] in Q.
        destruct (IH _ _ Q) as (K & _ & G & S). split; [rewrite K, (zadd_keys _ _ _ Z2); apply (zadd_keys _ _ _ Z1)|].
        split; [discriminate|]. split.
        * intros n y E. specialize (zadd_get _ _ _ n Z1); rewrite E; intros E1.
          specialize (zadd_get _ _ _ n Z2); rewrite E1; intros E2. rewrite (G _ _ E2). f_equal. cbn beta.
          change (incidence Bi n (u, v, a)) with ((if eqb u n then 1 else 0) + (if eqb v n then 1 else 0))%Z. rewrite <- ?EV.
          destruct (eqb u n), (eqb v n); lia.
        * rewrite S, (zadd_sum _ _ _ Z2), (zadd_sum _ _ _ Z1). unfold factor. lia.
      + destruct (zadd v z d) as [d1|] eqn:Z1; [|discriminate]. cbn [bind] in Q.
        destruct (IH _ _ Q) as (K & _ & G & S). split; [rewrite K; apply (zadd_keys _ _ _ Z1)|].
        split; [discriminate|]. split.
        * intros n y E. specialize (zadd_get _ _ _ n Z1); rewrite E; intros E1. rewrite (G _ _ E1). f_equal. cbn beta.
          change (incidence In_ n (u, v, a)) with (if eqb v n then 1 else 0)%Z. rewrite <- ?EV. destruct (eqb v n); lia.
        * rewrite S, (zadd_sum _ _ _ Z1). unfold factor. lia.
      + destruct (zadd u z d) as [d1|] eqn:Z1; [|discriminate]. cbn [bind] in Q.
        destruct (IH _ _ Q) as (K & _ & G & S). split; [rewrite K; apply (zadd_keys _ _ _ Z1)|].
        split; [discriminate|]. split.
        * intros n y E. specialize (zadd_get _ _ _ n Z1); rewrite E; intros E1. rewrite (G _ _ E1). f_equal. cbn beta.
          change (incidence Out_ n (u, v, a)) with (if eqb u n then 1 else 0)%Z. rewrite <- ?EV. destruct (eqb u n); lia.
        * rewrite S, (zadd_sum _ _ _ Z1). unfold factor. lia.
  Qed.
  Lemma degrees_loop_total wname strict t es : forall d, t <> Other ->
    ends_in es d -> (forall u v a, In (u, v, a) es -> exists z, edge_val wname strict a = Ok z) ->
    exists d', degrees_loop (V:=V) wname strict t es d = Ok d'.
  Proof.
    assert (Z : forall n z (d : dict V Z), In n (dkeys d) -> exists d', zadd n z d = Ok d').
    { intros n z d I. unfold zadd. destruct (dget n d) eqn:E; [eauto|]. apply dget_None in E. contradiction. }
    induction es as [|[[u v] a] es IH]; intros d T E W; cbn [degrees_loop]; [eauto|].
    destruct (W u v a) as [z ->]; [left; reflexivity|]. cbn [bind].
    destruct (E u v a) as [Iu Iv]; [left; reflexivity|].
    assert (R : forall d', dkeys d' = dkeys d -> exists d'', degrees_loop wname strict t es d' = Ok d'').
    { intros d' K. apply IH; [assumption| |intros; eapply W; right; eassumption].
      intros p q b I. rewrite K. eapply E. right; eassumption. }
    destruct t; [| | |congruence].
    - destruct (Z u z d Iu) as [d1 D1]. rewrite D1. cbn [bind]. destruct (Z v z d1) as [d2 D2]; [rewrite (zadd_keys _ _ _ D1); assumption|].
      rewrite D2. cbn [bind]. apply R. rewrite (zadd_keys _ _ _ D2). apply (zadd_keys _ _ _ D1).
    - destruct (Z v z d Iv) as [d1 D1]. rewrite D1. cbn [bind]. apply R. apply (zadd_keys _ _ _ D1).
    - destruct (Z u z d Iu) as [d1 D1]. rewrite D1. cbn [bind]. apply R. apply (zadd_keys _ _ _ D1).
  Qed.
  Lemma init_degrees ns : forall (d : dict V Z), NoDup (dkeys d ++ ns) ->
    let d' := fold_left (fun d n => dset n 0%Z d) ns d in
    dkeys d' = dkeys d ++ ns /\ (forall n, In n ns -> dget n d' = Some 0%Z) /\ zsum (dvals d') = zsum (dvals d)
    /\ forall n, ~ In n ns -> dget n d' = dget n d.
  Proof.
    induction ns as [|n ns IH]; cbn [fold_left]; intros d ND.
    - rewrite app_nil_r. repeat split; try reflexivity. intros ? [].
    - assert (NI : dhas n d = false).
      { apply mem_not_In. intros I. apply NoDup_remove_2 in ND. apply ND. apply in_app_iff. left; assumption. }
      assert (K : dkeys (dset n 0%Z d) = dkeys d ++ [n]) by (rewrite dkeys_dset, NI; reflexivity).
      destruct (IH (dset n 0%Z d)) as (K' & G & S & O).
      { rewrite K, <- app_assoc. exact ND. }
      split; [rewrite K', K, <- app_assoc; reflexivity|]. split; [|split].
      + intros m [->|I]; [|auto]. destruct (mem m ns) eqn:M; [apply mem_In in M; auto|].
        apply mem_not_In in M. rewrite O by assumption. apply dget_dset_same.
      + rewrite S. clear -NI. unfold dhas in NI. induction d as [|[k y] d IH]; [reflexivity|].
        unfold dkeys, mem in NI. cbn in NI. apply orb_false_iff in NI. destruct NI as [N1 N2].
        cbn [dset]. rewrite N1. cbn [dvals map snd zsum]. unfold dvals in IH. rewrite IH by assumption. reflexivity.
      + intros m NM. rewrite O by (intros I; apply NM; right; assumption). apply dget_dset_other. intros ->. apply NM; left; reflexivity.
  Qed.
  Lemma get_node_degrees_ok wname strict t g d : WF g -> get_node_degrees g wname strict t = Ok d ->
    dkeys d = nodes g
    /\ (forall n, In n (nodes g) -> dget n d = Some (zsum (map (fun e => incidence t n e * edge_weight wname e) (edges g)))%Z)
    /\ zsum (dvals d) = (factor t * zsum (map (edge_weight wname) (edges g)))%Z.
  Proof.
    intros W Q. destruct (@init_degrees (nodes g) []) as (K & G & S & O); [cbn; apply (wf_nodup W)|].
    apply degrees_loop_ok in Q. destruct Q as (K' & _ & G' & S').
    split; [rewrite K'; exact K|]. split; [|rewrite S', S; cbn; lia].
    intros n I. rewrite (G' n 0%Z) by auto. reflexivity.
  Qed.
  Lemma get_node_degrees_total wname strict t g : WF g -> t <> Other ->
    (forall u v a, ed g u v = Some a -> exists z, edge_val wname strict a = Ok z) ->
    exists d, get_node_degrees g wname strict t = Ok d.
  Proof.
    intros W T E. destruct (@init_degrees (nodes g) []) as (K & _); [cbn; apply (wf_nodup W)|].
    apply degrees_loop_total; [assumption| |].
    - intros u v a I. rewrite K. cbn. apply (edges_sound _ _ _ W) in I. split; [eapply ed_source; eassumption|eapply wf_ends; eassumption].
    - intros u v a I. apply (edges_sound _ _ _ W) in I. eapply E; eassumption.
  Qed.

  (** * getDegreeDistribution *)
  Lemma zmax_spec l m : zmax l = Some m -> In m l /\ forall x, In x l -> (x <= m)%Z.
  Proof.
    revert m; induction l as [|x l IH]; cbn [zmax]; intros m Q; [discriminate|].
    destruct (zmax l) as [y|] eqn:E.
    - destruct (IH y eq_refl) as [I B]. inversion Q; subst. split.
      + destruct (Z.max_spec x y) as [[_ ->]|[_ ->]]; cbn; auto.
      + intros z [->|J]; [lia|]. specialize (B z J). lia.
    - destruct l; [|cbn in E; destruct (zmax l); discriminate]. inversion Q; subst. split; [left; reflexivity|].
      intros z [->|[]]; lia.
  Qed.
  Lemma bump_length l i : length (bump l i) = length l.
  Proof. revert i; induction l as [|x l IH]; intros [|i]; cbn; auto. Qed.
  Lemma bump_nth l i j : i < length l -> nth j (bump l i) 0%Z = (nth j l 0 + if (i =? j)%nat then 1 else 0)%Z.
  Proof.
    revert i j; induction l as [|x l IH]; intros [|i] [|j] L; cbn in *; try lia.
    - rewrite IH by lia. reflexivity.
  Qed.
  Lemma dist_loop_ok vs : forall l (l0 : list Z), (forall v : Z, In v vs -> (0 <= v < Z.of_nat (length l))%Z) ->
    exists l', dist_loop vs l = Ok l' /\ length l' = length l
      /\ forall k, nth k l' 0%Z = (nth k l 0 + Z.of_nat (count (Z.of_nat k) vs))%Z.
  Proof.
    induction vs as [|v vs IH]; intros l _ B; cbn [dist_loop].
    - exists l. cbn [count]. repeat split; auto. intros; lia.
    - pose proof (B v (or_introl eq_refl)) as Bv.
      assert (P : py_bump l v = Ok (bump l (Z.to_nat v))).
      { unfold py_bump. destruct (Z.ltb_spec v 0); [lia|].
        replace ((0 <=? v) && (v <? Z.of_nat (length l)))%Z with true; [reflexivity|].
        symmetry. rewrite andb_true_iff, Z.leb_le, Z.ltb_lt. lia. }
      rewrite P. cbn [bind].
      destruct (IH (bump l (Z.to_nat v)) []) as (l' & Q & L & N).
      { intros w I. rewrite bump_length. apply B. right; assumption. }
      exists l'. split; [assumption|]. split; [rewrite L; apply bump_length|]. intros k. rewrite N, bump_nth by lia.
      cbn [count]. destruct (Nat.eqb_spec (Z.to_nat v) k) as [<-|NE].
      + rewrite Z2Nat.id by lia. rewrite eqb_refl. lia.
      + rewrite (neq_eqb (x:=Z.of_nat k)) by lia. lia.
  Qed.
  Lemma degree_distribution_ok wname strict t g d : get_node_degrees g wname strict t = Ok d ->
    dvals d <> [] -> (forall x, In x (dvals d) -> (0 <= x)%Z) ->
    exists l m, get_degree_distribution g wname strict t = Ok l
      /\ In (Z.of_nat m) (dvals d) /\ length l = S m
      /\ forall k, nth k l 0%Z = Z.of_nat (count (Z.of_nat k) (dvals d)).
  Proof.
    intros Q NE P. unfold get_degree_distribution. rewrite Q. cbn [bind]. destruct (zmax (dvals d)) as [m|] eqn:M.
    - destruct (zmax_spec _ M) as [I B]. pose proof (P m I) as Pm.
      destruct (@dist_loop_ok (dvals d) (repeat 0%Z (Z.to_nat (m + 1))) []) as (l & L & Len & N).
      { intros v J. rewrite repeat_length. specialize (B v J). specialize (P v J). lia. }
      exists l, (Z.to_nat m). split; [assumption|]. split; [rewrite Z2Nat.id by lia; assumption|].
      split; [rewrite Len, repeat_length; lia|]. intros k. rewrite N.
      assert (R : nth k (repeat 0%Z (Z.to_nat (m + 1))) 0%Z = 0%Z).
      { destruct (nth_in_or_default k (repeat 0%Z (Z.to_nat (m + 1))) 0%Z) as [J|J]; [|assumption]. apply repeat_spec in J. assumption. }
      rewrite R. lia.
    - destruct (dvals d); [congruence|]. cbn in M. destruct (zmax l); discriminate.
  Qed.

  (** * mergeGraphs *)
  Definition ints (k : str) (x a : attrs) : Prop := exists y z, dget k x = Some (VInt y) /\ dget k a = Some (VInt z).
  Definition merged (k : str) (old : option attrs) a : attrs :=
    match old with Some x => dset k (VInt (num k old + num k (Some a))) x | None => dupdate [] a end.
  Lemma gdir_node_incr n k x g g' : node_incr n k x g = Ok g' -> gdir g' = gdir g.
  Proof.
    unfold node_incr. destruct (nd g n) as [b|]; [|discriminate]. destruct (dget k b) as [y|]; [|discriminate].
    destruct (vadd y x); [|discriminate]. apply gdir_node_set.
  Qed.
  Lemma merge_node_ok k n a g : WF g -> (forall x, nd g n = Some x -> ints k x a) ->
    exists g', merge_node (Some k) n a g = (g', None) /\ WF g' /\ gdir g' = gdir g
      /\ (forall u v, ed g' u v = ed g u v)
      /\ forall m, nd g' m = if eqb m n then Some (merged k (nd g n) a) else nd g m.
  Proof.
    intros W I. unfold merge_node. destruct (nd g n) as [x|] eqn:E.
    - destruct (I x eq_refl) as (y & z & Kx & Ka). rewrite Ka. unfold node_incr. rewrite E, Kx. cbn [vadd as_int bind].
      destruct (node_set n k (VInt (y + z)) g) as [g'|e] eqn:S; [|unfold node_set in S; rewrite E in S; discriminate].
      exists g'. split; [reflexivity|]. split; [eapply WF_node_set; eassumption|]. split; [eapply gdir_node_set; eassumption|].
      split; [intros; eapply ed_node_set; eassumption|]. intros m. rewrite (nd_node_set _ _ _ _ _ S), E. cbn [or_empty merged].
      unfold num. rewrite Kx, Ka. reflexivity.
    - assert (Q : (add_node n a g, None) = (add_node n a g, None : option exn)) by reflexivity.
      exists (add_node n a g). split.
      { destruct (dget k a); [|reflexivity]. unfold node_incr. rewrite E. reflexivity. }
      split; [apply WF_add_node; assumption|]. split; [apply gdir_add_node|]. split; [intros; apply ed_add_node; assumption|].
      intros m. rewrite nd_add_node, E. reflexivity.
  Qed.
  Lemma merge_nodes_ok k ns : forall g, WF g -> NoDup (dkeys ns) ->
    (forall n a x, In (n, a) ns -> nd g n = Some x -> ints k x a) ->
    exists g', merge_nodes (Some k) ns g = (g', None) /\ WF g' /\ gdir g' = gdir g
      /\ (forall u v, ed g' u v = ed g u v)
      /\ forall m, nd g' m = match dget m ns with Some a => Some (merged k (nd g m) a) | None => nd g m end.
  Proof.
    induction ns as [|[n a] ns IH]; intros g W ND I; cbn [merge_nodes].
    - exists g. repeat split; auto; apply W.
    - cbn in ND. inversion ND as [|? ? NI ND']; subst.
      destruct (@merge_node_ok k n a g W) as (g1 & Q1 & W1 & D1 & E1 & N1).
      { intros x Ex. eapply I; [left; reflexivity|assumption]. }
      rewrite Q1. destruct (IH g1 W1 ND') as (g2 & Q2 & W2 & D2 & E2 & N2).
      { intros m b x J Ex. rewrite N1 in Ex. destruct (eqb_spec m n) as [->|N].
        - exfalso. apply NI. apply in_map_iff. exists (n, b); auto.
        - eapply I; [right; eassumption|assumption]. }
      exists g2. split; [assumption|]. split; [assumption|]. split; [congruence|]. split; [intros; rewrite E2; apply E1|].
      intros m. rewrite N2, !N1. cbn [dget]. destruct (eqb_spec m n) as [->|N]; [|reflexivity].
      destruct (dget n ns) eqn:G; [|reflexivity]. exfalso. apply NI. eapply dget_Some_key; eassumption.
  Qed.
  Lemma merge_edge_ok k u v a g : WF g -> In u (nodes g) -> In v (nodes g) -> NoDup (dkeys a) -> (forall x, ed g u v = Some x -> ints k x a) ->
    exists g', merge_edge (Some k) u v a g = (g', None) /\ WF g' /\ gdir g' = gdir g
      /\ (forall m, nd g' m = nd g m)
      /\ forall x y, ed g' x y = if same_edge (gdir g) u v x y then Some (merged k (ed g u v) a) else ed g x y.
  Proof.
    intros W Iu Iv NDa I. unfold merge_edge. destruct (ed g u v) as [x|] eqn:E.
    - destruct (I x eq_refl) as (y & z & Kx & Ka). rewrite Ka. unfold edge_incr. rewrite E, Kx. cbn [vadd as_int bind].
      eexists. split; [reflexivity|]. split; [apply WF_put_edge; try assumption; apply NoDup_dset; eapply (wf_eattr W); eassumption|].
      split; [reflexivity|]. split; [reflexivity|]. intros p q. rewrite ed_put_edge by assumption.
      cbn [merged]. unfold num. rewrite Kx, Ka. reflexivity.
    - exists (add_edge u v a g). split.
      { destruct (dget k a); [|reflexivity]. unfold edge_incr. rewrite E. reflexivity. }
      split; [apply WF_add_edge; assumption|]. split; [apply gdir_add_edge|]. split.
      + intros m. rewrite nd_add_edge by assumption. apply nd_In in Iu, Iv. destruct Iu as [b Iu], Iv as [c Iv].
        destruct (eqb_spec m u) as [->|N1]; cbn [orb]; [rewrite Iu; reflexivity|].
        destruct (eqb_spec m v) as [->|N2]; [rewrite Iv; reflexivity|reflexivity].
      + intros p q. rewrite ed_add_edge by assumption. rewrite E. reflexivity.
  Qed.
  Lemma same_edge_comm d u v x y : same_edge d u v x y = same_edge (V:=V) d x y u v.
  Proof.
    destruct (same_edge d u v x y) eqn:E; symmetry.
    - apply same_edge_true in E. apply same_edge_true. intuition congruence.
    - apply not_true_iff_false. intros Q. apply not_true_iff_false in E. apply E.
      apply same_edge_true in Q. apply same_edge_true. intuition congruence.
  Qed.
  Lemma merge_edges_ok k d es : forall g, WF g -> gdir g = d ->
    (forall x y, length (filter (joins d x y) es) <= 1) ->
    (forall u v a, In (u, v, a) es -> In u (nodes g) /\ In v (nodes g) /\ NoDup (dkeys a)) ->
    (forall u v a x, In (u, v, a) es -> ed g u v = Some x -> ints k x a) ->
    exists g', merge_edges (Some k) es g = (g', None) /\ WF g' /\ gdir g' = d
      /\ (forall m, nd g' m = nd g m)
      /\ forall x y, ed g' x y = match filter (joins d x y) es with e :: _ => Some (merged k (ed g x y) (snd e)) | [] => ed g x y end.
  Proof.
    induction es as [|[[u v] a] es IH]; intros g W D U En I; cbn [merge_edges].
    - exists g. repeat split; auto; apply W.
    - destruct (En u v a) as (Iu & Iv & NDa); [left; reflexivity|].
      destruct (@merge_edge_ok k u v a g W Iu Iv NDa) as (g1 & Q1 & W1 & D1 & N1 & E1).
      { intros x Ex. eapply I; [left; reflexivity|assumption]. }
      rewrite Q1.
      assert (Rest : forall x y, same_edge d u v x y = true -> filter (joins d x y) es = []).
      { intros x y S. specialize (U x y). cbn [filter] in U. unfold joins at 1 in U. cbn [fst snd] in U.
        rewrite same_edge_comm in S. rewrite S in U. cbn [length] in U. destruct (filter _ es); [reflexivity|cbn in U; lia]. }
      destruct (IH g1 W1) as (g2 & Q2 & W2 & D2 & N2 & E2).
      + congruence.
      + intros x y. specialize (U x y). cbn [filter] in U. destruct (joins d x y (u, v, a)); cbn in U; lia.
      + intros p q b J. destruct (En p q b) as (Ip & Iq & NDb); [right; assumption|]. split; [|split; [|assumption]].
        * apply nd_In. rewrite N1. apply nd_In. assumption.
        * apply nd_In. rewrite N1. apply nd_In. assumption.
      + intros p q b x J Ex. rewrite E1, D in Ex. destruct (same_edge d u v p q) eqn:S.
        * exfalso. apply Rest in S. assert (M : In (p, q, b) (filter (joins d p q) es)) by (apply filter_In; split; [assumption|apply same_edge_refl]).
          rewrite S in M. contradiction.
        * eapply I; [right; eassumption|assumption].
      + exists g2. split; [assumption|]. split; [assumption|]. split; [congruence|]. split; [intros; rewrite N2; apply N1|].
        intros x y. rewrite E2, !E1, D. cbn [filter]. unfold joins at 2. cbn [fst snd]. rewrite (same_edge_comm d x y u v).
        destruct (same_edge d u v x y) eqn:S; [|reflexivity]. rewrite (Rest _ _ S). cbn [snd].
        do 2 f_equal. apply same_edge_true in S. destruct S as [[-> ->]|(D' & -> & ->)]; [reflexivity|].
        apply (wf_sym W). congruence.
  Qed.
  Lemma merge_graphs_ok nk ek ga g : WF g -> WF ga -> gdir ga = gdir g ->
    (forall n x a, nd g n = Some x -> nd ga n = Some a -> ints nk x a) ->
    (forall u v x a, ed g u v = Some x -> ed ga u v = Some a -> ints ek x a) ->
    exists g', merge_graphs (Some nk) (Some ek) ga g = (g', None) /\ WF g' /\ gdir g' = gdir g
      /\ (forall m, nd g' m = match nd ga m with Some a => Some (merged nk (nd g m) a) | None => nd g m end)
      /\ (forall x y, ed g' x y = match ed ga x y with Some a => Some (merged ek (ed g x y) a) | None => ed g x y end).
  Proof.
    intros W Wa D In_ Ie. unfold merge_graphs.
    destruct (@merge_nodes_ok nk (gnodes ga) g W (wf_nodup Wa)) as (g1 & Q1 & W1 & D1 & E1 & N1).
    { intros n a x I E. eapply In_; [eassumption|]. apply In_dget; [apply (wf_nodup Wa)|assumption]. }
    rewrite Q1. destruct (@merge_edges_ok ek (gdir g) (edges ga) g1 W1 D1) as (g2 & Q2 & W2 & D2 & N2 & E2).
    - intros x y. rewrite <- D. pose proof (edges_once x y Wa) as O. destruct (ed ga x y).
      + destruct O as [->|[_ ->]]; cbn; lia.
      + rewrite O. cbn; lia.
    - intros u v a I. apply (edges_sound _ _ _ Wa) in I.
      assert (M : forall m, In m (nodes ga) -> In m (nodes g1)).
      { intros m J. apply nd_In in J. destruct J as [b J]. apply nd_In. rewrite N1. unfold nd in J. rewrite J. eauto. }
      split; [apply M; eapply ed_source; eassumption|]. split; [apply M; eapply wf_ends; eassumption|].
      eapply (wf_eattr Wa); eassumption.
    - intros u v a x I E. rewrite E1 in E. apply (edges_sound _ _ _ Wa) in I. eapply Ie; eassumption.
    - exists g2. split; [assumption|]. split; [assumption|]. split; [congruence|]. split.
      + intros m. rewrite N2, N1. reflexivity.
      + intros x y. rewrite E2, !E1. rewrite <- D. pose proof (edges_once x y Wa) as O.
        destruct (ed ga x y) as [a|].
        * destruct O as [->|[_ ->]]; reflexivity.
        * rewrite O. reflexivity.
  Qed.

  (** * writeTnetFile *)
  Lemma gadj_node_set n k x g g' : node_set n k x g = Ok g' -> gadj g' = gadj g.
  Proof. unfold node_set. destruct (nd g n); [|discriminate]. intros Q; inversion Q; reflexivity. Qed.

  Lemma tnet_nodes_ok mk ik ns : forall i modes mode1 g g' modes' mode1',
    tnet_nodes mk ik i ns modes mode1 g = (g', Ok (modes', mode1')) ->
    NoDup (dkeys ns) -> length modes <= 2 -> NoDup modes ->
    gadj g' = gadj g /\ gdir g' = gdir g /\ nodes g' = nodes g
    /\ (exists more, modes' = modes ++ more) /\ length modes' <= 2 /\ NoDup modes'
    /\ (forall n a, In (n, a) ns -> exists m, dget mk a = Some m /\ In m modes')
    /\ (forall m0 rest, modes' = m0 :: rest -> forall n, In n mode1' <-> In n mode1 \/ exists a, In (n, a) ns /\ dget mk a = Some m0)
    /\ (forall j n a, nth_error ns j = Some (n, a) -> exists b, nd g n = Some b /\ nd g' n = Some (dset ik (VInt (i + Z.of_nat j)) b))
    /\ (forall n, ~ In n (dkeys ns) -> nd g' n = nd g n).
  Proof.
    induction ns as [|[n a] ns IH]; intros i modes mode1 g g' modes' mode1' Q ND L NDm.
    - cbn in Q. inversion Q; subst. repeat (split; [first [reflexivity|assumption|exists []; rewrite app_nil_r; reflexivity]|]).
      split; [intros ? ? []|]. split; [intros m0 rest _ n; split; [auto|intros [?|(? & [] & _)]; assumption]|].
      split; [intros [|j] ? ? E; discriminate|reflexivity].
    - cbn [tnet_nodes] in Q. destruct (dget mk a) as [m|] eqn:K.
      2:{ cbn in Q. discriminate. }
      cbn in ND. inversion ND as [|? ? NI ND']; subst.
      assert (Step : forall modes2, length modes2 <= 2 -> NoDup modes2 -> (exists more, modes2 = modes ++ more) -> In m modes2 ->
         match node_set n ik (VInt i) g with
         | Ok g' => tnet_nodes mk ik (i + 1) ns modes2 (match modes2 with m0 :: _ => if eqb m m0 then mode1 ++ [n] else mode1 | [] => mode1 end) g'
         | Raise e => (g, Raise e) end = (g', Ok (modes', mode1')) ->
         gadj g' = gadj g /\ gdir g' = gdir g /\ nodes g' = nodes g
         /\ (exists more, modes' = modes ++ more) /\ length modes' <= 2 /\ NoDup modes'
         /\ (forall n0 a0, In (n0, a0) ((n, a) :: ns) -> exists m, dget mk a0 = Some m /\ In m modes')
         /\ (forall m0 rest, modes' = m0 :: rest -> forall n0, In n0 mode1' <-> In n0 mode1 \/ exists a0, In (n0, a0) ((n, a) :: ns) /\ dget mk a0 = Some m0)
         /\ (forall j n0 a0, nth_error ((n, a) :: ns) j = Some (n0, a0) -> exists b, nd g n0 = Some b /\ nd g' n0 = Some (dset ik (VInt (i + Z.of_nat j)) b))
         /\ (forall n0, ~ In n0 (dkeys ((n, a) :: ns)) -> nd g' n0 = nd g n0)).
      { intros modes2 L2 ND2 (more & M2) Im Q2.
        destruct (node_set n ik (VInt i) g) as [g1|e] eqn:S; [|discriminate].
        apply IH in Q2; [|assumption|assumption|assumption].
        destruct Q2 as (A & D & N & (more' & P) & L' & NDm' & Ms & M1 & At & Un).
        assert (E : nd g n <> None) by (unfold node_set in S; destruct (nd g n); [discriminate|discriminate]).
        destruct (nd g n) as [b|] eqn:Eb; [|congruence].
        split; [rewrite A; apply (gadj_node_set _ _ _ _ S)|]. split; [rewrite D; apply (gdir_node_set _ _ _ _ S)|].
        split; [rewrite N; apply (nodes_node_set _ _ _ _ S)|]. split; [exists (more ++ more'); rewrite P, M2, app_assoc; reflexivity|].
        split; [assumption|]. split; [assumption|]. split.
        { intros n0 a0 [T|T]; [injection T as <- <-|apply (Ms n0 a0 T)]. exists m. split; [assumption|]. rewrite P. apply in_app_iff. auto. }
        split.
        { intros m0 rest R n0. rewrite (M1 m0 rest R). destruct modes2 as [|m2 modes2]; [contradiction|].
          assert (m2 = m0) by (rewrite P in R; cbn in R; congruence). subst m2. cbn [In].
          destruct (eqb_spec m m0) as [->|NE].
          - rewrite in_app_iff. cbn. split.
            + intros [[T|[->|[]]]|(a0 & T & T')]; [auto| |right; exists a0; auto]. right. exists a. auto.
            + intros [T|(a0 & [T|T] & T')]; [auto|injection T as <- <-; auto|right; exists a0; auto].
          - split.
            + intros [T|(a0 & T & T')]; [auto|right; exists a0; auto].
            + intros [T|(a0 & [T|T] & T')]; [auto|injection T as <- <-; congruence|right; exists a0; auto]. }
        split.
        { intros [|j] n0 a0 T; cbn in T.
          - injection T as <- <-. exists b. split; [assumption|]. rewrite Un by assumption. rewrite (nd_node_set _ _ _ _ _ S), eqb_refl, Eb.
            rewrite Z.add_0_r. reflexivity.
          - assert (Nn : n0 <> n). { intros ->. apply NI. apply nth_error_In in T. apply in_map_iff. exists (n, a0). auto. }
            destruct (At _ _ _ T) as (c & C1 & C2). rewrite (nd_node_set _ _ _ _ _ S), (neq_eqb Nn) in C1. exists c. split; [assumption|].
            rewrite C2. do 3 f_equal. lia. }
        { intros n0 T. cbn in T. rewrite Un by tauto. rewrite (nd_node_set _ _ _ _ _ S). rewrite neq_eqb by (intros ->; tauto). reflexivity. } }
      destruct (mem m modes) eqn:Mm.
      + apply (Step modes); try assumption; [exists []; rewrite app_nil_r; reflexivity|apply mem_In; assumption].
      + destruct (Nat.ltb_spec (length modes) 2) as [L2|L2]; [|discriminate].
        apply (Step (modes ++ [m])); [rewrite app_length; cbn; lia| |exists [m]; reflexivity|apply in_app_iff; cbn; auto|exact Q].
        apply mem_not_In in Mm. apply NoDup_app_disjoint; [assumption|constructor; [intros []|constructor]|].
        intros x I [->|[]]. contradiction.
  Qed.

  Lemma tnet_nodes_total mk ik m0 m1 ns : forall i modes mode1 g,
    (forall n a, In (n, a) ns -> In n (nodes g)) ->
    (forall n a, In (n, a) ns -> exists m, dget mk a = Some m /\ (m = m0 \/ m = m1)) ->
    incl modes [m0; m1] -> NoDup modes ->
    exists g' modes' mode1', tnet_nodes mk ik i ns modes mode1 g = (g', Ok (modes', mode1')) /\ incl modes' [m0; m1].
  Proof.
    induction ns as [|[n a] ns IH]; intros i modes mode1 g Ex Md Inc ND.
    - cbn. do 3 eexists. split; [reflexivity|assumption].
    - cbn [tnet_nodes]. destruct (Md n a) as (m & K & Mm); [left; reflexivity|]. rewrite K.
      assert (Im : In m [m0; m1]) by (cbn; destruct Mm; auto).
      assert (S : exists g1, node_set n ik (VInt i) g = Ok g1).
      { assert (I : In n (nodes g)) by (eapply Ex; left; reflexivity). apply nd_In in I. destruct I as [b I]. unfold node_set. rewrite I. eauto. }
      destruct S as [g1 S].
      assert (Step : forall modes2 mode2, incl modes2 [m0; m1] -> NoDup modes2 ->
        exists g' modes' mode1', tnet_nodes mk ik (i + 1) ns modes2 mode2 g1 = (g', Ok (modes', mode1')) /\ incl modes' [m0; m1]).
      { intros modes2 mode2 I2 N2. apply IH; try assumption.
        - intros p b J. rewrite (nodes_node_set _ _ _ _ S). eapply Ex. right; eassumption.
        - intros p b J. eapply Md. right; eassumption. }
      rewrite S. destruct (mem m modes) eqn:Q.
      + apply Step; assumption.
      + apply mem_not_In in Q. destruct (Nat.ltb_spec (length modes) 2) as [L|L].
        * apply Step.
          -- intros x J. apply in_app_iff in J. destruct J as [J|[<-|[]]]; [apply Inc; assumption|assumption].
          -- apply NoDup_app_disjoint; [assumption|constructor; [intros []|constructor]|]. intros x I [->|[]]. contradiction.
        * exfalso. apply Q. apply (@NoDup_length_incl _ modes [m0; m1] ND); [cbn; lia|assumption|assumption].
  Qed.

  Definition tnet_edge_line mode1 (weighted : bool) ik wk g (e : V * V * attrs) (l : tnet_line) : Prop :=
    exists s t, (e = (s, t, snd e) \/ e = (t, s, snd e)) /\ In s mode1 /\ ~ In t mode1
      /\ exists i j, attr (nd g s) ik = Some i /\ attr (nd g t) ik = Some j
      /\ exists w, l = (i, j, w) /\ if weighted then exists x, w = Some x /\ dget wk (snd e) = Some x else w = None.
  Lemma tnet_edges_ok (weighted : bool) ik wk mode1 g es : forall ls, tnet_edges weighted ik wk mode1 g es = (ls, None) ->
    Forall2 (tnet_edge_line mode1 weighted ik wk g) es ls.
  Proof.
    induction es as [|[[u v] a] es IH]; cbn [tnet_edges]; intros ls Q.
    - inversion Q; constructor.
    - set (o := if mem u mode1 then if mem v mode1 then None else Some (u, v) else if mem v mode1 then Some (v, u) else None) in *.
      assert (O : forall s t, o = Some (s, t) -> ((u, v, a) = (s, t, a) \/ (u, v, a) = (t, s, a)) /\ In s mode1 /\ ~ In t mode1).
      { intros s t E. unfold o in E. rewrite <- mem_In, <- mem_not_In. destruct (mem u mode1) eqn:Mu, (mem v mode1) eqn:Mv; inversion E; subst; auto. }
      destruct o as [[s t]|]; [|discriminate]. destruct (O s t eq_refl) as (O1 & O2 & O3). clear O.
      destruct (nd g s) as [sa|] eqn:Ns; [|discriminate]. destruct (nd g t) as [ta|] eqn:Nt; [|discriminate].
      destruct (dget ik sa) as [i|] eqn:Is; [|discriminate]. destruct (dget ik ta) as [j|] eqn:It; [|discriminate].
      assert (R : forall w, (if weighted then exists x, w = Some x /\ dget wk a = Some x else w = None) ->
        (let (ls0, e) := tnet_edges weighted ik wk mode1 g es in ((i, j, w) :: ls0, e)) = (ls, None) ->
        Forall2 (tnet_edge_line mode1 weighted ik wk g) ((u, v, a) :: es) ls).
      { intros w Hw Q'. destruct (tnet_edges weighted ik wk mode1 g es) as [ls0 e]. inversion Q'; subst. constructor; [|apply IH; reflexivity].
        exists s, t. split; [exact O1|]. split; [assumption|]. split; [assumption|]. exists i, j. rewrite Ns, Nt. cbn [attr].
        split; [assumption|]. split; [assumption|]. exists w. split; [reflexivity|exact Hw]. }
      destruct weighted.
      + destruct (dget wk a) as [x|]; [|discriminate]. apply (R (Some x)); [eauto|assumption].
      + apply (R None); [reflexivity|assumption].
  Qed.
  Lemma tnet_edges_total (weighted : bool) ik wk mode1 g es :
    (forall u v a, In (u, v, a) es -> (In u mode1 /\ ~ In v mode1) \/ (~ In u mode1 /\ In v mode1)) ->
    (forall u v a, In (u, v, a) es -> attr (nd g u) ik <> None /\ attr (nd g v) ik <> None) ->
    (weighted = true -> forall u v a, In (u, v, a) es -> dget wk a <> None) ->
    exists ls, tnet_edges weighted ik wk mode1 g es = (ls, None).
  Proof.
    induction es as [|[[u v] a] es IH]; cbn [tnet_edges]; intros M At Wt; [eauto|].
    destruct IH as [ls IH]; [intros; eapply M; right; eassumption|intros; eapply At; right; eassumption|intros E p q b I; eapply Wt; [assumption|right; eassumption]|].
    assert (T : exists s t, (if mem u mode1 then if mem v mode1 then None else Some (u, v) else if mem v mode1 then Some (v, u) else None) = Some (s, t)
       /\ attr (nd g s) ik <> None /\ attr (nd g t) ik <> None).
    { destruct (At u v a) as [Au Av]; [left; reflexivity|]. destruct (M u v a) as [[I J]|[I J]]; [left; reflexivity| |].
      - apply mem_In in I. apply mem_not_In in J. rewrite I, J. eauto 6.
      - apply mem_not_In in I. apply mem_In in J. rewrite I, J. eauto 6. }
    destruct T as (s & t & -> & As & At').
    destruct (nd g s) as [sa|]; [|cbn in As; congruence]. destruct (nd g t) as [ta|]; [|cbn in At'; congruence]. cbn in As, At'.
    destruct (dget ik sa); [|congruence]. destruct (dget ik ta); [|congruence]. rewrite IH.
    destruct weighted; [|eauto]. specialize (Wt eq_refl u v a (or_introl eq_refl)). destruct (dget wk a); [eauto|congruence].
  Qed.

  Definition tnet_line_for mk wk (weighted : bool) (m0 m1 : val) g (e : V * V * attrs) (l : tnet_line) : Prop :=
    exists s t i j w, (e = (s, t, snd e) \/ e = (t, s, snd e))
      /\ attr (nd g s) mk = Some m0 /\ attr (nd g t) mk = Some m1
      /\ nth_error (nodes g) i = Some s /\ nth_error (nodes g) j = Some t
      /\ l = (VInt (Z.of_nat (S i)), VInt (Z.of_nat (S j)), w)
      /\ if weighted then exists x, w = Some x /\ dget wk (snd e) = Some x else w = None.

  Lemma nth_error_nodes g j n : WF g -> nth_error (nodes g) j = Some n ->
    exists a, nth_error (gnodes g) j = Some (n, a) /\ nd g n = Some a.
  Proof.
    intros W E. unfold nodes, dkeys in E. rewrite nth_error_map in E. destruct (nth_error (gnodes g) j) as [[k a]|] eqn:Q; [|discriminate].
    cbn in E. inversion E; subst. exists a. split; [reflexivity|]. apply In_dget; [apply (wf_nodup W)|]. eapply nth_error_In; eassumption.
  Qed.
  Lemma write_tnet_ok weighted mk ik wk source g g' ls : WF g ->
    write_tnet weighted mk ik wk source g = (g', Some ls, None) ->
    exists m0 m1, m0 <> m1 /\ (forall m, source = Some m -> m0 = m)
      /\ (forall n, In n (nodes g) -> attr (nd g n) mk = Some m0 \/ attr (nd g n) mk = Some m1)
      /\ (forall j n, nth_error (nodes g) j = Some n -> exists b, nd g n = Some b /\ nd g' n = Some (dset ik (VInt (Z.of_nat (S j))) b))
      /\ nodes g' = nodes g /\ (forall u v, ed g' u v = ed g u v)
      /\ Forall2 (tnet_line_for mk wk weighted m0 m1 g) (edges g) ls.
  Proof.
    intros W Q. unfold write_tnet in Q.
    destruct (tnet_nodes mk ik 1 (gnodes g) _ [] g) as [g1 [[modes mode1]|e]] eqn:T; [|discriminate].
    destruct (Nat.eqb_spec (length modes) 2) as [L|L]; [|discriminate].
    destruct (tnet_edges weighted ik wk mode1 g1 (edges g1)) as [ls1 e1] eqn:E. inversion Q; subst. clear Q.
    apply tnet_nodes_ok in T; [|apply (wf_nodup W)|destruct source; cbn; lia|destruct source; repeat constructor; intros []].
    destruct T as (A & D & N & (more & P) & L' & ND & Ms & M1 & At & Un).
    destruct modes as [|m0 [|m1 [|? ?]]]; try discriminate. exists m0, m1.
    assert (NE : m0 <> m1) by (inversion ND; subst; cbn in *; intuition congruence).
    split; [exact NE|]. split; [intros m ->; cbn in P; congruence|].
    assert (Md : forall n, In n (nodes g) -> attr (nd g n) mk = Some m0 \/ attr (nd g n) mk = Some m1).
    { intros n I. apply nd_In in I. destruct I as [b I]. destruct (Ms n b) as (m & K & J); [apply dget_In; exact I|].
      rewrite I. cbn [attr]. rewrite K. cbn in J. intuition congruence. }
    assert (Att : forall j n, nth_error (nodes g) j = Some n -> exists b, nd g n = Some b /\ nd g' n = Some (dset ik (VInt (Z.of_nat (S j))) b)).
    { intros j n I. apply (nth_error_nodes _ W) in I. destruct I as (a & I & I'). destruct (At j n a I) as (b & B1 & B2).
      exists b. split; [assumption|]. rewrite B2. do 3 f_equal. lia. }
    split; [exact Md|]. split; [exact Att|]. split; [exact N|].
    assert (Ed : forall u v, ed g' u v = ed g u v) by (intros; unfold ed; rewrite A; reflexivity).
    split; [exact Ed|].
    assert (Es : edges g' = edges g) by (unfold edges; rewrite A, D; reflexivity).
    rewrite Es in E. apply tnet_edges_ok in E.
    assert (In1 : forall n, In n (nodes g) -> In n mode1 <-> attr (nd g n) mk = Some m0).
    { intros n I. rewrite (M1 m0 [m1] eq_refl n). cbn [In]. apply nd_In in I. destruct I as [b I]. rewrite I. cbn [attr]. split.
      - intros [[]|(a & J & K)]. apply (In_dget n a (gnodes g) (wf_nodup W)) in J. unfold nd in I. congruence.
      - intros K. right. exists b. split; [apply dget_In; exact I|assumption]. }
    clear - W E In1 Md Att NE Es.
    assert (Ends : forall u v a, In (u, v, a) (edges g) -> In u (nodes g) /\ In v (nodes g)).
    { intros u v a I. apply (edges_sound _ _ _ W) in I. split; [eapply ed_source; eassumption|eapply wf_ends; eassumption]. }
    clear Es. induction E as [|e l es ls (s & t & O & Is & It & i & j & Ai & Aj & w & -> & Hw) F IH]; constructor.
    - assert (In s (nodes g) /\ In t (nodes g)) as [Js Jt].
      { destruct e as [[u v] a]. cbn [snd] in O. destruct (Ends u v a); [left; reflexivity|]. destruct O as [O|O]; inversion O; subst; auto. }
      apply In1 in Is; [|assumption]. assert (At : attr (nd g t) mk = Some m1).
      { destruct (Md t Jt) as [X|X]; [|assumption]. exfalso. apply It. apply In1; assumption. }
      destruct (In_nth_error _ _ Js) as [p Np]. destruct (In_nth_error _ _ Jt) as [q Nq].
      destruct (Att p s Np) as (b & B1 & B2). destruct (Att q t Nq) as (c & C1 & C2).
      rewrite B2 in Ai. rewrite C2 in Aj. cbn [attr] in Ai, Aj. rewrite dget_dset_same in Ai, Aj. inversion Ai; inversion Aj; subst.
      exists s, t, p, q, w. repeat (split; [assumption|]). split; [reflexivity|assumption].
    - apply IH. intros; eapply Ends; right; eassumption.
  Qed.
  Lemma write_tnet_total (weighted : bool) mk ik wk source g m0 m1 : WF g -> m0 <> m1 ->
    (forall n, In n (nodes g) -> attr (nd g n) mk = Some m0 \/ attr (nd g n) mk = Some m1) ->
    (exists n, attr (nd g n) mk = Some m0) -> (exists n, attr (nd g n) mk = Some m1) ->
    (forall m, source = Some m -> m = m0) ->
    (forall u v a, ed g u v = Some a -> attr (nd g u) mk <> attr (nd g v) mk /\ (weighted = true -> dget wk a <> None)) ->
    exists g' ls, write_tnet weighted mk ik wk source g = (g', Some ls, None).
  Proof.
    intros W NE Md [n0 E0] [n1 E1] Src Ed. unfold write_tnet.
    set (start := match source with Some m => [m] | None => [] end).
    assert (Sub : incl start [m0; m1]).
    { unfold start. destruct source as [m|]; intros x []; [subst|contradiction]. rewrite (Src x eq_refl). left; reflexivity. }
    assert (NDs : NoDup start) by (unfold start; destruct source; repeat constructor; intros []).
    destruct (@tnet_nodes_total mk ik m0 m1 (gnodes g) 1 start [] g) as (g' & modes & mode1 & T & Inc); try assumption.
    { intros n a I. unfold nodes. apply in_map_iff. exists (n, a); auto. }
    { intros n a I. assert (Q : nd g n = Some a) by (apply In_dget; [apply (wf_nodup W)|assumption]).
      destruct (Md n) as [X|X]; [apply nd_In; eauto| |]; rewrite Q in X; cbn in X; eauto. }
    rewrite T. apply tnet_nodes_ok in T;
      [|apply (wf_nodup W)|unfold start; destruct source; cbn; lia|assumption].
    destruct T as (A & D & N & (more & P) & L' & ND & Ms & M1 & At & Un).
    assert (Has : forall n m, attr (nd g n) mk = Some m -> In m modes).
    { intros n m X. destruct (nd g n) as [b|] eqn:Q; [|discriminate]. cbn in X. destruct (Ms n b) as (m' & K & J); [apply dget_In; exact Q|]. congruence. }
    assert (Len : length modes = 2).
    { assert (2 <= length modes); [|lia]. apply (@NoDup_incl_length _ [m0; m1]); [constructor; [intros [X|[]]; congruence|constructor; [intros []|constructor]]|].
      intros x [<-|[<-|[]]]; [apply (Has n0)|apply (Has n1)]; assumption. }
    rewrite Len. cbn [Nat.eqb].
    assert (Es : edges g' = edges g) by (unfold edges; rewrite A, D; reflexivity). rewrite Es.
    assert (exists ls, tnet_edges weighted ik wk mode1 g' (edges g) = (ls, None)) as [ls ->]; [|eauto].
    destruct modes as [|p [|q [|? ?]]]; try discriminate.
    assert (In1 : forall n, In n (nodes g) -> In n mode1 <-> attr (nd g n) mk = Some p).
    { intros n I. rewrite (M1 p [q] eq_refl n). cbn [In]. apply nd_In in I. destruct I as [b I]. rewrite I. cbn [attr]. split.
      - intros [[]|(a & J & K)]. apply (In_dget n a (gnodes g) (wf_nodup W)) in J. unfold nd in I. congruence.
      - intros K. right. exists b. split; [apply dget_In; exact I|assumption]. }
    assert (Two : forall n, In n (nodes g) -> attr (nd g n) mk = Some p \/ attr (nd g n) mk = Some q).
    { intros n I. apply nd_In in I. destruct I as [b I]. destruct (Ms n b) as (m & K & J); [apply dget_In; exact I|].
      rewrite I. cbn [attr]. rewrite K. cbn in J. intuition congruence. }
    apply tnet_edges_total.
    - intros u v a I. apply (edges_sound _ _ _ W) in I. pose proof (ed_source _ _ W I) as Iu. pose proof (wf_ends W _ _ I) as Iv.
      destruct (Ed _ _ _ I) as [X _]. rewrite (In1 u Iu), (In1 v Iv).
      destruct (Two u Iu) as [Y|Y], (Two v Iv) as [Z|Z]; rewrite Y, Z in *; try congruence; [left|right]; split; try reflexivity; try (intros R; congruence).
    - intros u v a I. apply (edges_sound _ _ _ W) in I. pose proof (ed_source _ _ W I) as Iu. pose proof (wf_ends W _ _ I) as Iv.
      assert (X : forall n, In n (nodes g) -> attr (nd g' n) ik <> None).
      { intros n J. destruct (In_nth_error _ _ J) as [k K]. apply (nth_error_nodes _ W) in K. destruct K as (b & K & _).
        destruct (At _ _ _ K) as (c & C1 & C2). rewrite C2. cbn [attr]. rewrite dget_dset_same. discriminate. }
      split; apply X; assumption.
    - intros Wt u v a I. apply (edges_sound _ _ _ W) in I. destruct (Ed _ _ _ I) as [_ X]. auto.
  Qed.
End GHP2.
