(** What the networkx operations do, in terms of the two lookups [nd] and [ed]. *)
From Coq Require Import String.
From Verif Require Import Base Nx.
Set Implicit Arguments.

Section NxFacts.
  Context {V : Type} `{EqDec V}.
  Implicit Types (g : graph V) (u v n : V) (a : attrs).

  Lemma WF_empty d : WF (empty_graph (V:=V) d).
  Proof.
    constructor; cbn; try (intros; discriminate); try reflexivity. constructor.
  Qed.

  Lemma nd_In g n : In n (nodes g) <-> exists a, nd g n = Some a.
  Proof.
    unfold nodes, nd. destruct (dget n (gnodes g)) as [a|] eqn:E.
    - split; [eexists; reflexivity | intros _; eapply dget_Some_key; eassumption].
    - apply dget_None in E. split; [contradiction | intros [? ?]; discriminate].
  Qed.
  Lemma nd_not_In g n : ~ In n (nodes g) <-> nd g n = None.
  Proof. unfold nodes, nd. rewrite dget_None. reflexivity. Qed.
  Lemma row_exists g n : WF g -> In n (nodes g) -> exists r, dget n (gadj g) = Some r.
  Proof.
    intros W I. destruct (dget n (gadj g)) as [r|] eqn:E; [eexists; reflexivity|].
    apply dget_None in E. rewrite (wf_keys W) in E. contradiction.
  Qed.
  Lemma no_row g n : WF g -> ~ In n (nodes g) -> dget n (gadj g) = None.
  Proof. intros W NI. apply dget_None. rewrite (wf_keys W). assumption. Qed.
  Lemma ed_source g u v a : WF g -> ed g u v = Some a -> In u (nodes g).
  Proof.
    unfold ed. intros W E. destruct (dget u (gadj g)) eqn:R; [|discriminate].
    unfold nodes. rewrite <- (wf_keys W). eapply dget_Some_key; eassumption.
  Qed.
  Lemma ed_no_source g u v : WF g -> nd g u = None -> ed g u v = None.
  Proof.
    intros W N. destruct (ed g u v) eqn:E; [|reflexivity].
    apply ed_source in E; [|assumption]. apply nd_not_In in N. contradiction.
  Qed.
  Lemma ed_no_target g u v : WF g -> nd g v = None -> ed g u v = None.
  Proof.
    intros W N. destruct (ed g u v) eqn:E; [|reflexivity].
    apply (wf_ends W) in E. apply nd_not_In in N. contradiction.
  Qed.

  (** ** add_node *)
  Lemma nd_add_node g n m a :
    nd (add_node n a g) m =
    if eqb m n then Some (dupdate (match nd g n with Some old => old | None => [] end) a) else nd g m.
  Proof.
    unfold add_node. destruct (nd g n) as [old|] eqn:E; unfold nd; cbn [gnodes];
      rewrite dget_dset; destruct (eqb m n); reflexivity.
  Qed.
  Lemma ed_new_row d ns (t : dict V (dict V attrs)) n u v : dget n t = None ->
    ed (mkG d ns (dset n [] t)) u v = ed (mkG d ns t) u v.
  Proof.
    intros R. unfold ed; cbn [gadj]. rewrite dget_dset. destruct (eqb_spec u n) as [->|N]; [|reflexivity].
    rewrite R. reflexivity.
  Qed.
  Lemma ed_add_node g n a u v : WF g -> ed (add_node n a g) u v = ed g u v.
  Proof.
    intros W. unfold add_node. destruct (nd g n) as [old|] eqn:E; [reflexivity|].
    rewrite ed_new_row; [reflexivity|]. apply no_row; [assumption|]. apply nd_not_In; assumption.
  Qed.
  Lemma nodes_add_node g n a m : In m (nodes (add_node n a g)) <-> m = n \/ In m (nodes g).
  Proof.
    rewrite !nd_In. split.
    - intros [b E]. rewrite nd_add_node in E. destruct (eqb_spec m n); eauto.
    - intros D. rewrite nd_add_node. destruct (eqb_spec m n); eauto. destruct D as [D|D]; [congruence|eauto].
  Qed.
  Lemma WF_add_node g n a : WF g -> WF (add_node n a g).
  Proof.
    intros W. assert (K : dkeys (gadj (add_node n a g)) = dkeys (gnodes (add_node n a g))).
    { unfold add_node. destruct (nd g n) as [old|] eqn:E; cbn [gadj gnodes]; rewrite ?dkeys_dset.
      - unfold nd in E. apply dget_Some_key in E. apply dhas_spec in E. rewrite E. apply (wf_keys W).
      - unfold dhas. rewrite !(wf_keys W). reflexivity. }
    constructor.
    - exact K.
    - unfold add_node; destruct (nd g n); cbn [gnodes]; apply NoDup_dset; apply (wf_nodup W).
    - intros u r. unfold add_node. destruct (nd g n) as [old|] eqn:E; cbn [gadj]; [apply (wf_row W)|].
      rewrite dget_dset. destruct (eqb u n); [|apply (wf_row W)]. intros Q; inversion Q; constructor.
    - intros u v b. rewrite ed_add_node by assumption. intros Q. apply nodes_add_node. right.
      eapply (wf_ends W); eassumption.
    - assert (D : gdir (add_node n a g) = gdir g) by (unfold add_node; destruct (nd g n); reflexivity).
      rewrite D. intros Q u v. rewrite !ed_add_node by assumption. apply (wf_sym W Q).
    - intros m b. rewrite nd_add_node. destruct (eqb m n); [|apply (wf_nattr W)].
      intros Q; inversion Q; subst. apply NoDup_dupdate. destruct (nd g n) as [old|] eqn:E; [|constructor].
      eapply (wf_nattr W); eassumption.
    - intros u v b. rewrite ed_add_node by assumption. apply (wf_eattr W).
  Qed.
  Lemma gdir_add_node g n a : gdir (add_node n a g) = gdir g.
  Proof. unfold add_node; destruct (nd g n); reflexivity. Qed.

  (** ** ensure_node *)
  Lemma ensure_node_add g n : WF g -> (forall m, nd (ensure_node n g) m = if eqb m n then Some (match nd g n with Some b => b | None => [] end) else nd g m)
    /\ (forall u v, ed (ensure_node n g) u v = ed g u v) /\ WF (ensure_node n g) /\ gdir (ensure_node n g) = gdir g.
  Proof.
    intros W. unfold ensure_node. destruct (nd g n) as [b|] eqn:E.
    - split; [|split; [reflexivity|split; [assumption|reflexivity]]].
      intros m; destruct (eqb_spec m n) as [->|]; [assumption|reflexivity].
    - assert (Q : mkG (gdir g) (dset n [] (gnodes g)) (dset n [] (gadj g)) = add_node n [] g).
      { unfold add_node. rewrite E. reflexivity. }
      rewrite Q. split; [|split; [|split]].
      + intros m. rewrite nd_add_node, E. reflexivity.
      + intros u v. apply ed_add_node; assumption.
      + apply WF_add_node; assumption.
      + apply gdir_add_node.
  Qed.

  (** ** put_edge *)
  Lemma keys_set_row u v a t : dkeys (set_row u v a t) = dkeys t.
  Proof.
    unfold set_row. destruct (dget u t) as [r|] eqn:E; [|reflexivity].
    rewrite dkeys_dset. apply dget_Some_key, dhas_spec in E. rewrite E. reflexivity.
  Qed.
  Lemma dget_set_row u v a t x :
    dget x (set_row u v a t) = if eqb x u then match dget u t with Some r => Some (dset v a r) | None => None end else dget x t.
  Proof.
    unfold set_row. destruct (dget u t) as [r|] eqn:E.
    - rewrite dget_dset. reflexivity.
    - destruct (eqb_spec x u) as [->|]; [assumption|reflexivity].
  Qed.
  Definition same_edge (d : bool) (u v x y : V) : bool :=
    (eqb x u && eqb y v) || (negb d && eqb x v && eqb y u).
  Lemma ed_put_edge g u v a x y : WF g -> In u (nodes g) -> In v (nodes g) ->
    ed (put_edge u v a g) x y = if same_edge (gdir g) u v x y then Some a else ed g x y.
  Proof.
    intros W Iu Iv. destruct (row_exists _ W Iu) as [ru Ru]. destruct (row_exists _ W Iv) as [rv Rv].
    unfold put_edge, ed, same_edge; cbn [gadj]. destruct (gdir g); cbn [negb andb].
    - rewrite orb_false_r. rewrite dget_set_row, Ru. destruct (eqb_spec x u) as [->|N]; cbn [andb]; [|reflexivity].
      rewrite dget_dset. rewrite Ru. reflexivity.
    - rewrite dget_set_row. rewrite !dget_set_row, Ru, Rv.
      destruct (eqb_spec x v) as [->|N]; cbn [andb].
      + destruct (eqb_spec v u) as [->|N']; cbn [andb].
        * rewrite !dget_dset. rewrite Ru. destruct (eqb y u); reflexivity.
        * rewrite Rv, dget_dset. destruct (eqb y u); reflexivity.
      + rewrite orb_false_r. destruct (eqb_spec x u) as [->|N']; cbn [andb]; [|reflexivity].
        rewrite dget_dset, Ru. reflexivity.
  Qed.
  Lemma same_edge_sym u v x y : same_edge false u v x y = same_edge false u v y x.
  Proof. unfold same_edge; cbn. rewrite (andb_comm (eqb y u)), (andb_comm (eqb y v)), orb_comm. reflexivity. Qed.
  Lemma same_edge_true d u v x y : same_edge d u v x y = true <->
    (x = u /\ y = v) \/ (d = false /\ x = v /\ y = u).
  Proof.
    unfold same_edge. rewrite orb_true_iff, !andb_true_iff, !eqb_true, negb_true_iff. tauto.
  Qed.
  Lemma same_edge_refl d u v : same_edge d u v u v = true.
  Proof. apply same_edge_true. left; auto. Qed.
  Lemma WF_put_edge g u v a : WF g -> In u (nodes g) -> In v (nodes g) -> NoDup (dkeys a) -> WF (put_edge u v a g).
  Proof.
    intros W Iu Iv ND. constructor.
    - unfold put_edge; cbn [gadj gnodes]. destruct (gdir g); rewrite ?keys_set_row; apply (wf_keys W).
    - apply (wf_nodup W).
    - assert (R : forall x y b t, (forall u r, dget u t = Some r -> NoDup (dkeys r)) -> (forall u r, dget u (set_row x y b t) = Some r -> NoDup (dkeys r))).
      { intros x y b t Ht w r. rewrite dget_set_row. destruct (eqb w x); [|apply Ht].
        destruct (dget x t) as [q|] eqn:E; [|discriminate]. intros Q; inversion Q; subst.
        apply NoDup_dset. eapply Ht; eassumption. }
      unfold put_edge; cbn [gadj]. destruct (gdir g); intros w r; repeat apply R; apply (wf_row W).
    - intros x y b. rewrite ed_put_edge by assumption. unfold nodes, put_edge; cbn [gnodes].
      destruct (same_edge (gdir g) u v x y) eqn:S; [|apply (wf_ends W)]. intros _.
      apply same_edge_true in S. destruct S as [[-> ->]|(_ & -> & ->)]; assumption.
    - intros D x y. cbn in D. rewrite !ed_put_edge by assumption. rewrite D.
      rewrite (same_edge_sym u v x y), (wf_sym W D x y). reflexivity.
    - apply (wf_nattr W).
    - intros x y b. rewrite ed_put_edge by assumption. destruct (same_edge (gdir g) u v x y); [|apply (wf_eattr W)].
      intros Q; inversion Q; subst; assumption.
  Qed.

  (** ** add_edge *)
  Definition or_empty (o : option attrs) : attrs := match o with Some b => b | None => [] end.
  Lemma ensure2 g u v : WF g -> let g1 := ensure_node v (ensure_node u g) in
    (forall m, nd g1 m = if eqb m u || eqb m v then Some (or_empty (nd g m)) else nd g m)
    /\ (forall x y, ed g1 x y = ed g x y) /\ WF g1 /\ gdir g1 = gdir g.
  Proof.
    intros W g1. destruct (ensure_node_add u W) as (N1 & E1 & W1 & D1).
    destruct (ensure_node_add v W1) as (N2 & E2 & W2 & D2).
    split; [|split; [|split]].
    - intros m. unfold g1. rewrite N2, !N1. unfold or_empty.
      destruct (eqb_spec m v) as [E|N].
      + subst v. destruct (eqb_spec m u) as [E'|N']; cbn [orb]; [subst u; reflexivity|reflexivity].
      + rewrite orb_false_r. destruct (eqb_spec m u) as [E'|N']; [subst u; reflexivity|reflexivity].
    - intros x y. unfold g1. rewrite E2. apply E1.
    - assumption.
    - unfold g1. congruence.
  Qed.
  Lemma ensure2_In g u v : WF g -> let g1 := ensure_node v (ensure_node u g) in In u (nodes g1) /\ In v (nodes g1).
  Proof.
    intros W g1. destruct (ensure2 u v W) as (N & _). fold g1 in N. split; apply nd_In; rewrite N, eqb_refl; rewrite ?orb_true_r; cbn; eauto.
  Qed.
  Lemma nd_add_edge g u v a m : WF g ->
    nd (add_edge u v a g) m = if eqb m u || eqb m v then Some (or_empty (nd g m)) else nd g m.
  Proof. intros W. destruct (ensure2 u v W) as (N & _). unfold add_edge. rewrite <- N. reflexivity. Qed.
  Lemma ed_add_edge g u v a x y : WF g ->
    ed (add_edge u v a g) x y = if same_edge (gdir g) u v x y then Some (dupdate (or_empty (ed g u v)) a) else ed g x y.
  Proof.
    intros W. destruct (ensure2 u v W) as (N & E & W1 & D). destruct (ensure2_In u v W) as [Iu Iv].
    unfold add_edge. rewrite ed_put_edge by assumption. rewrite D, !E. reflexivity.
  Qed.
  Lemma gdir_add_edge g u v a : gdir (add_edge u v a g) = gdir g.
  Proof.
    assert (E : forall (m : V) (h : graph V), gdir (ensure_node m h) = gdir h) by (intros m h; unfold ensure_node; destruct (nd h m); reflexivity).
    unfold add_edge, put_edge; cbn [gdir]. rewrite !E. reflexivity.
  Qed.
  Lemma WF_add_edge g u v a : WF g -> WF (add_edge u v a g).
  Proof.
    intros W. destruct (ensure2 u v W) as (N & E & W1 & D). destruct (ensure2_In u v W) as [Iu Iv].
    unfold add_edge. apply WF_put_edge; try assumption. apply NoDup_dupdate. rewrite E.
    destruct (ed g u v) eqn:Q; [eapply (wf_eattr W); eassumption | constructor].
  Qed.
  Lemma nodes_add_edge g u v a m : WF g -> In m (nodes (add_edge u v a g)) <-> m = u \/ m = v \/ In m (nodes g).
  Proof.
    intros W. rewrite !nd_In, nd_add_edge by assumption.
    destruct (eqb_spec m u) as [E1|N1]; destruct (eqb_spec m v) as [E2|N2]; cbn [orb];
      split; intros Q; eauto; intuition (try congruence).
  Qed.

  (** ** node_set, node_incr, edge_incr *)
  Lemma nd_node_set g n k x g' m : node_set n k x g = Ok g' ->
    nd g' m = if eqb m n then Some (dset k x (or_empty (nd g n))) else nd g m.
  Proof.
    unfold node_set. destruct (nd g n) as [a|] eqn:E; [|discriminate]. intros Q; inversion Q; subst.
    unfold nd; cbn [gnodes]. rewrite dget_dset. reflexivity.
  Qed.
  Lemma ed_node_set g n k x g' u v : node_set n k x g = Ok g' -> ed g' u v = ed g u v.
  Proof. unfold node_set. destruct (nd g n); [|discriminate]. intros Q; inversion Q; reflexivity. Qed.
  Lemma gdir_node_set g n k x g' : node_set n k x g = Ok g' -> gdir g' = gdir g.
  Proof. unfold node_set. destruct (nd g n); [|discriminate]. intros Q; inversion Q; reflexivity. Qed.
  Lemma nodes_node_set g n k x g' : node_set n k x g = Ok g' -> nodes g' = nodes g.
  Proof.
    unfold node_set. destruct (nd g n) as [a|] eqn:E; [|discriminate]. intros Q; inversion Q; subst. unfold nodes; cbn [gnodes].
    rewrite dkeys_dset. unfold nd in E. apply dget_Some_key, dhas_spec in E. rewrite E. reflexivity.
  Qed.
  Lemma WF_node_set g n k x g' : WF g -> node_set n k x g = Ok g' -> WF g'.
  Proof.
    intros W Q. pose proof (nodes_node_set _ _ _ _ Q) as K. constructor.
    - unfold nodes in K. rewrite K. unfold node_set in Q. destruct (nd g n); [|discriminate]. inversion Q; subst. apply (wf_keys W).
    - unfold nodes in K. rewrite K. apply (wf_nodup W).
    - unfold node_set in Q. destruct (nd g n); [|discriminate]. inversion Q; subst. apply (wf_row W).
    - intros u v a. rewrite (ed_node_set _ _ _ _ _ _ Q), K. apply (wf_ends W).
    - rewrite (gdir_node_set _ _ _ _ Q). intros D u v. rewrite !(ed_node_set _ _ _ _ _ _ Q). apply (wf_sym W D).
    - intros m a. rewrite (nd_node_set _ _ _ _ _ Q). destruct (eqb m n); [|apply (wf_nattr W)].
      intros E; inversion E; subst. apply NoDup_dset. destruct (nd g n) eqn:E'; cbn; [eapply (wf_nattr W); eassumption|constructor].
    - intros u v a. rewrite (ed_node_set _ _ _ _ _ _ Q). apply (wf_eattr W).
  Qed.

  (** ** remove_edge *)
  Lemma keys_del_row u v t : dkeys (del_row u v t) = dkeys t.
  Proof.
    unfold del_row. destruct (dget u t) as [r|] eqn:E; [|reflexivity].
    rewrite dkeys_dset. apply dget_Some_key, dhas_spec in E. rewrite E. reflexivity.
  Qed.
  Lemma dget_del_row u v t x :
    dget x (del_row u v t) = if eqb x u then match dget u t with Some r => Some (ddel v r) | None => None end else dget x t.
  Proof.
    unfold del_row. destruct (dget u t) as [r|] eqn:E.
    - rewrite dget_dset. reflexivity.
    - destruct (eqb_spec x u) as [->|]; [assumption|reflexivity].
  Qed.
  Lemma ed_remove_edge g u v x y : WF g ->
    ed (remove_edge u v g) x y = if same_edge (gdir g) u v x y then None else ed g x y.
  Proof.
    intros W.
    assert (D : forall p q t s, (forall r, dget p t = Some r -> NoDup (dkeys r)) ->
      match dget s (del_row p q t) with Some r => dget y r | None => None end =
      if eqb s p && eqb y q then None else match dget s t with Some r => dget y r | None => None end).
    { intros p q t s R. rewrite dget_del_row. destruct (eqb_spec s p) as [->|N]; [|reflexivity].
      destruct (dget p t) as [r|] eqn:E; cbn [andb]; [|destruct (eqb y q); reflexivity].
      apply dget_ddel. apply R; reflexivity. }
    unfold remove_edge, ed, same_edge; cbn [gadj]. destruct (gdir g); cbn [negb andb].
    - rewrite orb_false_r. rewrite D; [reflexivity|]. intros r; apply (wf_row W).
    - destruct (eqb_spec u v) as [->|N].
      + rewrite orb_diag. apply D. intros r; apply (wf_row W).
      + rewrite D.
        * rewrite D by (intros r; apply (wf_row W)). destruct (eqb x u && eqb y v), (eqb x v && eqb y u); reflexivity.
        * intros r. rewrite dget_del_row. destruct (eqb_spec v u); [congruence|]. apply (wf_row W).
  Qed.
  Lemma WF_remove_edge g u v : WF g -> WF (remove_edge u v g).
  Proof.
    intros W. constructor.
    - unfold remove_edge; cbn [gadj gnodes]. destruct (gdir g), (eqb u v); rewrite ?keys_del_row; apply (wf_keys W).
    - apply (wf_nodup W).
    - assert (R : forall x y t, (forall u r, dget u t = Some r -> NoDup (dkeys r)) -> (forall u r, dget u (del_row x y t) = Some r -> NoDup (dkeys r))).
      { intros x y t Ht w r. rewrite dget_del_row. destruct (eqb w x); [|apply Ht].
        destruct (dget x t) as [q|] eqn:E; [|discriminate]. intros Q; inversion Q; subst.
        apply NoDup_ddel. eapply Ht; eassumption. }
      unfold remove_edge; cbn [gadj]. destruct (gdir g), (eqb u v); intros w r; repeat apply R; apply (wf_row W).
    - intros x y b. rewrite ed_remove_edge by assumption.
      destruct (same_edge (gdir g) u v x y); [discriminate|]. apply (wf_ends W).
    - intros D x y. cbn in D. rewrite !ed_remove_edge by assumption. rewrite D.
      rewrite (same_edge_sym u v x y), (wf_sym W D x y). reflexivity.
    - apply (wf_nattr W).
    - intros x y b. rewrite ed_remove_edge by assumption. destruct (same_edge (gdir g) u v x y); [discriminate|apply (wf_eattr W)].
  Qed.
  Lemma remove_edges_from_spec l : forall g, WF g ->
    let g' := remove_edges_from l g in
    WF g' /\ gdir g' = gdir g /\ gnodes g' = gnodes g
    /\ forall x y, ed g' x y = if existsb (fun e => same_edge (gdir g) (fst e) (snd e) x y) l then None else ed g x y.
  Proof.
    induction l as [|[u v] l IH]; intros g W; cbn [remove_edges_from fold_left existsb fst snd].
    - split; [assumption|]. split; [reflexivity|]. split; reflexivity.
    - pose proof (WF_remove_edge u v W) as W1. destruct (IH _ W1) as (W2 & D2 & N2 & E2).
      unfold remove_edges_from in *. split; [exact W2|]. split; [rewrite D2; reflexivity|]. split; [rewrite N2; reflexivity|].
      intros x y. rewrite E2. rewrite ed_remove_edge by assumption. cbn [gdir remove_edge].
      destruct (existsb _ l); [destruct (same_edge _ _ _ _ _); reflexivity|]. rewrite orb_false_r. reflexivity.
  Qed.

  (** ** remove_node *)
  Lemma dget_map_vals (B C : Type) (f : B -> C) n (d : dict V B) :
    dget n (map (fun row => (fst row, f (snd row))) d) = match dget n d with Some b => Some (f b) | None => None end.
  Proof. induction d as [|[k b] d IH]; cbn [dget map fst snd]; [reflexivity|]. destruct (eqb n k); [reflexivity|exact IH]. Qed.
  Lemma dkeys_map_vals (B C : Type) (f : B -> C) (d : dict V B) :
    dkeys (map (fun row => (fst row, f (snd row))) d) = dkeys d.
  Proof. unfold dkeys. rewrite map_map. reflexivity. Qed.
  Lemma nd_remove_node g n m : WF g -> nd (remove_node n g) m = if eqb m n then None else nd g m.
  Proof. intros W. unfold nd, remove_node; cbn [gnodes]. apply dget_ddel. apply (wf_nodup W). Qed.
  Lemma ed_remove_node g n x y : WF g ->
    ed (remove_node n g) x y = if eqb x n || eqb y n then None else ed g x y.
  Proof.
    intros W. unfold ed, remove_node; cbn [gadj]. rewrite dget_map_vals, dget_ddel by (rewrite (wf_keys W); apply (wf_nodup W)).
    destruct (eqb x n); [reflexivity|]. cbn [orb]. destruct (dget x (gadj g)) as [r|] eqn:R; [|destruct (eqb y n); reflexivity].
    apply dget_ddel. eapply (wf_row W); eassumption.
  Qed.
  Lemma dkeys_ddel_eq (B C : Type) n (d : dict V B) (e : dict V C) : dkeys d = dkeys e -> dkeys (ddel n d) = dkeys (ddel n e).
  Proof.
    revert e; induction d as [|[k b] d IH]; intros [|[k' c] e]; cbn; try discriminate; [reflexivity|].
    intros Q; inversion Q as [[Q1 Q2]]; subst. destruct (eqb n k'); [assumption|]. cbn. f_equal. apply IH; assumption.
  Qed.
  Lemma WF_remove_node g n : WF g -> WF (remove_node n g).
  Proof.
    intros W. constructor.
    - unfold remove_node; cbn [gadj gnodes]. rewrite dkeys_map_vals. apply dkeys_ddel_eq. apply (wf_keys W).
    - cbn. apply NoDup_ddel. apply (wf_nodup W).
    - intros u r. unfold remove_node; cbn [gadj]. rewrite dget_map_vals.
      rewrite dget_ddel by (rewrite (wf_keys W); apply (wf_nodup W)). destruct (eqb u n); [discriminate|].
      destruct (dget u (gadj g)) as [q|] eqn:E; [|discriminate]. intros Q; inversion Q; subst.
      apply NoDup_ddel. eapply (wf_row W); eassumption.
    - intros x y b. rewrite ed_remove_node by assumption. destruct (eqb_spec x n); [discriminate|].
      destruct (eqb_spec y n) as [->|N]; [discriminate|]. cbn [orb]. intros E. apply (wf_ends W) in E.
      apply nd_In. apply nd_In in E. rewrite nd_remove_node by assumption. rewrite (neq_eqb N). assumption.
    - intros D x y. cbn in D. rewrite !ed_remove_node by assumption. rewrite orb_comm, (wf_sym W D x y). reflexivity.
    - intros m a. rewrite nd_remove_node by assumption. destruct (eqb m n); [discriminate|apply (wf_nattr W)].
    - intros x y b. rewrite ed_remove_node by assumption. destruct (_ || _); [discriminate|apply (wf_eattr W)].
  Qed.
  Lemma remove_nodes_from_spec l : forall g, WF g ->
    let g' := remove_nodes_from l g in
    WF g' /\ gdir g' = gdir g
    /\ (forall m, nd g' m = if mem m l then None else nd g m)
    /\ forall x y, ed g' x y = if mem x l || mem y l then None else ed g x y.
  Proof.
    induction l as [|n l IH]; intros g W; cbn [remove_nodes_from fold_left mem existsb].
    - split; [assumption|]. split; [reflexivity|]. split; reflexivity.
    - pose proof (WF_remove_node n W) as W1. destruct (IH _ W1) as (W2 & D2 & N2 & E2).
      unfold remove_nodes_from in *. split; [exact W2|]. split; [rewrite D2; reflexivity|]. split.
      + intros m. rewrite N2, nd_remove_node by assumption. unfold mem. destruct (eqb m n), (existsb (eqb m) l); reflexivity.
      + intros x y. rewrite E2, ed_remove_node by assumption. unfold mem.
        destruct (eqb x n), (eqb y n), (existsb (eqb x) l), (existsb (eqb y) l); reflexivity.
  Qed.

  (** ** edges() *)
  Lemma In_row_edges u r x y a : In (x, y, a) (row_edges u r) <-> x = u /\ In (y, a) r.
  Proof.
    unfold row_edges. rewrite in_map_iff. split.
    - intros ([k b] & Q & I). cbn in Q. inversion Q; subst; auto.
    - intros [-> I]. exists (y, a); auto.
  Qed.
  Definition tget (t : dict V (dict V attrs)) u v := match dget u t with Some r => dget v r | None => None end.

  Lemma In_dir_edges t x y a : NoDup (dkeys t) -> (forall u r, In (u, r) t -> NoDup (dkeys r)) ->
    In (x, y, a) (flat_map (fun ur => row_edges (fst ur) (snd ur)) t) <-> tget t x y = Some a.
  Proof.
    intros ND R. rewrite in_flat_map. unfold tget. split.
    - intros ([u r] & I & J). cbn in J. apply In_row_edges in J. destruct J as [-> J].
      rewrite (In_dget u r t ND I). apply In_dget; eauto.
    - destruct (dget x t) as [r|] eqn:E; [|discriminate]. intros Q. apply dget_In in E. apply dget_In in Q.
      exists (x, r). split; [assumption|]. cbn. apply In_row_edges; auto.
  Qed.
  Lemma NoDup_app_disjoint (A : Type) (l m : list A) :
    NoDup l -> NoDup m -> (forall x, In x l -> ~ In x m) -> NoDup (l ++ m).
  Proof.
    induction l as [|x l IH]; cbn; intros Nl Nm D; [assumption|]. inversion Nl; subst. constructor.
    - rewrite in_app_iff. intros [I|I]; [contradiction|]. apply (D x); auto.
    - apply IH; auto.
  Qed.
  Lemma NoDup_row_edges u r : NoDup (dkeys r) -> NoDup (map fst (row_edges u r)).
  Proof.
    intros ND. unfold row_edges. rewrite map_map. cbn.
    replace (map (fun x : V * attrs => (u, fst x)) r) with (map (fun v => (u, v)) (dkeys r)) by (unfold dkeys; rewrite map_map; reflexivity).
    apply FinFun.Injective_map_NoDup; [|assumption]. intros p q Q; congruence.
  Qed.
  Lemma NoDup_dir_edges t : NoDup (dkeys t) -> (forall u r, In (u, r) t -> NoDup (dkeys r)) ->
    NoDup (map fst (flat_map (fun ur => row_edges (fst ur) (snd ur)) t)).
  Proof.
    induction t as [|[u r] t IH]; cbn; intros ND R; [constructor|].
    inversion ND as [|? ? NI ND']; subst. rewrite map_app. apply NoDup_app_disjoint.
    - apply NoDup_row_edges. eapply R; left; reflexivity.
    - apply IH; [assumption|]. intros; eapply R; right; eassumption.
    - intros [x y] I J. apply in_map_iff in I, J. destruct I as ([[x1 y1] a1] & Q1 & I). destruct J as ([[x2 y2] a2] & Q2 & J).
      cbn in Q1, Q2. inversion Q1; inversion Q2; subst. apply In_row_edges in I. destruct I as [-> _].
      apply in_flat_map in J. destruct J as ([w q] & J1 & J2). cbn in J2. apply In_row_edges in J2. destruct J2 as [-> _].
      apply NI. apply in_map_iff. exists (w, q); auto.
  Qed.

  Lemma dkeys_filter (B : Type) (f : V -> bool) (r : dict V B) :
    dkeys (filter (fun va => f (fst va)) r) = filter f (dkeys r).
  Proof.
    unfold dkeys. induction r as [|[k b] r IH]; cbn [filter map fst]; [reflexivity|].
    destruct (f k); cbn [map fst]; rewrite <- IH; reflexivity.
  Qed.
  Lemma und_edges_In t : forall seen x y a, NoDup (dkeys t) -> (forall u r, In (u, r) t -> NoDup (dkeys r)) ->
    In (x, y, a) (und_edges seen t) ->
    tget t x y = Some a /\ ~ In y seen /\ (x = y \/ exists pre r post, t = pre ++ (x, r) :: post /\ ~ In y (dkeys pre)).
  Proof.
    induction t as [|[u r] t IH]; cbn [und_edges]; intros seen x y a ND R I; [contradiction|].
    cbn in ND. inversion ND as [|? ? NI ND']; subst. apply in_app_iff in I. destruct I as [I|I].
    - apply In_row_edges in I. destruct I as [-> I]. apply filter_In in I. destruct I as [I S]. cbn in S.
      rewrite negb_true_iff, mem_not_In in S. split; [|split; [assumption|]].
      + unfold tget. cbn [dget]. rewrite eqb_refl. apply In_dget; [|assumption]. eapply R; left; reflexivity.
      + right. exists [], r, t. split; [reflexivity|]. intros [].
    - apply IH in I; [|assumption|intros; eapply R; right; eassumption]. destruct I as (T & S & P).
      assert (xu : x <> u). { intros ->. apply NI. unfold tget in T. destruct (dget u t) eqn:E; [|discriminate]. eapply dget_Some_key; eassumption. }
      split; [|split].
      + unfold tget in *. cbn [dget]. rewrite (neq_eqb xu). assumption.
      + intros Q; apply S; right; assumption.
      + destruct P as [P|(pre & q & post & -> & P)]; [left; assumption|]. right. exists ((u, r) :: pre), q, post. split; [reflexivity|].
        cbn. intros [Q|Q]; [|contradiction]. apply S. left. assumption.
  Qed.
  Lemma und_edges_complete t : forall seen x y a, NoDup (dkeys t) ->
    tget t x y = Some a -> tget t y x = Some a -> ~ In y seen -> ~ In x seen ->
    In (x, y, a) (und_edges seen t) \/ In (y, x, a) (und_edges seen t).
  Proof.
    induction t as [|[u r] t IH]; intros seen x y a ND T T' Sy Sx; [discriminate|].
    cbn in ND. inversion ND as [|? ? NI ND']; subst. cbn [und_edges]. rewrite !in_app_iff, !In_row_edges, !filter_In.
    unfold tget in T, T'. cbn [dget] in T, T'. destruct (eqb_spec x u) as [->|Nx].
    - left. left. split; [reflexivity|]. split; [apply dget_In; assumption|]. cbn.
      rewrite negb_true_iff, mem_not_In. assumption.
    - destruct (eqb_spec y u) as [->|Ny].
      + right. left. split; [reflexivity|]. split; [apply dget_In; assumption|]. cbn.
        rewrite negb_true_iff, mem_not_In. assumption.
      + destruct (IH (u :: seen) x y a ND' T T') as [I|I]; [intros [Q|Q]; congruence || contradiction|intros [Q|Q]; congruence || contradiction| |]; auto.
  Qed.
  Lemma und_edges_NoDup t : forall seen, NoDup (dkeys t) -> (forall u r, In (u, r) t -> NoDup (dkeys r)) ->
    NoDup (map fst (und_edges seen t)).
  Proof.
    induction t as [|[u r] t IH]; intros seen ND R; cbn [und_edges]; [constructor|].
    cbn in ND. inversion ND as [|? ? NI ND']; subst. rewrite map_app. apply NoDup_app_disjoint.
    - apply NoDup_row_edges. rewrite (dkeys_filter (fun y => negb (mem y seen))). apply NoDup_filter. eapply R; left; reflexivity.
    - apply IH; [assumption|]. intros; eapply R; right; eassumption.
    - intros [x y] I J. apply in_map_iff in I, J. destruct I as ([[x1 y1] a1] & Q1 & I). destruct J as ([[x2 y2] a2] & Q2 & J).
      cbn in Q1, Q2. inversion Q1; inversion Q2; subst. apply In_row_edges in I. destruct I as [-> _].
      apply und_edges_In in J; [|assumption|intros; eapply R; right; eassumption].
      destruct J as (J & _ & _). unfold tget in J. destruct (dget u t) eqn:E; [|discriminate]. apply NI. eapply dget_Some_key; eassumption.
  Qed.

  Lemma rows_of_WF g : WF g -> forall u r, In (u, r) (gadj g) -> NoDup (dkeys r).
  Proof. intros W u r I. apply (wf_row W u). apply In_dget; [rewrite (wf_keys W); apply (wf_nodup W)|assumption]. Qed.

  (** every reported edge is an edge, with its attributes *)
  Lemma edges_sound g x y a : WF g -> In (x, y, a) (edges g) -> ed g x y = Some a.
  Proof.
    intros W. pose proof (rows_of_WF W) as R. assert (ND : NoDup (dkeys (gadj g))) by (rewrite (wf_keys W); apply (wf_nodup W)).
    unfold edges. destruct (gdir g).
    - intros I. apply In_dir_edges in I; assumption.
    - intros I. apply und_edges_In in I; [|assumption|assumption]. apply I.
  Qed.
  (** every edge is reported, in one orientation *)
  Lemma edges_complete g x y a : WF g -> ed g x y = Some a ->
    In (x, y, a) (edges g) \/ (gdir g = false /\ In (y, x, a) (edges g)).
  Proof.
    intros W E. pose proof (rows_of_WF W) as R. assert (ND : NoDup (dkeys (gadj g))) by (rewrite (wf_keys W); apply (wf_nodup W)).
    unfold edges. destruct (gdir g) eqn:D.
    - left. apply In_dir_edges; assumption.
    - pose proof (wf_sym W D x y) as S. destruct (@und_edges_complete (gadj g) [] x y a ND E) as [I|I]; auto.
      change (ed g y x = Some a). congruence.
  Qed.
  Lemma edges_NoDup g : WF g -> NoDup (map fst (edges g)).
  Proof.
    intros W. pose proof (rows_of_WF W) as R. assert (ND : NoDup (dkeys (gadj g))) by (rewrite (wf_keys W); apply (wf_nodup W)).
    unfold edges. destruct (gdir g); [apply NoDup_dir_edges | apply und_edges_NoDup]; assumption.
  Qed.
  Lemma app_cons_unique (A : Type) (x : A) pre post pre' post' :
    NoDup (pre ++ x :: post) -> pre ++ x :: post = pre' ++ x :: post' -> pre = pre' /\ post = post'.
  Proof.
    revert pre'. induction pre as [|p pre IH]; intros [|p' pre'] ND Q; cbn in *.
    - inversion Q; auto.
    - injection Q as E1 E2. inversion ND as [|? ? NI ND']. exfalso. apply NI. rewrite E2, E1, in_app_iff. right; left; reflexivity.
    - injection Q as E1 E2. inversion ND as [|? ? NI ND']. exfalso. apply NI. rewrite in_app_iff. right; left; congruence.
    - injection Q as E1 E2. inversion ND as [|? ? NI ND']. destruct (IH pre' ND' E2); subst; auto.
  Qed.
  (** an undirected edge is reported in only one orientation *)
  Lemma edges_one_orientation g x y a b : WF g -> gdir g = false ->
    In (x, y, a) (edges g) -> In (y, x, b) (edges g) -> x = y.
  Proof.
    intros W D I J. pose proof (rows_of_WF W) as R. assert (ND : NoDup (dkeys (gadj g))) by (rewrite (wf_keys W); apply (wf_nodup W)).
    unfold edges in I, J. rewrite D in I, J.
    apply und_edges_In in I; [|assumption|assumption]. apply und_edges_In in J; [|assumption|assumption].
    destruct I as (_ & _ & [I|(pre & r & post & E1 & N1)]); [assumption|].
    destruct J as (_ & _ & [J|(pre' & r' & post' & E2 & N2)]); [congruence|].
    assert (Iy : In (y, r') (gadj g)) by (rewrite E2; apply in_app_iff; right; left; reflexivity).
    rewrite E1 in Iy. apply in_app_iff in Iy. destruct Iy as [Iy|[Iy|Iy]].
    - exfalso. apply N1. apply in_map_iff. exists (y, r'); auto.
    - inversion Iy; reflexivity.
    - (* y after x; so x is before y: contradiction with N2 *)
      exfalso. apply N2. apply in_split in Iy. destruct Iy as (p1 & p2 & ->).
      assert (Q : dkeys (gadj g) = dkeys (pre ++ (x, r) :: p1) ++ y :: dkeys p2).
      { rewrite E1. unfold dkeys. rewrite !map_app. cbn. rewrite map_app. rewrite <- app_assoc. reflexivity. }
      assert (Q' : dkeys (gadj g) = dkeys pre' ++ y :: dkeys post') by (rewrite E2; unfold dkeys; rewrite map_app; reflexivity).
      rewrite Q in Q'. rewrite Q in ND. destruct (app_cons_unique _ _ _ _ _ ND Q') as [Q'' _].
      rewrite <- Q''. unfold dkeys. rewrite map_app. apply in_app_iff. right; left; reflexivity.
  Qed.
  (** each edge is reported exactly once *)
  Definition joins (d : bool) (u v : V) (e : V * V * attrs) : bool := same_edge d u v (fst (fst e)) (snd (fst e)).
  Lemma edges_once g x y : WF g ->
    match ed g x y with
    | None => filter (joins (gdir g) x y) (edges g) = []
    | Some a => filter (joins (gdir g) x y) (edges g) = [(x, y, a)]
                \/ (gdir g = false /\ filter (joins (gdir g) x y) (edges g) = [(y, x, a)])
    end.
  Proof.
    intros W.
    assert (M : forall e, In e (filter (joins (gdir g) x y) (edges g)) ->
      exists a, ed g x y = Some a /\ (e = (x, y, a) \/ (gdir g = false /\ e = (y, x, a)))).
    { intros [[u v] a] I. apply filter_In in I. destruct I as [I J]. unfold joins in J. cbn in J.
      apply same_edge_true in J. apply edges_sound in I; [|assumption]. exists a.
      destruct J as [[-> ->]|(D & -> & ->)]; [auto|]. rewrite (wf_sym W D). auto. }
    destruct (ed g x y) as [a|] eqn:E.
    2:{ destruct (filter _ _) as [|e l]; [reflexivity|]. destruct (M e) as (a & Q & _); [left; reflexivity|discriminate]. }
    assert (ND : NoDup (map fst (filter (joins (gdir g) x y) (edges g)))).
    { pose proof (edges_NoDup W) as ND. clear -ND. induction (edges g) as [|e l IH]; cbn; [constructor|].
      cbn in ND. inversion ND; subst. destruct (joins _ _ _ e); [|auto]. cbn. constructor; [|auto].
      intros I. apply H2. apply in_map_iff in I. destruct I as (f & Q & I). apply filter_In in I. apply in_map_iff. exists f; tauto. }
    destruct (filter (joins (gdir g) x y) (edges g)) as [|e l] eqn:F.
    - exfalso. destruct (edges_complete _ _ W E) as [I|[D I]].
      + assert (J : In (x, y, a) (filter (joins (gdir g) x y) (edges g))) by (apply filter_In; split; [assumption|apply same_edge_refl]).
        rewrite F in J. contradiction.
      + assert (J : In (y, x, a) (filter (joins (gdir g) x y) (edges g))).
        { apply filter_In; split; [assumption|]. apply same_edge_true. right; auto. }
        rewrite F in J. contradiction.
    - assert (L : l = []).
      { destruct l as [|f l]; [reflexivity|]. exfalso.
        destruct (M e) as (b & Qb & Me); [left; reflexivity|]. destruct (M f) as (c & Qc & Mf); [right; left; reflexivity|].
        inversion Qb; inversion Qc; subst b c.
        assert (e <> f). { intros ->. cbn in ND. inversion ND; subst. apply H2. left; reflexivity. }
        destruct Me as [->|[D ->]]; destruct Mf as [->|[D' ->]]; try congruence.
        - assert (I1 : In (x, y, a) (edges g)) by (eapply proj1, filter_In; rewrite F; left; reflexivity).
          assert (I2 : In (y, x, a) (edges g)) by (eapply proj1, filter_In; rewrite F; right; left; reflexivity).
          pose proof (edges_one_orientation _ _ _ _ W D' I1 I2). congruence.
        - assert (I1 : In (x, y, a) (edges g)) by (eapply proj1, filter_In; rewrite F; right; left; reflexivity).
          assert (I2 : In (y, x, a) (edges g)) by (eapply proj1, filter_In; rewrite F; left; reflexivity).
          pose proof (edges_one_orientation _ _ _ _ W D I1 I2). congruence. }
      subst l. destruct (M e) as (b & Qb & Me); [left; reflexivity|]. inversion Qb; subst b.
      destruct Me as [->|[D ->]]; auto.
  Qed.
End NxFacts.
