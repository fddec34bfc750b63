(** Proofs for DiffusionModel.v: the graphs. *)
From Coq Require Import String Lia Permutation.
From Verif Require Import Base PyStr Nx NxFacts RecordView SeriesSpec RecordViewFacts NetModel NetSpec NetFacts NetProofs DiffusionModel DiffusionSpec DiffusionProofs.
Set Implicit Arguments.

Lemma dset_same {K A} `{EqDec K} (k : K) (v : A) d : dget k d = Some v -> dset k v d = d.
Proof.
  induction d as [|[a b] d IH]; cbn; [discriminate|]. destruct (eqb_spec k a) as [->|N1]; [intros [= ->]; reflexivity|]. intros G. rewrite IH by exact G. reflexivity.
Qed.
(** adding an edge that is there already, without data, changes nothing *)
Lemma add_edge_again {V} `{EqDec V} (g : graph V) u v : WF g -> gdir g = true -> has_edge g u v = true -> add_edge u v [] g = g.
Proof.
  intros W D E. unfold has_edge in E. destruct (ed g u v) as [a|] eqn:Q; [|discriminate].
  assert (Eu : ensure_node u g = g). { unfold ensure_node. pose proof (ed_source _ _ W Q) as I1. apply nd_In in I1. destruct I1 as [x ->]. reflexivity. }
  assert (Ev : ensure_node v g = g). { unfold ensure_node. pose proof (wf_ends W _ _ Q) as I1. apply nd_In in I1. destruct I1 as [x ->]. reflexivity. }
  unfold add_edge. rewrite Eu, Ev, Q. cbn [dupdate fold_left]. unfold put_edge. rewrite D. unfold set_row. unfold ed in Q.
  destruct (dget u (gadj g)) as [r|] eqn:R; [|discriminate]. rewrite (dset_same _ _ Q), (dset_same _ _ R). destruct g; cbn in *. congruence.
Qed.

Section Graphs.
Context {V C E : Type} `{EqDec V} `{EqDec C} `{EqDec E}.
Variable truthy : V -> bool.
Variable letters : V -> option (list V).
Notation drec := (drec V C E).
Notation present := (present truthy).
Notation cited := (cited truthy false).
Notation parts := (parts truthy letters).
Notation iterable := (iterable truthy letters).

Definition mark (b : bool) : V -> graph V -> res (graph V) := if b then source_node else target_node.
Definition eff_mark (b : bool) (o : option attrs) : attrs :=
  match o with
  | None => [(source_, VBool b); (target_, VBool (negb b))]
  | Some a => if b then a else dset target_ (VBool true) a
  end.
Lemma mark_spec b n (g : graph V) : WF g -> True ->
  exists g', mark b n g = Ok g' /\ WF g' /\ gdir g' = gdir g /\ (forall u v, ed g' u v = ed g u v) /\
    forall m, nd g' m = if eqb m n then Some (eff_mark b (nd g n)) else nd g m.
Proof.
  intros W _. destruct (nd g n) as [a|] eqn:Q.
  - assert (HN : has_node g n = true) by (rewrite has_node_nd, Q; reflexivity). destruct b; cbn [mark eff_mark].
    + unfold source_node. rewrite HN. exists g. split; [reflexivity|]. apply setp_refl; assumption.
    + unfold target_node. rewrite HN. destruct (@set_present _ _ g n target_ (VBool true) a W Q) as (g' & E1 & S1). exists g'. split; [exact E1|exact S1].
  - assert (HN : has_node g n = false) by (rewrite has_node_nd, Q; reflexivity). destruct b; cbn [mark eff_mark]; unfold source_node, target_node; rewrite HN; (eexists; split; [reflexivity|]);
    (match goal with |- context [add_node n ?a g] => pose proof (@add_setp _ _ g n a W) as S1 end); rewrite Q in S1; exact S1.
Qed.

Definition cite_events (src : list drec) (t : drec) (v : V) : list (event bool) :=
  flat_map (fun c => match cited src c with Some s => map (fun u => Link u v) (parts s) | None => [] end) (refs t).
Definition target_events (src : list drec) (t : drec) : list (event bool) :=
  flat_map (fun v => Tick false v :: cite_events src t v) (parts t).

Lemma iterate_parts rs (r : drec) f : iterable rs -> In r rs -> d_id r = Some f -> true_id truthy f = true -> iterate letters f = Ok (parts r).
Proof.
  intros IT I1 F T. unfold DiffusionSpec.parts. rewrite <- (true_present truthy r F), T, F. unfold iterate. destruct f as [v|l]; [|reflexivity].
  specialize (IT r v I1 F T). destruct (letters v); [reflexivity|congruence].
Qed.
Lemma parts_none (r : drec) : present r = false -> parts r = [].
Proof. unfold DiffusionSpec.parts. intros ->. reflexivity. Qed.

Lemma graph_sources_ev w (rs : list drec) : forall (sd : dict C (fval V)) g, iterable rs ->
  graph_sources truthy letters rs (sd, g) =
  let* g' := iter (ev w mark) (map (Tick true) (flat_map parts rs)) g in
  Ok (fold_left (fun sd r => match d_id r with Some f => if true_id truthy f then fold_left (fun sd c => dset c f sd) (as_cited false r) sd else sd | None => sd end) rs sd, g').
Proof.
  induction rs as [|r rs IH]; intros sd g IT; [reflexivity|]. unfold graph_sources in *. cbn [iter flat_map fold_left]. rewrite map_app, iter_app.
  assert (IT' : iterable rs) by (intros r' v I1; apply IT; right; exact I1).
  destruct (d_id r) as [f|] eqn:F.
  - destruct (true_id truthy f) eqn:T.
    + rewrite (iterate_parts r IT (or_introl eq_refl) F T). cbn [bind snd fst as_cited fold_left].
      replace (iter (ev w mark) (map (Tick true) (parts r)) g) with (iter source_node (parts r) g).
      * destruct (iter source_node (parts r) g) as [g1|e]; cbn [bind]; [|reflexivity]. apply IH, IT'.
      * rewrite iter_map. reflexivity.
    + rewrite (parts_none r) by (rewrite <- (true_present truthy r F); exact T). cbn [map iter bind]. apply IH, IT'.
  - rewrite (parts_none r) by (unfold DiffusionSpec.present; rewrite F; reflexivity). cbn [map iter bind]. apply IH, IT'.
Qed.
Lemma iter_bind_ext {A G} (f f' : A -> G -> res G) l : (forall x g, In x l -> f x g = f' x g) -> forall g, iter f l g = iter f' l g.
Proof.
  intros E1. induction l as [|x l IH]; intros g; cbn; [reflexivity|]. rewrite E1 by (left; reflexivity). destruct (f' x g); cbn; [|reflexivity]. apply IH. intros y g' I1. apply E1. right. exact I1.
Qed.
Lemma graph_cites_ev w (src : list drec) t v g : iterable src ->
  graph_cites letters w (source_dict truthy false src) t v g = iter (ev w mark) (cite_events src t v) g.
Proof.
  intros IT. unfold graph_cites, cite_events, refs. destruct (d_cites t) as [cs|]; [|reflexivity]. rewrite iter_flat. apply iter_bind_ext. intros c g' _.
  rewrite (proj2 (source_dict_spec truthy false src)). destruct (cited src c) as [s|] eqn:Q; [|reflexivity]. apply cited_sound in Q. destruct Q as (I1 & P & _).
  destruct (present_id _ _ P) as [f F]. rewrite F. rewrite (iterate_parts s IT I1 F) by (rewrite (true_present truthy s F); exact P). cbn [bind]. rewrite iter_map. reflexivity.
Qed.
Lemma graph_targets_ev w (src rs : list drec) : iterable src -> iterable rs -> forall g,
  graph_targets truthy letters w (source_dict truthy false src) rs g = iter (ev w mark) (flat_map (target_events src) rs) g.
Proof.
  intros IS IT g. unfold graph_targets. rewrite iter_flat. apply iter_bind_ext. intros r g' I1. destruct (d_id r) as [f|] eqn:F.
  - destruct (true_id truthy f) eqn:T.
    + rewrite (iterate_parts r IT I1 F T). cbn [bind]. unfold target_events. rewrite iter_flat. apply iter_ext. intros v g0. cbn [iter ev mark].
      destruct (target_node v g0) as [g1|e]; cbn [bind]; [|reflexivity]. apply graph_cites_ev, IS.
    + unfold target_events. rewrite (parts_none r) by (rewrite <- (true_present truthy r F); exact T). reflexivity.
  - unfold target_events. rewrite (parts_none r) by (unfold DiffusionSpec.present; rewrite F; reflexivity). reflexivity.
Qed.

Definition all_events (src tgt : list drec) : list (event bool) := map (Tick true) (flat_map parts src) ++ flat_map (target_events src) tgt.
Lemma diffusion_graph_ev w (src tgt : list drec) : iterable src -> iterable tgt ->
  diffusion_graph truthy letters w src tgt = iter (ev w mark) (all_events src tgt) (empty_graph true).
Proof.
  intros IS IT. unfold diffusion_graph, all_events. rewrite iter_app, (graph_sources_ev w) by exact IS.
  destruct (iter (ev w mark) (map (Tick true) (flat_map parts src)) (empty_graph true)) as [g1|e]; cbn [bind fst snd]; [|reflexivity]. apply graph_targets_ev; assumption.
Qed.

(** flags of a node *)
Definition flags (s t : bool) : option attrs := if s || t then Some [(source_, VBool s); (target_, VBool t)] else None.
Lemma eff_sources (n : V) (l : list V) : forall o, (o = None \/ exists t, o = flags true t) ->
  fold_left (eff_ev eff_mark n) (map (Tick true) l) o = match o with None => flags (mem n l) false | Some a => Some a end.
Proof.
  induction l as [|x l IH]; intros o O; [destruct o; reflexivity|]. cbn [map fold_left eff_ev]. unfold mem in *. cbn [existsb]. destruct (eqb n x) eqn:Q.
  - destruct O as [->|[t ->]].
    + cbn [eff_mark negb]. rewrite IH by (right; exists false; reflexivity). reflexivity.
    + cbn [flags orb eff_mark]. rewrite IH by (right; exists t; reflexivity). reflexivity.
  - cbn [orb]. apply IH, O.
Qed.
(** events all of whose links start at a node marked before and end at [v] *)
Lemma eff_links (n v : V) (L : list (event bool)) (S0 : list V) : (forall e, In e L -> exists u, e = Link u v /\ In u S0) ->
  forall o, (In n S0 -> o <> None) -> (n = v -> o <> None) -> fold_left (eff_ev eff_mark n) L o = o.
Proof.
  induction L as [|e L IH]; intros AL o A1 A2; [reflexivity|]. cbn [fold_left]. destruct (AL e (or_introl eq_refl)) as (u & -> & I1). cbn [eff_ev].
  assert (Q : (if eqb n u || eqb n v then Some (or_empty o) else o) = o).
  { destruct (eqb_spec n u) as [->|N1]; cbn [orb].
    - destruct o; [reflexivity|]. exfalso. exact (A1 I1 eq_refl).
    - destruct (eqb_spec n v) as [->|N2]; [|reflexivity]. destruct o; [reflexivity|]. exfalso. exact (A2 eq_refl eq_refl). }
  rewrite Q. apply IH; [|exact A1|exact A2]. intros e I2. apply AL. right. exact I2.
Qed.
Lemma cited_parts src c (s : drec) u : cited src c = Some s -> In u (parts s) -> In u (flat_map parts src).
Proof. intros Q I1. apply cited_sound in Q. apply in_flat_map. exists s. tauto. Qed.
Lemma cite_events_links src t v e : In e (cite_events src t v) -> exists u, e = Link u v /\ In u (flat_map parts src).
Proof.
  intros I1. apply in_flat_map in I1. destruct I1 as (c & _ & I1). destruct (cited src c) as [s|] eqn:Q; [|destruct I1]. apply in_map_iff in I1. destruct I1 as (u & <- & I1).
  exists u. split; [reflexivity|]. eapply cited_parts; eassumption.
Qed.
Lemma eff_target (n : V) src t (l : list V) : forall b,
  fold_left (eff_ev eff_mark n) (flat_map (fun v => Tick false v :: cite_events src t v) l) (flags (mem n (flat_map parts src)) b) = flags (mem n (flat_map parts src)) (b || mem n l).
Proof.
  induction l as [|v l IH]; intros b; [cbn; rewrite orb_false_r; reflexivity|]. cbn [flat_map app]. cbn [fold_left eff_ev]. rewrite fold_left_app.
  set (S0 := flat_map parts src) in *.
  assert (T : (if eqb n v then Some (eff_mark false (flags (mem n S0) b)) else flags (mem n S0) b) = flags (mem n S0) (b || eqb n v)).
  { destruct (eqb n v); [|rewrite orb_false_r; reflexivity]. rewrite orb_true_r. unfold flags. rewrite orb_true_r. destruct (mem n S0) eqn:M, b; cbn [orb eff_mark negb]; try reflexivity. }
  rewrite T. rewrite (@eff_links n v (cite_events src t v) S0); [rewrite IH; cbn [mem existsb]; rewrite orb_assoc; reflexivity|apply cite_events_links| |].
  - intros I1. apply mem_In in I1. rewrite I1. discriminate.
  - intros ->. rewrite eqb_refl, orb_true_r. unfold flags. rewrite orb_true_r. discriminate.
Qed.
Lemma eff_targets (n : V) src tgt : forall b,
  fold_left (eff_ev eff_mark n) (flat_map (target_events src) tgt) (flags (mem n (flat_map parts src)) b) = flags (mem n (flat_map parts src)) (b || mem n (flat_map parts tgt)).
Proof.
  induction tgt as [|t tgt IH]; intros b; [cbn; rewrite orb_false_r; reflexivity|]. cbn [flat_map]. rewrite fold_left_app. unfold target_events at 2. rewrite eff_target, IH.
  unfold mem. rewrite existsb_app, orb_assoc. reflexivity.
Qed.
Lemma eff_all (n : V) src tgt : fold_left (eff_ev eff_mark n) (all_events src tgt) None = flags (mem n (flat_map parts src)) (mem n (flat_map parts tgt)).
Proof. unfold all_events. rewrite fold_left_app, eff_sources by auto. rewrite eff_targets. reflexivity. Qed.

Lemma lk_ticks d (b : bool) (l : list V) u v : lk d (links_of (map (Tick b) l)) u v = 0.
Proof. induction l as [|x l IH]; [reflexivity|]. cbn. exact IH. Qed.
Lemma lk_to (l : list V) x u v : lk true (links_of (map (fun y => Link (T:=bool) y x) l)) u v = if eqb x v then count u l else 0.
Proof.
  induction l as [|y l IH]; [destruct (eqb x v); reflexivity|]. unfold lk, total, links_of in *. cbn [map flat_map app fold_right fst snd count]. rewrite IH. unfold same_edge. cbn [negb andb].
  rewrite orb_false_r, (eqb_sym v x). destruct (eqb u y), (eqb x v); cbn; lia.
Qed.
Lemma lk_cites src t x u v : lk true (links_of (cite_events src t x)) u v =
  if eqb x v then total (fun c => match cited src c with Some s => count u (parts s) | None => 0 end) (refs t) else 0.
Proof.
  unfold cite_events. rewrite lk_flat. destruct (eqb x v) eqn:Q.
  - apply total_ext. intros c _. destruct (cited src c) as [s|]; [|reflexivity]. rewrite lk_to, Q. reflexivity.
  - rewrite <- (total_zero (refs t)). apply total_ext. intros c _. destruct (cited src c) as [s|]; [|reflexivity]. rewrite lk_to, Q. reflexivity.
Qed.
Lemma lk_all src tgt u v : lk true (links_of (all_events src tgt)) u v = citings truthy letters src tgt u v.
Proof.
  unfold all_events, citings. rewrite links_app, lk_app, lk_ticks. cbn [Nat.add]. rewrite lk_flat. apply total_ext. intros t _.
  unfold target_events. rewrite lk_flat. set (n := total _ (refs t)).
  transitivity (total (fun x => if eqb x v then n else 0) (parts t)).
  - apply total_ext. intros x _. change (links_of (Tick false x :: cite_events src t x)) with (links_of (cite_events src t x)). apply lk_cites.
  - induction (parts t) as [|y l IH]; [reflexivity|]. unfold total in *. cbn [fold_right count]. rewrite IH, (eqb_sym v y). destruct (eqb y v); lia.
Qed.
Lemma diffusion_graph_spec w (src tgt : list drec) : iterable src -> iterable tgt ->
  exists g, diffusion_graph truthy letters w src tgt = Ok g /\ WF g /\ gdir g = true /\
    (forall u v, ed g u v = edge_value w (citings truthy letters src tgt u v)) /\
    forall n, nd g n = flags (mem n (flat_map parts src)) (mem n (flat_map parts tgt)).
Proof.
  intros IS IT. rewrite diffusion_graph_ev by assumption.
  destruct (@run_empty _ _ bool w mark eff_mark (fun _ => True)) with (es := all_events src tgt) (d := true) as (g & E1 & W & D & L & A1); try tauto.
  - intros t n g W _. apply mark_spec; auto.
  - exists g. split; [exact E1|]. split; [exact W|]. split; [exact D|]. split.
    + intros u v. rewrite L, lk_all. reflexivity.
    + intros n. rewrite A1, eff_all. reflexivity.
Qed.

(** ** the labelled multigraph *)
Variable name : E -> E.
Definition labels (t : drec) : list E := match d_extra t with None => [] | Some (One x) => [name x] | Some (Many l) => map name l end.
Definition label_edges (src : list drec) (t : drec) : list (V * V * E) :=
  flat_map (fun v => flat_map (fun c => match cited src c with
                                        | Some s => flat_map (fun u => map (fun e => (u, v, e)) (labels t)) (parts s)
                                        | None => [] end) (refs t)) (parts t).
Definition put (w : bool) (m : list (V * V * E)) (x : V * V * E) : list (V * V * E) := put_label w (fst (fst x)) (snd (fst x)) (snd x) m.
Lemma fold_flat {A B G} (f : G -> A -> G) (h : B -> list A) l : forall g, fold_left f (flat_map h l) g = fold_left (fun g b => fold_left f (h b) g) l g.
Proof. induction l as [|x l IH]; intros g; [reflexivity|]. cbn. rewrite fold_left_app. apply IH. Qed.
Lemma fold_map {A B G} (f : G -> A -> G) (h : B -> A) l : forall g, fold_left f (map h l) g = fold_left (fun g b => f g (h b)) l g.
Proof. induction l as [|x l IH]; intros g; [reflexivity|]. cbn. apply IH. Qed.
Lemma fold_ext {A G} (f f' : G -> A -> G) l : (forall g x, f g x = f' g x) -> forall g, fold_left f l g = fold_left f' l g.
Proof. intros E1. induction l as [|x l IH]; intros g; [reflexivity|]. cbn. rewrite E1. apply IH. Qed.
Lemma iter_ok {A G} (f : A -> G -> res G) (h : G -> A -> G) l : (forall x g, In x l -> f x g = Ok (h g x)) -> forall g, iter f l g = Ok (fold_left h l g).
Proof. intros E1. induction l as [|x l IH]; intros g; [reflexivity|]. cbn. rewrite E1 by (left; reflexivity). cbn. apply IH. intros y g' I1. apply E1. right. exact I1. Qed.
Lemma label_cites_spec w (src : list drec) t x v m : iterable src -> d_extra t = Some x ->
  label_cites letters w name (source_dict truthy false src) t (entries x) v m =
  Ok (fold_left (put w) (flat_map (fun c => match cited src c with Some s => flat_map (fun u => map (fun e => (u, v, e)) (labels t)) (parts s) | None => [] end) (refs t)) m).
Proof.
  intros IS X. unfold label_cites, refs. destruct (d_cites t) as [cs|]; [|reflexivity]. rewrite fold_flat. apply iter_ok. intros c m' _.
  rewrite (proj2 (source_dict_spec truthy false src)). destruct (cited src c) as [s|] eqn:Q; [|reflexivity]. apply cited_sound in Q. destruct Q as (I1 & P & _).
  destruct (present_id _ _ P) as [f F]. rewrite F. rewrite (iterate_parts s IS I1 F) by (rewrite (true_present truthy s F); exact P). cbn [bind]. f_equal.
  rewrite fold_flat. apply fold_ext. intros m0 u. unfold labels. rewrite X. replace (match x with One x0 => [name x0] | Many l => map name l end) with (map name (entries x)) by (destruct x; reflexivity).
  rewrite !fold_map. reflexivity.
Qed.
Lemma label_targets_spec w (src rs : list drec) : iterable src -> iterable rs -> forall g m,
  label_targets truthy letters w name (source_dict truthy false src) rs (g, m) =
  let rs' := filter (fun t => match d_extra t with Some _ => true | None => false end) rs in
  let* g' := iter target_node (flat_map parts rs') g in
  Ok (g', fold_left (put w) (flat_map (label_edges src) rs') m).
Proof.
  intros IS. induction rs as [|r rs IH]; intros IT g m; [reflexivity|]. unfold label_targets in *. cbn [iter filter].
  assert (IT' : iterable rs) by (intros r' v I1; apply IT; right; exact I1).
  destruct (d_extra r) as [x|] eqn:X; [|cbn [bind]; apply IH, IT']. cbv zeta. cbn [flat_map]. rewrite iter_app, fold_left_app.
  assert (ONE : forall l g m, iter (fun v st => let* g1 := target_node v (fst st) in let* m1 := label_cites letters w name (source_dict truthy false src) r (entries x) v (snd st) in Ok (g1, m1)) l (g, m) =
    let* g' := iter target_node l g in
    Ok (g', fold_left (put w) (flat_map (fun v => flat_map (fun c => match cited src c with Some s => flat_map (fun u => map (fun e => (u, v, e)) (labels r)) (parts s) | None => [] end) (refs r)) l) m)).
  { induction l as [|v l IHl]; intros g0 m0; [reflexivity|]. cbn [iter fst snd flat_map]. destruct (target_node v g0) as [g1|e]; cbn [bind]; [|reflexivity].
    rewrite (@label_cites_spec w src r x v m0 IS X). cbn [bind]. rewrite IHl, fold_left_app. reflexivity. }
  destruct (d_id r) as [f|] eqn:F.
  - destruct (true_id truthy f) eqn:T.
    + rewrite (iterate_parts r IT (or_introl eq_refl) F T). cbn [bind]. rewrite ONE. destruct (iter target_node (parts r) g) as [g1|e]; cbn [bind]; [|reflexivity]. rewrite (IH IT'). reflexivity.
    + unfold label_edges at 2. rewrite (parts_none r) by (rewrite <- (true_present truthy r F); exact T). cbn [iter bind flat_map fold_left]. apply (IH IT').
  - unfold label_edges at 2. rewrite (parts_none r) by (unfold DiffusionSpec.present; rewrite F; reflexivity). cbn [iter bind flat_map fold_left]. apply (IH IT').
Qed.
Lemma put_weighted L : forall m, fold_left (put true) L m = m ++ L.
Proof. induction L as [|[[u v] e] L IH]; intros m; cbn [fold_left]; [rewrite app_nil_r; reflexivity|]. rewrite IH. unfold put, put_label. cbn. rewrite <- app_assoc. reflexivity. Qed.
Lemma put_plain L : forall m, NoDup m -> NoDup (fold_left (put false) L m) /\ forall x, In x (fold_left (put false) L m) <-> In x m \/ In x L.
Proof.
  clear truthy letters name.
  induction L as [|[[u v] e] L IH]; intros m ND; cbn [fold_left]; [split; [exact ND|intros x; cbn; tauto]|].
  set (m1 := put false m (u, v, e)).
  assert (ON : NoDup m1 /\ forall x, In x m1 <-> x = (u, v, e) \/ In x m).
  { unfold m1, put, put_label. cbn [fst snd]. destruct (existsb _ m) eqn:Q.
    - split; [exact ND|]. intros x. split; [auto|]. intros [->|I1]; [|exact I1]. apply existsb_exists in Q. destruct Q as ([[u' v'] e'] & I1 & Q). cbn in Q.
      apply andb_true_iff in Q. destruct Q as [Q Q3]. apply andb_true_iff in Q. destruct Q as [Q1 Q2]. apply eqb_eq in Q1. apply eqb_eq in Q2. apply eqb_eq in Q3. subst. exact I1.
    - split.
      + apply Permutation_NoDup with ((u, v, e) :: m); [apply Permutation_cons_append|]. constructor; [|exact ND]. intros I1.
        assert (T : existsb (fun x => eqb (fst (fst x)) u && eqb (snd (fst x)) v && eqb (snd x) e) m = true); [|congruence].
        apply existsb_exists. exists (u, v, e). split; [exact I1|]. cbn. rewrite !eqb_refl. reflexivity.
      + intros x. rewrite in_app_iff. cbn. intuition. }
  destruct ON as [ND1 IN1]. destruct (IH m1 ND1) as [ND2 IN2]. split; [exact ND2|]. intros x. rewrite IN2, IN1. cbn [In]. intuition.
Qed.
Lemma diffusion_multigraph_spec w (src tgt : list drec) : iterable src -> iterable tgt ->
  let tgt' := filter (fun t => match d_extra t with Some _ => true | None => false end) tgt in
  exists g m, diffusion_multigraph truthy letters w name src tgt = Ok (g, m) /\ WF g /\ 
    (forall n, nd g n = flags (mem n (flat_map parts src)) (mem n (flat_map parts tgt'))) /\
    m = fold_left (put w) (flat_map (label_edges src) tgt') [].
Proof.
  intros IS IT tgt'. unfold diffusion_multigraph. rewrite (graph_sources_ev true) by exact IS. 
  destruct (@run_empty _ _ bool true mark eff_mark (fun _ => True)) with (es := map (Tick true) (flat_map parts src) ++ map (Tick false) (flat_map parts tgt')) (d := true) as (g & E1 & W & D & L & A1); try tauto.
  { intros t n g W _. apply mark_spec; auto. }
  rewrite iter_app in E1. destruct (iter (ev true mark) (map (Tick true) (flat_map parts src)) (empty_graph true)) as [g1|e]; cbn [bind fst snd] in *; [|discriminate].
  fold (source_dict truthy false src). rewrite label_targets_spec by assumption. cbv zeta. fold tgt'. rewrite iter_map in E1.
  change (iter target_node (flat_map parts tgt') g1 = Ok g) in E1. rewrite E1. cbn [bind].
  exists g, (fold_left (put w) (flat_map (label_edges src) tgt') []). split; [reflexivity|]. split; [exact W|]. split; [|reflexivity].
  intros n. rewrite A1, fold_left_app, eff_sources by auto. set (s := mem n (flat_map parts src)).
  assert (T : forall l b, fold_left (eff_ev eff_mark n) (map (Tick false) l) (flags s b) = flags s (b || mem n l)).
  { induction l as [|x l IHl]; intros b; [cbn; rewrite orb_false_r; reflexivity|]. cbn [map fold_left eff_ev]. unfold mem in *. cbn [existsb].
    destruct (eqb n x); [|apply IHl]. cbn [orb]. rewrite orb_true_r. replace (Some (eff_mark false (flags s b))) with (flags s true); [rewrite IHl; reflexivity|].
    unfold flags. rewrite orb_true_r. destruct s, b; reflexivity. }
  apply (T (flat_map parts tgt') false).
Qed.
End Graphs.
