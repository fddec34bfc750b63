(** Proofs about co-investigator networks. *)
From Coq Require Import List ZArith Lia Bool Arith.
From Coq Require Import String.
From Verif Require Import Base PyStr JournalModel TextModel Nx NxFacts SeriesSpec NetModel NetSpec NetFacts NetProofs GrantModel GrantSpec.
Import ListNotations.
Local Open Scope list_scope.

(** ** [tie] is [touch] on the graphs that are met *)
Lemma dset_id {K V} `{EqDec K} (k : K) (v : V) d : dget k d = Some v -> dset k v d = d.
Proof. induction d as [|[k' v'] d IH]; [discriminate|]. cbn [dget dset]. destruct (eqb_spec k k') as [->|NE]; intros E; [injection E as ->; reflexivity|]. rewrite IH by exact E. reflexivity. Qed.
Lemma ensure_id (g : graph str) n a : nd g n = Some a -> ensure_node n g = g.
Proof. intros E. unfold ensure_node. rewrite E. reflexivity. Qed.
Lemma set_row_id u v a (t : dict str (dict str attrs)) r : dget u t = Some r -> dget v r = Some a -> set_row u v a t = t.
Proof. intros E F. unfold set_row. rewrite E, (dset_id v a r F). apply dset_id. exact E. Qed.
Lemma add_again (g : graph str) u v a : WF g -> gdir g = false -> ed g u v = Some a -> add_edge u v [] g = g.
Proof.
  intros W D E. pose proof (ed_source _ _ W E) as Iu. pose proof (wf_ends W _ _ E) as Iv. apply nd_In in Iu. apply nd_In in Iv. destruct Iu as [au Au], Iv as [av Av].
  unfold add_edge. rewrite (ensure_id g u au Au), (ensure_id g v av Av). rewrite E. cbn [dupdate fold_left]. unfold put_edge.
  assert (E' : ed g v u = Some a) by (rewrite (wf_sym W D v u); exact E).
  unfold ed in E, E'. destruct (dget u (gadj g)) as [ru|] eqn:Ru; [|discriminate]. destruct (dget v (gadj g)) as [rv|] eqn:Rv; [|discriminate].
  unfold dupdate. cbn [fold_left]. rewrite (set_row_id u v a (gadj g) ru Ru E). rewrite D. rewrite (set_row_id v u a (gadj g) rv Rv E'). destruct g; cbn in *; subst; reflexivity.
Qed.
Lemma tie_touch w L (g : graph str) u v : WF g -> gdir g = false -> tallied w L g -> tie w u v g = touch w u v g.
Proof.
  intros W D T. pose proof (T u v) as E. unfold tie, touch, has_edge. destruct w.
  - unfold edge_incr. destruct (ed g u v) as [a|]; [|reflexivity]. unfold edge_value in E. destruct (lk (gdir g) L u v =? 0); [discriminate|]. injection E as ->. reflexivity.
  - destruct (ed g u v) as [a|] eqn:E1; [|reflexivity]. rewrite (add_again g u v a W D E1). reflexivity.
Qed.

(** ** The invariant *)
Definition node_of (counted : bool) (M : list (str * str)) (n : str) : option attrs :=
  match first_field n M with
  | None => None
  | Some f => Some ((if counted then [(cnt_, VInt (Z.of_nat (count n (map fst M))))] else []) ++ [(field_, VStr f)])
  end.
Record inv (counted w : bool) (M : list (str * str)) (L : list (str * str)) (g : graph str) : Prop := {
  i_wf : WF g; i_dir : gdir g = false; i_links : tallied w L g; i_nodes : forall n, nd g n = node_of counted M n }.
Lemma dget_app {K V} `{EqDec K} (k : K) (a b : dict K V) : dget k (a ++ b) = match dget k a with Some v => Some v | None => dget k b end.
Proof. induction a as [|[k' v] a IH]; [reflexivity|]. cbn [app dget]. destruct (eqb k k'); [reflexivity|exact IH]. Qed.
Lemma count_app_ {A} `{EqDec A} (x : A) a b : count x (a ++ b) = count x a + count x b.
Proof. induction a as [|y a IH]; [reflexivity|]. cbn [app count]. rewrite IH. lia. Qed.
Lemma count_none {A} `{EqDec A} (x : A) a : ~ In x a -> count x a = 0.
Proof. induction a as [|y a IH]; intros N; [reflexivity|]. cbn [count]. destruct (eqb_spec x y) as [->|]; [exfalso; apply N; now left|]. rewrite IH; [reflexivity|]. intros I1. apply N. now right. Qed.
Lemma meet_inv c w M L g n f : inv c w M L g -> exists g', meet c f n g = Ok g' /\ inv c w (M ++ [(n, f)]) L g'.
Proof.
  intros [W D T Nd].
  assert (FIN : forall g', setp g n (match node_of c (M ++ [(n, f)]) n with Some a => a | None => [] end) g' -> inv c w (M ++ [(n, f)]) L g').
  { intros g' (W' & D' & E' & N'). constructor; [exact W'|congruence| |].
    - intros u v. rewrite E', D'. apply T.
    - intros m. rewrite N'. destruct (eqb_spec m n) as [->|NE].
      + unfold node_of. unfold first_field. rewrite dget_app. cbn [dget]. rewrite eqb_refl. destruct (dget n M); reflexivity.
      + rewrite Nd. unfold node_of, first_field. rewrite dget_app. cbn [dget]. rewrite neq_eqb by exact NE. destruct (dget m M); [|reflexivity]. rewrite map_app, count_app_. cbn [map fst count]. rewrite neq_eqb by exact NE. rewrite !Nat.add_0_r. reflexivity. }
  unfold meet. rewrite has_node_nd. pose proof (Nd n) as E. unfold node_of, first_field in E.
  assert (NV : node_of c (M ++ [(n, f)]) n = Some ((if c then [(cnt_, VInt (Z.of_nat (count n (map fst M) + 1)))] else []) ++ [(field_, VStr (match dget n M with Some f0 => f0 | None => f end))])).
  { unfold node_of, first_field. rewrite dget_app. cbn [dget]. rewrite eqb_refl. rewrite map_app, count_app_. cbn [map fst count]. rewrite eqb_refl. destruct (dget n M); reflexivity. }
  rewrite NV in FIN. destruct (dget n M) as [f0|] eqn:G.
  - rewrite E. destruct c.
    + destruct (@incr_present str _ g n cnt_ (VInt 1) _ (VInt (Z.of_nat (count n (map fst M)))) (VInt (Z.of_nat (count n (map fst M)) + 1)) W E eq_refl eq_refl) as (g2 & Q & S2). exists g2. split; [exact Q|]. apply FIN. replace (Z.of_nat (count n (map fst M) + 1)) with (Z.of_nat (count n (map fst M)) + 1)%Z by lia. exact S2.
    + exists g. split; [reflexivity|]. apply FIN. apply setp_refl; assumption.
  - rewrite E. assert (CZ : count n (map fst M) = 0). { apply count_none. apply dget_None. exact G. } rewrite CZ in FIN. eexists. split; [reflexivity|]. apply FIN.
    pose proof (add_setp n (if c then [(cnt_, VInt 1); (field_, VStr f)] else [(field_, VStr f)]) W) as S1. rewrite E in S1. destruct c; exact S1.
Qed.
Lemma tie_inv c w M L g u v : inv c w M L g -> In u (map fst M) -> In v (map fst M) -> exists g', tie w u v g = Ok g' /\ inv c w M (L ++ [(u, v)]) g'.
Proof.
  intros [W D T Nd] Iu Iv. rewrite (tie_touch w L g u v W D T). destruct (touch_spec u v W T) as (g' & E & W' & D' & T' & N'). exists g'. split; [exact E|]. constructor; [exact W'|congruence|exact T'|].
  intros m. rewrite N', <- Nd. destruct (eqb m u || eqb m v) eqn:Q; [|reflexivity].
  assert (Im : In m (map fst M)). { apply orb_true_iff in Q as [Q|Q]; apply eqb_eq in Q; subst; assumption. }
  rewrite Nd. unfold node_of, first_field. destruct (dget m M) eqn:G; [reflexivity|]. apply dget_None in G. contradiction.
Qed.
Lemma inner_inv c w (x : str * str) : forall l M L g, inv c w M L g -> In (fst x) (map fst M) ->
  exists g', iter (fun (y : str * str) g => let* g' := meet c (snd y) (fst y) g in tie w (fst x) (fst y) g') l g = Ok g' /\ inv c w (M ++ l) (L ++ map (fun y => (fst x, fst y)) l) g'.
Proof.
  induction l as [|y l IH]; intros M L g V Ix.
  - exists g. cbn. rewrite !app_nil_r. split; [reflexivity|exact V].
  - destruct (meet_inv c w M L g (fst y) (snd y) V) as (g1 & E1 & V1). destruct (tie_inv c w _ L g1 (fst x) (fst y) V1) as (g2 & E2 & V2).
    { rewrite map_app. apply in_app_iff. now left. } { rewrite map_app. apply in_app_iff. right. now left. }
    rewrite <- surjective_pairing in V2. destruct (IH _ _ g2 V2) as (g' & E' & V'). { rewrite map_app. apply in_app_iff. now left. }
    exists g'. cbn [iter]. rewrite E1. cbn [bind]. rewrite E2. cbn [bind]. split; [exact E'|]. cbn [map]. rewrite <- !app_assoc in V'. exact V'.
Qed.
Fixpoint meets (l : list (str * str)) : list (str * str) := match l with [] => [] | x :: l' => x :: l' ++ meets l' end.
Fixpoint links (l : list (str * str)) : list (str * str) := match l with [] => [] | x :: l' => map (fun y => (fst x, fst y)) l' ++ links l' end.
Lemma all_inv c w : forall l M L g, inv c w M L g -> exists g', meet_all c w l g = Ok g' /\ inv c w (M ++ meets l) (L ++ links l) g'.
Proof.
  induction l as [|x l IH]; intros M L g V.
  - exists g. cbn. rewrite !app_nil_r. split; [reflexivity|exact V].
  - destruct (meet_inv c w M L g (fst x) (snd x) V) as (g1 & E1 & V1). rewrite <- surjective_pairing in V1. destruct (inner_inv c w x l _ _ g1 V1) as (g2 & E2 & V2). { rewrite map_app. apply in_app_iff. right. now left. }
    destruct (IH _ _ g2 V2) as (g' & E' & V'). exists g'. cbn [meet_all]. rewrite E1. cbn [bind]. rewrite E2. cbn [bind]. split; [exact E'|]. cbn [meets links]. rewrite <- !app_assoc in V'. exact V'.
Qed.
Lemma grant_inv c w l M L g : inv c w M L g -> exists g', meet_grant c w l g = Ok g' /\ inv c w (M ++ meets l) (L ++ links l) g'.
Proof.
  intros V. destruct l as [|x [|y l]]; [apply (all_inv c w [] M L g V)| |apply (all_inv c w (x :: y :: l) M L g V)]. cbn [meet_grant meets links map app]. destruct (meet_inv c w M L g (fst x) (snd x) V) as (g1 & E1 & V1). rewrite <- surjective_pairing in V1. exists g1. split; [exact E1|]. rewrite app_nil_r. exact V1.
Qed.

(** ** Names of one grant *)
Lemma firsts_ok sep l : sep <> [] -> firsts sep l = Ok (map (fun s => hd [] (split_on (length s) sep s)) l).
Proof. intros NE. induction l as [|x l IH]; [reflexivity|]. cbn [firsts map]. unfold py_split. destruct sep; [congruence|]. cbn [bind]. rewrite IH. reflexivity. Qed.
Lemma at_people sep d k i b e : sep <> [] -> forall tags, readable tags (mkGrant k i b e d) -> investigators_at tags sep d = Ok (people sep tags (mkGrant k i b e d)).
Proof.
  intros NE. induction tags as [|t tags IH]; intros R; [reflexivity|]. cbn [investigators_at]. unfold people. cbn [flat_map]. fold (people sep tags (mkGrant k i b e d)).
  pose proof (R t (or_introl eq_refl)) as Rt. cbn [g_data] in *. rewrite IH by (intros f I1; apply R; now right). destruct (dget t d) as [[s|l|]|]; cbn [names_in].
  - unfold py_split. destruct sep; [congruence|]. cbn [bind]. rewrite map_map. reflexivity.
  - rewrite firsts_ok by exact NE. cbn [bind]. rewrite !map_map. reflexivity.
  - congruence.
  - reflexivity.
Qed.
Lemma more_spec lower part d : NoDup (dkeys d) -> forall tags, more_tags lower part d tags = tags ++ keys_with lower part d tags.
Proof.
  unfold more_tags, keys_with. induction (dkeys d) as [|k ks IH]; intros ND tags; [cbn; rewrite app_nil_r; reflexivity|]. inversion ND as [|? ? NI ND']; subst. cbn [fold_left filter].
  destruct (contains part (lower k) && negb (mem k tags)) eqn:Q; rewrite (IH ND'); [|reflexivity]. rewrite <- app_assoc. f_equal. cbn [app]. f_equal. apply filter_ext_in. intros x I1. f_equal. f_equal. unfold mem. rewrite existsb_app. cbn [existsb]. destruct (eqb_spec x k) as [->|]; [contradiction|]. rewrite !orb_false_r. reflexivity.
Qed.
Lemma all_tags_spec lower inst g t : NoDup (dkeys (g_data g)) -> all_tags lower inst g t = looked_at lower inst g t.
Proof. intros ND. unfold all_tags, looked_at, tag_list. destruct (g_kind g); try reflexivity; [apply more_spec; exact ND|]. destruct t; reflexivity. Qed.

(** ** The whole network *)
Fixpoint lists (lower : str -> str) (inst : bool) (sep : str) (t : targ) (gs : list grant) : list (list (str * str)) :=
  match gs with [] => [] | g :: gs' => people sep (looked_at lower inst g t) g :: lists lower inst sep (tags_after lower inst g t) gs' end.
Fixpoint all_readable (lower : str -> str) (inst : bool) (t : targ) (gs : list grant) : Prop :=
  match gs with [] => True | g :: gs' => NoDup (dkeys (g_data g)) /\ readable (looked_at lower inst g t) g /\ all_readable lower inst (tags_after lower inst g t) gs' end.
Lemma loop_inv lower inst c w sep : sep <> [] -> forall gs t M L g, all_readable lower inst t gs -> inv c w M L g ->
  exists g', co_loop lower inst c w sep t gs g = (Ok g', fold_left (fun t x => tags_after lower inst x t) gs t) /\
    inv c w (M ++ flat_map meets (lists lower inst sep t gs)) (L ++ flat_map links (lists lower inst sep t gs)) g'.
Proof.
  intros NE. induction gs as [|x gs IH]; intros t M L g R V.
  - exists g. cbn. rewrite !app_nil_r. split; [reflexivity|exact V].
  - destruct R as (ND & Rx & R). cbn [co_loop lists flat_map fold_left]. unfold investigators. rewrite (all_tags_spec lower inst x t ND). destruct x as [k i b e d]. cbn [g_data] in *. rewrite (at_people sep d k i b e NE _ Rx).
    destruct (grant_inv c w (people sep (looked_at lower inst (mkGrant k i b e d) t) (mkGrant k i b e d)) M L g V) as (g1 & E1 & V1). rewrite E1. destruct (IH _ _ _ g1 R V1) as (g' & E' & V'). exists g'. split; [exact E'|]. rewrite <- !app_assoc in V'. exact V'.
Qed.
Lemma inv_empty c w : inv c w [] [] (empty_graph false).
Proof. constructor; [apply WF_empty|reflexivity|intros u v; reflexivity|intros n; reflexivity]. Qed.
Lemma lk_links l u v : lk false (links l) u v = pairs_within u v (map fst l).
Proof.
  assert (E : links l = links_of (ev_level (map fst l))).
  { induction l as [|x l IH]; [reflexivity|]. cbn [links map ev_level]. rewrite links_app, links_map_link, map_map, IH. unfold links_of at 2. reflexivity. }
  rewrite E. apply links_level.
Qed.
Lemma count_meets n : forall l, count n (map fst (meets l)) = places n 1 (map fst l).
Proof.
  assert (SH : forall l k, places n (k + 1) l = count n l + places n k l).
  { induction l as [|x l IH]; intros k; [reflexivity|]. cbn [places count]. rewrite IH, (eqb_sym n x). destruct (eqb x n); lia. }
  induction l as [|x l IH]; [reflexivity|]. cbn [meets map fst places count]. rewrite map_app, count_app_, IH, (eqb_sym n (fst x)). rewrite (SH _ 1). lia.
Qed.
Lemma first_meets n : forall l, dget n (meets l) = dget n l.
Proof.
  induction l as [|[y f] l IH]; [reflexivity|]. cbn [meets dget]. destruct (eqb n y); [reflexivity|]. rewrite dget_app, IH. destruct (dget n l); reflexivity.
Qed.
Lemma first_flat n : forall ls, dget n (flat_map meets ls) = dget n (concat ls).
Proof. induction ls as [|l ls IH]; [reflexivity|]. cbn [flat_map concat]. rewrite !dget_app, first_meets, IH. reflexivity. Qed.
Lemma count_flat n : forall ls, count n (map fst (flat_map meets ls)) = total (fun l => places n 1 (map fst l)) ls.
Proof. induction ls as [|l ls IH]; [reflexivity|]. cbn [flat_map]. rewrite map_app, count_app_, count_meets, IH. reflexivity. Qed.
Lemma lk_flat_links u v : forall ls, lk false (flat_map links ls) u v = total (fun l => pairs_within u v (map fst l)) ls.
Proof. induction ls as [|l ls IH]; [reflexivity|]. cbn [flat_map]. rewrite lk_app, lk_links, IH. reflexivity. Qed.
Lemma network_spec lower inst c w sep t gs : sep <> [] -> all_readable lower inst t gs ->
  exists g, co_network lower inst c w sep t gs = (Ok g, fold_left (fun t x => tags_after lower inst x t) gs t) /\ WF g /\ gdir g = false /\
    (forall u v, ed g u v = edge_value w (total (fun l => pairs_within u v (map fst l)) (lists lower inst sep t gs))) /\
    forall n, nd g n = match first_field n (concat (lists lower inst sep t gs)) with
                       | None => None
                       | Some f => Some ((if c then [($"count", VInt (Z.of_nat (total (fun l => places n 1 (map fst l)) (lists lower inst sep t gs))))] else []) ++ [($"field", VStr f)])
                       end.
Proof.
  intros NE R. destruct (loop_inv lower inst c w sep NE gs t [] [] _ R (inv_empty c w)) as (g & E & [W D T Nd]). exists g. split; [exact E|]. split; [exact W|]. split; [exact D|]. cbn [app] in *. split.
  - intros u v. rewrite T, D, lk_flat_links. reflexivity.
  - intros n. rewrite Nd. unfold node_of, first_field. rewrite first_flat, count_flat. reflexivity.
Qed.
