(** addToNetwork and the networks built with it as sequences of steps. *)
From Coq Require Import String Lia.
From Verif Require Import Base PyStr Nx NxFacts RecordView SeriesSpec RecordViewFacts NetModel NetSpec NetFacts NetProofs CiteNetModel CiteNetFacts CiteNetSpec CiteNetProofs.
Set Implicit Arguments.

Section General.
Context {I : Type} `{EqDec I}.
Variables (cnt w : bool).
Definition inv (d : bool) (g : graph I) : Prop := WF g /\ gdir g = d.
Lemma do_op_inv d p (g g' : graph I) : inv d g -> NoDup (dkeys (op_attrs p)) -> do_op cnt w p g = Ok g' -> inv d g'.
Proof.
  intros [W D] ND R. destruct p as [n a|n a|u v y]; cbn [do_op op_attrs] in *.
  - destruct (negb (has_node g n)); [injection R as <-; split; [apply WF_add_node, W|rewrite gdir_add_node; exact D]|]. destruct cnt; [|injection R as <-; split; assumption].
    unfold node_incr in R. destruct (nd g n) as [b|]; [|discriminate]. destruct (dget cnt_ b) as [x|]; [|discriminate]. destruct (vadd x (VInt 1)) as [z|]; [|discriminate]. cbn [bind] in R.
    split; [eapply WF_node_set; eassumption|rewrite (gdir_node_set _ _ _ _ R); exact D].
  - destruct (has_node g n); injection R as <-; [split; assumption|]. split; [apply WF_add_node, W|rewrite gdir_add_node; exact D].
  - destruct w; [|injection R as <-; split; [apply WF_add_edge, W|rewrite gdir_add_edge; exact D]].
    destruct (edge_incr u v weight (VInt 1) g) as [g1|e] eqn:Q.
    + injection R as <-. unfold edge_incr in Q. destruct (ed g u v) as [b|] eqn:E; [|discriminate]. destruct (dget weight b) as [x|]; [|discriminate]. destruct (vadd x (VInt 1)) as [z|]; [|discriminate].
      cbn [bind] in Q. injection Q as <-. split; [|exact D]. apply WF_put_edge; [exact W|eapply ed_source; eassumption|eapply (wf_ends W); eassumption|apply NoDup_dset; eapply (wf_eattr W); exact E].
    + destruct e; try discriminate. injection R as <-. split; [apply WF_add_edge, W|rewrite gdir_add_edge; exact D].
Qed.
Lemma iter_inv d es : forall g g', inv d g -> dictlike es -> iter (do_op cnt w) es g = Ok g' -> inv d g'.
Proof.
  induction es as [|p es IH]; intros g g' V DL R; [injection R as <-; exact V|]. cbn [iter] in R. destruct (do_op cnt w p g) as [g1|] eqn:Q; [|discriminate].
  apply (IH g1 g'); [|intros q K; apply DL; right; exact K|exact R]. eapply do_op_inv; [exact V|apply DL; left; reflexivity|exact Q].
Qed.
(** [f] does the steps [h r], or fails because of something wrong with [r] *)
Lemma iter_agree {R} d (f : R -> graph I -> res (graph I)) (h : R -> list op) (wrong : R -> Prop) rs :
  (forall r g, In r rs -> inv d g -> f r g = iter (do_op cnt w) (h r) g \/ exists e, f r g = Raise e /\ wrong r) ->
  (forall r, In r rs -> dictlike (h r)) ->
  forall g, inv d g -> iter f rs g = iter (do_op cnt w) (flat_map h rs) g \/ exists e, iter f rs g = Raise e /\ Exists wrong rs.
Proof.
  induction rs as [|r rs IH]; intros F DL g V; [left; reflexivity|]. cbn [iter flat_map]. rewrite iter_app.
  destruct (F r g (or_introl eq_refl) V) as [->|(e & -> & B)].
  - destruct (iter (do_op cnt w) (h r) g) as [g1|e] eqn:Q; [|left; reflexivity]. cbn [bind].
    destruct (IH (fun r' g' K => F r' g' (or_intror K)) (fun r' K => DL r' (or_intror K)) g1) as [->|(e & -> & B)].
    + eapply iter_inv; [exact V|apply DL; left; reflexivity|exact Q].
    + left; reflexivity.
    + right. exists e. split; [reflexivity|]. right. exact B.
  - right. exists e. split; [reflexivity|]. left. exact B.
Qed.

Lemma has_edge_add (g : graph I) u v a x y : WF g -> has_edge g x y = true -> has_edge (add_edge u v a g) x y = true.
Proof. intros W E. unfold has_edge in *. rewrite ed_add_edge by exact W. destruct (same_edge (gdir g) u v x y); [reflexivity|exact E]. Qed.
Lemma add_from_filter (g0 : graph I) L : forall g, WF g -> (forall u v, has_edge g0 u v = true -> has_edge g u v = true) ->
  add_edges_from (filter (fun e => negb (has_edge g0 (fst e) (snd e))) L) g = add_edges_from L g.
Proof.
  induction L as [|[u v] L IH]; intros g W X; [reflexivity|]. cbn [filter fst snd]. destruct (has_edge g0 u v) eqn:E; cbn [negb].
  - rewrite IH by assumption. unfold add_edges_from. cbn [fold_left fst snd]. apply X in E. unfold has_edge in E. destruct (ed g u v) as [a|] eqn:Q; [|discriminate]. rewrite (add_edge_same _ _ W Q). reflexivity.
  - unfold add_edges_from. cbn [fold_left fst snd]. apply (IH (add_edge u v [] g)); [apply WF_add_edge, W|]. intros x y K. apply has_edge_add; [exact W|]. apply X, K.
Qed.
Lemma iter_edges {A} (mk : A -> op) (e : A -> I * I) L : w = false -> (forall a, exists y, mk a = Edge (fst (e a)) (snd (e a)) y) ->
  forall g, iter (do_op cnt w) (map mk L) g = Ok (add_edges_from (map e L) g).
Proof.
  intros HW MK. induction L as [|a L IH]; intros g; [reflexivity|]. cbn [map iter]. destruct (MK a) as (y & ->). cbn [do_op]. rewrite HW at 1. cbn [bind]. apply IH.
Qed.
(** swapping the ends of an edge of an undirected graph *)
Lemma dset_swap {K V} `{EqDec K} (d : dict K V) k k' (x x' : V) : k <> k' -> dhas k d = true -> dhas k' d = true -> dset k x (dset k' x' d) = dset k' x' (dset k x d).
Proof.
  intros N. induction d as [|[q z] d IH]; [discriminate|]. unfold dhas. cbn. destruct (eqb_spec k q) as [->|N1].
  - rewrite (neq_eqb (x:=k') (y:=q)) by congruence. cbn. rewrite eqb_refl. rewrite (neq_eqb (x:=k') (y:=q)) by congruence. reflexivity.
  - destruct (eqb_spec k' q) as [->|N2]; cbn; [rewrite eqb_refl, (neq_eqb N1); reflexivity|]. intros A B. rewrite (neq_eqb N1), (neq_eqb N2). rewrite IH; [reflexivity|exact A|exact B].
Qed.
Lemma put_edge_swap (g : graph I) u v a b : WF g -> gdir g = false -> ed g u v = Some b -> put_edge u v a g = put_edge v u a g.
Proof.
  intros W D E. unfold put_edge. rewrite D. f_equal. destruct (eqb_spec u v) as [->|N]; [reflexivity|].
  pose proof (ed_source _ _ W E) as Iu. pose proof (wf_ends W _ _ E) as Iv. destruct (row_exists _ W Iu) as [ru Ru]. destruct (row_exists _ W Iv) as [rv Rv].
  unfold set_row. rewrite Ru, Rv. rewrite (dget_dset_other (K:=I)) by congruence. rewrite (dget_dset_other (K:=I)) by congruence. rewrite Ru, Rv.
  apply dset_swap; [congruence| |]; rewrite dhas_dget; [rewrite Rv|rewrite Ru]; reflexivity.
Qed.
Lemma edge_incr_swap (g : graph I) u v k x : WF g -> gdir g = false -> edge_incr u v k x g = edge_incr v u k x g.
Proof.
  intros W D. unfold edge_incr. rewrite (wf_sym W D v u). destruct (ed g u v) as [a|] eqn:E; [|reflexivity]. destruct (dget k a) as [y|]; [|reflexivity]. destruct (vadd y x) as [z|]; [|reflexivity]. cbn [bind].
  rewrite (put_edge_swap u v _ W D E). reflexivity.
Qed.
End General.

Section Cites.
Context {I C R : Type} `{EqDec I}.
Variable api : cite_api C I.
Variable rapi : rec_api R C.
Variable upper : str -> str.
Variable o : opts.
Variable rs : list R.
Notation cnt := (o_count o).
Notation w := (o_weighted o).
Notation core := (core_dict api rapi rs).

Lemma core_snoc l r : core_dict api rapi (l ++ [r]) = dset (cid api (own rapi r)) r (core_dict api rapi l).
Proof. unfold core_dict. rewrite fold_left_app. reflexivity. Qed.
Lemma core_get (l : list R) i : dget i (core_dict api rapi l) = find (fun r => eqb i (cid api (own rapi r))) (rev l).
Proof.
  induction l as [|r l IH] using rev_ind; [reflexivity|]. rewrite core_snoc, rev_app_distr. cbn [rev app find].
  destruct (eqb_spec i (cid api (own rapi r))) as [->|N]; [apply dget_dset_same|]. rewrite dget_dset_other by exact N. exact IH.
Qed.
Lemma core_has c : dhas (cid api c) core = in_collection api rapi rs c.
Proof.
  rewrite dhas_dget, core_get. unfold in_collection. destruct (find _ (rev rs)) as [r|] eqn:F.
  - apply find_some in F. destruct F as [A B]. symmetry. apply existsb_exists. exists r. split; [apply in_rev; exact A|exact B].
  - symmetry. destruct (existsb _ rs) eqn:X; [|reflexivity]. apply existsb_exists in X. destruct X as (r & A & B). apply in_rev in A. pose proof (find_none _ _ F r A) as Q. cbn in Q. congruence.
Qed.
Lemma existsb_negb {A} (f : A -> bool) l : negb (existsb f l) = forallb (fun x => negb (f x)) l.
Proof. induction l as [|x l IH]; [reflexivity|]. cbn [existsb forallb]. rewrite negb_orb, IH. reflexivity. Qed.
Lemma keep_selected c : keep api upper o core c = selected api rapi upper o rs c.
Proof.
  unfold keep, selected. rewrite core_has. change (is_full (o_type o)) with (whole (o_type o)). destruct (whole (o_type o)); cbn [negb andb orb];
    [|destruct (cattr api (o_type o) c) as [i|]; [destruct (truthy_id api i)|]; cbn [negb andb orb]; try reflexivity];
    (destruct (o_journals o), (is_journal api c); cbn [negb andb orb]; try reflexivity);
    (destruct (o_anon o), (is_anon api c); cbn [negb andb orb]; try reflexivity);
    (destruct (o_core o), (in_collection api rapi rs c); cbn [negb andb orb]; try reflexivity);
    (destruct (o_words o) as [|k ws]; [reflexivity|]; rewrite existsb_negb; reflexivity).
Qed.
Lemma filter_selected l : filter_cites api upper o core l = filter (selected api rapi upper o rs) l.
Proof. apply filter_ext. intros c. apply keep_selected. Qed.
Lemma make_id_name c : make_id api o c = match name_of api o c with Some i => Ok i | None => Raise AttributeError end.
Proof. unfold make_id, name_of. destruct (o_type o); reflexivity. Qed.

Definition info (c : C) (i : I) : attrs := match node_info api rapi o core c i with Ok a => a | Raise _ => [] end.
Lemma fold_dset_nodup r tags : forall d : attrs, NoDup (dkeys d) -> NoDup (dkeys (fold_left (fun d t => dset t (detail_val (rget rapi r t)) d) tags d)).
Proof. induction tags as [|t ts IH]; intros d N; [exact N|]. cbn [fold_left]. apply IH, NoDup_dset, N. Qed.
Ltac nd := repeat constructor; cbn; intuition discriminate.
Lemma info_nodup c i : NoDup (dkeys (info c i)).
Proof.
  clear upper.
  unfold info. destruct (node_info api rapi o core c i) as [a|] eqn:Q; [|constructor]. unfold node_info in Q.
  match type of Q with (bind ?m _) = _ => destruct m as [d|] eqn:M; [|discriminate] end. cbn [bind] in Q. injection Q as <-.
  assert (N : NoDup (dkeys d)).
  { destruct (o_info o); [|injection M as <-; constructor]. destruct (o_type o); try (injection M as <-; nd).
    destruct (o_values o) as [|t ts]; [injection M as <-; nd|]. destruct (dget (cid api c) core) as [r|].
    - match type of M with (bind ?m _) = _ => destruct m as [d'|] eqn:M'; [|discriminate] end. cbn [bind] in M. injection M as <-.
      assert (N' : NoDup (dkeys d')).
      { destruct (negb (o_detailed o)).
        - destruct (info_vals rapi r (t :: ts)) as [l|]; [|discriminate]. cbn [bind] in M'. injection M' as <-. nd.
        - injection M' as <-. apply fold_dset_nodup. match goal with |- context [if ?b then _ else _] => destruct b eqn:EB end; [repeat constructor; cbn; tauto|]. apply eqb_false in EB. repeat constructor; cbn; intuition congruence. }
      destruct (o_cr o); [apply NoDup_dset|]; apply NoDup_dset, N'.
    - injection M as <-. destruct (o_cr o); nd. }
  destruct (o_full o); [apply NoDup_dset|]; exact N.
Qed.

(** what can be wrong with a citation *)
Definition bad_cite (c : C) : Prop := name_of api o c = None \/ exists i e, name_of api o c = Some i /\ node_info api rapi o core c i = Raise e.
Lemma node_dat_info c i : node_dat api rapi o core c i = Ok (with_count cnt (info c i)) \/ exists e, node_dat api rapi o core c i = Raise e /\ node_info api rapi o core c i = Raise e.
Proof. unfold node_dat, info. destruct (node_info api rapi o core c i) as [a|e]; [left; reflexivity|right; exists e; auto]. Qed.
Lemma see_cite_op c (i : I) g : see_cite api rapi o core c i g = do_op cnt w (See i (info c i)) g \/ exists e, see_cite api rapi o core c i g = Raise e /\ node_info api rapi o core c i = Raise e.
Proof.
  unfold see_cite. cbn [do_op]. destruct (has_node g i); cbn [negb]; [left; reflexivity|].
  destruct (node_dat_info c i) as [->|(e & -> & B)]; [left; reflexivity|right; exists e; auto].
Qed.
Lemma see_head_op c (i : I) g : see_head api rapi o core c i g = do_op cnt w (Head i (info c i)) g \/ exists e, see_head api rapi o core c i g = Raise e /\ node_info api rapi o core c i = Raise e.
Proof.
  unfold see_head. cbn [do_op]. destruct (has_node g i); [left; reflexivity|].
  destruct (node_dat_info c i) as [->|(e & -> & B)]; [left; reflexivity|right; exists e; auto].
Qed.
Definition named (l : list C) : list (I * C) := flat_map (fun c => match name_of api o c with Some i => [(i, c)] | None => [] end) l.
Definition see_ops (ids : list (I * C)) : list op := map (fun ic => See (fst ic) (info (snd ic) (fst ic))) ids.
Lemma see_all_op l : forall g, see_all api rapi o core l g = bind (iter (do_op cnt w) (see_ops (named l)) g) (fun g' => Ok (named l, g'))
                               \/ exists e, see_all api rapi o core l g = Raise e /\ Exists bad_cite l.
Proof.
  induction l as [|c l IH]; intros g; [left; reflexivity|]. cbn [see_all]. rewrite make_id_name. unfold named. cbn [flat_map]. fold (named l).
  destruct (name_of api o c) as [i|] eqn:NM; [|right; exists AttributeError; split; [reflexivity|left; left; exact NM]]. cbn [bind app see_ops map iter fst snd]. fold (see_ops (named l)).
  destruct (see_cite_op c i g) as [->|(e & -> & B)].
  - destruct (do_op cnt w (See i (info c i)) g) as [g1|e]; [|left; reflexivity]. cbn [bind]. destruct (IH g1) as [->|(e & -> & B)].
    + left. destruct (iter (do_op cnt w) (see_ops (named l)) g1); reflexivity.
    + right. exists e. split; [reflexivity|right; exact B].
  - right. exists e. split; [reflexivity|]. left. right. eauto.
Qed.

Lemma weigh_op (u v : I) y g : w = true -> weigh u v u v (extra y) g = do_op cnt w (Edge u v y) g.
Proof. intros HW. unfold weigh. cbn [do_op]. rewrite HW. reflexivity. Qed.

Definition pair_ops (ids : list I) : list op := map (fun e => Edge (fst e) (snd e) None) (pairs_list ids).
Lemma pair_inner_w (u : I) vs : w = true -> forall g, pair_inner o u vs g = bind (iter (do_op cnt w) (map (fun v => Edge u v None) vs) g) (fun g' => Ok ([], g')).
Proof.
  intros HW. induction vs as [|v vs IH]; intros g; [reflexivity|]. cbn [pair_inner map iter]. rewrite HW at 1. change (@nil (str * val)) with (extra None). rewrite (weigh_op u v None g HW).
  destruct (do_op cnt w (Edge u v None) g); [apply IH|reflexivity].
Qed.
Lemma pair_inner_u (u : I) vs : w = false -> forall g, pair_inner o u vs g = Ok (filter (fun e => negb (has_edge g (fst e) (snd e))) (map (fun v => (u, v)) vs), g).
Proof.
  intros HW. induction vs as [|v vs IH]; intros g; [reflexivity|]. cbn [pair_inner map filter fst snd]. rewrite HW. destruct (has_edge g u v); cbn [negb]; rewrite IH; reflexivity.
Qed.
Lemma pair_edges_op (ids : list I) : forall g, WF g -> (let* (l, g2) := pair_edges o ids g in Ok (add_edges_from l g2)) = iter (do_op cnt w) (pair_ops ids) g.
Proof.
  intros g W. destruct w eqn:HW.
  - rewrite <- HW. assert (Q : forall g, pair_edges o ids g = bind (iter (do_op cnt w) (pair_ops ids) g) (fun g' => Ok ([], g'))).
    { clear g W. induction ids as [|u rest IH]; intros g; [reflexivity|]. cbn [pair_edges]. rewrite (pair_inner_w u rest HW). unfold pair_ops. cbn [pairs_list]. rewrite map_app, iter_app, map_map. cbn [fst snd].
      destruct (iter (do_op cnt w) (map (fun v => Edge u v None) rest) g) as [g1|]; [|reflexivity]. cbn [bind]. rewrite IH. unfold pair_ops. destruct (iter (do_op cnt w) _ g1); reflexivity. }
    rewrite Q. destruct (iter (do_op cnt w) (pair_ops ids) g); reflexivity.
  - assert (Q : forall g, pair_edges o ids g = Ok (filter (fun e => negb (has_edge g (fst e) (snd e))) (pairs_list ids), g)).
    { clear g W. induction ids as [|u rest IH]; intros g; [reflexivity|]. cbn [pair_edges]. rewrite (pair_inner_u u rest HW). cbn [bind]. rewrite IH. cbn [bind pairs_list]. rewrite filter_app. reflexivity. }
    rewrite Q. cbn [bind]. rewrite add_from_filter by auto. unfold pair_ops. rewrite (iter_edges cnt _ (fun e => e)); [rewrite map_id; reflexivity|reflexivity|]. intros [a b]. exists None. reflexivity.
Qed.

(** the edges of a record; without weights they always start from the record *)
Definition forward (rtc : bool) : bool := rtc || negb w || negb (is_exact (o_type o)).
Definition head_op (rtc : bool) (h : I) (hy : option Z) (ic : I * C) : op :=
  let y := if is_exact (o_type o) then Some (diff api hy (snd ic)) else None in
  if forward rtc then Edge h (fst ic) y else Edge (fst ic) h y.
Definition supported (rtc directed : bool) : Prop := is_exact (o_type o) = true \/ (w = true /\ (rtc = true \/ directed = false)).
Lemma head_edges_op rtc d h hy ids : supported rtc d -> forall g, inv d g ->
  (let* (l, g2) := head_edges api o rtc h hy ids g in Ok (add_edges_from l g2)) = iter (do_op cnt w) (map (head_op rtc h hy) ids) g.
Proof.
  intros S g V. destruct w eqn:HW.
  - rewrite <- HW. assert (Q : forall g, inv d g -> head_edges api o rtc h hy ids g = bind (iter (do_op cnt w) (map (head_op rtc h hy) ids) g) (fun g' => Ok ([], g'))).
    { clear g V. induction ids as [|[n c] ids IH]; intros g V; [reflexivity|]. cbn [head_edges map iter]. rewrite HW at 1.
      assert (ST : (if is_exact (o_type o) then
          if rtc then weigh h n h n [(year_diff, diff api hy c)] g else weigh n h n h [(year_diff, diff api hy c)] g
        else if rtc then weigh h n h n [] g else weigh n h h n [] g) = do_op cnt w (head_op rtc h hy (n, c)) g).
      { unfold head_op, forward. rewrite HW. cbn [fst snd negb]. rewrite orb_false_r. rewrite <- HW. destruct (is_exact (o_type o)) eqn:EX; cbn [negb].
        - rewrite orb_false_r. destruct rtc; apply (weigh_op _ _ (Some _) g HW).
        - rewrite orb_true_r. destruct rtc; [apply (weigh_op _ _ None g HW)|]. destruct S as [S|(_ & [S|S])]; [rewrite EX in S; discriminate|discriminate|]. subst d. destruct V as [W D].
          unfold weigh. rewrite (edge_incr_swap n h weight (VInt 1) W D). apply (weigh_op h n None g HW). }
      rewrite ST. destruct (do_op cnt w (head_op rtc h hy (n, c)) g) as [g1|] eqn:RQ; [|reflexivity]. cbn [bind]. apply IH.
      eapply do_op_inv; [exact V| |exact RQ]. unfold head_op. destruct (forward rtc); constructor. }
    rewrite (Q g V). destruct (iter (do_op cnt w) (map (head_op rtc h hy) ids) g); reflexivity.
  - destruct S as [EX|(S & _)]; [|congruence]. destruct V as [W D].
    assert (Q : head_edges api o rtc h hy ids g = Ok (filter (fun e => negb (has_edge g (fst e) (snd e))) (map (fun ic => (h, fst ic)) ids), g)).
    { induction ids as [|[n c] ids IH]; [reflexivity|]. cbn [head_edges map filter fst snd]. rewrite HW, EX. destruct (has_edge g h n); cbn [negb]; rewrite IH; reflexivity. }
    rewrite Q. cbn [bind]. rewrite add_from_filter by auto. rewrite (iter_edges cnt _ (fun ic => (h, fst ic))); [reflexivity|reflexivity|].
    intros ic. unfold head_op, forward. rewrite HW. cbn [negb]. rewrite orb_true_r. cbn [orb]. eexists. reflexivity.
Qed.

Definition year_of_head (c : C) : option Z := if is_exact (o_type o) then (match cyear api c with Some y => y | None => None end) else None.
Definition rec_ops (rtc : bool) (head : option C) (l : list C) : list op :=
  match head with
  | None => see_ops (named l) ++ pair_ops (map fst (named l))
  | Some c =>
    match name_of api o c with
    | None => []
    | Some h => Head h (info c h) :: see_ops (named l) ++
                (if truthy_id api h then map (head_op rtc h (year_of_head c)) (named l) else pair_ops (map fst (named l)))
    end
  end.
Definition bad_head (c : C) : Prop := bad_cite c \/ (is_exact (o_type o) = true /\ cyear api c = None).
Definition bad_record (head : option C) (l : list C) : Prop := Exists bad_cite l \/ match head with Some c => bad_head c | None => False end.

Lemma see_ops_dictlike ids : dictlike (see_ops ids).
Proof. intros p K. apply in_map_iff in K. destruct K as ([i c] & <- & _). apply info_nodup. Qed.
Lemma short_pairs {A} (ids : list (I * A)) : 1 <? length ids = false -> pair_ops (map fst ids) = [].
Proof. destruct ids as [|x [|y ids]]; [reflexivity|reflexivity|]. intros Q. apply Nat.ltb_ge in Q. cbn in Q. lia. Qed.
Lemma add_to_network_op rtc d head l g : supported rtc d \/ head = None -> inv d g ->
  add_to_network api rapi o core rtc head l g = iter (do_op cnt w) (rec_ops rtc head l) g \/ exists e, add_to_network api rapi o core rtc head l g = Raise e /\ bad_record head l.
Proof.
  intros S V.
  assert (PAIRS : forall g, inv d g ->
    (let* (ids, g1) := see_all api rapi o core l g in let* (added, g2) := (if 1 <? length ids then pair_edges o (map fst ids) g1 else Ok ([], g1)) in Ok (add_edges_from added g2))
      = iter (do_op cnt w) (see_ops (named l) ++ pair_ops (map fst (named l))) g \/
    exists e, (let* (ids, g1) := see_all api rapi o core l g in let* (added, g2) := (if 1 <? length ids then pair_edges o (map fst ids) g1 else Ok ([], g1)) in Ok (add_edges_from added g2)) = Raise e /\ Exists bad_cite l).
  { clear g V. intros g V. destruct (see_all_op l g) as [->|(e & -> & B)]; [|right; exists e; auto]. left. rewrite iter_app.
    destruct (iter (do_op cnt w) (see_ops (named l)) g) as [g1|] eqn:Q; [|reflexivity]. cbn [bind].
    pose proof (iter_inv _ _ V (see_ops_dictlike _) Q) as [W1 _]. destruct (1 <? length (named l)) eqn:LN; [apply pair_edges_op, W1|]. rewrite (short_pairs _ LN). reflexivity. }
  unfold add_to_network. destruct head as [c|]; cbn [bind rec_ops].
  - rewrite make_id_name. destruct (name_of api o c) as [h|] eqn:NM; [|right; exists AttributeError; split; [reflexivity|right; left; left; exact NM]]. cbn [bind].
    assert (Y : (if is_exact (o_type o) then match cyear api c with Some y => Ok y | None => Raise AttributeError end else Ok None) = Ok (year_of_head c) \/
                ((if is_exact (o_type o) then match cyear api c with Some y => Ok y | None => Raise AttributeError end else Ok None) = Raise AttributeError /\ bad_head c)).
    { unfold year_of_head, bad_head. destruct (is_exact (o_type o)); [|left; reflexivity]. destruct (cyear api c); [left; reflexivity|right; auto]. }
    destruct Y as [->|(-> & B)]; [|right; exists AttributeError; split; [reflexivity|right; exact B]]. cbn [bind].
    destruct (see_head_op c h g) as [->|(e & -> & B)]; [|right; exists e; split; [reflexivity|right; left; right; eauto]].
    match goal with |- context [iter _ (Head h (info c h) :: ?x) g] => change (iter (do_op cnt w) (Head h (info c h) :: x) g) with (bind (do_op cnt w (Head h (info c h)) g) (fun g1 => iter (do_op cnt w) x g1)) end.
    destruct (do_op cnt w (Head h (info c h)) g) as [g1|] eqn:Q; [|left; reflexivity]. cbn [bind].
    assert (V1 : inv d g1) by (eapply do_op_inv; [exact V| |exact Q]; apply info_nodup).
    destruct (truthy_id api h) eqn:T.
    + destruct (see_all_op l g1) as [->|(e & -> & B)]; [|right; exists e; split; [reflexivity|left; exact B]]. left. rewrite iter_app.
      destruct (iter (do_op cnt w) (see_ops (named l)) g1) as [g2|] eqn:Q2; [|reflexivity]. cbn [bind]. destruct S as [S|S]; [|discriminate].
      apply (head_edges_op h _ (named l) S). eapply iter_inv; [exact V1|apply see_ops_dictlike|exact Q2].
    + destruct (PAIRS g1 V1) as [E|(e & E & B)]; [left; exact E|right; exists e; split; [exact E|left; exact B]].
  - destruct (PAIRS g V) as [E|(e & E & B)]; [left; exact E|right; exists e; split; [exact E|left; exact B]].
Qed.

Lemma see_names ids : names (see_ops ids) = map fst ids.
Proof. induction ids as [|ic ids IH]; [reflexivity|]. unfold see_ops. cbn [map]. unfold names. cbn [flat_map app]. f_equal. exact IH. Qed.
Lemma In_pairs (l : list I) u v : In (u, v) (pairs_list l) -> In u l /\ In v l.
Proof.
  induction l as [|x l IH]; [intros []|]. cbn [pairs_list]. rewrite in_app_iff, in_map_iff. intros [(y & Q & K)|K].
  - injection Q as <- <-. split; [left; reflexivity|right; exact K].
  - destruct (IH K). split; right; assumption.
Qed.
Lemma pair_ops_edges (l : list I) p : In p (pair_ops l) -> exists u v y, p = Edge u v y /\ In u l /\ In v l.
Proof. intros K. apply in_map_iff in K. destruct K as ([u v] & <- & K). apply In_pairs in K. cbn. exists u, v, None. tauto. Qed.
Lemma rec_closed rtc head l : closed [] (rec_ops rtc head l).
Proof.
  assert (SC : forall pre s, closed s (see_ops pre)).
  { intros pre. apply closed_nodes. intros p K. apply in_map_iff in K. destruct K as (ic & <- & _). exact Logic.I. }
  unfold rec_ops. destruct head as [c|].
  - destruct (name_of api o c) as [h|]; [|exact Logic.I].
    change (Head h (info c h) :: see_ops (named l) ++ (if truthy_id api h then map (head_op rtc h (year_of_head c)) (named l) else pair_ops (map fst (named l))))
      with ((Head h (info c h) :: see_ops (named l)) ++ (if truthy_id api h then map (head_op rtc h (year_of_head c)) (named l) else pair_ops (map fst (named l)))).
    assert (NM : names (Head h (info c h) :: see_ops (named l)) = h :: map fst (named l)) by (unfold names; cbn [flat_map app]; f_equal; apply see_names).
    apply closed_pre; [cbn [closed]; apply SC|]. rewrite NM. intros p K. destruct (truthy_id api h).
    + apply in_map_iff in K. destruct K as (ic & <- & K). unfold head_op. destruct (forward rtc).
      * do 3 eexists. split; [reflexivity|]. split; [left; reflexivity|right; apply in_map, K].
      * do 3 eexists. split; [reflexivity|]. split; [right; apply in_map, K|left; reflexivity].
    + apply pair_ops_edges in K. destruct K as (u & v & y & -> & A & B). exists u, v, y. split; [reflexivity|]. split; right; assumption.
  - apply closed_pre; [apply SC|]. rewrite see_names. intros p K. apply pair_ops_edges in K. exact K.
Qed.
Lemma rec_dictlike rtc head l : dictlike (rec_ops rtc head l).
Proof.
  assert (PD : forall p, In p (pair_ops (map fst (named l))) -> NoDup (dkeys (op_attrs p))) by (intros p K; apply pair_ops_edges in K; destruct K as (u & v & y & -> & _); constructor).
  intros p K. unfold rec_ops in K. destruct head as [c|].
  - destruct (name_of api o c) as [h|]; [|destruct K]. destruct K as [<-|K]; [apply info_nodup|]. apply in_app_iff in K. destruct K as [K|K]; [apply (see_ops_dictlike _ _ K)|].
    destruct (truthy_id api h); [|apply PD, K]. apply in_map_iff in K. destruct K as (ic & <- & _). unfold head_op. destruct (forward rtc); constructor.
  - apply in_app_iff in K. destruct K as [K|K]; [apply (see_ops_dictlike _ _ K)|apply PD, K].
Qed.
End Cites.
