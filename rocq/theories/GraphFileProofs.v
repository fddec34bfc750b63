(** readGraph after writeGraph. *)
From Coq Require Import String Lia.
From Verif Require Import Base PyStr Nx NxFacts CsvModel CsvProofs GraphFileModel GraphHelpersProofs2.
Set Implicit Arguments.

Definition row_of (cols : list str) (d : dict str val) : dict str val := map (fun k => (k, VStr (cell d k))) cols.
Lemma dkeys_row_of cols d : dkeys (row_of cols d) = cols.
Proof. unfold dkeys, row_of. rewrite map_map. cbn. apply map_id. Qed.
Lemma dget_row_of cols d k : dget k (row_of cols d) = if mem k cols then Some (VStr (cell d k)) else None.
Proof.
  induction cols as [|c cols IH]; [reflexivity|]. cbn [row_of map dget]. unfold mem; cbn [existsb].
  destruct (eqb_spec k c) as [->|N]; [reflexivity|]. exact IH.
Qed.
Lemma row_of_ext cols d d' : (forall k, In k cols -> cell d k = cell d' k) -> row_of cols d = row_of cols d'.
Proof. intros E. apply map_ext_in. intros k I. rewrite E by exact I. reflexivity. Qed.
Lemma ddel_row_of k cols d : ddel k (row_of (k :: cols) d) = row_of cols d.
Proof. cbn. rewrite eqb_refl. reflexivity. Qed.

(** ** nodes *)
Definition add_nodes (cols : list str) (l : dict str attrs) (g : graph str) : graph str :=
  fold_left (fun g na => add_node (fst na) (row_of cols (snd na)) g) l g.
Lemma read_nodes_rows cols : ~ In g_id cols -> forall l g,
  read_nodes (map (fun na => row_of (g_id :: cols) (dset g_id (VStr (fst na)) (snd na))) l) g = Ok (add_nodes cols l g).
Proof.
  intros NI l. induction l as [|[n a] l IH]; intros g; [reflexivity|]. cbn [map fst snd read_nodes].
  rewrite dget_row_of. unfold mem at 1; cbn [existsb]. rewrite eqb_refl. cbn [orb].
  unfold cell at 1. rewrite dget_dset_same. cbn [val_text]. rewrite ddel_row_of, IH. cbn [add_nodes fold_left fst snd].
  rewrite (@row_of_ext cols (dset g_id (VStr n) a) a); [reflexivity|].
  intros k I. unfold cell. rewrite dget_dset_other; [reflexivity|]. intros ->; contradiction.
Qed.
Lemma nodes_add_fresh (g : graph str) n a : nd g n = None -> nodes (add_node n a g) = nodes g ++ [n].
Proof.
  intros E. unfold add_node. rewrite E. unfold nodes; cbn [gnodes]. rewrite dkeys_dset.
  unfold nd in E. apply dget_None in E. destruct (dhas n (gnodes g)) eqn:Q; [apply dhas_spec in Q; contradiction | reflexivity].
Qed.
Lemma add_nodes_spec cols (l : dict str attrs) : NoDup cols -> forall g, WF g -> NoDup (dkeys l) -> (forall n, In n (dkeys l) -> nd g n = None) ->
  let g' := add_nodes cols l g in
  WF g' /\ gdir g' = gdir g /\ nodes g' = nodes g ++ dkeys l /\ (forall u v, ed g' u v = ed g u v) /\
  forall n, nd g' n = match dget n l with Some a => Some (row_of cols a) | None => nd g n end.
Proof.
  intros NC. induction l as [|[n a] l IH]; intros g W ND F; cbn [add_nodes fold_left fst snd].
  { cbn. rewrite app_nil_r. auto. }
  inversion ND as [|? ? N1 N2]; subst.
  assert (Fn : nd g n = None) by (apply F; left; reflexivity).
  destruct (IH (add_node n (row_of cols a) g)) as (W' & D & NS & E & N); [apply WF_add_node; assumption | exact N2 | |].
  { intros m I. rewrite nd_add_node. rewrite neq_eqb by (intros ->; contradiction). apply F. right; exact I. }
  fold (add_nodes cols l (add_node n (row_of cols a) g)) in *.
  split; [exact W'|]. split; [rewrite D; apply gdir_add_node|]. split; [rewrite NS, nodes_add_fresh, <- app_assoc by exact Fn; reflexivity|].
  split; [intros u v; rewrite E; apply ed_add_node; exact W|].
  intros m. rewrite N. cbn [dget]. rewrite nd_add_node. destruct (eqb_spec m n) as [->|NE].
  - replace (dget n l) with (@None attrs) by (symmetry; apply dget_None; exact N1). rewrite Fn.
    rewrite dupdate_fresh; [reflexivity | rewrite dkeys_row_of; exact NC | intros ? _ []].
  - reflexivity.
Qed.

(** ** edges *)
Definition edge_row (e : str * str * attrs) : dict str val :=
  dset g_dst (VStr (snd (fst e))) (dset g_src (VStr (fst (fst e))) (snd e)).
Definition add_edges (cols : list str) (l : list (str * str * attrs)) (g : graph str) : graph str :=
  fold_left (fun g e => add_edge (fst (fst e)) (snd (fst e)) (row_of cols (snd e)) g) l g.
Lemma read_edges_rows cols : ~ In g_src cols -> ~ In g_dst cols -> forall l g,
  read_edges (map (fun e => row_of (g_src :: g_dst :: cols) (edge_row e)) l) g = Ok (add_edges cols l g).
Proof.
  intros NS ND l. induction l as [|[[u v] a] l IH]; intros g; [reflexivity|]. cbn [map read_edges].
  rewrite !dget_row_of.
  replace (mem g_src (g_src :: g_dst :: cols)) with true by (symmetry; apply mem_In; left; reflexivity).
  replace (mem g_dst (g_src :: g_dst :: cols)) with true by (symmetry; apply mem_In; right; left; reflexivity).
  assert (C1 : cell (edge_row (u, v, a)) g_src = u).
  { unfold cell, edge_row; cbn [fst snd]. rewrite dget_dset_other by discriminate. rewrite dget_dset_same. reflexivity. }
  assert (C2 : cell (edge_row (u, v, a)) g_dst = v).
  { unfold cell, edge_row; cbn [fst snd]. rewrite dget_dset_same. reflexivity. }
  rewrite C1, C2.
  rewrite !ddel_row_of, IH. cbn [add_edges fold_left fst snd].
  rewrite (@row_of_ext cols (edge_row (u, v, a)) a); [reflexivity|].
  intros k I. unfold cell, edge_row; cbn [fst snd]. rewrite !dget_dset_other; [reflexivity | intros ->; contradiction | intros ->; contradiction].
Qed.
Lemma joins_self d (e : str * str * attrs) : joins d (fst (fst e)) (snd (fst e)) e = true.
Proof. apply same_edge_refl. Qed.
Lemma add_edges_spec cols (l : list (str * str * attrs)) : NoDup cols -> forall (g : graph str) d, gdir g = d -> WF g ->
  (forall e, In e l -> In (fst (fst e)) (nodes g) /\ In (snd (fst e)) (nodes g)) ->
  (forall x y, length (filter (joins d x y) l) <= 1) ->
  (forall x y, filter (joins d x y) l <> [] -> ed g x y = None) ->
  let g' := add_edges cols l g in
  WF g' /\ gdir g' = d /\ nodes g' = nodes g /\ (forall n, nd g' n = nd g n) /\
  forall x y, ed g' x y = match filter (joins d x y) l with e :: _ => Some (row_of cols (snd e)) | [] => ed g x y end.
Proof.
  intros NC. induction l as [|[[u v] a] l IH]; intros g d Hd W Ends One Free; cbn [add_edges fold_left fst snd].
  { cbn. auto. }
  assert (NG : forall m, nd (add_edge u v (row_of cols a) g) m = nd g m).
  { intros m. rewrite nd_add_edge by exact W. destruct (Ends (u, v, a) (or_introl eq_refl)) as [Iu Iv]. cbn in Iu, Iv.
    destruct (eqb_spec m u) as [->|N]; [apply nd_In in Iu; destruct Iu as [b ->]; reflexivity|].
    destruct (eqb_spec m v) as [->|N']; [apply nd_In in Iv; destruct Iv as [b ->]; reflexivity|]. reflexivity. }
  assert (NGk : nodes (add_edge u v (row_of cols a) g) = nodes g).
  { destruct (Ends (u, v, a) (or_introl eq_refl)) as [Iu Iv]. cbn in Iu, Iv. apply nd_In in Iu. apply nd_In in Iv.
    destruct Iu as [bu Eu]. destruct Iv as [bv Ev]. unfold add_edge, ensure_node. rewrite Eu, Ev. reflexivity. }
  assert (One' : forall x y, length (filter (joins d x y) l) <= 1).
  { intros x y. specialize (One x y). cbn [filter] in One. destruct (joins d x y (u, v, a)); cbn [length] in One; lia. }
  assert (Head : forall x y, joins d x y (u, v, a) = true -> filter (joins d x y) l = []).
  { intros x y J. specialize (One x y). cbn [filter] in One. rewrite J in One. cbn [length] in One.
    destruct (filter (joins d x y) l); [reflexivity | cbn [length] in One; lia]. }
  assert (Fuv : ed g u v = None).
  { apply Free. cbn [filter]. rewrite (joins_self d (u, v, a) : joins d u v (u, v, a) = true). discriminate. }
  assert (EG : forall x y, ed (add_edge u v (row_of cols a) g) x y = if joins d x y (u, v, a) then Some (row_of cols a) else ed g x y).
  { intros x y. rewrite ed_add_edge by exact W. rewrite Hd, Fuv. cbn [or_empty]. unfold joins; cbn [fst snd].
    rewrite same_edge_comm. rewrite dupdate_fresh; [reflexivity | rewrite dkeys_row_of; exact NC | intros ? _ []]. }
  destruct (IH (add_edge u v (row_of cols a) g) d) as (W' & D & NS & N & E).
  - rewrite gdir_add_edge. exact Hd.
  - apply WF_add_edge. exact W.
  - intros e I. rewrite NGk. apply Ends. right; exact I.
  - exact One'.
  - intros x y NE. rewrite EG. destruct (joins d x y (u, v, a)) eqn:J; [apply Head in J; contradiction|].
    apply Free. cbn [filter]. rewrite J. exact NE.
  - fold (add_edges cols l (add_edge u v (row_of cols a) g)) in *.
    split; [exact W'|]. split; [exact D|]. split; [congruence|]. split; [intros n; rewrite N; apply NG|].
    intros x y. rewrite E. cbn [filter]. destruct (joins d x y (u, v, a)) eqn:J.
    + rewrite (Head _ _ J). rewrite EG, J. reflexivity.
    + rewrite EG, J. reflexivity.
Qed.

(** ** the whole *)
Lemma In_uniq_acc {A} `{EqDec A} (l : list A) : forall seen x, In x (uniq_acc seen l) <-> In x l /\ ~ In x seen.
Proof.
  induction l as [|y l IH]; intros seen x; cbn [uniq_acc]; [firstorder|].
  destruct (mem y seen) eqn:M.
  - apply mem_In in M. rewrite IH. cbn. firstorder congruence.
  - apply mem_not_In in M. cbn [In]. rewrite IH. cbn [In]. destruct (eqb_spec y x) as [->|N]; intuition congruence.
Qed.
Lemma NoDup_uniq_acc {A} `{EqDec A} (l : list A) : forall seen, NoDup (uniq_acc seen l).
Proof.
  induction l as [|y l IH]; intros seen; cbn [uniq_acc]; [constructor|].
  destruct (mem y seen); [apply IH|]. constructor; [|apply IH]. rewrite In_uniq_acc. intros [_ N]. apply N. left; reflexivity.
Qed.
Lemma In_extra l k : In k (extra_attribs l) <-> exists a, In a l /\ In k (dkeys a).
Proof. unfold extra_attribs. rewrite In_uniq_acc, in_flat_map. firstorder. Qed.

(** a graph the file format can hold *)
Definition plain_attrs (reserved : list str) (a : attrs) : Prop :=
  forall k v, In (k, v) a -> clean k /\ clean (val_text v) /\ ~ In k reserved.
Definition plain_graph (g : graph str) : Prop :=
  (forall n a, nd g n = Some a -> clean n /\ plain_attrs [g_id] a) /\
  (forall u v a, ed g u v = Some a -> plain_attrs [g_src; g_dst] a).

Section Round.
Variable order : list str -> list str.
Hypothesis order_perm : forall l, Permutation l (order l).

Lemma In_order l k : In k (order l) <-> In k l.
Proof. split; apply Permutation_in; [apply Permutation_sym|]; apply order_perm. Qed.
Lemma NoDup_order_extra l : NoDup (order (extra_attribs l)).
Proof. eapply Permutation_NoDup; [apply order_perm|]. apply NoDup_uniq_acc. Qed.
Lemma extra_clean reserved l : (forall a, In a l -> plain_attrs reserved a) -> Forall clean (order (extra_attribs l)) /\ forall k, In k reserved -> ~ In k (order (extra_attribs l)).
Proof.
  intros P. split.
  - apply Forall_forall. intros k I. apply (In_order _ k), In_extra in I. destruct I as (a & Ia & I). apply in_map_iff in I. destruct I as ([k' v] & <- & I). apply (P a Ia _ _ I).
  - intros k R I. apply (In_order _ k), In_extra in I. destruct I as (a & Ia & I). apply in_map_iff in I. destruct I as ([k' v] & <- & I). destruct (P a Ia _ _ I) as (_ & _ & N). exact (N R).
Qed.
Lemma clean_lit s : existsb (fun c => N.eqb c 13 || N.eqb c 0) s = false -> (N.of_nat (length s) <= 100)%N -> clean s.
Proof.
  intros E L. assert (N : forall c, In c s -> (c =? 13)%N || (c =? 0)%N = false).
  { intros c I. destruct ((c =? 13)%N || (c =? 0)%N) eqn:Q; [|reflexivity]. assert (X : existsb (fun c => N.eqb c 13 || N.eqb c 0) s = true) by (apply existsb_exists; eauto). congruence. }
  split; [|split].
  - intros I. apply N in I. discriminate.
  - intros I. apply N in I. discriminate.
  - eapply N.le_trans; [exact L|]. discriminate.
Qed.

Definition node_cols (g : graph str) := order (extra_attribs (map snd (gnodes g))).
Definition edge_cols (g : graph str) := order (extra_attribs (map snd (edges g))).
Lemma In_node_cols g k : WF g -> In k (node_cols g) <-> exists n a v, nd g n = Some a /\ dget k a = Some v.
Proof.
  intros W. unfold node_cols. rewrite In_order, In_extra. split.
  - intros (a & Ia & Ik). apply in_map_iff in Ia. destruct Ia as ([n a'] & <- & I). cbn in *.
    apply In_dget in I; [|apply (wf_nodup W)]. destruct (dget k a') as [v|] eqn:G; [|apply dget_None in G; contradiction]. exists n, a', v. auto.
  - intros (n & a & v & E & G). exists a. split; [|eapply dget_Some_key; exact G]. apply dget_In in E. apply in_map_iff. exists (n, a). auto.
Qed.
Lemma In_edge_cols g k : WF g -> In k (edge_cols g) <-> exists x y a v, ed g x y = Some a /\ dget k a = Some v.
Proof.
  intros W. unfold edge_cols. rewrite In_order, In_extra. split.
  - intros (a & Ia & Ik). apply in_map_iff in Ia. destruct Ia as ([[x y] a'] & <- & I). cbn in *.
    apply edges_sound in I; [|exact W]. destruct (dget k a') as [v|] eqn:G; [|apply dget_None in G; contradiction]. exists x, y, a', v. auto.
  - intros (x & y & a & v & E & G). exists a. split; [|eapply dget_Some_key; exact G]. apply in_map_iff.
    destruct (edges_complete _ _ W E) as [I|[_ I]]; eexists; (split; [|exact I]); reflexivity.
Qed.

Lemma roundtrip g : WF g -> plain_graph g ->
  exists nt et g', write_nodes order g = Ok nt /\ write_edges order g = Ok et /\
    read_graph (gdir g) et (Some nt) = Ok g' /\ WF g' /\ gdir g' = gdir g /\ nodes g' = nodes g /\
    (forall n, nd g' n = match nd g n with Some a => Some (row_of (node_cols g) a) | None => None end) /\
    (forall x y, ed g' x y = match ed g x y with Some a => Some (row_of (edge_cols g) a) | None => None end).
Proof.
  intros W [PN PE].
  destruct (@extra_clean [g_id] (map snd (gnodes g))) as [CN RN].
  { intros a I. apply in_map_iff in I. destruct I as ([n a'] & <- & I). apply In_dget in I; [|apply (wf_nodup W)]. apply (PN n a' I). }
  destruct (@extra_clean [g_src; g_dst] (map snd (edges g))) as [CE RE].
  { intros a I. apply in_map_iff in I. destruct I as ([[x y] a'] & <- & I). apply edges_sound in I; [|exact W]. apply (PE x y a' I). }
  fold (node_cols g) in *. fold (edge_cols g) in *.
  (* nodes *)
  assert (RNodes : exists nt, write_nodes order g = Ok nt /\
    (let* rows := dict_reader nt in read_nodes rows (empty_graph (gdir g))) = Ok (add_nodes (node_cols g) (gnodes g) (empty_graph (gdir g)))).
  { unfold write_nodes. fold (node_cols g). destruct (gnodes g) as [|na l] eqn:Q.
    - eexists; split; [reflexivity|]. reflexivity.
    - rewrite <- Q. assert (length (gnodes g) <? 1 = false) as -> by (rewrite Q; reflexivity).
      destruct (@csv_roundtrip (g_id :: node_cols g) (map (fun na => dset g_id (VStr (fst na)) (snd na)) (gnodes g))) as (text & T1 & T2).
      + discriminate.
      + constructor; [apply RN; left; reflexivity | apply NoDup_order_extra].
      + constructor; [apply clean_lit; [reflexivity | discriminate] | exact CN].
      + intros d Id k v I. apply in_map_iff in Id. destruct Id as ([n a] & <- & Id). cbn [fst snd] in *.
        pose proof (In_dget _ _ _ (wf_nodup W) Id) as G. destruct (PN n a G) as [Cn Pa].
        assert (NDd : NoDup (dkeys (dset g_id (VStr n) a))) by (apply NoDup_dset; eapply (wf_nattr W); exact G).
        apply In_dget in I; [|exact NDd]. rewrite dget_dset in I. destruct (eqb_spec k g_id) as [->|NE].
        * injection I as <-. split; [left; reflexivity | exact Cn].
        * split; [right; apply (In_node_cols k W); exists n, a, v; auto|]. apply dget_In in I. apply (Pa _ _ I).
      + exists text; split; [exact T1|]. rewrite T2. cbn [bind]. rewrite map_map. apply read_nodes_rows. apply RN; left; reflexivity. }
  destruct RNodes as (nt & WN & RdN).
  destruct (@add_nodes_spec (node_cols g) (gnodes g) (NoDup_order_extra _) (empty_graph (gdir g))) as (W1 & D1 & N1 & E1 & A1);
    [apply WF_empty | apply (wf_nodup W) | reflexivity |].
  set (g1 := add_nodes (node_cols g) (gnodes g) (empty_graph (gdir g))) in *.
  assert (REdges : exists et, write_edges order g = Ok et /\
    (let* rows := dict_reader et in read_edges rows g1) = Ok (add_edges (edge_cols g) (edges g) g1)).
  { unfold write_edges. fold (edge_cols g). destruct (edges g) as [|e l] eqn:Q.
    - eexists; split; [reflexivity|]. reflexivity.
    - rewrite <- Q. assert (length (edges g) <? 1 = false) as -> by (rewrite Q; reflexivity).
      destruct (@csv_roundtrip (g_src :: g_dst :: edge_cols g) (map edge_row (edges g))) as (text & T1 & T2).
      + discriminate.
      + constructor; [intros [I|I]; [discriminate | revert I; apply RE; left; reflexivity]|].
        constructor; [apply RE; right; left; reflexivity | apply NoDup_order_extra].
      + constructor; [apply clean_lit; [reflexivity | discriminate]|]. constructor; [apply clean_lit; [reflexivity | discriminate] | exact CE].
      + intros d Id k v I. apply in_map_iff in Id. destruct Id as ([[x y] a] & <- & Id).
        pose proof (edges_sound _ _ _ W Id) as G. pose proof (PE x y a G) as Pa.
        assert (Ex : clean x /\ clean y).
        { pose proof (ed_source _ _ W G) as Ix. pose proof (wf_ends W _ _ G) as Iy. apply nd_In in Ix. apply nd_In in Iy.
          destruct Ix as [bx Ix]. destruct Iy as [bq Iy]. split; [apply (PN _ _ Ix) | apply (PN _ _ Iy)]. }
        unfold edge_row in I; cbn [fst snd] in I.
        apply In_dget in I; [|do 2 apply NoDup_dset; eapply (wf_eattr W); exact G]. rewrite !dget_dset in I.
        destruct (eqb_spec k g_dst) as [->|NE]; [injection I as <-; split; [right; left; reflexivity | apply Ex]|].
        destruct (eqb_spec k g_src) as [->|NE']; [injection I as <-; split; [left; reflexivity | apply Ex]|].
        split; [right; right; apply (In_edge_cols k W); exists x, y, a, v; auto|]. apply dget_In in I. apply (Pa _ _ I).
      + exists text; split; [exact T1|]. rewrite T2. cbn [bind]. rewrite map_map. apply read_edges_rows; apply RE; [left; reflexivity | right; left; reflexivity]. }
  destruct REdges as (et & WE & RdE).
  destruct (@add_edges_spec (edge_cols g) (edges g) (NoDup_order_extra _) g1 (gdir g)) as (W2 & D2 & N2 & A2 & E2).
  - exact D1.
  - exact W1.
  - intros [[x y] a] I. cbn [fst snd]. apply edges_sound in I; [|exact W]. rewrite N1. cbn [app nodes]. split; [eapply ed_source | eapply wf_ends]; eassumption.
  - intros x y. pose proof (edges_once x y W) as O. destruct (ed g x y); [destruct O as [-> | [_ ->]] | rewrite O]; cbn; lia.
  - intros x y _. rewrite E1. reflexivity.
  - exists nt, et, (add_edges (edge_cols g) (edges g) g1). split; [exact WN|]. split; [exact WE|]. split.
    { unfold read_graph. rewrite RdN. cbn [bind]. exact RdE. }
    split; [exact W2|]. split; [exact D2|]. split; [rewrite N2, N1; reflexivity|]. split.
    + intros n. rewrite A2, A1. unfold nd. destruct (dget n (gnodes g)); reflexivity.
    + intros x y. rewrite E2. pose proof (edges_once x y W) as O. destruct (ed g x y) as [a|].
      * destruct O as [-> | [_ ->]]; reflexivity.
      * rewrite O. rewrite E1. reflexivity.
Qed.
End Round.
