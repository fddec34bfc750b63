(** C80: citation networks with the records duplicated for each author. *)
From Coq Require Import String Lia.
From Verif Require Import Base PyStr Nx NxFacts NetModel NetSpec NetFacts ExpandModel ExpandSpec ExpandProofs.
From Verif Require PropertiesNet.

Section Runs.
Context {I : Type} `{EqDec I}.
Implicit Types (g : graph I) (n c u v e : I).
Lemma after_cons c n x l : after c n (x :: l) <-> (x = c /\ In n l) \/ after c n l.
Proof.
  split.
  - intros ([|y a] & b & d & E); cbn in E.
    + injection E as <- ->. left. split; [reflexivity|]. apply in_or_app. right. left. reflexivity.
    + injection E as <- E. right. exists a, b, d. exact E.
  - intros [[-> J]|(a & b & d & ->)]; [|exists (x :: a), b, d; reflexivity]. apply in_split in J. destruct J as (b & d & ->). exists [], b, d. reflexivity.
Qed.
Lemma after_in c n l : after c n l -> In n (tl l).
Proof. intros ([|x a] & b & d & ->); cbn; [apply in_or_app; right; left; reflexivity|]. apply in_or_app. right. right. apply in_or_app. right. left. reflexivity. Qed.
(** the copies of one node *)
Lemma inner_spec w c1 : forall l g g', WF g -> nd g c1 <> None -> iter (expand_pair w c1) l g = Ok g' ->
  grow (fun n => In n l) g g' /\ (forall n, nd g n = None -> In n l -> nd g' n = Some (dupdate [] (or_empty (nd g c1)))) /\
  (forall c2, In c2 l -> (forall e, ed g c1 e <> None -> ed g' c2 e <> None) /\ (w = true \/ nd g c2 = None -> ed g' c1 c2 <> None /\ ed g' c2 c2 <> None)) /\
  (w = true -> whole g -> whole g').
Proof.
  induction l as [|c2 l IH]; intros g g' W N1 Q.
  - cbn in Q. injection Q as <-. split; [apply grow_refl, W|]. split; [intros n _ []|]. split; [intros c []|auto].
  - cbn [iter] in Q. destruct (expand_pair w c1 c2 g) as [g1|] eqn:P; [|discriminate]. cbn [bind] in Q. destruct (@pair_spec _ _ w c1 c2 g g1 W N1 P) as (G & S & E & L & HW).
    assert (N1' : nd g1 c1 <> None) by (destruct (nd g c1) as [a|] eqn:X; [rewrite (gr_nd G _ X); discriminate|congruence]).
    destruct (IH g1 g' (gr_wf G) N1' Q) as (G' & A' & E' & HW').
    assert (GG : grow (fun n => In n (c2 :: l)) g g').
    { eapply grow_trans; [eapply grow_wider; [|exact G]; intros n <-; left; reflexivity|eapply grow_wider; [|exact G']; intros n J; right; exact J]. }
    split; [exact GG|]. split; [|split; [|auto]].
    + intros n Nn [<-|J].
      * apply (gr_nd G'). rewrite S, eqb_refl, Nn. reflexivity.
      * destruct (eqb_spec n c2) as [->|NE]; [apply (gr_nd G'); rewrite S, eqb_refl, Nn; reflexivity|]. rewrite A'; [|rewrite S; destruct (eqb_spec n c2); [congruence|exact Nn]|exact J].
        destruct (nd g c1) as [a|] eqn:X; [|congruence]. rewrite (gr_nd G _ X). reflexivity.
    + intros c [<-|J].
      * split; [intros e Z; apply (gr_ed G'), E, Z|]. intros C. destruct (L C) as [L1 L2]. split; apply (gr_ed G'); assumption.
      * destruct (E' c J) as [E1 E2]. split; [intros e Z; apply E1, (gr_ed G), Z|]. intros C. destruct (nd g1 c) as [b|] eqn:X; [|apply E2; right; reflexivity].
        destruct C as [->|C]; [apply E2; left; reflexivity|]. assert (c = c2) as -> by (rewrite S in X; destruct (eqb_spec c c2); [assumption|congruence]).
        destruct (L (or_intror C)) as [L1 L2]. split; apply (gr_ed G'); assumption.
Qed.
Lemma inner_runs w c1 : forall l g, WF g -> nd g c1 <> None -> (w = true /\ whole g) \/ (w = false /\ gdir g = true) -> exists g', iter (expand_pair w c1) l g = Ok g'.
Proof.
  induction l as [|c2 l IH]; intros g W N1 HC; [cbn; eauto|]. cbn [iter]. destruct (@pair_runs _ _ w c1 c2 g W N1 HC) as (g1 & P). rewrite P. cbn [bind]. destruct (@pair_spec _ _ w c1 c2 g g1 W N1 P) as (G & S & _ & _ & HW).
  apply IH; [apply (gr_wf G)| |].
  - destruct (nd g c1) as [a|] eqn:X; [rewrite (gr_nd G _ X); discriminate|congruence].
  - destruct HC as [[-> HC]|[-> HC]]; [left; auto|right; split; [reflexivity|rewrite (gr_dir G); exact HC]].
Qed.
Lemma record_spec w : forall l g g', WF g -> expand_record w l g = Ok g' ->
  grow (fun n => In n (tl l)) g g' /\ (forall n, nd g' n <> None <-> nd g n <> None \/ exists c, nd g c <> None /\ after c n l) /\
  (forall a c b n, l = a ++ c :: b -> nd g c <> None -> (forall x, In x a -> nd g x = None) -> In n b -> nd g n = None -> nd g' n = Some (dupdate [] (or_empty (nd g c)))) /\
  (forall c1 c2, nd g c1 <> None -> after c1 c2 l -> (forall e, ed g c1 e <> None -> ed g' c2 e <> None) /\ (w = true -> ed g' c1 c2 <> None /\ ed g' c2 c2 <> None)) /\
  (w = true -> whole g -> whole g').
Proof.
  induction l as [|c1 l IH]; intros g g' W Q.
  - cbn in Q. injection Q as <-. split; [apply grow_refl, W|]. split; [intros n; split; [auto|intros [X|(c & _ & (a & b & d & E))]; [exact X|destruct a; discriminate]]|].
    split; [intros [|x a] c b n E; discriminate|]. split; [|auto]. intros c1 c2 _ ([|x a] & b & d & E); discriminate.
  - cbn [expand_record] in Q. unfold has_node in Q. destruct (dhas c1 (gnodes g)) eqn:HN.
    + assert (N1 : nd g c1 <> None).
      { unfold nd. rewrite dhas_dget in HN. destruct (dget c1 (gnodes g)); [discriminate|discriminate HN]. }
      destruct (iter (expand_pair w c1) l g) as [g1|] eqn:P; [|discriminate]. cbn [bind] in Q. destruct (inner_spec w c1 l g g1 W N1 P) as (G & A & E & HW).
      destruct (IH g1 g' (gr_wf G) Q) as (G' & NS & A' & E' & HW').
      assert (GG : grow (fun n => In n l) g g') by (eapply grow_trans; [exact G|eapply grow_wider; [|exact G']; intros n J; destruct l; [destruct J|right; exact J]]).
      split; [exact GG|]. split; [|split; [|split; [|auto]]].
      * intros n. split.
        -- intros X. destruct (nd g n) as [b|] eqn:Nn; [left; discriminate|]. right. exists c1. split; [exact N1|]. apply after_cons. left. split; [reflexivity|].
           destruct (in_dec eq_dec n l) as [J|J]; [exact J|]. rewrite (gr_new GG _ Nn J) in X. congruence.
        -- intros [X|(c & Nc & X)].
           ++ destruct (nd g n) as [b|] eqn:Nn; [rewrite (gr_nd GG _ Nn); discriminate|congruence].
           ++ assert (J : In n l) by (apply after_in in X; exact X). destruct (nd g n) as [b|] eqn:Nn; [rewrite (gr_nd GG _ Nn); discriminate|]. pose proof (A n Nn J) as Z. rewrite (gr_nd G' _ Z). discriminate.
      * intros a c b n El Nc Na J Nn. destruct a as [|x a]; cbn in El.
        -- injection El as <- ->. apply (gr_nd G'). apply A; assumption.
        -- injection El as <- El. specialize (Na c1 (or_introl eq_refl)). congruence.
      * intros c c2 Nc X. apply after_cons in X. destruct X as [[<- J]|X].
        -- destruct (E c2 J) as [E1 E2]. split; [intros e Z; apply (gr_ed G'), E1, Z|]. intros Hw. destruct (E2 (or_introl Hw)) as [Z1 Z2]. split; apply (gr_ed G'); assumption.
        -- assert (Nc1 : nd g1 c <> None) by (destruct (nd g c) as [b|] eqn:X1; [rewrite (gr_nd G _ X1); discriminate|congruence]). destruct (E' c c2 Nc1 X) as [E1 E2]. split; [intros e Z; apply E1, (gr_ed G), Z|exact E2].
    + assert (N1 : nd g c1 = None) by (unfold nd; rewrite dhas_dget in HN; destruct (dget c1 (gnodes g)); [discriminate|reflexivity]).
      cbn [bind] in Q. destruct (IH g g' W Q) as (G & NS & A & E & HW). split; [eapply grow_wider; [|exact G]; intros n J; destruct l; [destruct J|right; exact J]|]. split; [|split; [|split; [|exact HW]]].
      * intros n. rewrite NS. split; (intros [X|(c & Nc & X)]; [left; exact X|right; exists c; split; [exact Nc|]]); [apply after_cons; right; exact X|]. apply after_cons in X. destruct X as [[-> _]|X]; [congruence|exact X].
      * intros a c b n El Nc Na J Nn. destruct a as [|x a]; cbn in El; [injection El as <- ->; congruence|]. injection El as <- El. apply (A a c b n El Nc); [|exact J|exact Nn]. intros x Jx. apply Na. right. exact Jx.
      * intros c c2 Nc X. apply after_cons in X. destruct X as [[-> _]|X]; [congruence|]. apply E; assumption.
Qed.
Lemma record_runs w : forall l g, WF g -> (w = true /\ whole g) \/ (w = false /\ gdir g = true) -> exists g', expand_record w l g = Ok g'.
Proof.
  induction l as [|c1 l IH]; intros g W HC; [cbn; eauto|]. cbn [expand_record]. unfold has_node. destruct (dhas c1 (gnodes g)) eqn:HN; [|cbn [bind]; apply IH; assumption].
  assert (N1 : nd g c1 <> None) by (unfold nd; rewrite dhas_dget in HN; destruct (dget c1 (gnodes g)); [discriminate|discriminate HN]).
  destruct (inner_runs w c1 l g W N1 HC) as (g1 & P). rewrite P. cbn [bind]. destruct (inner_spec w c1 l g g1 W N1 P) as (G & _ & _ & HW). apply IH; [apply (gr_wf G)|].
  destruct HC as [[-> HC]|[-> HC]]; [left; auto|right; split; [reflexivity|rewrite (gr_dir G); exact HC]].
Qed.
Section Records.
Context {R : Type} (ids : R -> res (list I)) (names : R -> list I).
Lemma recs_spec w : forall rs g g', WF g -> (forall r, In r rs -> ids r = Ok (names r)) -> expand_recs ids w rs g = Ok g' ->
  grow (fun n => exists r, In r rs /\ In n (tl (names r))) g g' /\ (forall P : I -> Prop, (forall n, P n <-> nd g n <> None) -> forall n, nd g' n <> None <-> reached names rs P n) /\
  (forall r c1 c2, In r rs -> nd g c1 <> None -> after c1 c2 (names r) -> (forall e, ed g c1 e <> None -> ed g' c2 e <> None) /\ (w = true -> ed g' c1 c2 <> None /\ ed g' c2 c2 <> None)) /\
  (forall n, nd g n = None -> nd g' n <> None -> exists c a, nd g c = Some a /\ forall k, node_attr g' n k = dget k a) /\
  (w = true -> whole g -> whole g').
Proof.
  induction rs as [|r rs IH]; intros g g' W HI Q.
  - cbn in Q. injection Q as <-. split; [apply grow_refl, W|]. split; [intros P HP n; cbn; symmetry; apply HP|]. split; [intros r c1 c2 []|]. split; [congruence|auto].
  - unfold expand_recs in Q. cbn [iter] in Q. rewrite (HI r (or_introl eq_refl)) in Q. cbn [bind] in Q. destruct (expand_record w (names r) g) as [g1|] eqn:P; [|discriminate]. cbn [bind] in Q.
    destruct (record_spec w (names r) g g1 W P) as (G & NS & A & E & HW). destruct (IH g1 g' (gr_wf G)) as (G' & NS' & E' & A' & HW'); [intros r' J; apply HI; right; exact J|exact Q|].
    split; [|split; [|split; [|split; [|auto]]]].
    + eapply grow_trans; [eapply grow_wider; [|exact G]; intros n J; exists r; split; [left; reflexivity|exact J]|eapply grow_wider; [|exact G']; intros n (r' & J & K); exists r'; split; [right; exact J|exact K]].
    + intros Pk HP n. cbn [reached]. apply NS'. intros m. rewrite NS. split; (intros [X|(c & Nc & X)]; [left; apply HP, X|right; exists c; split; [apply HP, Nc|exact X]]).
    + intros r' c1 c2 [<-|J] N1 X.
      * destruct (E c1 c2 N1 X) as [E1 E2]. split; [intros e Z; apply (gr_ed G'), E1, Z|]. intros Hw. destruct (E2 Hw) as [Z1 Z2]. split; apply (gr_ed G'); assumption.
      * assert (N1' : nd g1 c1 <> None) by (destruct (nd g c1) as [b|] eqn:X1; [rewrite (gr_nd G _ X1); discriminate|congruence]). destruct (E' r' c1 c2 J N1' X) as [E1 E2]. split; [intros e Z; apply E1, (gr_ed G), Z|exact E2].
    + assert (A1 : forall n, nd g n = None -> nd g1 n <> None -> exists c a, nd g c = Some a /\ forall k, node_attr g1 n k = dget k a).
      { intros n Nn N1. destruct (proj1 (NS n) N1) as [X|(c & Nc & X)]; [congruence|]. 
        assert (FI : exists a0 c0 b0, names r = a0 ++ c0 :: b0 /\ nd g c0 <> None /\ (forall x, In x a0 -> nd g x = None) /\ In n b0).
        { clear - Nc X. revert X. generalize (names r). intros l. induction l as [|x l IHl]; intros X; [destruct X as ([|? ?] & ? & ? & E); discriminate|]. apply after_cons in X. destruct (nd g x) as [b|] eqn:Nx.
          - exists [], x, l. split; [reflexivity|]. split; [congruence|]. split; [intros ? []|]. destruct X as [[_ J]|X]; [exact J|]. apply after_in in X. destruct l; [destruct X|right; exact X].
          - destruct X as [[-> _]|X]; [congruence|]. destruct (IHl X) as (a0 & c0 & b0 & -> & Nc0 & Na & J). exists (x :: a0), c0, b0. split; [reflexivity|]. split; [exact Nc0|]. split; [intros y [<-|Jy]; [exact Nx|apply Na, Jy]|exact J]. }
        destruct FI as (a0 & c0 & b0 & El & Nc0 & Na & J). destruct (nd g c0) as [a|] eqn:Q0; [|congruence]. exists c0, a. split; [exact Q0|]. intros k. unfold node_attr. rewrite (A a0 c0 b0 n El) by (try assumption; congruence). rewrite Q0. cbn [or_empty].
        rewrite dget_dupdate by (eapply (wf_nattr W); exact Q0). destruct (dget k a); reflexivity. }
      intros n Nn N2. destruct (nd g1 n) as [b|] eqn:N1.
      * destruct (A1 n Nn) as (c & a & Qc & K); [congruence|]. exists c, a. split; [exact Qc|]. intros k. rewrite <- K. unfold node_attr. rewrite N1, (gr_nd G' _ N1). reflexivity.
      * destruct (A' n N1 N2) as (c & a & Qc & K). destruct (nd g c) as [b|] eqn:Ngc.
        -- pose proof (gr_nd G _ Ngc) as Z. rewrite Qc in Z. injection Z as <-. exists c, a. split; [exact Ngc|exact K].
        -- destruct (A1 c Ngc) as (c' & a' & Qc' & K'); [congruence|]. exists c', a'. split; [exact Qc'|]. intros k. rewrite K, <- K'. unfold node_attr. rewrite Qc. reflexivity.
Qed.
Lemma recs_runs w : forall rs g, WF g -> (forall r, In r rs -> ids r = Ok (names r)) -> (w = true /\ whole g) \/ (w = false /\ gdir g = true) -> exists g', expand_recs ids w rs g = Ok g'.
Proof.
  induction rs as [|r rs IH]; intros g W HI HC; [cbn; eauto|]. unfold expand_recs. cbn [iter]. rewrite (HI r (or_introl eq_refl)). cbn [bind]. destruct (record_runs w (names r) g W HC) as (g1 & P). rewrite P. cbn [bind].
  destruct (record_spec w (names r) g g1 W P) as (G & _ & _ & _ & HW). apply IH; [apply (gr_wf G)|intros r' J; apply HI; right; exact J|]. destruct HC as [[-> HC]|[-> HC]]; [left; auto|right; split; [reflexivity|rewrite (gr_dir G); exact HC]].
Qed.
End Records.
End Runs.
Lemma node_nd {I} `{EqDec I} (g : graph I) n : is_node g n <-> nd g n <> None.
Proof. unfold is_node. rewrite nd_In. destruct (nd g n); split; intros X; try congruence; eauto. destruct X; discriminate. Qed.

(** The nodes are those there were and all names of a record after one that is a node, records being taken one after the other. Every node there was
    keeps its attributes, a new one has those of one there was; no edge is lost. Edges between nodes that are no later names of any record stay as they were. *)
Theorem C80_nodes : forall (I R : Type) (E : EqDec I) (ids : R -> res (list I)) (names : R -> list I) (weighted : bool) (rs : list R) (g g' : graph I),
  WF g -> (forall r, In r rs -> ids r = Ok (names r)) -> expand_recs ids weighted rs g = Ok g' ->
  (forall n, is_node g' n <-> reached names rs (is_node g) n) /\
  (forall n k, is_node g n -> node_attr g' n k = node_attr g n k) /\
  (forall n, is_node g' n -> exists c, is_node g c /\ forall k, node_attr g' n k = node_attr g c k) /\
  (forall u v, is_edge g u v -> is_edge g' u v) /\
  (forall u v, (forall r, In r rs -> ~ In u (tl (names r)) /\ ~ In v (tl (names r))) -> ed g' u v = ed g u v).
Proof.
  intros I R E ids names w rs g g' W HI Q. destruct (recs_spec ids names w rs g g' W HI Q) as (G & NS & _ & A & _).
  assert (KEEP : forall n k, is_node g n -> node_attr g' n k = node_attr g n k).
  { intros n k X. apply node_nd in X. unfold node_attr. destruct (nd g n) as [a|] eqn:N; [rewrite (gr_nd G _ N); reflexivity|congruence]. }
  split; [|split; [exact KEEP|split; [|split]]].
  - intros n. rewrite node_nd. apply NS. intros m. apply node_nd.
  - intros n X. apply node_nd in X. destruct (nd g n) as [a|] eqn:N; [exists n; assert (Y : is_node g n) by (apply node_nd; congruence); split; [exact Y|intros k; apply KEEP, Y]|].
    destruct (A n N X) as (c & a & Qc & K). exists c. split; [apply node_nd; congruence|]. intros k. rewrite K. unfold node_attr. rewrite Qc. reflexivity.
  - intros u v X. apply (gr_ed G), X.
  - intros u v F. apply (gr_far G); intros (r & J & K); destruct (F r J); contradiction.
Qed.
Print Assumptions C80_nodes.
(** A name after another one that was a node gets its edges. *)
Theorem C80_edges : forall (I R : Type) (E : EqDec I) (ids : R -> res (list I)) (names : R -> list I) (weighted : bool) (rs : list R) (g g' : graph I) r c copy,
  WF g -> (forall r, In r rs -> ids r = Ok (names r)) -> expand_recs ids weighted rs g = Ok g' ->
  In r rs -> is_node g c -> after c copy (names r) -> (forall e, is_edge g c e -> is_edge g' copy e) /\ (weighted = true -> is_edge g' c copy).
Proof.
  intros I R E ids names w rs g g' r c copy W HI Q J N X. destruct (recs_spec ids names w rs g g' W HI Q) as (_ & _ & K & _). apply node_nd in N. destruct (K r c copy J N X) as [K1 K2]. split; [exact K1|]. intros Hw. apply K2, Hw.
Qed.
Print Assumptions C80_edges.
(** With two names the attributes of the copied edges are exact: those of the edge of the first name replace those that the edge of the copy had. The weight
    of the edge between the two counts the records. *)
Lemma copied_attrs {I} `{EqDec I} (c1 c2 e : I) : c1 <> c2 -> e <> c1 -> e <> c2 -> forall l (g : graph I), WF g -> NoDup l ->
  ed (copied c1 c2 l g) c2 e = (if mem e l then match ed g c1 e with Some d => Some (dupdate (or_empty (ed g c2 e)) d) | None => ed g c2 e end else ed g c2 e).
Proof.
  intros N12 Ne1 Ne2. induction l as [|x l IH]; intros g W ND; [reflexivity|]. inversion ND as [|? ? NI ND']; subst. unfold copied. cbn [fold_left].
  match goal with |- context [fold_left ?f l ?g1] => change (fold_left f l g1) with (copied c1 c2 l g1); assert (W1 : WF g1) by (destruct (ed g c1 x); [apply WF_add_edge, W|exact W]); rewrite (IH g1 W1 ND') end.
  destruct (ed g c1 x) as [d|] eqn:E.
  - rewrite !ed_add_edge by exact W. assert (S1 : same_edge (gdir g) c2 x c1 e = false).
    { destruct (same_edge (gdir g) c2 x c1 e) eqn:S; [|reflexivity]. apply same_edge_true in S. destruct S as [[? _]|(_ & ? & ?)]; congruence. }
    rewrite S1. change (mem e (x :: l)) with (eqb e x || mem e l). destruct (eqb_spec e x) as [->|Nx].
    + rewrite same_edge_refl. replace (mem x l) with false by (symmetry; apply mem_not_In, NI). cbn [orb]. rewrite E. reflexivity.
    + assert (S2 : same_edge (gdir g) c2 x c2 e = false).
      { destruct (same_edge (gdir g) c2 x c2 e) eqn:S; [|reflexivity]. apply same_edge_true in S. destruct S as [[_ ?]|(_ & ? & ?)]; congruence. }
      rewrite S2. reflexivity.
  - change (mem e (x :: l)) with (eqb e x || mem e l). destruct (eqb_spec e x) as [->|Nx]; [|reflexivity]. replace (mem x l) with false by (symmetry; apply mem_not_In, NI). cbn [orb]. rewrite E. reflexivity.
Qed.
Lemma copied_other {I} `{EqDec I} (c1 c2 : I) : c1 <> c2 -> forall l (g : graph I), WF g -> (gdir g = true \/ ~ In c1 l) -> ed (copied c1 c2 l g) c1 c2 = ed g c1 c2.
Proof.
  intros N12. induction l as [|x l IH]; intros g W D; [reflexivity|]. unfold copied. cbn [fold_left].
  match goal with |- context [fold_left ?f l ?g1] => change (fold_left f l g1) with (copied c1 c2 l g1) end. destruct (ed g c1 x) as [d|] eqn:E.
  - rewrite IH; [|apply WF_add_edge, W|rewrite gdir_add_edge; cbn in D; tauto]. rewrite ed_add_edge by exact W. destruct (same_edge (gdir g) c2 x c1 c2) eqn:S; [|reflexivity].
    apply same_edge_true in S. destruct S as [[? _]|(D' & ? & ?)]; [congruence|]. subst x. destruct D as [D|D]; [congruence|]. destruct D. left. reflexivity.
  - apply IH; [exact W|cbn in D; tauto].
Qed.
Theorem C80_copied : forall (I R : Type) (E : EqDec I) (ids : R -> res (list I)) (weighted : bool) (r : R) (g g' : graph I) c copy,
  WF g -> ids r = Ok [c; copy] -> is_node g c -> c <> copy -> expand_recs ids weighted [r] g = Ok g' ->
  (forall e k, e <> c -> e <> copy -> edge_attr g' copy e k = match edge_attr g c e k with Some v => Some v | None => edge_attr g copy e k end) /\
  (weighted = true -> gdir g = true \/ ~ is_edge g c c -> forall z, (edge_attr g c copy $"weight" = Some (VInt z) \/ (z = 0%Z /\ ~ is_edge g c copy)) -> edge_attr g' c copy $"weight" = Some (VInt (z + 1))).
Proof.
  intros I R E ids w r g g' c c2 W HI N NE Q. apply node_nd in N. unfold expand_recs in Q. cbn [iter] in Q. rewrite HI in Q. cbn [bind expand_record] in Q. unfold has_node in Q. rewrite dhas_dget in Q. change (dget c (gnodes g)) with (nd g c) in Q.
  destruct (nd g c) as [ac|] eqn:Nc; [|congruence]. cbn [iter] in Q. destruct (expand_pair w c c2 g) as [g2|] eqn:P; [|discriminate]. cbn [bind] in Q.
  assert (g2 = g') as -> by (destruct (dhas c2 (gnodes g2)); cbn in Q; congruence). clear Q.
  unfold expand_pair in P. fold (joined w c c2 g) in P. destruct (joined w c c2 g) as [g1|] eqn:J; [|discriminate]. cbn [bind] in P. assert (Nc' : nd g c <> None) by congruence. destruct (joined_spec w c c2 W Nc' J) as (G & S & _ & _).
  unfold copy_edges in P. fold (row c g1) in P. change (fold_left _ (row c g1) g1) with (copied c c2 (row c g1) g1) in P. destruct (_ =? _); [|discriminate]. injection P as <-.
  assert (W1 := gr_wf G).
  assert (SAME : forall u e, e <> c -> e <> c2 -> ed g1 u e = ed g u e).
  { intros u e E1 E2. unfold joined in J. assert (SF : same_edge (gdir g) c c2 u e = false).
    { destruct (same_edge (gdir g) c c2 u e) eqn:X; [|reflexivity]. apply same_edge_true in X. destruct X as [[_ ?]|(_ & _ & ?)]; congruence. }
    destruct (nd g c2) as [b|] eqn:N2.
    - destruct w; [|injection J as <-; reflexivity]. assert (I1 : In c (nodes g)) by (apply nd_In; eauto). assert (I2 : In c2 (nodes g)) by (apply nd_In; eauto). unfold touch, edge_incr in J.
      assert (AE : Ok (add_edge c c2 [(weight, VInt 1)] g) = Ok g1 -> ed g1 u e = ed g u e) by (intros X; injection X as <-; rewrite ed_add_edge by exact W; rewrite SF; reflexivity).
      destruct (ed g c c2) as [d|] eqn:Ed; [|exact (AE J)]. destruct (dget weight d) as [y|]; [|exact (AE J)]. destruct (vadd y (VInt 1)) as [z|x]; cbn [bind] in J; [|destruct x; try discriminate; exact (AE J)].
      injection J as <-. rewrite ed_put_edge by assumption. rewrite SF. reflexivity.
    - injection J as <-. rewrite ed_add_edge by (apply WF_add_node, W). rewrite gdir_add_node, SF. apply ed_add_node, W. }
  split.
  - intros e k E1 E2. unfold edge_attr. rewrite copied_attrs by (try assumption; apply row_nodup, W1). rewrite !SAME by assumption.
    destruct (mem e (row c g1)) eqn:M.
    + destruct (ed g c e) as [d|] eqn:Ed; [|reflexivity]. rewrite dget_dupdate by (eapply (wf_eattr W); exact Ed). destruct (dget k d); [reflexivity|]. destruct (ed g c2 e); reflexivity.
    + destruct (ed g c e) as [d|] eqn:Ed; [|reflexivity]. exfalso. assert (X : In e (row c g1)) by (apply row_in; rewrite SAME by assumption; congruence). apply mem_In in X. congruence.
  - intros -> D z HZ. unfold edge_attr. rewrite copied_other; [|exact NE|exact W1|rewrite (gr_dir G); destruct D as [D|D]; [left; exact D|right; intros X; apply row_in in X]].
    + assert (Q1 : forall g0 : graph I, WF g0 -> ed g0 c c2 = None -> ed (add_edge c c2 [(weight, VInt 1)] g0) c c2 = Some [(weight, VInt 1)]) by (intros g0 W0 X; rewrite ed_add_edge by exact W0; rewrite same_edge_refl, X; reflexivity).
      unfold joined in J. destruct (nd g c2) as [b|] eqn:N2.
      * assert (I1 : In c (nodes g)) by (apply nd_In; eauto). assert (I2 : In c2 (nodes g)) by (apply nd_In; eauto). unfold touch, edge_incr in J. unfold is_edge, edge_attr in HZ. destruct (ed g c c2) as [d|] eqn:Ed.
        -- destruct HZ as [HZ|[_ HZ]]; [|destruct HZ; discriminate]. change $"weight" with weight in HZ. rewrite HZ in J. cbn [vadd bind] in J. injection J as <-. rewrite ed_put_edge by (try assumption; apply NoDup_dset; eapply (wf_eattr W); eassumption). rewrite same_edge_refl. change $"weight" with weight. rewrite dget_dset_same. reflexivity.
        -- destruct HZ as [HZ|[-> _]]; [discriminate|]. cbn [bind] in J. injection J as <-. rewrite Q1 by assumption. reflexivity.
      * assert (Ed : ed g c c2 = None).
        { destruct (ed g c c2) eqn:X; [|reflexivity]. pose proof (wf_ends W _ _ X) as Y. apply nd_In in Y. destruct Y. congruence. }
        injection J as <-. unfold is_edge, edge_attr in HZ. rewrite Ed in HZ. destruct HZ as [HZ|[-> _]]; [discriminate|]. rewrite Q1; [reflexivity|apply WF_add_node, W|rewrite ed_add_node by exact W; exact Ed].
    + apply D. unfold is_edge. rewrite <- (gr_far G c c) by congruence. exact X.
Qed.
Print Assumptions C80_copied.
(** With weights every copy is joined to itself. *)
Theorem C80_loops_refuted : forall (I R : Type) (E : EqDec I) (ids : R -> res (list I)) (names : R -> list I) (rs : list R) (g g' : graph I) r c copy,
  WF g -> (forall r, In r rs -> ids r = Ok (names r)) -> expand_recs ids true rs g = Ok g' ->
  In r rs -> is_node g c -> after c copy (names r) -> is_edge g' copy copy.
Proof.
  intros I R E ids names rs g g' r c copy W HI Q J N X. destruct (recs_spec ids names true rs g g' W HI Q) as (_ & _ & K & _). apply node_nd in N. destruct (K r c copy J N X) as [K1 K2]. apply K2, eq_refl.
Qed.
Print Assumptions C80_loops_refuted.
(** It does not fail if the edges have weights, which are numbers, or the graph is directed, ... *)
Theorem C80_runs_partial : forall (I R : Type) (E : EqDec I) (ids : R -> res (list I)) (names : R -> list I) (weighted : bool) (rs : list R) (g : graph I),
  WF g -> (forall r, In r rs -> ids r = Ok (names r)) ->
  (weighted = true /\ forall u v a, ed g u v = Some a -> exists z, dget $"weight" a = Some (VInt z)) \/ (weighted = false /\ gdir g = true) ->
  exists g', expand_recs ids weighted rs g = Ok g' /\ WF g' /\ gdir g' = gdir g /\
    (weighted = true -> forall u v a, ed g' u v = Some a -> exists z, dget $"weight" a = Some (VInt z)).
Proof.
  intros I R E ids names w rs g W HI HC. destruct (recs_runs ids names w rs g W HI HC) as (g' & Q). exists g'. split; [exact Q|]. destruct (recs_spec ids names w rs g g' W HI Q) as (G & _ & _ & _ & HW). split; [apply (gr_wf G)|]. split; [apply (gr_dir G)|].
  intros Hw. apply HW; [exact Hw|]. destruct HC as [[_ HC]|[HC _]]; [exact HC|congruence].
Qed.
Print Assumptions C80_runs_partial.

(** ** Cases: authors as nodes *)
Definition join (l : list (str * str)) (w : attrs) (d : bool) : graph str := fold_left (fun g e => add_edge (fst e) (snd e) w g) l (empty_graph d).
Lemma WF_join l w d : WF (join l w d).
Proof. unfold join. assert (X : forall l (g : graph str), WF g -> WF (fold_left (fun g e => add_edge (fst e) (snd e) w g) l g)) by (clear; induction l as [|e l IH]; intros g W; [exact W|]; cbn [fold_left]; apply IH, WF_add_edge, W). apply X, WF_empty. Qed.
Definition names : list str -> list str := fun l => l.
Definition ids : list str -> res (list str) := fun l => Ok l.
(** ... but otherwise may: the first record joins [b] to itself, and the second one then adds an edge of [b] while going through those of [b] *)
Theorem C80_runs_refuted : expand_recs ids false [[$"a"; $"b"]; [$"b"; $"c"]] (join [($"a", $"x"); ($"c", $"x")] [] false) = Raise RuntimeError.
Proof. vm_compute. reflexivity. Qed.
Print Assumptions C80_runs_refuted.
(** Weights are not added up: the edge of [b] and [x] had the weight 5 and gets the weight 1 of the edge of [a] and [x]. *)
Theorem C80_weights_refuted : exists g', expand_recs ids true [[$"a"; $"b"]] (add_edge $"b" $"x" [($"weight", VInt 5)] (join [($"a", $"x")] [($"weight", VInt 1)] false)) = Ok g' /\ edge_attr g' $"b" $"x" $"weight" = Some (VInt 1).
Proof. apply PropertiesNet.ok_ex. vm_compute. reflexivity. Qed.
Print Assumptions C80_weights_refuted.
(** In a directed network a copy is not cited by those that cite the record. *)
Theorem C80_cited_refuted : exists g', expand_recs ids true [[$"a"; $"b"]] (join [($"x", $"a"); ($"a", $"y")] [($"weight", VInt 1)] true) = Ok g' /\ has_edge g' $"b" $"y" = true /\ has_edge g' $"x" $"a" = true /\ has_edge g' $"x" $"b" = false.
Proof. apply PropertiesNet.ok_ex. vm_compute. auto. Qed.
Print Assumptions C80_cited_refuted.
Example C80_ex : let g := join [($"a", $"x"); ($"x", $"y")] [($"weight", VInt 1)] false in
  WF g /\ is_node g $"a" /\ after $"a" $"c" (names [$"a"; $"b"; $"c"]) /\ (forall u v a, ed g u v = Some a -> exists z, dget $"weight" a = Some (VInt z)) /\
  exists g', expand_recs ids true [[$"a"; $"b"; $"c"]; [$"z"; $"y"; $"w"]] g = Ok g' /\ nodes g' = [$"a"; $"x"; $"y"; $"b"; $"c"; $"w"] /\
    has_edge g' $"c" $"x" = true /\ has_edge g' $"w" $"x" = true /\ has_edge g' $"c" $"c" = true /\ has_edge g' $"a" $"y" = false.
Proof.
  cbv zeta. split; [apply WF_join|]. split; [left; reflexivity|]. split; [exists [], [$"b"], []; reflexivity|]. split; [|apply PropertiesNet.ok_ex; vm_compute; auto 10].
  intros u v a Q. exists 1%Z. unfold join in Q. cbn [fold_left fst snd] in Q. rewrite !ed_add_edge in Q by (repeat apply WF_add_edge; apply WF_empty).
  destruct (same_edge _ $"x" $"y" u v); [injection Q as <-; reflexivity|]. destruct (same_edge _ $"a" $"x" u v); [injection Q as <-; reflexivity|]. discriminate.
Qed.
