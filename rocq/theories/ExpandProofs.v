(** What expandRecs does to a graph. *)
From Coq Require Import String Lia.
From Verif Require Import Base PyStr Nx NxFacts NetModel NetFacts ExpandModel.
Set Implicit Arguments.

Section Proofs.
Context {I : Type} `{EqDec I}.
(** [g'] comes from [g]: nothing is lost, and nothing is new but what touches nodes in [C] *)
Record grow (C : I -> Prop) (g g' : graph I) : Prop := {
  gr_wf : WF g';
  gr_dir : gdir g' = gdir g;
  gr_nd : forall n a, nd g n = Some a -> nd g' n = Some a;
  gr_ed : forall u v, ed g u v <> None -> ed g' u v <> None;
  gr_far : forall u v, ~ C u -> ~ C v -> ed g' u v = ed g u v;
  gr_new : forall n, nd g n = None -> ~ C n -> nd g' n = None }.
Lemma grow_refl C g : WF g -> grow C g g.
Proof. intros W. constructor; auto. Qed.
Lemma grow_trans C g1 g2 g3 : grow C g1 g2 -> grow C g2 g3 -> grow C g1 g3.
Proof. intros [A1 A2 A3 A4 A5 A6] [B1 B2 B3 B4 B5 B6]. constructor; auto; try congruence. intros u v Nu Nv. rewrite B5, A5; auto. Qed.
Lemma grow_wider (C D : I -> Prop) g g' : (forall n, C n -> D n) -> grow C g g' -> grow D g g'.
Proof. intros S [A1 A2 A3 A4 A5 A6]. constructor; auto. Qed.
Lemma grow_edge g u v a : WF g -> nd g u <> None -> nd g v <> None -> grow (eq v) g (add_edge u v a g) /\ (forall n, nd (add_edge u v a g) n = nd g n).
Proof.
  intros W Nu Nv. assert (S : forall n, nd (add_edge u v a g) n = nd g n).
  { intros n. rewrite nd_add_edge by exact W. destruct (eqb_spec n u) as [->|]; cbn [orb]; [destruct (nd g u); [reflexivity|congruence]|]. destruct (eqb_spec n v) as [->|]; [destruct (nd g v); [reflexivity|congruence]|reflexivity]. }
  split; [|exact S]. constructor.
  - apply WF_add_edge, W.
  - apply gdir_add_edge.
  - intros n b Q. rewrite S. exact Q.
  - intros x y Q. rewrite ed_add_edge by exact W. destruct (same_edge (gdir g) u v x y); [discriminate|exact Q].
  - intros x y Nx Ny. rewrite ed_add_edge by exact W. destruct (same_edge (gdir g) u v x y) eqn:Q; [|reflexivity]. apply same_edge_true in Q. destruct Q as [[_ ->]|(_ & -> & _)]; [destruct (Ny eq_refl)|destruct (Nx eq_refl)].
  - intros n Q _. rewrite S. exact Q.
Qed.
Lemma grow_edge' g u v a : WF g -> nd g u <> None -> nd g v <> None -> grow (eq u) g (add_edge u v a g) /\ (forall n, nd (add_edge u v a g) n = nd g n).
Proof.
  intros W Nu Nv. destruct (@grow_edge g u v a W Nu Nv) as (G & S). split; [|exact S]. destruct G as [A1 A2 A3 A4 A5 A6]. constructor; auto.
  - intros x y Nx Ny. rewrite ed_add_edge by exact W. destruct (same_edge (gdir g) u v x y) eqn:Q; [|reflexivity]. apply same_edge_true in Q. destruct Q as [[-> _]|(_ & _ & ->)]; [destruct (Nx eq_refl)|destruct (Ny eq_refl)].
  - intros n Q _. rewrite S. exact Q.
Qed.
Definition row (c : I) (g : graph I) : list I := match dget c (gadj g) with Some r => dkeys r | None => [] end.
Lemma row_in c g e : In e (row c g) <-> ed g c e <> None.
Proof. unfold row, ed. destruct (dget c (gadj g)) as [r|]; [|cbn; tauto]. pose proof (dget_None e r) as D. destruct (dget e r) as [x|]; [|tauto]. split; [discriminate|]. intros _. destruct (in_dec eq_dec e (dkeys r)) as [Q|Q]; [exact Q|]. destruct D as [_ D]. specialize (D Q). discriminate. Qed.
Lemma row_nodup c g : WF g -> NoDup (row c g).
Proof. intros W. unfold row. destruct (dget c (gadj g)) eqn:E; [eapply (wf_row W); eassumption|constructor]. Qed.
Definition copied (c1 c2 : I) (l : list I) (g : graph I) := fold_left (fun g e2 => match ed g c1 e2 with Some d => add_edge c2 e2 d g | None => g end) l g.
Definition whole (g : graph I) := forall u v a, ed g u v = Some a -> exists z, dget weight a = Some (VInt z).
Lemma whole_edge g u v a z : WF g -> whole g -> NoDup (dkeys a) -> dget weight a = Some (VInt z) -> whole (add_edge u v a g).
Proof.
  intros W HW ND Q x y b. rewrite ed_add_edge by exact W. destruct (same_edge (gdir g) u v x y); [|apply HW]. intros E. injection E as <-. exists z. rewrite dget_dupdate by exact ND. rewrite Q. reflexivity.
Qed.
Lemma copied_spec c1 c2 : forall l g, WF g -> nd g c2 <> None -> (forall e, In e l -> ed g c1 e <> None) ->
  let g' := copied c1 c2 l g in grow (eq c2) g g' /\ (forall n, nd g' n = nd g n) /\ (forall e, In e l -> ed g' c2 e <> None) /\ (whole g -> whole g') /\
  (forall e, ed g' c1 e <> None -> ed g c1 e <> None \/ (e = c2 /\ gdir g = false /\ In c1 l)).
Proof.
  induction l as [|e l IH]; intros g W N2 HL; cbv zeta; cbn [copied fold_left].
  - split; [apply grow_refl, W|]. split; [auto|]. split; [intros e []|]. auto.
  - fold (copied c1 c2 l). destruct (ed g c1 e) as [d|] eqn:E; [|destruct (HL e (or_introl eq_refl) E)].
    assert (Ne : nd g e <> None) by (intros Q; rewrite (@ed_no_target _ _ g c1 e W Q) in E; discriminate).
    destruct (@grow_edge' g c2 e d W N2 Ne) as (G & S). pose proof (gr_wf G) as W1. assert (N2' : nd (add_edge c2 e d g) c2 <> None) by (rewrite S; exact N2).
    destruct (IH _ W1 N2') as (G1 & S1 & C1 & H1 & R1); [intros x Ix; apply (gr_ed G), HL; right; exact Ix|].
    change (fold_left (fun g e2 => match ed g c1 e2 with Some d => add_edge c2 e2 d g | None => g end) l (add_edge c2 e d g)) with (copied c1 c2 l (add_edge c2 e d g)).
    split; [eapply grow_trans; eassumption|]. split; [intros n; rewrite S1; apply S|]. split; [|split].
    + intros x [<-|Ix]; [|apply C1, Ix]. apply (gr_ed G1). rewrite ed_add_edge by exact W. rewrite same_edge_refl. discriminate.
    + intros HW. apply H1. destruct (HW _ _ _ E) as (z & Q). eapply whole_edge; [exact W|exact HW|eapply (wf_eattr W); eassumption|exact Q].
    + intros x Q. apply R1 in Q. destruct Q as [Q|(-> & D & J)]; [|right; rewrite gdir_add_edge in D; split; [reflexivity|]; split; [exact D|right; exact J]].
      rewrite ed_add_edge in Q by exact W. destruct (same_edge (gdir g) c2 e c1 x) eqn:SE; [|left; exact Q]. apply same_edge_true in SE. destruct SE as [[-> ->]|(D & -> & ->)].
      * left. congruence.
      * right. split; [reflexivity|]. split; [exact D|left; reflexivity].
Qed.
Lemma copy_ok c1 c2 (g g' : graph I) : WF g -> nd g c2 <> None -> copy_edges c1 c2 g = Ok g' ->
  grow (eq c2) g g' /\ (forall n, nd g' n = nd g n) /\ (forall e, ed g c1 e <> None -> ed g' c2 e <> None) /\ (whole g -> whole g').
Proof.
  intros W N2. unfold copy_edges. fold (row c1 g). change (fold_left _ (row c1 g) g) with (copied c1 c2 (row c1 g) g). fold (row c1 (copied c1 c2 (row c1 g) g)).
  destruct (@copied_spec c1 c2 (row c1 g) g W N2) as (G & S & C1 & H1 & _); [intros e J; apply row_in, J|]. destruct (_ =? _); [|discriminate]. intros Q. injection Q as <-.
  split; [exact G|]. split; [exact S|]. split; [|exact H1]. intros e Q. apply C1, row_in, Q.
Qed.
Lemma copy_runs c1 c2 (g : graph I) : WF g -> nd g c2 <> None -> (gdir g = true \/ ed g c1 c2 <> None) -> exists g', copy_edges c1 c2 g = Ok g'.
Proof.
  intros W N2 HC. unfold copy_edges. fold (row c1 g). change (fold_left _ (row c1 g) g) with (copied c1 c2 (row c1 g) g). fold (row c1 (copied c1 c2 (row c1 g) g)).
  destruct (@copied_spec c1 c2 (row c1 g) g W N2) as (G & S & C1 & H1 & R1); [intros e J; apply row_in, J|].
  replace (length (row c1 (copied c1 c2 (row c1 g) g)) =? length (row c1 g)) with true; [eauto|]. symmetry. apply Nat.eqb_eq, Nat.le_antisymm; apply NoDup_incl_length; try apply row_nodup; try assumption; try apply (gr_wf G).
  - intros e J. apply row_in in J. apply R1 in J. apply row_in. destruct J as [J|(-> & D & _)]; [exact J|]. destruct HC as [HC|HC]; [congruence|exact HC].
  - intros e J. apply row_in. apply (gr_ed G), row_in, J.
Qed.

(** the step before the edges are copied *)
Definition joined (weighted : bool) (c1 c2 : I) (g : graph I) : res (graph I) :=
  match nd g c2 with
  | None => Ok (add_edge c1 c2 (if weighted then [(weight, VInt 1)] else []) (add_node c2 (match nd g c1 with Some a => a | None => [] end) g))
  | Some _ => if weighted then touch true c1 c2 g else Ok g
  end.
Lemma joined_spec w c1 c2 (g g1 : graph I) : WF g -> nd g c1 <> None -> joined w c1 c2 g = Ok g1 ->
  grow (eq c2) g g1 /\ (forall n, nd g1 n = if eqb n c2 then Some (match nd g c2 with Some b => b | None => dupdate [] (or_empty (nd g c1)) end) else nd g n) /\
  (w = true \/ nd g c2 = None -> ed g1 c1 c2 <> None) /\ (w = true -> whole g -> whole g1).
Proof.
  intros W N1. unfold joined. destruct (nd g c2) as [b|] eqn:N2.
  - assert (N2' : nd g c2 <> None) by congruence. assert (IDN : forall n, nd g n = if eqb n c2 then Some b else nd g n) by (intros n; destruct (eqb_spec n c2) as [->|]; [exact N2|reflexivity]).
    destruct w.
    + unfold touch. unfold edge_incr. destruct (ed g c1 c2) as [d|] eqn:E.
      * destruct (dget weight d) as [y|] eqn:Y.
        -- destruct (vadd y (VInt 1)) as [z|e] eqn:Z1; cbn [bind].
           ++ intros Q. injection Q as <-. assert (I1 : In c1 (nodes g)) by (apply nd_In; destruct (nd g c1); [eauto|congruence]). assert (I2 : In c2 (nodes g)) by (apply nd_In; eauto).
              assert (NDd : NoDup (dkeys (dset weight z d))) by (apply NoDup_dset; eapply (wf_eattr W); eassumption).
              split; [constructor|].
              ** apply WF_put_edge; assumption.
              ** reflexivity.
              ** intros n a Q. exact Q.
              ** intros u v Q. rewrite ed_put_edge by assumption. destruct (same_edge _ _ _ _ _); [discriminate|exact Q].
              ** intros u v Nu Nv. rewrite ed_put_edge by assumption. destruct (same_edge (gdir g) c1 c2 u v) eqn:Q; [|reflexivity]. apply same_edge_true in Q. destruct Q as [[_ ->]|(_ & -> & _)]; [destruct (Nv eq_refl)|destruct (Nu eq_refl)].
              ** intros n Q _. exact Q.
              ** split; [exact IDN|]. split.
                 --- intros _. rewrite ed_put_edge by assumption. rewrite same_edge_refl. discriminate.
                 --- intros _ HW u v a. rewrite ed_put_edge by assumption. destruct (same_edge (gdir g) c1 c2 u v); [|apply HW]. intros Q. injection Q as <-. destruct (HW _ _ _ E) as (x & X). rewrite X in Y. injection Y as <-. cbn in Z1. injection Z1 as <-. rewrite dget_dset_same. eauto.
           ++ destruct e; try discriminate. exfalso. destruct y as [| | |]; cbn in Z1; discriminate.
        -- cbn [bind]. intros Q. injection Q as <-. destruct (@grow_edge g c1 c2 [(weight, VInt 1)] W N1 N2') as (G & S). split; [exact G|]. split; [intros n; rewrite S; apply IDN|]. split; [intros _; rewrite ed_add_edge by exact W; rewrite same_edge_refl; discriminate|]. intros _ HW. eapply whole_edge; [exact W|exact HW|repeat constructor; intros []|reflexivity].
      * cbn [bind]. intros Q. injection Q as <-. destruct (@grow_edge g c1 c2 [(weight, VInt 1)] W N1 N2') as (G & S). split; [exact G|]. split; [intros n; rewrite S; apply IDN|]. split; [intros _; rewrite ed_add_edge by exact W; rewrite same_edge_refl; discriminate|]. intros _ HW. eapply whole_edge; [exact W|exact HW|repeat constructor; intros []|reflexivity].
    + intros Q. injection Q as <-. split; [apply grow_refl, W|]. split; [exact IDN|]. split; [intros [Q|Q]; discriminate|discriminate].
  - intros Q. injection Q as <-. set (a1 := match nd g c1 with Some a => a | None => [] end). pose proof (WF_add_node c2 a1 W) as Wn. set (gn := add_node c2 a1 g) in *.
    assert (SN : forall n, nd gn n = if eqb n c2 then Some (dupdate [] a1) else nd g n) by (intros n; unfold gn; rewrite nd_add_node, N2; reflexivity).
    assert (M1 : nd gn c1 <> None) by (rewrite SN; destruct (eqb c1 c2); [discriminate|exact N1]). assert (M2 : nd gn c2 <> None) by (rewrite SN, eqb_refl; discriminate).
    destruct (@grow_edge gn c1 c2 (if w then [(weight, VInt 1)] else []) Wn M1 M2) as (G & S). assert (G0 : grow (eq c2) g gn).
    { constructor; [exact Wn|apply gdir_add_node| | | |].
      - intros n a Q. rewrite SN. destruct (eqb_spec n c2) as [->|]; [congruence|exact Q].
      - intros u v Q. unfold gn. rewrite ed_add_node by exact W. exact Q.
      - intros u v _ _. unfold gn. apply ed_add_node, W.
      - intros n Q NC. rewrite SN. destruct (eqb_spec n c2) as [->|]; [destruct (NC eq_refl)|exact Q]. }
    split; [eapply grow_trans; eassumption|]. split; [intros n; rewrite S, SN; reflexivity|]. split; [intros _; rewrite ed_add_edge by exact Wn; rewrite same_edge_refl; discriminate|].
    intros -> HW. eapply whole_edge; [exact Wn| |repeat constructor; intros []|reflexivity]. intros u v a. unfold gn. rewrite ed_add_node by exact W. apply HW.
Qed.
Lemma pair_spec w c1 c2 (g g' : graph I) : WF g -> nd g c1 <> None -> expand_pair w c1 c2 g = Ok g' ->
  grow (eq c2) g g' /\ (forall n, nd g' n = if eqb n c2 then Some (match nd g c2 with Some b => b | None => dupdate [] (or_empty (nd g c1)) end) else nd g n) /\
  (forall e, ed g c1 e <> None -> ed g' c2 e <> None) /\ (w = true \/ nd g c2 = None -> ed g' c1 c2 <> None /\ ed g' c2 c2 <> None) /\ (w = true -> whole g -> whole g').
Proof.
  intros W N1 Q. unfold expand_pair in Q. fold (joined w c1 c2 g) in Q. destruct (joined w c1 c2 g) as [g1|] eqn:J; [|discriminate]. cbn [bind] in Q. destruct (@joined_spec w c1 c2 g g1 W N1 J) as (G & S & E & HW).
  assert (N2 : nd g1 c2 <> None) by (rewrite S, eqb_refl; discriminate). destruct (@copy_ok c1 c2 g1 g' (gr_wf G) N2 Q) as (G2 & S2 & E2 & HW2).
  split; [eapply grow_trans; eassumption|]. split; [intros n; rewrite S2; apply S|]. split; [intros e Z; apply E2, (gr_ed G), Z|]. split; [|auto]. intros C. specialize (E C). split; [apply (gr_ed G2), E|apply E2, E].
Qed.
Lemma pair_runs w c1 c2 (g : graph I) : WF g -> nd g c1 <> None -> (w = true /\ whole g) \/ (w = false /\ gdir g = true) -> exists g', expand_pair w c1 c2 g = Ok g'.
Proof.
  intros W N1 HC. unfold expand_pair. fold (joined w c1 c2 g). assert (J : exists g1, joined w c1 c2 g = Ok g1).
  { unfold joined. destruct (nd g c2); [|eauto]. destruct w; [|eauto]. destruct HC as [[_ HW]|[D _]]; [|discriminate]. unfold touch, edge_incr. destruct (ed g c1 c2) as [d|] eqn:E; [|eauto]. destruct (HW _ _ _ E) as (z & ->). cbn. eauto. }
  destruct J as (g1 & J). rewrite J. cbn [bind]. destruct (@joined_spec w c1 c2 g g1 W N1 J) as (G & S & E & HW). apply copy_runs; [apply (gr_wf G)|rewrite S, eqb_refl; discriminate|]. rewrite (gr_dir G). destruct HC as [[-> _]|[_ D]]; [right; apply E; left; reflexivity|left; exact D].
Qed.
End Proofs.
