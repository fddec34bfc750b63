(** Sequences of "see this node" and "count this edge" steps, for the networks of recordCollection.py. *)
From Coq Require Import String Lia.
From Verif Require Import Base PyStr Nx NxFacts RecordView SeriesSpec RecordViewFacts NetModel NetSpec NetFacts NetProofs CiteNetModel.
Set Implicit Arguments.

Section Ops.
Context {I : Type} `{EqDec I}.
(** [See n a]: add or count; [Head n a]: add only; the attributes are given without the count *)
Inductive op := See (n : I) (a : attrs) | Head (n : I) (a : attrs) | Edge (u v : I) (y : option val).
Variables (cnt w : bool).
Definition with_count (a : attrs) : attrs := if cnt then dset cnt_ (VInt 1) a else a.
Definition extra (y : option val) : attrs := match y with Some v => [(year_diff, v)] | None => [] end.
Definition do_op (p : op) (g : graph I) : res (graph I) :=
  match p with
  | See n a => if negb (has_node g n) then Ok (add_node n (with_count a) g) else if cnt then node_incr n cnt_ (VInt 1) g else Ok g
  | Head n a => if has_node g n then Ok g else Ok (add_node n (with_count a) g)
  | Edge u v y => if w then (match edge_incr u v weight (VInt 1) g with
                             | Raise KeyError => Ok (add_edge u v ((weight, VInt 1) :: extra y) g)
                             | r => r end)
                  else Ok (add_edge u v [] g)
  end.
Definition about (n : I) (p : op) : bool := match p with See m _ | Head m _ => eqb n m | Edge _ _ _ => false end.
Definition op_attrs (p : op) : attrs := match p with See _ a | Head _ a => a | Edge _ _ _ => [] end.
Definition op_head (p : op) : nat := match p with Head _ _ => 1 | _ => 0 end.
Definition sees (n : I) (es : list op) : nat := total (fun p => match p with See m _ => if eqb n m then 1 else 0 | _ => 0 end) es.
Definition node_final (es : list op) (n : I) : option attrs :=
  match find (about n) es with
  | None => None
  | Some p => Some (if cnt then dset cnt_ (VInt (Z.of_nat (sees n es + op_head p))) (op_attrs p) else op_attrs p)
  end.
Definition edge_of (d : bool) (u v : I) (p : op) : bool := match p with Edge x y _ => same_edge d x y u v | _ => false end.
Definition op_extra (p : op) : attrs := match p with Edge _ _ y => extra y | _ => [] end.
Definition edges_met (d : bool) (es : list op) (u v : I) : nat := total (fun p => if edge_of d u v p then 1 else 0) es.
Definition edge_final (d : bool) (es : list op) (u v : I) : option attrs :=
  match find (edge_of d u v) es with
  | None => None
  | Some p => Some (if w then (weight, VInt (Z.of_nat (edges_met d es u v))) :: op_extra p else [])
  end.

(** every edge is between nodes met before *)
Fixpoint closed (seen : list I) (es : list op) : Prop :=
  match es with
  | [] => True
  | See n _ :: es' | Head n _ :: es' => closed (n :: seen) es'
  | Edge u v _ :: es' => In u seen /\ In v seen /\ closed seen es'
  end.
Definition names (es : list op) : list I := flat_map (fun p => match p with See n _ | Head n _ => [n] | Edge _ _ _ => [] end) es.
Lemma closed_mono es : forall s s', incl s s' -> closed s es -> closed s' es.
Proof.
  induction es as [|[n a|n a|u v y] es IH]; intros s s' Q C; cbn in *; [exact Logic.I| | |].
  - apply (IH (n :: s)); [|exact C]. intros x [->|K]; [left; reflexivity|right; apply Q, K].
  - apply (IH (n :: s)); [|exact C]. intros x [->|K]; [left; reflexivity|right; apply Q, K].
  - destruct C as (A & B & C). split; [apply Q, A|]. split; [apply Q, B|]. apply (IH s); assumption.
Qed.
Lemma closed_app a : forall s b, closed s (a ++ b) <-> closed s a /\ closed (names a ++ s) b.
Proof.
  induction a as [|[n x|n x|u v y] a IH]; intros s b; cbn.
  - tauto.
  - rewrite IH. split; intros [A B]; (split; [exact A|]); (eapply closed_mono; [|exact B]); intros z; rewrite ?in_app_iff; cbn; rewrite ?in_app_iff; tauto.
  - rewrite IH. split; intros [A B]; (split; [exact A|]); (eapply closed_mono; [|exact B]); intros z; rewrite ?in_app_iff; cbn; rewrite ?in_app_iff; tauto.
  - rewrite IH. tauto.
Qed.
Lemma names_app a b : names (a ++ b) = names a ++ names b.
Proof. apply flat_map_app. Qed.
Lemma closed_flat {R} (h : R -> list op) rs : (forall r, In r rs -> closed [] (h r)) -> forall s, closed s (flat_map h rs).
Proof.
  induction rs as [|r rs IH]; intros C s; cbn [flat_map]; [exact Logic.I|]. apply closed_app. split.
  - apply (@closed_mono _ [] _); [intros x []|apply C; left; reflexivity].
  - apply IH. intros r' K. apply C. right. exact K.
Qed.
Lemma closed_pre pre es : closed [] pre -> (forall p, In p es -> exists u v y, p = Edge u v y /\ In u (names pre) /\ In v (names pre)) -> closed [] (pre ++ es).
Proof.
  intros C E. apply closed_app. split; [exact C|]. rewrite app_nil_r. induction es as [|p es IH]; [exact Logic.I|].
  destruct (E p (or_introl eq_refl)) as (u & v & y & -> & A & B). cbn. split; [exact A|]. split; [exact B|]. apply IH. intros q K. apply E. right. exact K.
Qed.
Lemma closed_nodes es : (forall p, In p es -> match p with Edge _ _ _ => False | _ => True end) -> forall s, closed s es.
Proof.
  induction es as [|p es IH]; intros E s; [exact Logic.I|]. pose proof (E p (or_introl eq_refl)) as P.
  destruct p as [n a|n a|u v y]; [| |destruct P]; cbn; apply IH; intros q K; apply E; right; exact K.
Qed.
Lemma about_names n es : find (about n) es = None <-> ~ In n (names es).
Proof.
  induction es as [|p es IH]; cbn [find names flat_map]; [cbn; tauto|]. rewrite in_app_iff.
  destruct p as [m a|m a|u v y]; cbn [about]; [| |rewrite IH; unfold names; cbn; tauto].
  - destruct (eqb_spec n m) as [->|D]; [split; [discriminate|intros K; exfalso; apply K; left; left; reflexivity]|]. rewrite IH. unfold names. cbn.
    split; [intros A [[->|[]]|B]; [apply D; reflexivity|apply A, B]|intros A B; apply A; right; exact B].
  - destruct (eqb_spec n m) as [->|D]; [split; [discriminate|intros K; exfalso; apply K; left; left; reflexivity]|]. rewrite IH. unfold names. cbn.
    split; [intros A [[->|[]]|B]; [apply D; reflexivity|apply A, B]|intros A B; apply A; right; exact B].
Qed.
Lemma find_snoc {A} (f : A -> bool) l x : find f (l ++ [x]) = match find f l with Some y => Some y | None => if f x then Some x else None end.
Proof. induction l as [|y l IH]; cbn [app find]; [destruct (f x); reflexivity|]. destruct (f y); [reflexivity|exact IH]. Qed.
Lemma sees_app n a b : sees n (a ++ b) = sees n a + sees n b.
Proof. apply total_app. Qed.
Lemma edges_met_app d a b u v : edges_met d (a ++ b) u v = edges_met d a u v + edges_met d b u v.
Proof. apply total_app. Qed.
Lemma no_sees n es : ~ In n (names es) -> sees n es = 0.
Proof.
  intros K. unfold sees. rewrite (total_ext _ (fun _ => 0) es); [apply total_zero|]. intros p P. destruct p as [m a| |]; try reflexivity. destruct (eqb_spec n m) as [->|]; [|reflexivity].
  exfalso. apply K. unfold names. apply in_flat_map. exists (See m a). split; [exact P|left; reflexivity].
Qed.
Lemma no_edges d es u v : find (edge_of d u v) es = None <-> edges_met d es u v = 0.
Proof.
  unfold edges_met, total. induction es as [|p es IH]; cbn [find fold_right]; [tauto|]. destruct (edge_of d u v p); [|exact IH]. split; [discriminate|lia].
Qed.
Lemma edge_of_same d (u v x y : I) p : same_edge d u v x y = true -> edge_of d x y p = edge_of d u v p.
Proof.
  intros Q. destruct p as [| |a b z]; try reflexivity. cbn. apply same_edge_true in Q. destruct Q as [[-> ->]|(-> & -> & ->)]; [reflexivity|]. apply same_edge_sym.
Qed.
Lemma edge_final_same d es (u v x y : I) : same_edge d u v x y = true -> edge_final d es x y = edge_final d es u v.
Proof.
  intros Q. unfold edge_final. assert (F : find (edge_of d x y) es = find (edge_of d u v) es).
  { induction es as [|p es IH]; [reflexivity|]. cbn [find]. rewrite (edge_of_same _ _ _ _ _ p Q), IH. reflexivity. }
  rewrite F. destruct (find (edge_of d u v) es); [|reflexivity]. do 2 f_equal. unfold edges_met. destruct w; [|reflexivity]. do 4 f_equal. apply total_ext. intros p' _. rewrite (edge_of_same _ _ _ _ _ p' Q). reflexivity.
Qed.
Lemma dset_new (a : attrs) k x : ~ In k (dkeys a) -> dset k x a = a ++ [(k, x)].
Proof.
  induction a as [|[k' x'] a IH]; intros K; [reflexivity|]. cbn in *. destruct (eqb_spec k k') as [->|]; [exfalso; apply K; left; reflexivity|].
  rewrite IH; [reflexivity|]. intros Q. apply K. right. exact Q.
Qed.
Lemma dupdate_fresh (a : attrs) : forall b : attrs, NoDup (dkeys (b ++ a)) -> dupdate b a = b ++ a.
Proof.
  induction a as [|[k x] a IH]; intros b ND; [cbn; rewrite app_nil_r; reflexivity|].
  change (dupdate b ((k, x) :: a)) with (dupdate (dset k x b) a).
  rewrite dset_new.
  - rewrite IH; [rewrite <- app_assoc; reflexivity|]. rewrite <- app_assoc. exact ND.
  - unfold dkeys in *. rewrite map_app in ND. cbn in ND. apply NoDup_remove_2 in ND. intros K. apply ND. apply in_or_app. left. exact K.
Qed.
Lemma dupdate_nil (a : attrs) : NoDup (dkeys a) -> dupdate [] a = a.
Proof. intros ND. apply dupdate_fresh. exact ND. Qed.
Lemma dset_dset (a : attrs) k x y : dset k x (dset k y a) = dset k x a.
Proof.
  induction a as [|[k' x'] a IH]; cbn; [rewrite eqb_refl; reflexivity|]. destruct (eqb_spec k k') as [->|N]; cbn; [rewrite eqb_refl; reflexivity|].
  rewrite (neq_eqb N), IH. reflexivity.
Qed.
Lemma dset_here {K V} `{EqDec K} (d : dict K V) k x : dget k d = Some x -> dset k x d = d.
Proof.
  induction d as [|[k' x'] a IH]; cbn; [discriminate|]. destruct (eqb_spec k k') as [->|N]; [intros Q; injection Q as ->; reflexivity|].
  intros Q. rewrite (IH Q). reflexivity.
Qed.

Definition dictlike (es : list op) : Prop := forall p, In p es -> NoDup (dkeys (op_attrs p)).
Lemma NoDup_with_count a : NoDup (dkeys a) -> NoDup (dkeys (with_count a)).
Proof. intros ND. unfold with_count. destruct cnt; [apply NoDup_dset, ND|exact ND]. Qed.

Lemma add_new (g : graph I) n a : WF g -> NoDup (dkeys a) -> nd g n = None ->
  WF (add_node n (with_count a) g) /\ (forall m, nd (add_node n (with_count a) g) m = if eqb m n then Some (with_count a) else nd g m).
Proof.
  intros W ND E. split; [apply WF_add_node, W|]. intros m. rewrite nd_add_node, E, dupdate_nil by (apply NoDup_with_count, ND). reflexivity.
Qed.

Definition state (d : bool) (es : list op) (g : graph I) : Prop :=
  WF g /\ gdir g = d /\ (forall n, nd g n = node_final es n) /\ (forall u v, ed g u v = edge_final d es u v).

Lemma nf_other es p n : about n p = false -> (forall m a, p = See m a -> eqb n m = false) -> node_final (es ++ [p]) n = node_final es n.
Proof.
  intros A S. unfold node_final. rewrite find_snoc, A. destruct (find (about n) es) as [q|]; [|reflexivity]. rewrite sees_app.
  replace (sees n [p]) with 0; [rewrite Nat.add_0_r; reflexivity|]. unfold sees, total. cbn. destruct p as [m a| |]; try reflexivity. rewrite (S m a eq_refl). reflexivity.
Qed.
Lemma ef_other d es p u v : edge_of d u v p = false -> edge_final d (es ++ [p]) u v = edge_final d es u v.
Proof.
  intros E. unfold edge_final. rewrite find_snoc, E. destruct (find (edge_of d u v) es) as [q|]; [|reflexivity]. rewrite edges_met_app.
  replace (edges_met d [p] u v) with 0; [rewrite Nat.add_0_r; reflexivity|]. unfold edges_met, total. cbn. rewrite E. reflexivity.
Qed.
Lemma nf_new es p n : find (about n) es = None -> about n p = true -> node_final (es ++ [p]) n = Some (with_count (op_attrs p)).
Proof.
  intros F A. unfold node_final. rewrite find_snoc, F, A, sees_app, no_sees by (apply about_names, F). unfold with_count. destruct cnt; [|reflexivity]. do 3 f_equal.
  unfold sees, total. cbn. destruct p as [m a|m a|]; cbn in *; [rewrite A; reflexivity|reflexivity|discriminate].
Qed.
Lemma step_spec d es p (g : graph I) : state d es g -> NoDup (dkeys (op_attrs p)) -> closed (names es) [p] ->
  exists g', do_op p g = Ok g' /\ state d (es ++ [p]) g'.
Proof.
  intros (W & D & M & E) ND CL. destruct p as [n a|n a|u v y]; cbn [do_op op_attrs] in *.
  - rewrite has_node_nd, M. destruct (find (about n) es) as [q|] eqn:F; unfold node_final at 1; rewrite F; cbn [negb].
    + unfold node_final in M. destruct cnt eqn:HC.
      * assert (Q : nd g n = Some (dset cnt_ (VInt (Z.of_nat (sees n es + op_head q))) (op_attrs q))) by (rewrite M, F; reflexivity).
        destruct (incr_present n cnt_ (VInt 1) (y := VInt (Z.of_nat (sees n es + op_head q))) (z := VInt (Z.of_nat (sees n es + op_head q) + 1)) W Q) as (g' & R & W' & D' & E' & M').
        { apply dget_dset_same. } { reflexivity. }
        exists g'. split; [exact R|]. split; [exact W'|]. split; [congruence|]. split.
        -- intros m. rewrite M'. destruct (eqb_spec m n) as [->|Nm].
           ++ unfold node_final. rewrite HC, find_snoc, F, dset_dset, sees_app. do 4 f_equal. unfold sees at 3, total. cbn. rewrite eqb_refl. lia.
           ++ rewrite nf_other; [unfold node_final; rewrite HC; apply M|cbn; apply neq_eqb, Nm|]. intros m' a' K. injection K as <- <-. apply neq_eqb, Nm.
        -- intros x z. rewrite E', E, ef_other by reflexivity. reflexivity.
      * exists g. split; [reflexivity|]. split; [exact W|]. split; [exact D|]. split.
        -- intros m. rewrite M. unfold node_final. rewrite HC, find_snoc. destruct (find (about m) es) eqn:Fm; [reflexivity|]. cbn. destruct (eqb_spec m n) as [->|]; [congruence|reflexivity].
        -- intros x z. rewrite E, ef_other by reflexivity. reflexivity.
    + destruct (add_new n a W ND) as (W' & M'); [rewrite M; unfold node_final; rewrite F; reflexivity|]. eexists; split; [reflexivity|]. split; [exact W'|]. split; [rewrite gdir_add_node; exact D|]. split.
      * intros m. rewrite M'. destruct (eqb_spec m n) as [->|Nm].
        -- rewrite nf_new; [reflexivity|exact F|]. cbn. apply eqb_refl.
        -- rewrite nf_other; [apply M|cbn; apply neq_eqb, Nm|]. intros m' a' K. injection K as <- <-. apply neq_eqb, Nm.
      * intros x z. rewrite ed_add_node by exact W. rewrite E, ef_other by reflexivity. reflexivity.
  - rewrite has_node_nd, M. destruct (find (about n) es) as [q|] eqn:F; unfold node_final at 1; rewrite F.
    + exists g. split; [reflexivity|]. split; [exact W|]. split; [exact D|]. split.
      * intros m. rewrite M. unfold node_final. rewrite find_snoc. destruct (find (about m) es) eqn:Fm.
        -- rewrite sees_app. unfold sees at 3, total. cbn. rewrite Nat.add_0_r. reflexivity.
        -- cbn. destruct (eqb_spec m n) as [->|]; [congruence|reflexivity].
      * intros x z. rewrite E, ef_other by reflexivity. reflexivity.
    + destruct (add_new n a W ND) as (W' & M'); [rewrite M; unfold node_final; rewrite F; reflexivity|]. eexists; split; [reflexivity|]. split; [exact W'|]. split; [rewrite gdir_add_node; exact D|]. split.
      * intros m. rewrite M'. destruct (eqb_spec m n) as [->|Nm].
        -- rewrite nf_new; [reflexivity|exact F|]. cbn. apply eqb_refl.
        -- rewrite nf_other; [apply M|cbn; apply neq_eqb, Nm|]. intros m' a' K. discriminate.
      * intros x z. rewrite ed_add_node by exact W. rewrite E, ef_other by reflexivity. reflexivity.
  - destruct CL as (Iu & Iv & _).
    assert (PR : forall n, In n (names es) -> In n (nodes g)).
    { intros n K. apply nd_In. rewrite M. unfold node_final. destruct (find (about n) es) eqn:F; [eauto|]. apply about_names in F. contradiction. }
    apply PR in Iu. apply PR in Iv.
    assert (SAMEN : forall m, node_final (es ++ [Edge u v y]) m = node_final es m) by (intros m; apply nf_other; [reflexivity|intros; discriminate]).
    assert (NDN : forall a m, nd (add_edge u v a g) m = nd g m).
    { intros a m. rewrite nd_add_edge by exact W. apply nd_In in Iu. apply nd_In in Iv. destruct Iu as [au Au], Iv as [av Av].
      destruct (eqb_spec m u) as [->|Nu]; [cbn; rewrite Au; reflexivity|]. destruct (eqb_spec m v) as [->|Nv]; [cbn; rewrite Av; reflexivity|]. reflexivity. }
    assert (FINAL : forall g', WF g' -> gdir g' = d -> (forall m, nd g' m = nd g m) ->
        (forall x z, ed g' x z = if same_edge d u v x z then edge_final d (es ++ [Edge u v y]) u v else ed g x z) -> state d (es ++ [Edge u v y]) g').
    { intros g' W' D' M' E'. split; [exact W'|]. split; [exact D'|]. split; [intros m; rewrite M', M, SAMEN; reflexivity|].
      intros x z. rewrite E'. destruct (same_edge d u v x z) eqn:Q; [symmetry; apply edge_final_same, Q|]. rewrite E, ef_other; [reflexivity|exact Q]. }
    assert (MET : edges_met d (es ++ [Edge u v y]) u v = edges_met d es u v + 1).
    { rewrite edges_met_app. unfold edges_met at 2, total. cbn. rewrite same_edge_refl. reflexivity. }
    pose proof (E u v) as Euv. unfold edge_final in Euv. destruct w eqn:HW.
    + unfold edge_incr. destruct (find (edge_of d u v) es) as [q|] eqn:F; rewrite Euv.
      * cbn [dget]. rewrite eqb_refl. cbn [vadd as_int bind dset]. rewrite eqb_refl. eexists; split; [reflexivity|]. apply FINAL.
        -- apply WF_put_edge; [exact W|exact Iu|exact Iv|]. pose proof (wf_eattr W _ _ Euv) as K. exact K.
        -- exact D.
        -- reflexivity.
        -- intros x z. rewrite ed_put_edge by assumption. rewrite D. destruct (same_edge d u v x z); [|reflexivity]. unfold edge_final. rewrite HW, find_snoc, F, MET, Nat2Z.inj_add. reflexivity.
      * eexists; split; [reflexivity|]. apply FINAL; [apply WF_add_edge, W|rewrite gdir_add_edge; exact D|apply NDN|].
        intros x z. rewrite ed_add_edge by exact W. rewrite D. destruct (same_edge d u v x z); [|reflexivity]. rewrite Euv. unfold edge_final. rewrite HW, find_snoc, F. cbn [edge_of]. rewrite same_edge_refl, MET.
        apply no_edges in F. rewrite F. cbn [or_empty op_extra]. f_equal. apply dupdate_nil. destruct y; cbn; repeat constructor; cbn; intuition discriminate.
    + eexists; split; [reflexivity|]. apply FINAL; [apply WF_add_edge, W|rewrite gdir_add_edge; exact D|apply NDN|].
      intros x z. rewrite ed_add_edge by exact W. rewrite D. destruct (same_edge d u v x z); [|reflexivity]. rewrite Euv. unfold edge_final. rewrite HW, find_snoc.
      destruct (find (edge_of d u v) es); [reflexivity|]. cbn [edge_of]. rewrite same_edge_refl. reflexivity.
Qed.
Lemma ops_spec d es : closed [] es -> dictlike es -> exists g, iter do_op es (empty_graph d) = Ok g /\ state d es g.
Proof.
  induction es as [|p es IH] using rev_ind; intros C DL.
  - exists (empty_graph d). split; [reflexivity|]. split; [apply WF_empty|]. split; [reflexivity|]. split; reflexivity.
  - apply closed_app in C. destruct C as [C1 C2]. rewrite app_nil_r in C2. destruct IH as (g & R & S); [exact C1|intros q K; apply DL, in_or_app; left; exact K|].
    destruct (step_spec p S) as (g' & R' & S'); [apply DL, in_or_app; right; left; reflexivity|exact C2|].
    exists g'. split; [|exact S']. rewrite iter_app, R. cbn. rewrite R'. reflexivity.
Qed.

(** adding an edge that is there without attributes changes nothing *)
Lemma add_edge_same (g : graph I) u v a : WF g -> ed g u v = Some a -> add_edge u v [] g = g.
Proof.
  intros W E. pose proof (ed_source _ _ W E) as Iu. pose proof (wf_ends W _ _ E) as Iv. unfold add_edge.
  assert (G : ensure_node v (ensure_node u g) = g).
  { apply nd_In in Iu. apply nd_In in Iv. destruct Iu as [x X], Iv as [z Z]. unfold ensure_node at 2. rewrite X. unfold ensure_node. rewrite Z. reflexivity. }
  rewrite G, E. cbn [dupdate fold_left]. unfold put_edge. assert (RS : forall x z, ed g x z = Some a -> set_row x z a (gadj g) = gadj g).
  { intros x z Q. unfold set_row. unfold ed in Q. destruct (dget x (gadj g)) as [r|] eqn:R; [|reflexivity]. rewrite (dset_here _ _ Q). apply dset_here. exact R. }
  rewrite (RS u v E). destruct (gdir g) eqn:D; [destruct g; cbn in *; subst; reflexivity|]. rewrite RS by (rewrite (wf_sym W D); exact E). destruct g; cbn in *; subst; reflexivity.
Qed.
End Ops.
