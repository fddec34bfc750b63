(** networkMultiLevel, networkTwoMode and networkMultiMode as sequences of steps. *)
From Coq Require Import String Lia.
From Verif Require Import Base PyStr Nx NxFacts RecordView SeriesSpec RecordViewFacts NetModel NetSpec NetFacts.
Set Implicit Arguments.

Section Proofs.
Context {N : Type} `{EqDec N}.

(** [g'] is [g] with the attributes [a] at [n] *)
Definition setp (g : graph N) (n : N) (a : attrs) (g' : graph N) : Prop :=
  WF g' /\ gdir g' = gdir g /\ (forall u v, ed g' u v = ed g u v) /\ forall m, nd g' m = if eqb m n then Some a else nd g m.
Lemma setp_refl (g : graph N) n a : WF g -> nd g n = Some a -> setp g n a g.
Proof. intros W E. split; [exact W|]. split; [reflexivity|]. split; [reflexivity|]. intros m. destruct (eqb_spec m n) as [->|]; [exact E|reflexivity]. Qed.
Lemma setp_trans (g g' g'' : graph N) n a b : setp g n a g' -> setp g' n b g'' -> setp g n b g''.
Proof.
  intros (W & D & E & M) (W' & D' & E' & M'). split; [exact W'|]. split; [congruence|]. split; [intros; rewrite E', E; reflexivity|].
  intros m. rewrite M', M. destruct (eqb m n); reflexivity.
Qed.
Lemma setp_nd (g g' : graph N) n a : setp g n a g' -> nd g' n = Some a.
Proof. intros (_ & _ & _ & M). rewrite M, eqb_refl. reflexivity. Qed.
Lemma set_missing (g : graph N) n k x : nd g n = None -> node_set n k x g = Raise KeyError.
Proof. unfold node_set. intros ->. reflexivity. Qed.
Lemma set_present (g : graph N) n k x a : WF g -> nd g n = Some a -> exists g', node_set n k x g = Ok g' /\ setp g n (dset k x a) g'.
Proof.
  intros W E. destruct (node_set n k x g) as [g'|e] eqn:Q; [|unfold node_set in Q; rewrite E in Q; discriminate].
  exists g'. split; [reflexivity|]. split; [eapply WF_node_set; eassumption|]. split; [eapply gdir_node_set; eassumption|].
  split; [intros; eapply ed_node_set; eassumption|]. intros m. rewrite (nd_node_set _ _ _ _ m Q), E. reflexivity.
Qed.
Lemma incr_missing (g : graph N) n k x : nd g n = None -> node_incr n k x g = Raise KeyError.
Proof. unfold node_incr. intros ->. reflexivity. Qed.
Lemma incr_no_attr (g : graph N) n k x a : nd g n = Some a -> dget k a = None -> node_incr n k x g = Raise KeyError.
Proof. unfold node_incr. intros -> ->. reflexivity. Qed.
Lemma incr_present (g : graph N) n k x a y z : WF g -> nd g n = Some a -> dget k a = Some y -> vadd y x = Ok z ->
  exists g', node_incr n k x g = Ok g' /\ setp g n (dset k z a) g'.
Proof. intros W E K A. unfold node_incr. rewrite E, K, A. cbn [bind]. apply set_present; assumption. Qed.
Lemma add_setp (g : graph N) n a : WF g -> setp g n (dupdate (or_empty (nd g n)) a) (add_node n a g).
Proof.
  intros W. split; [apply WF_add_node, W|]. split; [apply gdir_add_node|]. split; [intros; apply ed_add_node, W|].
  intros m. rewrite nd_add_node. unfold or_empty. reflexivity.
Qed.
Lemma has_node_nd (g : graph N) n : has_node g n = match nd g n with Some _ => true | None => false end.
Proof. unfold has_node, nd. apply dhas_dget. Qed.

(** count attributes are numbers, types are strings *)
Definition plain (a : attrs) : Prop :=
  (dget cnt_ a = None \/ exists k, dget cnt_ a = Some (VInt k)) /\ (dget type_ a = None \/ exists t, dget type_ a = Some (VStr t)).
Lemma plain_nil : plain [].
Proof. split; left; reflexivity. Qed.
Lemma plain_cnt a k : plain a -> plain (dset cnt_ (VInt k) a).
Proof. intros [_ T]. split; [right; exists k; apply dget_dset_same|]. rewrite dget_dset_other by discriminate. exact T. Qed.
Lemma plain_type a t : plain a -> plain (dset type_ (VStr t) a).
Proof. intros [C _]. split; [rewrite dget_dset_other by discriminate; exact C|]. right. exists t. apply dget_dset_same. Qed.

Definition add1 (a : attrs) : option attrs := match dget cnt_ a with Some (VInt k) => Some (dset cnt_ (VInt (k + 1)) a) | _ => None end.
Lemma add1_cases a : plain a -> (exists k, dget cnt_ a = Some (VInt k) /\ add1 a = Some (dset cnt_ (VInt (k + 1)) a)) \/ (dget cnt_ a = None /\ add1 a = None).
Proof. intros [[C|[k C]] _]; [right|left; exists k]; unfold add1; rewrite C; auto. Qed.
Lemma plain_add1 a b : plain a -> add1 a = Some b -> plain b.
Proof. intros P Q. destruct (add1_cases P) as [(k & _ & E)|(_ & E)]; [|congruence]. rewrite E in Q. injection Q as <-. apply plain_cnt, P. Qed.

(** ** one mode *)
Definition do_level (nc : bool) (several : bool) : N -> graph N -> res (graph N) := if several then bump nc else bump_single nc.
Definition eff_level (nc : bool) (_ : bool) (o : option attrs) : attrs :=
  let a := or_empty o in if nc then match add1 a with Some b => b | None => dset cnt_ (VInt 1) a end else a.
Lemma level_ok nc t o : fine plain o -> plain (eff_level nc t o).
Proof.
  intros F. assert (P : plain (or_empty o)) by (destruct o; [exact F|exact plain_nil]). unfold eff_level. destruct nc; [|exact P].
  destruct (add1 (or_empty o)) eqn:E; [eapply plain_add1; eassumption|apply plain_cnt, P].
Qed.
Lemma level_spec nc t n (g : graph N) : WF g -> fine plain (nd g n) ->
  exists g', do_level nc t n g = Ok g' /\ setp g n (eff_level nc t (nd g n)) g'.
Proof.
  intros W F. unfold do_level, eff_level. destruct t.
  - unfold bump. rewrite has_node_nd. set (g1 := if match nd g n with Some _ => true | None => false end then g else add_node n [] g).
    assert (S1 : setp g n (or_empty (nd g n)) g1).
    { unfold g1. destruct (nd g n) as [a|] eqn:E; [apply setp_refl; assumption|]. pose proof (add_setp n [] W) as S1. rewrite E in S1. exact S1. }
    assert (P : plain (or_empty (nd g n))) by (destruct (nd g n); [exact F|exact plain_nil]).
    pose proof (setp_nd S1) as E1. pose proof S1 as (W1 & _). destruct nc; [|exists g1; auto].
    destruct (add1_cases P) as [(k & C & A)|(C & A)]; rewrite A.
    + destruct (@incr_present g1 n cnt_ (VInt 1) _ (VInt k) (VInt (k + 1)) W1 E1 C eq_refl) as (g2 & Q & S2). rewrite Q. exists g2. split; [reflexivity|]. eapply setp_trans; eassumption.
    + rewrite (@incr_no_attr g1 n cnt_ (VInt 1) _ E1 C). destruct (@set_present g1 n cnt_ (VInt 1) _ W1 E1) as (g2 & Q & S2). rewrite Q. exists g2. split; [reflexivity|]. eapply setp_trans; eassumption.
  - unfold bump_single. destruct nc.
    + destruct (nd g n) as [a|] eqn:E; cbn [or_empty].
      * destruct (add1_cases F) as [(k & C & A)|(C & A)]; rewrite A.
        -- destruct (@incr_present g n cnt_ (VInt 1) _ (VInt k) (VInt (k + 1)) W E C eq_refl) as (g2 & Q & S2). rewrite Q. eauto.
        -- rewrite (@incr_no_attr g n cnt_ (VInt 1) _ E C). eexists; split; [reflexivity|]. pose proof (add_setp n [(cnt_, VInt 1)] W) as S1. rewrite E in S1. exact S1.
      * rewrite (@incr_missing g n cnt_ (VInt 1) E). eexists; split; [reflexivity|]. pose proof (add_setp n [(cnt_, VInt 1)] W) as S1. rewrite E in S1. exact S1.
    + eexists; split; [reflexivity|]. rewrite has_node_nd. destruct (nd g n) as [a|] eqn:E; [apply setp_refl; assumption|]. pose proof (add_setp n [] W) as S1. rewrite E in S1. exact S1.
Qed.
Fixpoint ev_level (l : list N) : list (event bool) :=
  match l with [] => [] | n1 :: rest => map (Link n1) rest ++ Tick true n1 :: ev_level rest end.
Definition ev_level_record (l : list N) : list (event bool) := match l with [n] => [Tick false n] | _ => ev_level l end.
Lemma level_nodes_ev nc w l : forall g, level_nodes nc w l g = iter (ev w (do_level nc)) (ev_level l) g.
Proof.
  induction l as [|n1 rest IH]; intros g; cbn [level_nodes ev_level]; [reflexivity|].
  rewrite iter_app, iter_map. change (iter (fun b : N => ev w (do_level nc) (Link n1 b)) rest g) with (iter (touch w n1) rest g). destruct (iter (touch w n1) rest g) as [g1|]; [|reflexivity]. cbn [bind iter ev do_level].
  destruct (bump nc n1 g1); [|reflexivity]. cbn [bind]. apply IH.
Qed.
Lemma level_record_ev nc w l g : level_record nc w l g = iter (ev w (do_level nc)) (ev_level_record l) g.
Proof.
  destruct l as [|n [|m l]]; [reflexivity| |apply level_nodes_ev]. cbn. unfold do_level. destruct (bump_single nc n g); reflexivity.
Qed.
Lemma ticks_level n l : ticks n (ev_level l) = count n l.
Proof.
  induction l as [|x l IH]; [reflexivity|]. cbn [ev_level count]. rewrite ticks_app, ticks_links. unfold ticks, total in *. cbn [fold_right]. rewrite IH. reflexivity.
Qed.
Lemma ticks_level_record n l : ticks n (ev_level_record l) = count n l.
Proof. destruct l as [|x [|y l]]; [reflexivity| |apply ticks_level]. unfold ticks, total. cbn. reflexivity. Qed.
Lemma half_step a : (a + 1) * (a + 1 - 1) / 2 = a + a * (a - 1) / 2.
Proof.
  replace ((a + 1) * (a + 1 - 1)) with (a * 2 + a * (a - 1)).
  - rewrite Nat.div_add_l by lia. reflexivity.
  - destruct a; [reflexivity|]. replace (S a - 1) with a by lia. replace (S a + 1 - 1) with (S a) by lia. lia.
Qed.
Lemma links_level l u v : lk false (links_of (ev_level l)) u v = pairs_within u v l.
Proof.
  induction l as [|x l IH]; [unfold pairs_within; destruct (eqb u v); reflexivity|].
  cbn [ev_level]. rewrite links_app, lk_app, links_map_link, lk_from. unfold links_of. cbn [flat_map app]. fold (links_of (ev_level l)). rewrite IH.
  unfold pairs_within. cbn [count]. rewrite (eqb_sym x u), (eqb_sym x v). destruct (eqb_spec u v) as [->|NE].
  - destruct (eqb v x); cbn [Nat.add]; [|reflexivity]. rewrite <- half_step. rewrite Nat.add_1_r. reflexivity.
  - destruct (eqb_spec u x) as [->|NU]; [rewrite (neq_eqb (x:=v) (y:=x)) by congruence; cbn; lia|]. destruct (eqb v x); cbn; lia.
Qed.
Lemma links_level_record l u v : lk false (links_of (ev_level_record l)) u v = pairs_within u v l.
Proof.
  destruct l as [|x [|y l]]; [apply (links_level [])| |apply links_level]. unfold pairs_within. cbn [ev_level_record links_of flat_map app lk total fold_right count]. destruct (eqb_spec u v) as [->|NE]; [destruct (eqb v x); reflexivity|]. destruct (eqb_spec u x) as [->|NU]; [|reflexivity]. rewrite (neq_eqb (x:=v) (y:=x)) by congruence. reflexivity.
Qed.
Lemma mentions_level n l : existsb (mentions n) (ev_level l) = true -> In n l.
Proof.
  rewrite existsb_exists. intros (e & I & M). revert I M. induction l as [|x l IH]; cbn [ev_level]; [intros []|]. rewrite in_app_iff. intros [I|[<-|I]] M.
  - apply in_map_iff in I. destruct I as (y & <- & I). cbn in M. apply orb_true_iff in M. rewrite !eqb_true in M. destruct M as [->| ->]; [left; reflexivity|right; exact I].
  - cbn in M. apply eqb_eq in M. left; auto.
  - right. apply IH; assumption.
Qed.
Lemma mentions_level_record n l : existsb (mentions n) (ev_level_record l) = true -> In n l.
Proof. destruct l as [|x [|y l]]; [discriminate| |apply mentions_level]. cbn. rewrite orb_false_r. intros M. apply eqb_eq in M. left; auto. Qed.
Lemma ticks_one {T} (n : N) (e : event T) : ticks n [e] = match e with Tick _ m => if eqb n m then 1 else 0 | Link _ _ => 0 end.
Proof. unfold ticks, total. cbn. apply Nat.add_0_r. Qed.
Lemma level_nodes_final nc (n : N) (es : list (event bool)) : fold_left (eff_ev (eff_level nc) n) es None =
  if ticks n es =? 0 then (if existsb (mentions n) es then Some [] else None)
  else Some (if nc then [(cnt_, VInt (Z.of_nat (ticks n es)))] else []).
Proof.
  induction es as [|e es IH] using rev_ind; [reflexivity|]. rewrite fold_left_app. cbn [fold_left]. rewrite IH, ticks_app, existsb_app, ticks_one. cbn [existsb]. rewrite orb_false_r.
  destruct e as [u v|t m]; cbn [eff_ev mentions].
  - rewrite Nat.add_0_r. destruct (eqb n u || eqb n v) eqn:M; rewrite ?orb_true_r, ?orb_false_r.
    + destruct (ticks n es =? 0); [|reflexivity]. destruct (existsb (mentions n) es); reflexivity.
    + reflexivity.
  - destruct (eqb n m) eqn:M; rewrite ?orb_true_r, ?orb_false_r; [|rewrite Nat.add_0_r; reflexivity].
    destruct (Nat.eqb_spec (ticks n es + 1) 0); [lia|]. unfold eff_level.
    destruct (Nat.eqb_spec (ticks n es) 0) as [Z0|Z0].
    + rewrite Z0. destruct (existsb (mentions n) es); cbn [or_empty]; destruct nc; reflexivity.
    + cbn [or_empty]. destruct nc; [|reflexivity]. unfold add1. cbn [dget]. rewrite eqb_refl. cbn [dset]. rewrite eqb_refl. do 4 f_equal. lia.
Qed.

Section Coll.
Context {R V : Type} (get : R -> str -> option (fval V)) (str_of str_of2 : V -> N).
Lemma multi_level_spec modes nc w rs :
  exists g, multi_level get str_of modes nc w rs = Ok g /\ WF g /\ gdir g = false /\
    (forall n, nd g n = let k := occurs (level_contents get str_of modes) rs n in
       if k =? 0 then None else Some (if nc then [(cnt_, VInt (Z.of_nat k))] else [])) /\
    (forall u v, ed g u v = edge_value w (total (fun r => pairs_within u v (level_contents get str_of modes r)) rs)).
Proof.
  set (h := fun r => ev_level_record (level_contents get str_of modes r)).
  destruct (@run_empty N _ bool w (do_level nc) (eff_level nc) plain plain_nil) with (es := flat_map h rs) (d := false) as (g & E & W & D & L & M).
  - intros t o. apply level_ok.
  - intros t n g W F. destruct (level_spec nc t n W F) as (g' & Q & S). exists g'. split; [exact Q|]. exact S.
  - exists g. split; [|split; [exact W|split; [exact D|split]]].
    + unfold multi_level. rewrite <- E, iter_flat. apply iter_ext. intros r g0. apply level_record_ev.
    + intros n. rewrite M, level_nodes_final, ticks_flat. cbv zeta.
      replace (total (fun b => ticks n (h b)) rs) with (occurs (level_contents get str_of modes) rs n).
      2:{ unfold occurs. apply total_ext. intros r _. symmetry. apply ticks_level_record. }
      destruct (Nat.eqb_spec (occurs (level_contents get str_of modes) rs n) 0) as [Z0|Z0]; [|reflexivity].
      destruct (existsb (mentions n) (flat_map h rs)) eqn:X; [|reflexivity]. exfalso. apply existsb_exists in X. destruct X as (e & I & X).
      apply in_flat_map in I. destruct I as (r & I & J). assert (In n (level_contents get str_of modes r)).
      { apply mentions_level_record. apply existsb_exists. exists e. auto. }
      apply count_In in H0. assert (count n (level_contents get str_of modes r) <= 0); [|lia]. rewrite <- Z0. unfold occurs.
      clear -I. induction rs as [|r' rs IH]; [destruct I|]. unfold total in *. cbn [fold_right]. destruct I as [->|I]; [lia|]. specialize (IH I). lia.
    + intros u v. rewrite L, lk_flat. f_equal. apply total_ext. intros r _. apply links_level_record.
Qed.
End Coll.
End Proofs.
