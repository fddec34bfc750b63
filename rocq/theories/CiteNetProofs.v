(** The networks of recordCollection.py as sequences of steps. *)
From Coq Require Import String Lia.
From Verif Require Import Base PyStr Nx NxFacts RecordView SeriesSpec RecordViewFacts NetModel NetSpec NetFacts NetProofs CiteNetModel CiteNetFacts CiteNetSpec.
Set Implicit Arguments.

Section General.
Context {I : Type} `{EqDec I}.
Fixpoint pairs_list (l : list I) : list (I * I) := match l with [] => [] | x :: l' => map (fun y => (x, y)) l' ++ pairs_list l' end.
Lemma lk_pairs l u v : lk false (pairs_list l) u v = pairs_within u v l.
Proof.
  rewrite <- links_level. f_equal. induction l as [|x l IH]; [reflexivity|]. cbn [pairs_list ev_level]. rewrite links_app, links_map_link.
  unfold links_of at 1. cbn [flat_map app]. fold (links_of (ev_level l)). rewrite IH. reflexivity.
Qed.
Definition edge_list (es : list op) : list (I * I) := flat_map (fun p => match p with Edge u v _ => [(u, v)] | _ => [] end) es.
Lemma edges_met_lk d es u v : edges_met d es u v = lk d (edge_list es) u v.
Proof.
  unfold edges_met, lk. induction es as [|p es IH]; [reflexivity|]. unfold edge_list. cbn [flat_map]. fold (edge_list es). rewrite total_app, <- IH. unfold total at 1. cbn [fold_right].
  destruct p as [| |x y z]; [reflexivity|reflexivity|]. unfold total. cbn [fold_right edge_of fst snd]. rewrite Nat.add_0_r. reflexivity.
Qed.
Lemma edge_list_app a b : edge_list (a ++ b) = edge_list a ++ edge_list b.
Proof. apply flat_map_app. Qed.
Lemma edge_list_flat {R} (h : R -> list (@op I)) rs : edge_list (flat_map h rs) = flat_map (fun r => edge_list (h r)) rs.
Proof. induction rs as [|r rs IH]; [reflexivity|]. cbn [flat_map]. rewrite edge_list_app, IH. reflexivity. Qed.
Lemma lk_flat_map {R} d (h : R -> list (I * I)) rs u v : lk d (flat_map h rs) u v = total (fun r => lk d (h r) u v) rs.
Proof. induction rs as [|r rs IH]; [reflexivity|]. cbn [flat_map]. rewrite lk_app, IH. reflexivity. Qed.
Lemma find_ext {A} (f f' : A -> bool) l : (forall x, f x = f' x) -> find f l = find f' l.
Proof. intros E. induction l as [|x l IH]; [reflexivity|]. cbn [find]. rewrite E, IH. reflexivity. Qed.
Lemma sees_flat {R} (n : I) (h : R -> list op) rs : sees n (flat_map h rs) = total (fun r => sees n (h r)) rs.
Proof. induction rs as [|r rs IH]; [reflexivity|]. cbn [flat_map]. rewrite sees_app, IH. reflexivity. Qed.
Lemma names_flat {R} (h : R -> list (@op I)) rs : names (flat_map h rs) = flat_map (fun r => names (h r)) rs.
Proof. induction rs as [|r rs IH]; [reflexivity|]. cbn [flat_map]. rewrite names_app, IH. reflexivity. Qed.
Lemma find_flat {A R} (f : A -> bool) (h : R -> list A) (rs : list R) :
  find f (flat_map h rs) = match find (fun r => existsb f (h r)) rs with Some r => find f (h r) | None => None end.
Proof.
  induction rs as [|r rs IH]; [reflexivity|]. cbn [flat_map find].
  assert (FA : forall a b, find f (a ++ b) = match find f a with Some x => Some x | None => find f b end).
  { clear. intros a b. induction a as [|x a IH]; [reflexivity|]. cbn [app find]. destruct (f x); [reflexivity|exact IH]. }
  rewrite FA. destruct (find f (h r)) as [x|] eqn:F.
  - replace (existsb f (h r)) with true; [symmetry; exact F|]. symmetry. apply existsb_exists. apply find_some in F. exists x. exact F.
  - replace (existsb f (h r)) with false; [exact IH|]. symmetry. destruct (existsb f (h r)) eqn:X; [|reflexivity]. apply existsb_exists in X. destruct X as (x & X1 & X2).
    pose proof (find_none f _ F x X1). congruence.
Qed.

Variables (cnt w : bool).
(** edges without extra attributes, the way networkCoAuthor does them *)
Definition do_join (p : op) (g : graph I) : res (graph I) := match p with Edge u v _ => join_two w u v g | _ => do_op cnt w p g end.
Lemma join_op d es u v (g : graph I) : state cnt w d es g -> join_two w u v g = do_op cnt w (Edge u v None) g.
Proof.
  intros (W & D & M & E). unfold join_two, has_edge. cbn [do_op]. specialize (E u v). unfold edge_final in E. destruct w; [|rewrite andb_false_r; reflexivity]. rewrite andb_true_r.
  destruct (find (edge_of d u v) es) as [p|]; unfold edge_incr; rewrite E; [|reflexivity]. cbn [dget]. rewrite eqb_refl. reflexivity.
Qed.
Lemma iter_join d es : closed [] es -> dictlike es -> (forall u v y, In (Edge u v y) es -> y = None) ->
  iter do_join es (empty_graph d) = iter (do_op cnt w) es (empty_graph d).
Proof.
  induction es as [|p es IH] using rev_ind; intros C DL Y; [reflexivity|]. apply closed_app in C. destruct C as [C _].
  assert (DL' : dictlike es) by (intros q K; apply DL, in_or_app; left; exact K).
  rewrite !iter_app, IH; [|exact C|exact DL'|intros; eapply Y, in_or_app; left; eassumption].
  destruct (ops_spec cnt w d C DL') as (g & R & S). rewrite R. cbn [bind iter]. destruct p as [| |u v y]; [reflexivity|reflexivity|].
  rewrite (Y u v y) by (apply in_or_app; right; left; reflexivity). cbn [do_join]. rewrite (join_op u v S). reflexivity.
Qed.
End General.

Section Authors.
Context {I R : Type} `{EqDec I}.
Fixpoint author_ops (a : attrs) (l : list I) : list op :=
  match l with [] => [] | n :: rest => See n a :: flat_map (fun m => [See m a; Edge n m None]) rest ++ author_ops a rest end.
Lemma author_list_ops cnt w a l : forall g, author_list cnt w (with_count cnt a) l g = iter (do_join cnt w) (author_ops a l) g.
Proof.
  induction l as [|n rest IH]; intros g; [reflexivity|]. cbn [author_list author_ops].
  change (iter (do_join cnt w) (See n a :: flat_map (fun m => [See m a; Edge n m None]) rest ++ author_ops a rest) g)
    with (bind (see_author cnt (with_count cnt a) n g) (fun g1 => iter (do_join cnt w) (flat_map (fun m => [See m a; Edge n m None]) rest ++ author_ops a rest) g1)).
  destruct (see_author cnt (with_count cnt a) n g) as [g1|]; [|reflexivity]. cbn [bind]. rewrite iter_app, iter_flat.
  erewrite iter_ext; [|intros m g'; instantiate (1 := fun m => iter (do_join cnt w) [See m a; Edge n m None])].
  - destruct (iter _ rest g1); [apply IH|reflexivity].
  - cbn [iter]. change (do_join cnt w (See m a) g') with (see_author cnt (with_count cnt a) m g'). destruct (see_author cnt (with_count cnt a) m g') as [g2|]; [|reflexivity].
    cbn [bind]. cbn [do_join]. destruct (join_two w n m g2); reflexivity.
Qed.
Lemma author_inner_sees (n x : I) a rest : sees x (flat_map (fun m => [See m a; Edge n m None]) rest) = count x rest.
Proof. induction rest as [|m rest IH]; [reflexivity|]. cbn [flat_map]. rewrite sees_app, IH. unfold sees, total. cbn [fold_right count]. destruct (eqb x m); reflexivity. Qed.
Lemma positions_shift (n : I) l : forall k, positions_from (S k) n l = positions_from k n l + count n l.
Proof. induction l as [|x l IH]; intros k; [reflexivity|]. cbn [positions_from count]. rewrite (IH (S k)). destruct (eqb n x); lia. Qed.
Lemma author_sees a (n : I) l : sees n (author_ops a l) = positions_from 1 n l.
Proof.
  induction l as [|x l IH]; [reflexivity|]. cbn [author_ops positions_from].
  change (See x a :: flat_map (fun m => [See m a; Edge x m None]) l ++ author_ops a l) with ([See x a] ++ flat_map (fun m => [See m a; Edge x m None]) l ++ author_ops a l).
  rewrite !sees_app, IH, author_inner_sees, (positions_shift n l 1). unfold sees, total. cbn. destruct (eqb n x); lia.
Qed.
Lemma author_edges a (l : list I) : edge_list (author_ops a l) = pairs_list l.
Proof.
  induction l as [|x l IH]; [reflexivity|]. cbn [author_ops pairs_list]. unfold edge_list. cbn [flat_map]. fold (edge_list (flat_map (fun m => [See m a; Edge x m None]) l ++ author_ops a l)).
  cbn [app]. rewrite edge_list_app, IH. f_equal.
  assert (Q : forall k, edge_list (flat_map (fun m => [See m a; Edge x m None]) k) = map (fun y => (x, y)) k).
  { clear. induction k as [|y k IH]; [reflexivity|]. cbn [flat_map map]. rewrite edge_list_app, IH. reflexivity. }
  apply Q.
Qed.
Lemma author_names a l (n : I) : In n (names (author_ops a l)) <-> In n l.
Proof.
  induction l as [|x l IH]; [reflexivity|]. cbn [author_ops]. unfold names. cbn [flat_map app]. fold (names (flat_map (fun m => [See m a; Edge x m None]) l ++ author_ops a l)).
  cbn [In]. rewrite names_app, in_app_iff, IH. assert (Q : In n (names (flat_map (fun m => [See m a; Edge x m None]) l)) <-> In n l).
  { clear. induction l as [|y l IH]; [reflexivity|]. cbn [flat_map]. rewrite names_app. cbn. rewrite IH. reflexivity. }
  rewrite Q. tauto.
Qed.
Lemma author_closed a (l : list I) : forall s, closed s (author_ops a l).
Proof.
  induction l as [|x l IH]; intros s; [exact Logic.I|]. cbn [author_ops closed]. apply closed_app. split; [|apply IH].
  assert (Q : forall k t, In x t -> closed t (flat_map (fun m => [See m a; Edge x m None]) k)).
  { clear. induction k as [|y k IH]; intros t T; [exact Logic.I|]. cbn. split; [right; exact T|]. split; [left; reflexivity|]. apply IH. right. exact T. }
  apply Q. left. reflexivity.
Qed.
Lemma author_plain a (l : list I) p : In p (author_ops a l) -> (forall u v y, p = Edge u v y -> y = None) /\ (op_attrs p = a \/ op_attrs p = []) /\ op_head p = 0 /\ (forall n, about n p = true -> op_attrs p = a).
Proof.
  induction l as [|x l IH]; cbn [author_ops]; [intros []|]. intros [<-|K].
  - split; [discriminate|]. cbn. auto.
  - apply in_app_iff in K. destruct K as [K|K]; [|apply IH, K]. apply in_flat_map in K. destruct K as (m & _ & [<-|[<-|[]]]).
    + split; [discriminate|]. cbn. auto.
    + split; [intros u v y Q; congruence|]. cbn. split; [auto|]. split; [reflexivity|discriminate].
Qed.

Lemma co_author_spec (authors : R -> list I) journal (details : R -> attrs) w dropNJ cnt rs :
  (forall r, In r rs -> NoDup (dkeys (details r))) ->
  let rs' := filter (fun r => negb dropNJ || journal r) rs in
  exists g, co_author authors journal details w dropNJ cnt rs = Ok g /\ WF g /\ gdir g = false /\
    (forall n, nd g n = match find (fun r => mem n (authors r)) rs' with
                        | None => None
                        | Some r => Some (if cnt then dset cnt_ (VInt (Z.of_nat (total (fun r => positions_from 1 n (authors r)) rs'))) (details r) else details r)
                        end) /\
    (forall u v, ed g u v = edge_value w (total (fun r => pairs_within u v (authors r)) rs')).
Proof.
  intros ND rs'. set (h := fun r => author_ops (details r) (authors r)).
  assert (IN : forall r, In r rs' -> In r rs) by (intros r K; apply filter_In in K; apply K).
  assert (C : closed [] (flat_map h rs')) by (apply closed_flat; intros r _; apply author_closed).
  assert (PL : forall p, In p (flat_map h rs') -> exists r, In r rs' /\ In p (h r)) by (intros p K; apply in_flat_map in K; exact K).
  assert (DL : dictlike (flat_map h rs')).
  { intros p K. destruct (PL p K) as (r & Ir & Ip). destruct (author_plain _ _ _ Ip) as (_ & [->| ->] & _); [apply ND, IN, Ir|constructor]. }
  destruct (ops_spec cnt w false C DL) as (g & RUN & W & D & M & E). exists g. split; [|split; [exact W|split; [exact D|split]]].
  - rewrite <- RUN, <- iter_join; [|exact C|exact DL|].
    + rewrite iter_flat. unfold co_author. unfold rs'. generalize (empty_graph (V:=I) false). clear. induction rs as [|r rs IH]; intros g; [reflexivity|]. cbn [iter filter].
      assert (AL : forall g', author_list cnt w (author_attrs cnt details r) (authors r) g' = iter (do_join cnt w) (h r) g') by (intros g'; apply author_list_ops).
      destruct dropNJ, (journal r); cbn [negb andb orb iter bind]; rewrite ?AL; try (destruct (iter (do_join cnt w) (h r) g); [apply IH|reflexivity]). apply IH.
    + intros u v y K. destruct (PL _ K) as (r & _ & Ip). destruct (author_plain _ _ _ Ip) as (Q & _). apply (Q u v y eq_refl).
  - intros n. rewrite M. unfold node_final. rewrite find_flat.
    assert (EX : forall r, existsb (about n) (h r) = mem n (authors r)).
    { intros r. apply eq_true_iff_eq. rewrite mem_In, <- (author_names (details r) (authors r)). split.
      - intros X. destruct (find (about n) (h r)) eqn:F; [destruct (in_dec eq_dec n (names (h r))) as [K|K]; [exact K|apply about_names in K; fold (h r) in K; congruence]|].
        apply existsb_exists in X. destruct X as (p & A & B). pose proof (find_none _ _ F p A). congruence.
      - intros K. destruct (find (about n) (h r)) as [p|] eqn:F; [apply find_some in F; apply existsb_exists; exists p; exact F|]. apply about_names in F. contradiction. }
    rewrite (find_ext _ _ _ EX). destruct (find (fun r => mem n (authors r)) rs') as [r|] eqn:F; [|reflexivity]. apply find_some in F. destruct F as [Ir Mr].
    destruct (find (about n) (h r)) as [p|] eqn:Fp.
    + apply find_some in Fp. destruct Fp as [Ip Ap]. destruct (author_plain _ _ _ Ip) as (_ & _ & Z & Q). rewrite (Q n Ap), Z, Nat.add_0_r, sees_flat.
      rewrite (total_ext _ (fun r => positions_from 1 n (authors r)) rs') by (intros r' _; apply author_sees). reflexivity.
    + exfalso. rewrite <- EX in Mr. apply existsb_exists in Mr. destruct Mr as (p & A & B). pose proof (find_none _ _ Fp p A). congruence.
  - intros u v. rewrite E. unfold edge_final, edge_value.
    assert (K : edges_met false (flat_map h rs') u v = total (fun r => pairs_within u v (authors r)) rs').
    { rewrite edges_met_lk, edge_list_flat, lk_flat_map. apply total_ext. intros r _. unfold h. rewrite author_edges. apply lk_pairs. }
    destruct (find (edge_of false u v) (flat_map h rs')) as [p|] eqn:F.
    + assert (Z : edges_met false (flat_map h rs') u v <> 0) by (intros Z; apply no_edges in Z; congruence). rewrite K in Z. destruct (Nat.eqb_spec (total (fun r => pairs_within u v (authors r)) rs') 0); [contradiction|].
      apply find_some in F. destruct F as [Ip Ep]. destruct (PL _ Ip) as (r & _ & Ip'). destruct (author_plain _ _ _ Ip') as (Q & _). destruct p as [| |a b y]; try discriminate. rewrite (Q a b y eq_refl), K. reflexivity.
    + apply no_edges in F. rewrite <- K, F. reflexivity.
Qed.
End Authors.
