(** Running a sequence of "count this edge" and "count this node" steps on a graph. *)
From Coq Require Import String Lia.
From Verif Require Import Base PyStr Nx NxFacts RecordView SeriesSpec RecordViewFacts NetModel NetSpec.
Set Implicit Arguments.

Lemma iter_app {A G} (f : A -> G -> res G) l m g : iter f (l ++ m) g = let* g' := iter f l g in iter f m g'.
Proof. revert g. induction l as [|x l IH]; intros g; cbn; [reflexivity|]. destruct (f x g); cbn; [apply IH|reflexivity]. Qed.
Lemma iter_flat {A B G} (f : A -> G -> res G) (h : B -> list A) l : forall g, iter f (flat_map h l) g = iter (fun b => iter f (h b)) l g.
Proof. induction l as [|x l IH]; intros g; cbn; [reflexivity|]. rewrite iter_app. destruct (iter f (h x) g); cbn; [apply IH|reflexivity]. Qed.
Lemma iter_map {A B G} (f : A -> G -> res G) (h : B -> A) l : forall g, iter f (map h l) g = iter (fun b => f (h b)) l g.
Proof. induction l as [|x l IH]; intros g; cbn; [reflexivity|]. destruct (f (h x) g); cbn; [apply IH|reflexivity]. Qed.
Lemma iter_ext {A G} (f f' : A -> G -> res G) l : (forall x g, f x g = f' x g) -> forall g, iter f l g = iter f' l g.
Proof. intros E. induction l as [|x l IH]; intros g; cbn; [reflexivity|]. rewrite E. destruct (f' x g); cbn; [apply IH|reflexivity]. Qed.
Lemma bind_assoc {A B C} (m : res A) (f : A -> res B) (g : B -> res C) : bind (bind m f) g = bind m (fun x => bind (f x) g).
Proof. destruct m; reflexivity. Qed.

Section Facts.
Context {N : Type} `{EqDec N}.

(** number of listed pairs that are the edge u-v *)
Definition lk (d : bool) (L : list (N * N)) (u v : N) : nat := total (fun e => if same_edge d (fst e) (snd e) u v then 1 else 0) L.
Lemma lk_app d L M u v : lk d (L ++ M) u v = lk d L u v + lk d M u v.
Proof. apply total_app. Qed.
Definition tallied (w : bool) (L : list (N * N)) (g : graph N) : Prop :=
  forall u v, ed g u v = edge_value w (lk (gdir g) L u v).

Lemma add_edge_present (g : graph N) u v a : WF g -> ed g u v = Some a -> forall m, (if eqb m u || eqb m v then Some (or_empty (nd g m)) else nd g m) = nd g m.
Proof.
  intros W E m. pose proof (ed_source _ _ W E) as Iu. pose proof (wf_ends W _ _ E) as Iv. apply nd_In in Iu. apply nd_In in Iv.
  destruct Iu as [au Au], Iv as [av Av].
  destruct (eqb_spec m u) as [->|Nu]; [cbn; rewrite Au; reflexivity|]. destruct (eqb_spec m v) as [->|Nv]; [cbn; rewrite Av; reflexivity|]. reflexivity.
Qed.
Lemma same_edge_same d (u v x y : N) : same_edge d u v x y = true -> forall x' y' : N, same_edge d u v x' y' = same_edge d x y x' y'.
Proof.
  intros Q. apply same_edge_true in Q. destruct Q as [[-> ->]|(-> & -> & ->)]; intros x' y'; [reflexivity|].
  unfold same_edge. cbn. apply orb_comm.
Qed.
Lemma lk_edge d L (u v x y : N) : same_edge d u v x y = true -> lk d L x y = lk d L u v.
Proof.
  intros Q. unfold lk. apply total_ext. intros e _. apply same_edge_true in Q. destruct Q as [[-> ->]|(-> & -> & ->)]; [reflexivity|]. rewrite same_edge_sym. reflexivity.
Qed.
Lemma touch_spec w u v L (g : graph N) : WF g -> tallied w L g ->
  exists g', touch w u v g = Ok g' /\ WF g' /\ gdir g' = gdir g /\ tallied w (L ++ [(u, v)]) g' /\
    forall m, nd g' m = if eqb m u || eqb m v then Some (or_empty (nd g m)) else nd g m.
Proof.
  intros W T. pose proof (T u v) as Tuv. unfold edge_value in Tuv.
  assert (NEW : forall g', gdir g' = gdir g -> (forall x y, ed g' x y = if same_edge (gdir g) u v x y then edge_value w (lk (gdir g) L u v + 1) else ed g x y) ->
     tallied w (L ++ [(u, v)]) g').
  { intros g' D E x y. rewrite E, D, lk_app. unfold lk at 3. cbn [total fold_right fst snd]. destruct (same_edge (gdir g) u v x y) eqn:Q.
    - rewrite (lk_edge _ _ _ _ _ _ Q). reflexivity.
    - rewrite T, Nat.add_0_r. reflexivity. }
  unfold touch. destruct w.
  - unfold edge_incr. destruct (Nat.eqb_spec (lk (gdir g) L u v) 0) as [Z0|Z0]; rewrite Tuv.
    + eexists; split; [reflexivity|]. split; [apply WF_add_edge, W|]. split; [apply gdir_add_edge|]. split.
      * apply NEW; [apply gdir_add_edge|]. intros x y. rewrite ed_add_edge by exact W. rewrite Tuv, Z0. reflexivity.
      * intros m. apply nd_add_edge, W.
    + cbn [dget]. rewrite eqb_refl. cbn [vadd as_int bind dset]. rewrite eqb_refl. eexists; split; [reflexivity|].
      assert (Iu : In u (nodes g)) by (eapply ed_source; [exact W|exact Tuv]). assert (Iv : In v (nodes g)) by (eapply (wf_ends W); exact Tuv).
      split; [apply WF_put_edge; try assumption; cbn; constructor; [intros []|constructor]|]. split; [reflexivity|]. split.
      * apply NEW; [reflexivity|]. intros x y. rewrite ed_put_edge by assumption. destruct (same_edge (gdir g) u v x y); [|reflexivity].
        unfold edge_value. destruct (Nat.eqb_spec (lk (gdir g) L u v + 1) 0); [lia|]. rewrite Nat2Z.inj_add. reflexivity.
      * intros m. rewrite (add_edge_present _ _ W Tuv). reflexivity.
  - unfold has_edge. destruct (Nat.eqb_spec (lk (gdir g) L u v) 0) as [Z0|Z0]; rewrite Tuv.
    + eexists; split; [reflexivity|]. split; [apply WF_add_edge, W|]. split; [apply gdir_add_edge|]. split.
      * apply NEW; [apply gdir_add_edge|]. intros x y. rewrite ed_add_edge by exact W. rewrite Tuv, Z0. reflexivity.
      * intros m. apply nd_add_edge, W.
    + exists g. split; [reflexivity|]. split; [exact W|]. split; [reflexivity|]. split.
      * apply NEW; [reflexivity|]. intros x y. destruct (same_edge (gdir g) u v x y) eqn:Q; [|reflexivity].
        rewrite T, (lk_edge _ _ _ _ _ _ Q). unfold edge_value. destruct (Nat.eqb_spec (lk (gdir g) L u v) 0); [lia|]. destruct (Nat.eqb_spec (lk (gdir g) L u v + 1) 0); [lia|reflexivity].
      * intros m. rewrite (add_edge_present _ _ W Tuv). reflexivity.
Qed.

(** ** sequences of steps *)
Inductive event (T : Type) := Link (u v : N) | Tick (t : T) (n : N).
Arguments Link {T} u v.
Arguments Tick {T} t n.
Section Run.
Context {T : Type} (w : bool) (do : T -> N -> graph N -> res (graph N)) (eff : T -> option attrs -> attrs) (ok : attrs -> Prop).
Definition fine (o : option attrs) : Prop := match o with Some a => ok a | None => True end.
Hypothesis ok_nil : ok [].
Hypothesis ok_eff : forall t o, fine o -> ok (eff t o).
Hypothesis do_spec : forall t n g, WF g -> fine (nd g n) ->
  exists g', do t n g = Ok g' /\ WF g' /\ gdir g' = gdir g /\ (forall u v, ed g' u v = ed g u v) /\
    forall m, nd g' m = if eqb m n then Some (eff t (nd g n)) else nd g m.
Definition ev (e : event T) (g : graph N) : res (graph N) :=
  match e with Link u v => touch w u v g | Tick t n => do t n g end.
Definition links_of (es : list (event T)) : list (N * N) := flat_map (fun e => match e with Link u v => [(u, v)] | Tick _ _ => [] end) es.
Definition eff_ev (n : N) (o : option attrs) (e : event T) : option attrs :=
  match e with
  | Link u v => if eqb n u || eqb n v then Some (or_empty o) else o
  | Tick t m => if eqb n m then Some (eff t o) else o
  end.
Lemma run_spec es : forall L g, WF g -> tallied w L g -> (forall n, fine (nd g n)) ->
  exists g', iter ev es g = Ok g' /\ WF g' /\ gdir g' = gdir g /\ tallied w (L ++ links_of es) g' /\
    (forall n, fine (nd g' n)) /\ forall n, nd g' n = fold_left (eff_ev n) es (nd g n).
Proof.
  induction es as [|e es IH]; intros L g W TL F.
  - exists g. cbn. rewrite app_nil_r. auto 10.
  - assert (S1 : exists g1, ev e g = Ok g1 /\ WF g1 /\ gdir g1 = gdir g /\ tallied w (L ++ links_of [e]) g1 /\ (forall n, fine (nd g1 n)) /\ forall n, nd g1 n = eff_ev n (nd g n) e).
    { destruct e as [u v|t n]; cbn [ev links_of flat_map app].
      - destruct (touch_spec u v W TL) as (g1 & E & W1 & D1 & T1 & N1). exists g1. split; [exact E|]. split; [exact W1|]. split; [exact D1|]. split; [exact T1|]. split; [|exact N1].
        intros m. rewrite N1. destruct (eqb m u || eqb m v); [|apply F]. specialize (F m). destruct (nd g m); cbn; [exact F|exact ok_nil].
      - destruct (do_spec t n W (F n)) as (g1 & E & W1 & D1 & E1 & N1). exists g1. split; [exact E|]. split; [exact W1|]. split; [exact D1|]. split; [|split].
        + intros x y. rewrite app_nil_r, E1, D1. apply TL.
        + intros m. rewrite N1. destruct (eqb_spec m n) as [->|]; [cbn; apply ok_eff, F|apply F].
        + intros m. rewrite N1. cbn. destruct (eqb_spec m n) as [->|]; reflexivity. }
    destruct S1 as (g1 & E & W1 & D1 & T1 & F1 & N1). destruct (IH (L ++ links_of [e]) g1 W1 T1 F1) as (g' & E' & W' & D' & T' & F' & N').
    exists g'. cbn [iter]. rewrite E. cbn [bind]. split; [exact E'|]. split; [exact W'|]. split; [congruence|]. split; [|split; [exact F'|]].
    + replace (L ++ links_of (e :: es)) with ((L ++ links_of [e]) ++ links_of es); [exact T'|]. rewrite <- app_assoc. f_equal. unfold links_of. cbn [flat_map]. rewrite app_nil_r. reflexivity.
    + intros n. cbn [fold_left]. rewrite N', N1. reflexivity.
Qed.
Lemma run_empty es d : exists g', iter ev es (empty_graph d) = Ok g' /\ WF g' /\ gdir g' = d /\
  (forall u v, ed g' u v = edge_value w (lk d (links_of es) u v)) /\ forall n, nd g' n = fold_left (eff_ev n) es None.
Proof.
  destruct (@run_spec es [] (empty_graph d)) as (g' & E & W & D & T1 & _ & N1).
  - apply WF_empty.
  - intros u v. reflexivity.
  - intros n. exact I.
  - exists g'. split; [exact E|]. split; [exact W|]. split; [exact D|]. split; [|exact N1]. intros u v. rewrite T1, D. reflexivity.
Qed.
Lemma links_app es fs : links_of (es ++ fs) = links_of es ++ links_of fs.
Proof. apply flat_map_app. Qed.
Lemma lk_flat {B} d (h : B -> list (event T)) l u v : lk d (links_of (flat_map h l)) u v = total (fun b => lk d (links_of (h b)) u v) l.
Proof. induction l as [|x l IH]; [reflexivity|]. cbn [flat_map]. rewrite links_app, lk_app, IH. reflexivity. Qed.
Lemma links_map_link n1 l : links_of (map (Link n1) l) = map (fun n2 => (n1, n2)) l.
Proof. induction l as [|x l IH]; [reflexivity|]. unfold links_of in *. cbn. rewrite IH. reflexivity. Qed.

(** number of steps that count [n] *)
Definition ticks (n : N) (es : list (event T)) : nat := total (fun e => match e with Tick _ m => if eqb n m then 1 else 0 | Link _ _ => 0 end) es.
Lemma ticks_app n es fs : ticks n (es ++ fs) = ticks n es + ticks n fs.
Proof. apply total_app. Qed.
Lemma ticks_flat {B} n (h : B -> list (event T)) l : ticks n (flat_map h l) = total (fun b => ticks n (h b)) l.
Proof. induction l as [|x l IH]; [reflexivity|]. cbn [flat_map]. rewrite ticks_app, IH. reflexivity. Qed.
Lemma ticks_links n n1 l : ticks n (map (Link n1) l) = 0.
Proof. induction l as [|x l IH]; [reflexivity|]. unfold ticks in *. cbn. exact IH. Qed.
Lemma ticks_map n t l : ticks n (map (Tick t) l) = count n l.
Proof. induction l as [|x l IH]; [reflexivity|]. unfold ticks, total in *. cbn [map fold_right count]. rewrite IH. reflexivity. Qed.
(** does the step mention [n] *)
Definition mentions (n : N) (e : event T) : bool := match e with Link u v => eqb n u || eqb n v | Tick _ m => eqb n m end.
Lemma unmentioned n es o : existsb (mentions n) es = false -> fold_left (eff_ev n) es o = o.
Proof.
  revert o. induction es as [|e es IH]; intros o Q; [reflexivity|]. cbn in Q. apply orb_false_iff in Q. destruct Q as [Q1 Q2]. cbn [fold_left].
  rewrite IH by exact Q2. destruct e; cbn in *; rewrite Q1; reflexivity.
Qed.
End Run.

Lemma lk_from d n1 l u v : lk d (map (fun n2 => (n1, n2)) l) u v =
  if d then (if eqb n1 u then count v l else 0)
  else if eqb u v then (if eqb n1 u then count u l else 0)
  else (if eqb n1 u then count v l else 0) + (if eqb n1 v then count u l else 0).
Proof.
  induction l as [|x l IH].
  - cbn. destruct d, (eqb n1 u), (eqb u v), (eqb n1 v); reflexivity.
  - unfold lk, total in *. cbn [map fold_right fst snd count]. rewrite IH. unfold same_edge. destruct d; cbn [negb andb orb].
    + rewrite orb_false_r, (eqb_sym u n1). destruct (eqb n1 u), (eqb v x); cbn; lia.
    + rewrite (eqb_sym u n1), (eqb_sym v n1). destruct (eqb_spec u v) as [->|NE].
      * destruct (eqb_spec n1 v) as [->|N1]; [|rewrite andb_false_r; reflexivity]. destruct (eqb_spec v x) as [->|N2]; cbn; [reflexivity|]. destruct (eqb_spec x v); [congruence|reflexivity].
      * destruct (eqb_spec n1 u) as [->|N1].
        -- rewrite (neq_eqb (x:=u) (y:=v)) by exact NE. rewrite andb_false_r, orb_false_r. cbn [andb]. destruct (eqb v x); cbn; lia.
        -- cbn [andb orb]. destruct (eqb_spec n1 v) as [->|N2]; rewrite ?andb_true_r, ?andb_false_r; [|lia]. destruct (eqb u x); cbn; lia.
Qed.
End Facts.
Arguments Link {N T} u v.
Arguments Tick {N T} t n.
