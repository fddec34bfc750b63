(** C78: networks whose edges are told apart by an attribute of the records. *)
From Coq Require Import String Lia.
From Verif Require Import Base PyStr Nx NxFacts RecordView SeriesSpec RecordViewFacts NetModel NetSpec NetFacts NetProofs NetProofs2 KeyNetModel KeyNetSpec KeyNetFacts.
From Verif Require PropertiesNet.

Lemma between_key {N K} `{EqDec N} `{EqDec K} d (u v : N) (k : K) e : at_key d u v k e = true <-> is_between d u v k e.
Proof.
  destruct e as [[[x y] k'] w]. unfold at_key, is_between. rewrite andb_true_iff, orb_true_iff, !andb_true_iff, !eqb_true, negb_true_iff. intuition congruence.
Qed.
Lemma tallied_edges {N K} `{EqDec N} `{EqDec K} w d (L : list (N * N * K)) l n : tallied_k w d L l -> (forall u v k, n u v k = klk d L u v k) -> edges_are d w l n.
Proof.
  intros T E u v k. specialize (T u v k). rewrite <- E in T. unfold met in T. split.
  - intros Z0 e I B. rewrite Z0 in T. cbn in T. apply map_eq_nil in T. apply between_key in B. assert (X : In e (filter (at_key d u v k) l)) by (apply filter_In; auto). rewrite T in X. exact X.
  - intros P. destruct (Nat.eqb_spec (n u v k) 0) as [Z0|_]; [lia|]. clear E P. revert T. induction l as [|e l IH]; [discriminate|]. cbn [filter]. destruct (at_key d u v k e) eqn:A.
    + cbn [map]. intros Q. injection Q as Q1 Q2. apply map_eq_nil in Q2. exists [], e, l. split; [reflexivity|]. split; [apply between_key, A|]. split; [exact Q1|]. intros e' I B. apply between_key in B. assert (X : In e' (filter (at_key d u v k) l)) by (apply filter_In; auto). rewrite Q2 in X. exact X.
    + intros Q. destruct (IH Q) as (a & e' & b & -> & B & S & NB). exists (e :: a), e', b. split; [reflexivity|]. split; [exact B|]. split; [exact S|]. intros e2 [<-|I]; [intros X; apply between_key in X; congruence|apply NB, I].
Qed.
Section Events.
Context {N K T : Type} `{EqDec N} `{EqDec K}.
Lemma klk_flat {B} d (h : B -> list (kevent (N:=N) (K:=K) T)) l u v k : klk d (touches (flat_map h l)) u v k = total (fun b => klk d (touches (h b)) u v k) l.
Proof. induction l as [|x l IH]; [reflexivity|]. cbn [flat_map]. rewrite touches_app, klk_app, IH. reflexivity. Qed.
Lemma ticks_expand n ks (es : list (event (N:=N) T)) : ticks n (map erase (expand (K:=K) ks es)) = ticks n es.
Proof.
  rewrite erase_expand. induction es as [|e es IH]; [reflexivity|]. cbn [flat_map]. rewrite ticks_app, IH. destruct e as [u v|t m].
  - replace (ticks n (repeat (Link u v) (length ks))) with 0; [reflexivity|]. clear. induction (length ks) as [|j IH]; [reflexivity|]. unfold ticks, total in *. cbn. exact IH.
  - unfold ticks, total. cbn. lia.
Qed.
Lemma mentions_expand n ks (es : list (event (N:=N) T)) : existsb (mentions n) (map erase (expand (K:=K) ks es)) = true -> existsb (mentions n) es = true.
Proof.
  rewrite erase_expand. rewrite !existsb_exists. intros (e & I & M). apply in_flat_map in I. destruct I as (e' & I & J). exists e'. split; [exact I|]. destruct e' as [u v|t m]; [apply repeat_spec in J; subst e; exact M|destruct J as [<-|[]]; exact M].
Qed.
Lemma mentions_ticked n ks (es : list (event (N:=N) T)) : 0 < ticks n es -> existsb (mentions n) (map erase (expand (K:=K) ks es)) = true.
Proof. rewrite <- (ticks_expand n ks). intros P. destruct (existsb (mentions n) (map erase (expand (K:=K) ks es))) eqn:E; [reflexivity|]. rewrite (no_mention_no_tick _ _ E) in P. lia. Qed.
End Events.
Lemma level_record_kev {N K} `{EqDec N} `{EqDec K} nc w ks l (g : mgraph N K) : level_record_k nc w ks l g = iter (kev w (do_level nc) true) (expand ks (ev_level_record l)) g.
Proof.
  assert (LN : forall l (g : mgraph N K), level_nodes_k nc w ks l g = iter (kev w (do_level nc) true) (expand ks (ev_level l)) g).
  { clear. induction l as [|n1 rest IH]; intros g; [reflexivity|]. cbn [level_nodes_k ev_level]. rewrite expand_app, iter_app. 
    replace (iter (kev w (do_level nc) true) (expand ks (map (Link n1) rest)) g) with (iter (fun n2 => iter (touch_level w n1 n2) ks) rest g).
    - destruct (iter (fun n2 => iter (touch_level w n1 n2) ks) rest g) as [g1|]; [|reflexivity]. cbn [bind expand flat_map app iter kev]. fold (expand (T:=bool) ks (ev_level rest)). unfold do_level at 1. destruct (on_base (bump nc n1) g1); [|reflexivity]. cbn [bind]. apply IH.
    - unfold expand. rewrite flat_map_concat_map, map_map, <- flat_map_concat_map, iter_flat. apply iter_ext. intros n2 g0. rewrite iter_map. reflexivity. }
  destruct l as [|n [|m l]]; [reflexivity| |apply LN]. cbn [level_record_k ev_level_record expand flat_map app iter kev]. unfold do_level. destruct (on_base (bump_single nc n) g); reflexivity.
Qed.
Lemma two_record_kev {N K} `{EqDec N} `{EqDec K} nc rt w t1 t2 ks c1 c2 (g : mgraph N K) : two_record_k nc rt w t1 t2 ks c1 c2 g = iter (kev w (do_two nc rt) false) (expand ks (ev_two t1 t2 c1 c2)) g.
Proof.
  unfold two_record_k, ev_two. rewrite expand_app, iter_app.
  replace (iter (kev w (do_two nc rt) false) (expand ks (flat_map (fun n1 => map (Link n1) c2 ++ [Tick (KFirst, t1) n1]) c1)) g)
    with (iter (fun n1 g0 => let* g' := iter (fun n2 => iter (touch_two w n1 n2) ks) c2 g0 in on_base (tick_first nc rt t1 n1) g') c1 g).
  - destruct (iter _ c1 g) as [g1|]; [|reflexivity]. cbn [bind]. unfold expand. rewrite flat_map_concat_map, map_map, <- flat_map_concat_map, iter_flat. apply iter_ext. intros n2 g0. cbn. unfold do_two. cbn. destruct (on_base _ g0); reflexivity.
  - revert g. induction c1 as [|n1 c1 IH]; intros g; [reflexivity|]. cbn [flat_map]. rewrite !expand_app, !iter_app. cbn [iter].
    replace (iter (kev w (do_two nc rt) false) (expand ks (map (Link n1) c2)) g) with (iter (fun n2 => iter (touch_two w n1 n2) ks) c2 g).
    + destruct (iter (fun n2 => iter (touch_two w n1 n2) ks) c2 g) as [g1|]; [|reflexivity]. cbn [bind expand flat_map app iter kev]. unfold do_two at 1; cbn [fst snd]. destruct (on_base (tick_first nc rt t1 n1) g1); [|reflexivity]. cbn [bind]. apply IH.
    + unfold expand. rewrite flat_map_concat_map, map_map, <- flat_map_concat_map, iter_flat. apply iter_ext. intros n2 g0. rewrite iter_map. reflexivity.
Qed.
Lemma iter_const {A G} (f : A -> G -> res G) (f' : A -> G -> res G) l : (forall x g, In x l -> f x g = f' x g) -> forall g, iter f l g = iter f' l g.
Proof. induction l as [|x l IH]; intros E g; [reflexivity|]. cbn [iter]. rewrite E by (left; reflexivity). destruct (f' x g); [|reflexivity]. cbn [bind]. apply IH. intros y g' I. apply E. right. exact I. Qed.

(** Some facts about runs over a list of records. *)
Section Runs.
Context {N K R : Type} `{EqDec N} `{EqDec K}.
Lemma occurs_in (c : R -> list N) rs n : 0 < occurs c rs n <-> exists r, In r rs /\ In n (c r).
Proof.
  unfold occurs. induction rs as [|r rs IH].
  - split; [cbn; lia|intros (r & [] & _)].
  - change (total (fun r => count n (c r)) (r :: rs)) with (count n (c r) + total (fun r => count n (c r)) rs). split.
    + intros P. destruct (count n (c r)) eqn:Q; [destruct IH as [IH _]; destruct (IH P) as (r' & I & J); exists r'; split; [right; exact I|exact J]|]. exists r. split; [left; reflexivity|]. apply count_In. lia.
    + intros (r' & [->|I] & J); [apply count_In in J; lia|]. destruct IH as [_ IH]. enough (0 < total (fun r => count n (c r)) rs) by lia. apply IH. eauto.
Qed.
Lemma ticks_runs {T} n (ks : R -> list K) (h : R -> list (event (N:=N) T)) rs : ticks n (map erase (flat_map (fun r => expand (ks r) (h r)) rs)) = total (fun r => ticks n (h r)) rs.
Proof. induction rs as [|r rs IH]; [reflexivity|]. cbn [flat_map]. rewrite map_app, ticks_app, ticks_expand, IH. reflexivity. Qed.
Lemma mentions_runs {T} n (ks : R -> list K) (h : R -> list (event (N:=N) T)) rs : existsb (mentions n) (map erase (flat_map (fun r => expand (ks r) (h r)) rs)) = true ->
  exists r, In r rs /\ existsb (mentions n) (h r) = true.
Proof.
  induction rs as [|r rs IH]; [discriminate|]. cbn [flat_map]. rewrite map_app, existsb_app. intros Q. apply orb_true_iff in Q. destruct Q as [Q|Q].
  - exists r. split; [left; reflexivity|]. eapply mentions_expand, Q.
  - destruct (IH Q) as (r' & I & J). exists r'. split; [right; exact I|exact J].
Qed.
End Runs.

Section Level.
Context {N R V K : Type} `{EN : EqDec N} `{EK : EqDec K}.
Variables (get : R -> str -> option (fval V)) (str_of : V -> N) (key : V -> K) (iterate : V -> res (list K)) (modes : list str) (attribute : str) (nc w : bool).
Variable keys : R -> list K.
Let values := fun r => map str_of (flat_map (fun t => values_under get (fun _ => false) t r) modes).
Let met := fun rs u v k => total (fun r => pairs_within u v (values r) * count k (keys r)) rs.
Let events := fun rs => flat_map (fun r => expand (keys r) (ev_level_record (values r))) rs.
Lemma level_events rs : (forall r, In r rs -> level_keys get key iterate attribute r = Ok (keys r)) ->
  multi_level_k get str_of key iterate modes attribute nc w rs = iter (kev w (do_level nc) true) (events rs) (empty_mgraph false).
Proof.
  intros HK. unfold multi_level_k, events. rewrite iter_flat. apply iter_const. intros r g I. rewrite (HK r I). cbn [bind]. apply level_record_kev.
Qed.
Lemma level_met rs u v k : klk false (touches (events rs)) u v k = met rs u v k.
Proof. unfold events. rewrite klk_flat. apply total_ext. intros r _. rewrite klk_expand, links_level_record. reflexivity. Qed.
Lemma level_good rs : w = false \/ (forall u v k, met rs u v k <= 1) ->
  exists g : mgraph N K, iter (kev w (do_level nc) true) (events rs) (empty_mgraph false) = Ok g /\
    edges_are false w (keyed g) (met rs) /\ forall n, nd (base g) n = node_value nc (occurs values rs n).
Proof.
  intros HW. destruct (@krun_spec N K _ _ bool w (do_level nc) (eff_level nc) plain plain_nil) with (strict := true) (es := events rs) (L := @nil (N * N * K)) (g := @empty_mgraph N K false) as (g & E & G & D & M).
  - intros t o. apply level_ok.
  - intros t n g W F. destruct (level_spec nc t n W F) as (g' & Q & S). exists g'. split; [exact Q|]. exact S.
  - apply good_empty.
  - intros _ Hw u v k. cbn [app base empty_mgraph]. change (gdir (@empty_graph N false)) with false. rewrite level_met. destruct HW as [HW|HW]; [congruence|apply HW].
  - exists g. split; [exact E|]. change (gdir (base (@empty_mgraph N K false))) with false in D. split.
    + apply tallied_edges with (L := touches (events rs)); [pose proof (g_tally G) as TL; rewrite D in TL; exact TL|]. intros u v k. symmetry. apply level_met.
    + intros n. rewrite M, level_nodes_final. unfold events. rewrite ticks_runs. unfold node_value.
      replace (total (fun r => ticks n (ev_level_record (values r))) rs) with (occurs values rs n) by (unfold occurs; apply total_ext; intros r _; symmetry; apply ticks_level_record).
      destruct (Nat.eqb_spec (occurs values rs n) 0) as [Z0|Z0]; [|reflexivity].
      match goal with |- (if ?b then _ else _) = _ => destruct b eqn:X end; [|reflexivity]. exfalso. apply mentions_runs in X. destruct X as (r & I & X). apply mentions_level_record in X.
      assert (0 < occurs values rs n) by (apply occurs_in; eauto). lia.
Qed.
Lemma level_bad rs : w = true -> (exists u v k, 2 <= met rs u v k) -> iter (kev w (do_level nc) true) (events rs) (@empty_mgraph N K false) = Raise ValueError.
Proof.
  intros Hw (u & v & k & GE). apply (@krun_bad N K _ _ bool w (do_level nc) (eff_level nc) plain plain_nil) with (L := @nil (N * N * K)).
  - intros t o. apply level_ok.
  - intros t n g W F. destruct (level_spec nc t n W F) as (g' & Q & S). exists g'. split; [exact Q|]. exact S.
  - reflexivity.
  - exact Hw.
  - apply good_empty.
  - exists u, v, k. split; [cbn; lia|]. cbn [app]. change (gdir (base (@empty_mgraph N K false))) with false. rewrite level_met. exact GE.
Qed.
End Level.

(** networkOneMode and networkMultiLevel: [keys r] are what is found in iterating over the value of the attribute, as text. If the edges have no
    weights, or no two values are met twice with the same key, there is an edge for each two values and each key met together, ... *)
Theorem C78_level_partial : forall (N R V K : Type) (EN : EqDec N) (EK : EqDec K) (get : R -> str -> option (fval V)) (str_of : V -> N) key iterate modes attribute (nodeCount edgeWeight : bool) (rs : list R) (keys : R -> list K),
  let values := fun r => map str_of (flat_map (fun t => values_under get (fun _ => false) t r) modes) in
  let met := fun u v k => total (fun r => pairs_within u v (values r) * count k (keys r)) rs in
  (forall r, In r rs -> match get r attribute with None => keys r = [] | Some (Many l) => keys r = map key l | Some (One v) => iterate v = Ok (keys r) end) ->
  edgeWeight = false \/ (forall u v k, met u v k <= 1) ->
  exists g : mgraph N K, multi_level_k get str_of key iterate modes attribute nodeCount edgeWeight rs = Ok g /\
    edges_are false edgeWeight (keyed g) met /\ forall n, nd (base g) n = node_value nodeCount (occurs values rs n).
Proof.
  intros N R V K EN EK get str_of key iterate modes attribute nc w rs keys values met HK HW. destruct (level_good get str_of modes nc w keys rs HW) as (g & E & A & B).
  exists g. split; [|split; [exact A|exact B]]. rewrite <- E. apply level_events. intros r I. specialize (HK r I). unfold level_keys. destruct (get r attribute) as [[v|l]|]; congruence.
Qed.
Print Assumptions C78_level_partial.
(** ... but weights other than 1 do not exist: if two values are met twice with the same key there is no graph. *)
Theorem C78_level_weights_refuted : forall (N R V K : Type) (EN : EqDec N) (EK : EqDec K) (get : R -> str -> option (fval V)) (str_of : V -> N) key iterate modes attribute (nodeCount : bool) (rs : list R) (keys : R -> list K) u v k,
  let values := fun r => map str_of (flat_map (fun t => values_under get (fun _ => false) t r) modes) in
  (forall r, In r rs -> match get r attribute with None => keys r = [] | Some (Many l) => keys r = map key l | Some (One v) => iterate v = Ok (keys r) end) ->
  2 <= total (fun r => pairs_within u v (values r) * count k (keys r)) rs ->
  multi_level_k get str_of key iterate modes attribute nodeCount true rs = Raise ValueError.
Proof.
  intros N R V K EN EK get str_of key iterate modes attribute nc rs keys u v k values HK GE.
  rewrite (level_events get str_of key iterate modes attribute nc true keys).
  - apply level_bad; [reflexivity|]. exists u, v, k. exact GE.
  - intros r I. specialize (HK r I). unfold level_keys. destruct (get r attribute) as [[x|l]|]; congruence.
Qed.
Print Assumptions C78_level_weights_refuted.
Lemma iter_raises {A G} (f : A -> G -> res G) l x : In x l -> (forall g, exists e, f x g = Raise e) -> forall g, exists e, iter f l g = Raise e.
Proof.
  intros I X. induction l as [|y l IH]; [destruct I|]. intros g. cbn [iter]. destruct I as [->|I].
  - destruct (X g) as (e & ->). exists e. reflexivity.
  - destruct (f y g) as [g'|e]; [apply (IH I)|]. exists e. reflexivity.
Qed.
(** Nor is there one if the attribute of a record is a value that is neither a list nor a text, as the year is. *)
Theorem C78_level_number : forall (N R V K : Type) (EN : EqDec N) (EK : EqDec K) (get : R -> str -> option (fval V)) (str_of : V -> N) (key : V -> K) iterate modes attribute (nodeCount edgeWeight : bool) (rs : list R) r v e,
  In r rs -> get r attribute = Some (One v) -> iterate v = Raise e ->
  exists e', multi_level_k get str_of key iterate modes attribute nodeCount edgeWeight rs = Raise e'.
Proof.
  intros N R V K EN EK get str_of key iterate modes attribute nc w rs r v e I Q X. unfold multi_level_k. apply iter_raises with (x := r); [exact I|]. intros g. exists e. unfold level_keys. rewrite Q, X. reflexivity.
Qed.
Print Assumptions C78_level_number.

(** ** networkTwoMode *)
Section Two.
Context {N K R : Type} `{EN : EqDec N} `{EK : EqDec K}.
Lemma missed_expand n (k : K) ks (es : list (event (N:=N) (kind * str))) : missed n (map erase (expand (k :: ks) es)) = missed n es.
Proof.
  rewrite erase_expand. unfold missed. f_equal. induction es as [|e es IH]; [reflexivity|]. cbn [flat_map find]. rewrite find_app'. destruct e as [u v|t m].
  - cbn [length repeat find]. destruct (mentions n (Link u v)) eqn:M; [reflexivity|]. replace (find (mentions n) (repeat (Link u v) (length ks))) with (@None (event (N:=N) (kind * str))); [exact IH|].
    clear IH. induction (length ks) as [|j IH]; [reflexivity|]. cbn [repeat find]. rewrite M. exact IH.
  - cbn [find]. destruct (mentions n (Tick t m)); [reflexivity|exact IH].
Qed.
Lemma erase_none (es : list (event (N:=N) (kind * str))) : map erase (expand (K:=K) [] es) = filter (fun e => match e with Tick _ _ => true | _ => false end) es.
Proof. rewrite erase_expand. induction es as [|e es IH]; [reflexivity|]. destruct e; cbn; [exact IH|]. f_equal. exact IH. Qed.
Lemma mentions_same (n : N) (ks : list K) t1 t2 c1 c2 : existsb (mentions n) (map erase (expand ks (ev_two t1 t2 c1 c2))) = mem n c1 || mem n c2.
Proof.
  apply eq_true_iff_eq. rewrite <- (mentions_two n t1 t2 c1 c2). split; [apply mentions_expand|]. intros Q. apply mentions_ticked. rewrite ticks_two. rewrite mentions_two, orb_true_iff, !mem_In in Q.
  destruct Q as [Q|Q]; apply count_In in Q; lia.
Qed.
Lemma missed_keys (n : N) (ks : list K) t1 t2 c1 c2 : mem n c1 || mem n c2 = true ->
  missed n (map erase (expand ks (ev_two t1 t2 c1 c2))) = if mem n c1 && ((length c2 =? 0) || (length ks =? 0)) then 1 else 0.
Proof.
  intros Q. destruct ks as [|k ks].
  - rewrite erase_none. cbn [length Nat.eqb]. rewrite orb_true_r, andb_true_r. unfold ev_two, missed. rewrite filter_app, find_app'.
    assert (F1 : filter (fun e => match e with Tick _ _ => true | _ => false end) (flat_map (fun n1 => map (Link n1) c2 ++ [Tick (KFirst, t1) n1]) c1) = map (Tick (KFirst, t1)) c1).
    { clear. induction c1 as [|x c1 IH]; [reflexivity|]. cbn [flat_map]. rewrite !filter_app, IH. replace (filter _ (map (Link x) c2)) with (@nil (event (N:=N) (kind * str))); [reflexivity|]. clear. induction c2; [reflexivity|exact IHc2]. }
    assert (F2 : filter (fun e : event (N:=N) (kind * str) => match e with Tick _ _ => true | _ => false end) (map (Tick (KSecond, t2)) c2) = map (Tick (KSecond, t2)) c2).
    { clear. induction c2 as [|x c2 IH]; [reflexivity|]. cbn. rewrite IH. reflexivity. }
    rewrite F1, F2. assert (FT : forall (t : kind * str) l, find (mentions n) (map (Tick t) l) = if mem n l then Some (Tick t n) else None).
    { clear. intros t l. induction l as [|x l IH]; [reflexivity|]. cbn [map find mentions]. unfold mem in *. cbn [existsb]. destruct (eqb_spec n x) as [->|]; [reflexivity|exact IH]. }
    rewrite !FT. destruct (mem n c1); [reflexivity|]. destruct (mem n c2); reflexivity.
  - rewrite missed_expand, (missed_two _ _ _ _ _ Q). cbn [length Nat.eqb]. rewrite orb_false_r. destruct c2 as [|x c2]; [|rewrite andb_false_r; reflexivity]. cbn in Q. rewrite orb_false_r in Q. rewrite Q. reflexivity.
Qed.
End Two.

(** networkTwoMode: nodes are the values under the tags. There is an edge for each two values met together and each value of the attribute met with
    them, with the number of times. The count of a node is the number of its occurrences, less one if it was first met under the first tag of a record
    without values under the second one or without attribute. *)
Theorem C78_two_partial :
  forall (N R V K : Type) (EN : EqDec N) (EK : EqDec K) (get : R -> str -> option (fval V)) (s1 s2 : V -> N) (is_none : V -> bool) (key : V -> K) tag1 tag2 attribute
         (directed recordType nodeCount edgeWeight : bool) (rs : list R),
    let c1 := fun r => map s1 (values_under get is_none tag1 r) in
    let c2 := fun r => map s2 (values_under get is_none tag2 r) in
    let keys := fun r => map key (values_under get (fun _ => false) attribute r) in
    exists g : mgraph N K, two_mode_k get s1 s2 is_none key tag1 tag2 attribute directed recordType nodeCount edgeWeight rs = Ok g /\
      (forall n, is_node (base g) n <-> exists r, In r rs /\ (In n (c1 r) \/ In n (c2 r))) /\
      edges_are directed edgeWeight (keyed g) (fun u v k =>
         total (fun r => (if directed then pairs_from_to u v (c1 r) (c2 r) else pairs_between u v (c1 r) (c2 r)) * count k (keys r)) rs) /\
      (nodeCount = true -> forall n, node_attr (base g) n $"count" =
         positive_count (occurs c1 rs n + occurs c2 rs n -
           match find (fun r => mem n (c1 r) || mem n (c2 r)) rs with
           | Some r => if mem n (c1 r) && ((length (c2 r) =? 0) || (length (keys r) =? 0)) then 1 else 0
           | None => 0
           end)) /\
      (nodeCount = false -> recordType = true -> forall n, node_attr (base g) n $"count" = None) /\
      (recordType = true -> forall n, is_node (base g) n -> exists t, node_attr (base g) n $"type" = Some (VStr t) /\
         ((t = tag1 /\ exists r, In r rs /\ In n (c1 r)) \/ (t = tag2 /\ exists r, In r rs /\ In n (c2 r)))).
Proof.
  intros N R V K EN EK get s1 s2 is_none key tag1 tag2 attribute d rt nc w rs c1 c2 keys.
  set (h := fun r => expand (keys r) (ev_two tag1 tag2 (c1 r) (c2 r))). set (h' := fun r => map erase (h r)).
  assert (HM : map erase (flat_map h rs) = flat_map h' rs).
  { clear. induction rs as [|r rs IH]; [reflexivity|]. cbn [flat_map]. rewrite map_app, IH. reflexivity. }
  destruct (@krun_spec N K _ _ (kind * str) w (do_two nc rt) (eff_two nc rt) plain plain_nil) with (strict := false) (es := flat_map h rs) (L := @nil (N * N * K)) (g := @empty_mgraph N K d) as (g & Eg & G & D & M).
  { intros t o. apply two_ok. }
  { intros t n g W F. destruct (two_spec nc rt t n W F) as (g' & Q & S). exists g'. split; [exact Q|]. exact S. }
  { apply good_empty. }
  { discriminate. }
  change (gdir (base (@empty_mgraph N K d))) with d in D. change (nd (base (@empty_mgraph N K d))) with (fun _ : N => @None attrs) in M. cbv beta in M.
  setoid_rewrite HM in M. 
  assert (MEN : forall n, existsb (mentions n) (flat_map h' rs) = true <-> exists r, In r rs /\ (In n (c1 r) \/ In n (c2 r))).
  { intros n. rewrite existsb_exists. split.
    - intros (e & I & X). apply in_flat_map in I. destruct I as (r & I & J). exists r. split; [exact I|].
      assert (Q : existsb (mentions n) (h' r) = true) by (apply existsb_exists; eauto). unfold h', h in Q. rewrite mentions_same, orb_true_iff, !mem_In in Q. exact Q.
    - intros (r & I & J). assert (Q : existsb (mentions n) (h' r) = true) by (unfold h', h; rewrite mentions_same, orb_true_iff, !mem_In; exact J).
      apply existsb_exists in Q. destruct Q as (e & A & B). exists e. split; [apply in_flat_map; eauto|exact B]. }
  assert (ND : forall n, is_node (base g) n <-> exists r, In r rs /\ (In n (c1 r) \/ In n (c2 r))).
  { intros n. rewrite <- MEN. unfold is_node. rewrite nd_In, M. pose proof (two_present nc rt n (flat_map h' rs)) as TP.
    destruct (fold_left _ _ None) as [a|]; destruct (existsb (mentions n) (flat_map h' rs)) eqn:X.
    - split; eauto.
    - destruct TP as [_ TP]. specialize (TP eq_refl). discriminate.
    - destruct TP as [TP _]. specialize (TP eq_refl). discriminate.
    - split; [intros [a Q]; discriminate|discriminate]. }
  assert (TK : forall n, ticks n (flat_map h' rs) = occurs c1 rs n + occurs c2 rs n).
  { intros n. rewrite ticks_flat. unfold occurs. rewrite <- total_plus. apply total_ext. intros r _. unfold h', h. rewrite ticks_expand. apply ticks_two. }
  assert (TI : forall t m, In (Tick t m) (flat_map h' rs) -> exists r, In r rs /\ In (Tick t m) (ev_two tag1 tag2 (c1 r) (c2 r))).
  { intros t m I. apply in_flat_map in I. destruct I as (r & I & J). exists r. split; [exact I|]. unfold h', h in J. rewrite erase_expand in J. apply in_flat_map in J. destruct J as (e & I' & J). destruct e as [u v|t' m']; [apply repeat_spec in J; discriminate|]. destruct J as [J|[]]. rewrite <- J. exact I'. }
  assert (TY : rt = true -> forall n a, nd (base g) n = Some a ->
     (forall x, dget type_ a = Some x -> exists k t, x = VStr t /\ In (Tick (k, t) n) (flat_map h' rs)) /\ (0 < ticks n (flat_map h' rs) -> dget type_ a <> None) /\ (nc = false -> dget cnt_ a = None)).
  { intros Hrt n a Q. rewrite M in Q. destruct (@two_types _ _ nc rt n (flat_map h' rs) Hrt) with (a := a) as (A & B & C & D'); [|exact Q|auto].
    right. intros t m I. apply TI in I. destruct I as (r & _ & I). unfold ev_two in I. apply in_app_iff in I. destruct I as [I|I].
    - apply in_flat_map in I. destruct I as (n1 & _ & I). apply in_app_iff in I. destruct I as [I|[I|[]]]; [apply in_map_iff in I; destruct I as (? & I & _); discriminate|]. injection I as <- <-. discriminate.
    - apply in_map_iff in I. destruct I as (? & I & _). injection I as <- <-. discriminate. }
  exists g. split; [|split; [exact ND|split; [|split; [|split]]]].
  - unfold two_mode_k. rewrite <- Eg, iter_flat. apply iter_ext. intros r g0. rewrite !PropertiesNet.two_values. unfold h. rewrite <- two_record_kev. f_equal. unfold two_keys, keys, values_under. destruct (get r attribute) as [[v|l]|]; reflexivity.
  - apply tallied_edges with (L := touches (flat_map h rs)); [pose proof (g_tally G) as TL; rewrite D in TL; exact TL|]. intros u v k. rewrite klk_flat. apply total_ext. intros r _. unfold h. rewrite klk_expand, links_two. reflexivity.
  - intros Hnc n. unfold node_attr. rewrite M. destruct (two_count rt n (flat_map h' rs) Hnc) as [(Q & X)|(a & Q & X & C)]; rewrite Q.
    + rewrite <- TK, (no_mention_no_tick _ _ X). reflexivity.
    + change $"count" with cnt_. rewrite C, TK. do 2 f_equal.
      rewrite (missed_flat h' (fun r => mem n (c1 r) || mem n (c2 r))) by (intros r; apply mentions_same).
      destruct (find (fun r => mem n (c1 r) || mem n (c2 r)) rs) as [r|] eqn:Fd; [|reflexivity]. apply find_some in Fd. destruct Fd as [_ Fd]. apply missed_keys, Fd.
  - intros Hnc Hrt n. unfold node_attr. destruct (nd (base g) n) as [a|] eqn:Q; [|reflexivity]. destruct (TY Hrt n a Q) as (_ & _ & C). apply C, Hnc.
  - intros Hrt n I. pose proof I as I'. apply nd_In in I'. destruct I' as [a Q]. destruct (TY Hrt n a Q) as (A & B & _). unfold node_attr. rewrite Q. change $"type" with type_.
    assert (P : 0 < ticks n (flat_map h' rs)).
    { rewrite TK. apply ND in I. destruct I as (r & I & [J|J]); [assert (0 < occurs c1 rs n) by (apply occurs_in; eauto)|assert (0 < occurs c2 rs n) by (apply occurs_in; eauto)]; lia. }
    specialize (B P). destruct (dget type_ a) as [x|]; [|congruence]. destruct (A x eq_refl) as (k & t & -> & J). exists t. split; [reflexivity|].
    apply TI in J. destruct J as (r & Ir & J). unfold ev_two in J. apply in_app_iff in J. destruct J as [J|J].
    + apply in_flat_map in J. destruct J as (n1 & In1 & J). apply in_app_iff in J. destruct J as [J|[J|[]]]; [apply in_map_iff in J; destruct J as (? & J & _); discriminate|].
      injection J as <- <- <-. left. eauto.
    + apply in_map_iff in J. destruct J as (x & J & Ix). injection J as <- <- <-. right. eauto.
Qed.
Print Assumptions C78_two_partial.

(** ** networkMultiMode: if a record has values under two of the tags there is no graph, the edges being made with a name that does not exist. *)
Theorem C78_multi_refuted : forall (N R V K : Type) (EN : EqDec N) (EK : EqDec K) (get : R -> str -> option (fval V)) (str_of : V -> N) (truthy : V -> bool) tags
         (recordType nodeCount : bool) (rs : list R) r,
    In r rs -> 2 <= length (tag_lists get (fun v => negb (truthy v)) str_of tags r) ->
    exists e, multi_mode_k (K := K) get str_of truthy tags recordType nodeCount rs = Raise e.
Proof.
  intros N R V K EN EK get str_of truthy tags rt nc rs r I L. unfold multi_mode_k. apply iter_raises with (x := r); [exact I|]. intros g. rewrite PropertiesNet.multi_values.
  unfold tag_lists in *. set (c := filter _ _) in *. assert (NE : forall t vs, In (t, vs) c -> vs <> []).
  { intros t vs J ->. apply filter_In in J. destruct J as [_ J]. discriminate. }
  destruct c as [|[t1 v1] [|[t2 v2] rest]]; cbn [length] in L; try lia. exists NameError. cbn [multi_lists_k].
  assert (N1 : v1 <> []) by (apply (NE t1); left; reflexivity). assert (N2 : v2 <> []) by (apply (NE t2); right; left; reflexivity).
  destruct v1 as [|x v1]; [congruence|]. destruct v2 as [|y v2]; [congruence|]. reflexivity.
Qed.
Print Assumptions C78_multi_refuted.
(** If no record has, there is a graph of the values, without any edge. *)
Theorem C78_multi_single : forall (N R V K : Type) (EN : EqDec N) (EK : EqDec K) (get : R -> str -> option (fval V)) (str_of : V -> N) (truthy : V -> bool) tags
         (recordType nodeCount : bool) (rs : list R),
    (forall r, In r rs -> length (tag_lists get (fun v => negb (truthy v)) str_of tags r) <= 1) ->
    exists g, multi_mode_k (K := K) get str_of truthy tags recordType nodeCount rs = Ok g /\ keyed g = [] /\
      forall n, is_node (base g) n <-> exists r t vs, In r rs /\ In (t, vs) (tag_lists get (fun v => negb (truthy v)) str_of tags r) /\ In n vs.
Proof.
  intros N R V K EN EK get str_of truthy tags rt nc rs HL. set (c := tag_lists get (fun v => negb (truthy v)) str_of tags) in *.
  set (h := fun r => flat_map (fun tv => map (KTick (K:=K) (KMulti, fst tv)) (snd tv)) (c r)).
  assert (TZ : touches (flat_map h rs) = []).
  { clear. induction rs as [|r rs IH]; [reflexivity|]. cbn [flat_map]. rewrite touches_app, IH, app_nil_r. unfold h. induction (c r) as [|[t vs] l IHl]; [reflexivity|]. cbn [flat_map]. rewrite touches_app, IHl, app_nil_r. cbn [fst snd]. clear. induction vs as [|x vs IH]; [reflexivity|exact IH]. }
  destruct (@krun_spec N K _ _ (kind * str) false (do_two nc rt) (eff_two nc rt) plain plain_nil) with (strict := false) (es := flat_map h rs) (L := @nil (N * N * K)) (g := @empty_mgraph N K false) as (g & Eg & G & D & M).
  { intros t o. apply two_ok. }
  { intros t n g W F. destruct (two_spec nc rt t n W F) as (g' & Q & S). exists g'. split; [exact Q|]. exact S. }
  { apply good_empty. }
  { discriminate. }
  exists g. split; [|split].
  - rewrite <- Eg, iter_flat. unfold multi_mode_k. apply iter_const. intros r g0 I. rewrite PropertiesNet.multi_values. specialize (HL r I). fold (c r). unfold h. destruct (c r) as [|[t vs] [|x l]]; cbn [length] in HL; [reflexivity| |lia].
    cbn [flat_map fst snd]. rewrite app_nil_r, iter_map. cbn [multi_lists_k iter]. transitivity (iter (fun b => kev false (do_two nc rt) false (KTick (K:=K) (KMulti, t) b)) vs g0); [|reflexivity].
    assert (X : forall (z : res (mgraph N K)), (let* g1 := z in Ok g1) = z) by (intros []; reflexivity). rewrite X. apply iter_ext. intros n g1. reflexivity.
  - pose proof (g_tally G) as TL. cbn [app] in TL. rewrite TZ in TL. destruct (keyed g) as [|[[[u v] k] w] l] eqn:Q; [reflexivity|]. exfalso. specialize (TL u v k). cbn [filter] in TL. unfold at_key in TL at 1. rewrite !eqb_refl in TL. discriminate.
  - intros n. unfold is_node. rewrite nd_In, M. change (nd (base (@empty_mgraph N K false)) n) with (@None attrs).
    pose proof (two_present nc rt n (map erase (flat_map h rs))) as TP. transitivity (existsb (mentions n) (map erase (flat_map h rs)) = true).
    + destruct (fold_left _ _ None) as [a|]; destruct (existsb (mentions n) (map erase (flat_map h rs))) eqn:X.
      * split; eauto.
      * destruct TP as [_ TP]. specialize (TP eq_refl). discriminate.
      * destruct TP as [TP _]. specialize (TP eq_refl). discriminate.
      * split; [intros [a Q]; discriminate|discriminate].
    + rewrite existsb_exists. split.
      * intros (e & I & X). apply in_map_iff in I. destruct I as (e' & <- & I). apply in_flat_map in I. destruct I as (r & I & J). unfold h in J. apply in_flat_map in J. destruct J as ([t vs] & It & J). apply in_map_iff in J. destruct J as (m & <- & Im). change (eqb n m = true) in X. apply eqb_eq in X. exists r, t, vs. rewrite X. auto.
      * intros (r & t & vs & I & It & J). exists (Tick (KMulti, t) n). split; [|cbn; apply eqb_refl]. apply in_map_iff. exists (KTick (KMulti, t) n). split; [reflexivity|]. apply in_flat_map. exists r. split; [exact I|]. unfold h. apply in_flat_map. exists (t, vs). split; [exact It|]. cbn. apply in_map, J.
Qed.
Print Assumptions C78_multi_single.

(** ** Cases *)
Import PropertiesNet.
Definition k1 := [($"AU", Many [$"x"; $"y"; $"z"]); ($"DE", Many [$"net"; $"bib"]); ($"LA", One $"en")].
Definition k2 := [($"AU", Many [$"y"; $"x"]); ($"DE", Many [$"law"]); ($"LA", One $"fr")].
Definition k3 := [($"AU", Many [$"y"; $"x"]); ($"DE", Many [$"law"; $"net"]); ($"LA", One $"en")].
Definition k4 := [($"AU", Many [$"v"]); ($"LA", One $"en")].
Definition characters : str -> res (list str) := fun s => Ok (map (fun c => [c]) s).
Definition labels : list (str * fval str) -> list str := fun r => match dget $"DE" r with Some (Many l) => l | _ => [] end.
(** there are three authors of [k1], two of them in [k2], with another keyword: nothing is met twice with the same one *)
Example C78_level_ex : (forall r, In r [k1; k2; k4] -> match getf r $"DE" with None => labels r = [] | Some (Many l) => labels r = map idf l | Some (One v) => characters v = Ok (labels r) end) /\
  exists g, multi_level_k getf idf idf characters [$"AU"] $"DE" true true [k1; k2; k4] = Ok g /\
    filter (at_key false $"x" $"y" $"net") (keyed g) = [($"x", $"y", $"net", Some 1%Z)] /\ filter (at_key false $"x" $"y" $"law") (keyed g) = [($"y", $"x", $"law", Some 1%Z)] /\
    length (keyed g) = 7 /\ nd (base g) $"x" = Some [($"count", VInt 2)].
Proof. split; [intros r [<-|[<-|[<-|[]]]]; reflexivity|]. apply ok_ex. vm_compute. auto. Qed.
(** [k1] and [k3] have [x], [y] and the keyword [net] in common *)
Example C78_weights_ex : total (fun r => pairs_within $"x" $"y" (map idf (flat_map (fun t => values_under getf (fun _ => false) t r) [$"AU"])) * count $"net" (labels r)) [k1; k3] = 2 /\
  multi_level_k getf idf idf characters [$"AU"] $"DE" true true [k1; k3] = Raise ValueError /\
  exists g, multi_level_k getf idf idf characters [$"AU"] $"DE" true false [k1; k3] = Ok g /\ filter (at_key false $"x" $"y" $"net") (keyed g) = [($"x", $"y", $"net", None)].
Proof. split; [vm_compute; reflexivity|]. split; [vm_compute; reflexivity|]. apply ok_ex. vm_compute. reflexivity. Qed.
(** a text is taken for its characters, a number for nothing *)
Example C78_text_ex : (exists g, multi_level_k getf idf idf characters [$"AU"] $"LA" true true [k2] = Ok g /\ keyed g = [($"y", $"x", $"f", Some 1%Z); ($"y", $"x", $"r", Some 1%Z)]) /\
  multi_level_k getf idf idf (fun _ => Raise TypeError) [$"AU"] $"LA" true true [k2] = Raise TypeError.
Proof. split; [apply ok_ex|]; vm_compute; reflexivity. Qed.
(** two modes: weights above 1 exist, and [v] of [k4], which has no keyword, is one short *)
Example C78_two_ex : exists g, two_mode_k getf idf idf isnone idf $"AU" $"LA" $"DE" true true true true [k4; k1; k3; k4] = Ok g /\
  filter (at_key true $"x" $"en" $"net") (keyed g) = [($"x", $"en", $"net", Some 2%Z)] /\ filter (at_key true $"v" $"en" $"net") (keyed g) = [] /\
  node_attr (base g) $"x" $"count" = Some (VInt 2) /\ node_attr (base g) $"en" $"count" = Some (VInt 4) /\ node_attr (base g) $"v" $"count" = Some (VInt 1).
Proof. apply ok_ex. vm_compute. auto 10. Qed.
Example C78_multi_ex : multi_mode_k (K := str) getf idf nonempty [$"AU"; $"LA"] true true [k1] = Raise NameError /\ length (tag_lists getf (fun v => negb (nonempty v)) idf [$"AU"; $"LA"] k1) = 2 /\
  length (tag_lists getf (fun v => negb (nonempty v)) idf [$"AU"; $"PT"] k1) = 1.
Proof. vm_compute. auto. Qed.
