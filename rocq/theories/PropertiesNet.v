(** Property theorems about networkOneMode, networkMultiLevel, networkTwoMode and networkMultiMode (C14 - C16).
    [rs] are the members in iteration order; the contents functions give the values of a member under the tags, as the
    builder reads them. *)
From Coq Require Import String Lia.
From Verif Require Import Base PyStr Nx NxFacts RecordView SeriesSpec RecordViewFacts NetModel NetSpec NetFacts NetProofs NetProofs2.

Lemma ok_ex {A} (r : res A) (P : A -> Prop) : match r with Ok g => P g | Raise _ => False end -> exists g, r = Ok g /\ P g.
Proof. destruct r as [a|]; [eauto|intros []]. Qed.
(** For the examples: values are strings. *)
Definition getf : list (str * fval str) -> str -> option (fval str) := fun r t => dget t r.
Definition idf : str -> str := fun s => s.
Definition isnone : str -> bool := fun s => eqb s $"None".
Definition nonempty : str -> bool := fun s => negb (eqb s []).
Definition ra := [($"AU", Many [$"x"; $"y"; $"z"]); ($"LA", One $"en")].
Definition rb := [($"AU", Many [$"y"; $"x"]); ($"LA", One $"fr")].
Definition rc := [($"AU", Many [$"w"])].
Definition rd := [($"AU", Many [$"w"]); ($"LA", One $"en")].

(** C14: nodes are the values that occur, with their number of occurrences; an edge joins values met together, with
    the number of pairs of positions. *)
Theorem C14_counts_and_weights :
  forall (N R V : Type) (E : EqDec N) (get : R -> str -> option (fval V)) (str_of : V -> N) modes (nodeCount edgeWeight : bool) (rs : list R),
    let values := fun r => map str_of (flat_map (fun t => values_under get (fun _ => false) t r) modes) in
    exists g, multi_level get str_of modes nodeCount edgeWeight rs = Ok g /\ WF g /\ gdir g = false /\
      (forall n, nd g n = node_value nodeCount (occurs values rs n)) /\
      (forall u v, ed g u v = edge_value edgeWeight (total (fun r => pairs_within u v (values r)) rs)).
Proof. intros N R V E get str_of modes nc w rs values.
  destruct (multi_level_spec get str_of modes nc w rs) as (g & A & W & D & B & C). exists g. split; [exact A|]. split; [exact W|]. split; [exact D|].
  assert (X : forall r, level_contents get str_of modes r = values r).
  { intros r. reflexivity. }
  split; [intros n; rewrite B | intros u v; rewrite C].
  - unfold occurs. rewrite (total_ext _ (fun r => count n (values r)) rs) by (intros r _; rewrite X; reflexivity). reflexivity.
  - rewrite (total_ext _ (fun r => pairs_within u v (values r)) rs) by (intros r _; rewrite X; reflexivity). reflexivity.
Qed.
Print Assumptions C14_counts_and_weights.

(** C14: the graph does not depend on the iteration order. *)
Theorem C14_order_independent :
  forall (N R V : Type) (E : EqDec N) (get : R -> str -> option (fval V)) (str_of : V -> N) modes (nodeCount edgeWeight : bool) (rs rs' : list R) g g',
    Permutation rs rs' ->
    multi_level get str_of modes nodeCount edgeWeight rs = Ok g -> multi_level get str_of modes nodeCount edgeWeight rs' = Ok g' ->
    (forall n, nd g n = nd g' n) /\ forall u v, ed g u v = ed g' u v.
Proof.
  intros N R V E get str_of modes nc w rs rs' g g' P Q Q'.
  destruct (C14_counts_and_weights _ _ _ _ get str_of modes nc w rs) as (h & Eh & _ & _ & A & B). rewrite Q in Eh. injection Eh as <-.
  destruct (C14_counts_and_weights _ _ _ _ get str_of modes nc w rs') as (h & Eh & _ & _ & A' & B'). rewrite Q' in Eh. injection Eh as <-.
  split; [intros n; rewrite A, A' | intros u v; rewrite B, B']; unfold occurs; rewrite (total_perm _ P); reflexivity.
Qed.
Print Assumptions C14_order_independent.

Example C14_example :
  exists g, multi_level getf idf [$"AU"] true true [ra; rb; rc] = Ok g /\
    nd g $"x" = Some [($"count", VInt 2)] /\ nd g $"w" = Some [($"count", VInt 1)] /\
    ed g $"x" $"y" = Some [($"weight", VInt 2)] /\ ed g $"z" $"x" = Some [($"weight", VInt 1)] /\ ed g $"x" $"w" = None.
Proof. apply ok_ex. vm_compute. auto 10. Qed.

Lemma two_values {R V N} (get : R -> str -> option (fval V)) is_none (s : V -> N) tag r : two_contents get is_none s tag r = map s (values_under get is_none tag r).
Proof. unfold two_contents, values_under. destruct (get r tag) as [[v|l]|]; [destruct (is_none v)| |]; reflexivity. Qed.
Lemma multi_values {R V N} (get : R -> str -> option (fval V)) truthy (s : V -> N) tags r :
  multi_contents get s truthy tags r = tag_lists get (fun v => negb (truthy v)) s tags r.
Proof.
  unfold multi_contents, tag_lists. induction tags as [|t ts IH]; [reflexivity|]. cbn [flat_map map filter]. rewrite IH.
  set (rest := filter _ _). clearbody rest. unfold values_under.
  destruct (get r t) as [[v|l]|]; [destruct (truthy v)|destruct l|]; reflexivity.
Qed.
(** C15: nodes are the values that occur under one of the two tags; an edge goes from a value of the first tag to a
    value of the second, and its weight is the number of pairs met in the same member. *)
Theorem C15_edges :
  forall (N R V : Type) (E : EqDec N) (get : R -> str -> option (fval V)) (s1 s2 : V -> N) (is_none : V -> bool) tag1 tag2
         (directed recordType nodeCount edgeWeight : bool) (rs : list R),
    let c1 := fun r => map s1 (values_under get is_none tag1 r) in
    let c2 := fun r => map s2 (values_under get is_none tag2 r) in
    exists g, two_mode get s1 s2 is_none tag1 tag2 directed recordType nodeCount edgeWeight rs = Ok g /\ WF g /\ gdir g = directed /\
      (forall n, is_node g n <-> exists r, In r rs /\ (In n (c1 r) \/ In n (c2 r))) /\
      (forall u v, ed g u v = edge_value edgeWeight
         (total (fun r => if directed then pairs_from_to u v (c1 r) (c2 r) else pairs_between u v (c1 r) (c2 r)) rs)) /\
      (nodeCount = true -> forall n, node_attr g n $"count" =
         positive_count (occurs c1 rs n + occurs c2 rs n -
           match find (fun r => mem n (c1 r) || mem n (c2 r)) rs with
           | Some r => match c2 r with [] => 1 | _ => 0 end
           | None => 0
           end)) /\
      (nodeCount = false -> recordType = true -> forall n, node_attr g n $"count" = None) /\
      (recordType = true -> forall n, is_node g n -> exists t, node_attr g n $"type" = Some (VStr t) /\
         ((t = tag1 /\ exists r, In r rs /\ In n (c1 r)) \/ (t = tag2 /\ exists r, In r rs /\ In n (c2 r)))).
Proof.
  intros N R V E get s1 s2 is_none tag1 tag2 d rt nc w rs c1 c2.
  set (h := fun r => ev_two tag1 tag2 (c1 r) (c2 r)).
  destruct (@run_empty N _ (kind * str) w (do_two nc rt) (eff_two nc rt) plain plain_nil) with (es := flat_map h rs) (d := d) as (g & Eg & W & D & L & M).
  { intros t o. apply two_ok. }
  { intros t n g W F. destruct (two_spec nc rt t n W F) as (g' & Q & S). exists g'. split; [exact Q|]. exact S. }
  assert (MEN : forall n, existsb (mentions n) (flat_map h rs) = true <-> exists r, In r rs /\ (In n (c1 r) \/ In n (c2 r))).
  { intros n. rewrite existsb_exists. split.
    - intros (e & I & X). apply in_flat_map in I. destruct I as (r & I & J). exists r. split; [exact I|].
      assert (Q : existsb (mentions n) (h r) = true) by (apply existsb_exists; eauto). unfold h in Q. rewrite mentions_two, orb_true_iff, !mem_In in Q. exact Q.
    - intros (r & I & J). assert (Q : existsb (mentions n) (h r) = true) by (unfold h; rewrite mentions_two, orb_true_iff, !mem_In; exact J).
      apply existsb_exists in Q. destruct Q as (e & A & B). exists e. split; [apply in_flat_map; eauto|exact B]. }
  assert (ND : forall n, is_node g n <-> exists r, In r rs /\ (In n (c1 r) \/ In n (c2 r))).
  { intros n. rewrite <- MEN. unfold is_node. rewrite nd_In, M. pose proof (two_present nc rt n (flat_map h rs)) as TP.
    destruct (fold_left _ _ None) as [a|]; destruct (existsb (mentions n) (flat_map h rs)) eqn:X.
    - split; eauto.
    - destruct TP as [_ TP]. specialize (TP eq_refl). discriminate.
    - destruct TP as [TP _]. specialize (TP eq_refl). discriminate.
    - split; [intros [a Q]; discriminate|discriminate]. }
  assert (TK : forall n, ticks n (flat_map h rs) = occurs c1 rs n + occurs c2 rs n).
  { intros n. rewrite ticks_flat. unfold occurs. rewrite <- total_plus. apply total_ext. intros r _. apply ticks_two. }
  assert (TY : rt = true -> forall n a, nd g n = Some a ->
     (forall x, dget type_ a = Some x -> exists k t, x = VStr t /\ In (Tick (k, t) n) (flat_map h rs)) /\ (0 < ticks n (flat_map h rs) -> dget type_ a <> None) /\ (nc = false -> dget cnt_ a = None)).
  { intros Hrt n a Q. rewrite M in Q. destruct (@two_types _ _ nc rt n (flat_map h rs) Hrt) with (a := a) as (A & B & C & D'); [|exact Q|auto].
    right. intros t m I. apply in_flat_map in I. destruct I as (r & _ & I). unfold h, ev_two in I. apply in_app_iff in I. destruct I as [I|I].
    - apply in_flat_map in I. destruct I as (n1 & _ & I). apply in_app_iff in I. destruct I as [I|[I|[]]]; [apply in_map_iff in I; destruct I as (? & I & _); discriminate|]. injection I as <- <-. discriminate.
    - apply in_map_iff in I. destruct I as (? & I & _). injection I as <- <-. discriminate. }
  exists g. split; [|split; [exact W|split; [exact D|split; [exact ND|split; [|split; [|split]]]]]].
  - unfold two_mode. rewrite <- Eg, iter_flat. apply iter_ext. intros r g0. rewrite !two_values. apply two_record_ev.
  - intros u v. rewrite L, lk_flat. f_equal. apply total_ext. intros r _. apply links_two.
  - intros Hnc n. unfold node_attr. rewrite M. destruct (two_count rt n (flat_map h rs) Hnc) as [(Q & X)|(a & Q & X & C)]; rewrite Q.
    + rewrite <- TK, (no_mention_no_tick _ _ X). reflexivity.
    + change $"count" with cnt_. rewrite C, TK. do 2 f_equal.
      rewrite (missed_flat h (fun r => mem n (c1 r) || mem n (c2 r))) by (intros r; apply mentions_two).
      destruct (find (fun r => mem n (c1 r) || mem n (c2 r)) rs) as [r|] eqn:Fd; [|reflexivity]. apply find_some in Fd. destruct Fd as [_ Fd]. apply missed_two, Fd.
  - intros Hnc Hrt n. unfold node_attr. destruct (nd g n) as [a|] eqn:Q; [|reflexivity]. destruct (TY Hrt n a Q) as (_ & _ & C). apply C, Hnc.
  - intros Hrt n I. pose proof I as I'. apply nd_In in I'. destruct I' as [a Q]. destruct (TY Hrt n a Q) as (A & B & _). unfold node_attr. rewrite Q. change $"type" with type_.
    assert (P : 0 < ticks n (flat_map h rs)).
    { rewrite TK. apply ND in I. destruct I as (r & I & J). assert (Hh : 0 < count n (c1 r) + count n (c2 r)) by (destruct J as [J|J]; apply count_In in J; lia).
      unfold occurs. rewrite <- total_plus. clear -I Hh. induction rs as [|r' rs IH]; [destruct I|]. unfold total in *. cbn [fold_right]. destruct I as [->|I]; [lia|]. specialize (IH I). lia. }
    specialize (B P). destruct (dget type_ a) as [x|]; [|congruence]. destruct (A x eq_refl) as (k & t & -> & J). exists t. split; [reflexivity|].
    apply in_flat_map in J. destruct J as (r & Ir & J). unfold h, ev_two in J. apply in_app_iff in J. destruct J as [J|J].
    + apply in_flat_map in J. destruct J as (n1 & In1 & J). apply in_app_iff in J. destruct J as [J|[J|[]]]; [apply in_map_iff in J; destruct J as (? & J & _); discriminate|].
      injection J as <- <- <-. left. eauto.
    + apply in_map_iff in J. destruct J as (x & J & Ix). injection J as <- <- <-. right. eauto.
Qed.
Print Assumptions C15_edges.

(** C15: when every member with a value under the first tag has one under the second, the counts are the numbers of
    occurrences.  The general formula, with the occurrence that is lost otherwise, is in C15_edges. *)
Theorem C15_counts_partial :
  forall (N R V : Type) (E : EqDec N) (get : R -> str -> option (fval V)) (s1 s2 : V -> N) (is_none : V -> bool) tag1 tag2
         (directed recordType edgeWeight : bool) (rs : list R) g,
    let c1 := fun r => map s1 (values_under get is_none tag1 r) in
    let c2 := fun r => map s2 (values_under get is_none tag2 r) in
    (forall r, In r rs -> c1 r <> [] -> c2 r <> []) ->
    two_mode get s1 s2 is_none tag1 tag2 directed recordType true edgeWeight rs = Ok g ->
    forall n, node_attr g n $"count" = positive_count (occurs c1 rs n + occurs c2 rs n).
Proof.
  intros N R V E get s1 s2 is_none tag1 tag2 d rt w rs g c1 c2 HC Q n.
  destruct (C15_edges _ _ _ _ get s1 s2 is_none tag1 tag2 d rt true w rs) as (h & Eh & _ & _ & _ & _ & C & _). rewrite Q in Eh. injection Eh as <-.
  specialize (C eq_refl n).
  change (node_attr g n $"count" = positive_count (occurs c1 rs n + occurs c2 rs n -
           match find (fun r => mem n (c1 r) || mem n (c2 r)) rs with
           | Some r => match c2 r with [] => 1 | _ => 0 end
           | None => 0
           end)) in C. rewrite C. clear C. f_equal. clearbody c1 c2.
  destruct (find (fun r => mem n (c1 r) || mem n (c2 r)) rs) as [r|] eqn:Fd; [|lia].
  apply find_some in Fd. destruct Fd as [I Fd]. specialize (HC r I). destruct (c2 r) eqn:C2; [|lia].
  exfalso. apply HC; [|reflexivity]. cbn in Fd. rewrite orb_false_r in Fd. intros Z. rewrite Z in Fd. discriminate.
Qed.
Print Assumptions C15_counts_partial.

(** C15 is false in general: a value first met without partner loses one occurrence, so that the count even depends on
    the iteration order. *)
Theorem C15_counts_refuted :
  exists rs rs' g g', Permutation rs rs' /\
    two_mode getf idf idf isnone $"AU" $"LA" false true true true rs = Ok g /\
    two_mode getf idf idf isnone $"AU" $"LA" false true true true rs' = Ok g' /\
    occurs (values_under getf isnone $"AU") rs $"w" = 2 /\
    node_attr g $"w" $"count" = Some (VInt 1) /\ node_attr g' $"w" $"count" = Some (VInt 2).
Proof.
  exists [rc; rd], [rd; rc].
  destruct (two_mode getf idf idf isnone $"AU" $"LA" false true true true [rc; rd]) as [g|] eqn:E; [|vm_compute in E; discriminate].
  destruct (two_mode getf idf idf isnone $"AU" $"LA" false true true true [rd; rc]) as [g'|] eqn:E'; [|vm_compute in E'; discriminate].
  exists g, g'. split; [apply perm_swap|]. split; [reflexivity|]. split; [reflexivity|].
  vm_compute in E, E'. injection E as <-. injection E' as <-. vm_compute. auto.
Qed.
Print Assumptions C15_counts_refuted.

Example C15_example :
  exists g, two_mode getf idf idf isnone $"AU" $"LA" true true true true [ra; rb; rd] = Ok g /\
    ed g $"x" $"en" = Some [($"weight", VInt 1)] /\ ed g $"en" $"x" = None /\ node_attr g $"en" $"count" = Some (VInt 2) /\
    node_attr g $"en" $"type" = Some (VStr $"LA") /\
    forall r, In r [ra; rb; rd] -> values_under getf isnone $"AU" r <> [] -> values_under getf isnone $"LA" r <> [].
Proof. apply ok_ex. vm_compute. do 4 (split; [reflexivity|]). intros r [<-|[<-|[<-|[]]]] _; discriminate. Qed.

(** C16: nodes are the values under any of the tags; an edge joins values met under two different tags, with the
    number of pairs.  The count is the number of occurrences less one when the value was first met in a member with
    values under one tag only. *)
Theorem C16_edges :
  forall (N R V : Type) (E : EqDec N) (get : R -> str -> option (fval V)) (str_of : V -> N) (truthy : V -> bool) tags
         (recordType nodeCount edgeWeight : bool) (rs : list R),
    let c := tag_lists get (fun v => negb (truthy v)) str_of tags in
    let occ := fun n => total (fun r => total (fun tv => count n (snd tv)) (c r)) rs in
    exists g, multi_mode get str_of truthy tags recordType nodeCount edgeWeight rs = Ok g /\ WF g /\ gdir g = false /\
      (forall n, is_node g n <-> exists r t vs, In r rs /\ In (t, vs) (c r) /\ In n vs) /\
      (forall u v, ed g u v = edge_value edgeWeight (total (fun r => pairs_across u v (map snd (c r))) rs)) /\
      (nodeCount = true -> forall n, node_attr g n $"count" =
         positive_count (occ n - match find (fun r => existsb (fun tv => mem n (snd tv)) (c r)) rs with
                                 | Some r => match c r with [_] => 1 | _ => 0 end
                                 | None => 0
                                 end)) /\
      (nodeCount = true -> recordType = true -> forall n, is_node g n ->
         exists t r vs, node_attr g n $"type" = Some (VStr t) /\ In r rs /\ In (t, vs) (c r) /\ In n vs) /\
      (nodeCount = false -> recordType = true -> forall n, is_node g n ->
         node_attr g n $"type" =
           Some (VStr (flat_map (fun r => flat_map (fun tv => flat_map (fun m => if eqb n m then fst tv else []) (snd tv)) (c r)) rs))).
Proof.
  intros N R V E get str_of truthy tags rt nc w rs c occ. set (h := fun r => ev_multi (c r)).
  assert (NE : forall r, Forall (fun tv => snd tv <> []) (c r)).
  { intros r. apply Forall_forall. intros [t vs] I. apply filter_In in I. destruct I as [_ I]. intros Z. cbn in Z. subst vs. discriminate. }
  destruct (@run_empty N _ (kind * str) w (do_two nc rt) (eff_two nc rt) plain plain_nil) with (es := flat_map h rs) (d := false) as (g & Eg & W & D & L & M).
  { intros t o. apply two_ok. }
  { intros t n g W F. destruct (two_spec nc rt t n W F) as (g' & Q & S). exists g'. split; [exact Q|]. exact S. }
  assert (MEN : forall n, existsb (mentions n) (flat_map h rs) = true <-> exists r t vs, In r rs /\ In (t, vs) (c r) /\ In n vs).
  { intros n. assert (MR : forall r, existsb (mentions n) (h r) = true <-> exists t vs, In (t, vs) (c r) /\ In n vs).
    { intros r. unfold h. rewrite (mentions_multi n (NE r)). unfold in_some. rewrite existsb_exists. split.
      - intros ([t vs] & A & B). apply mem_In in B. eauto.
      - intros (t & vs & A & B). exists (t, vs). split; [exact A|]. apply mem_In. exact B. }
    rewrite existsb_exists. split.
    - intros (e & I & X). apply in_flat_map in I. destruct I as (r & I & J). destruct (proj1 (MR r)) as (t & vs & A & B); [apply existsb_exists; eauto|]. eauto 8.
    - intros (r & t & vs & I & A & B). destruct (proj1 (existsb_exists _ _) (proj2 (MR r) (ex_intro _ t (ex_intro _ vs (conj A B))))) as (e & P & Q).
      exists e. split; [apply in_flat_map; eauto|exact Q]. }
  assert (ND : forall n, is_node g n <-> exists r t vs, In r rs /\ In (t, vs) (c r) /\ In n vs).
  { intros n. rewrite <- MEN. unfold is_node. rewrite nd_In, M. pose proof (two_present nc rt n (flat_map h rs)) as TP.
    destruct (fold_left _ _ None) as [a|]; destruct (existsb (mentions n) (flat_map h rs)) eqn:X.
    - split; eauto.
    - destruct TP as [_ TP]. specialize (TP eq_refl). discriminate.
    - destruct TP as [TP _]. specialize (TP eq_refl). discriminate.
    - split; [intros [a Q]; discriminate|discriminate]. }
  assert (TK : forall n, ticks n (flat_map h rs) = occ n).
  { intros n. rewrite ticks_flat. apply total_ext. intros r _. apply ticks_multi. }
  assert (TICKS : forall t n, In (Tick t n) (flat_map h rs) -> fst t = KMulti /\ exists r vs, In r rs /\ In (snd t, vs) (c r) /\ In n vs).
  { intros t n I. apply in_flat_map in I. destruct I as (r & Ir & I). unfold h in I.
    assert (G : forall cs, In (Tick t n) (ev_multi cs) -> fst t = KMulti /\ exists vs, In (snd t, vs) cs /\ In n vs).
    { clear. induction cs as [|[tag vs] cs IH]; cbn [ev_multi]; [intros []|]. rewrite in_app_iff. intros [I|I].
      - apply in_flat_map in I. destruct I as (n1 & In1 & I). apply in_app_iff in I. destruct I as [I|[I|[]]].
        + apply in_flat_map in I. destruct I as (tv & _ & I). apply in_map_iff in I. destruct I as (? & I & _). discriminate.
        + injection I as <- <-. split; [reflexivity|]. exists vs. split; [left; reflexivity|exact In1].
      - destruct (IH I) as (A & vs' & B & C). split; [exact A|]. exists vs'. split; [right; exact B|exact C]. }
    destruct (G _ I) as (A & vs & B & C). eauto 8. }
  assert (POS : forall n, is_node g n -> 0 < ticks n (flat_map h rs)).
  { intros n I. rewrite TK. apply ND in I. destruct I as (r & t & vs & I & A & B). unfold occ. apply count_In in B.
    assert (P1 : 0 < total (fun tv => count n (snd tv)) (c r)).
    { clear -A B. induction (c r) as [|x l IH]; [destruct A|]. unfold total in *. cbn [fold_right]. destruct A as [->|A]; [cbn; lia|]. specialize (IH A). lia. }
    clear -I P1. induction rs as [|r' rs IH]; [destruct I|]. unfold total at 1 in IH. unfold total at 1. cbn [fold_right]. destruct I as [->|I]; [lia|]. specialize (IH I). lia. }
  exists g. split; [|split; [exact W|split; [exact D|split; [exact ND|split; [|split; [|split]]]]]].
  - unfold multi_mode. rewrite <- Eg, iter_flat. apply iter_ext. intros r g0. rewrite multi_values. apply multi_lists_ev.
  - intros u v. rewrite L, lk_flat. f_equal. apply total_ext. intros r _. apply links_multi.
  - intros Hnc n. unfold node_attr. rewrite M. destruct (two_count rt n (flat_map h rs) Hnc) as [(Q & X)|(a & Q & X & C)]; rewrite Q.
    + rewrite <- TK, (no_mention_no_tick _ _ X). reflexivity.
    + change $"count" with cnt_. rewrite C, TK. do 2 f_equal.
      rewrite (missed_flat h (fun r => existsb (fun tv => mem n (snd tv)) (c r))) by (intros r; apply (mentions_multi n (NE r))).
      destruct (find (fun r => existsb (fun tv => mem n (snd tv)) (c r)) rs) as [r|] eqn:Fd; [|reflexivity]. apply find_some in Fd. destruct Fd as [_ Fd]. apply (missed_multi n (NE r) Fd).
  - intros Hnc Hrt n I. pose proof (POS n I) as P. apply nd_In in I. destruct I as [a Q]. unfold node_attr. rewrite Q. change $"type" with type_. rewrite M in Q.
    destruct (@two_types _ _ nc rt n (flat_map h rs) Hrt) with (a := a) as (A & B & _); [left; exact Hnc|exact Q|].
    specialize (B P). destruct (dget type_ a) as [x|]; [|congruence]. destruct (A x eq_refl) as (k & t & -> & J). apply TICKS in J. destruct J as (_ & r & vs & J1 & J2 & J3). cbn in J2. eauto 8.
  - intros Hnc Hrt n I. pose proof (POS n I) as P. apply nd_In in I. destruct I as [a Q]. unfold node_attr. rewrite Q. change $"type" with type_. rewrite M in Q.
    pose proof (@multi_types _ _ nc rt n (flat_map h rs) Hrt Hnc) as MT. rewrite Q in MT. destruct (Nat.eqb_spec (ticks n (flat_map h rs)) 0); [lia|].
    rewrite MT by (intros t m J; apply (TICKS t m J)). cbn [dget]. rewrite eqb_refl. do 2 f_equal.
    rewrite tags_flat. apply flat_map_same. intros r. apply tags_multi.
Qed.
Print Assumptions C16_edges.

(** C16: when every member has values under no tag or at least two, the counts are the numbers of occurrences. *)
Theorem C16_counts_partial :
  forall (N R V : Type) (E : EqDec N) (get : R -> str -> option (fval V)) (str_of : V -> N) (truthy : V -> bool) tags
         (recordType edgeWeight : bool) (rs : list R) g,
    let c := tag_lists get (fun v => negb (truthy v)) str_of tags in
    (forall r, In r rs -> length (c r) <> 1) ->
    multi_mode get str_of truthy tags recordType true edgeWeight rs = Ok g ->
    forall n, node_attr g n $"count" = positive_count (total (fun r => total (fun tv => count n (snd tv)) (c r)) rs).
Proof.
  intros N R V E get str_of truthy tags rt w rs g c HC Q n.
  destruct (C16_edges _ _ _ _ get str_of truthy tags rt true w rs) as (h & Eh & _ & _ & _ & _ & C & _). rewrite Q in Eh. injection Eh as <-.
  specialize (C eq_refl n).
  change (node_attr g n $"count" = positive_count (total (fun r => total (fun tv => count n (snd tv)) (c r)) rs -
    match find (fun r => existsb (fun tv => mem n (snd tv)) (c r)) rs with
    | Some r => match c r with [_] => 1 | _ => 0 end
    | None => 0
    end)) in C. rewrite C. clear C. f_equal. clearbody c.
  destruct (find (fun r => existsb (fun tv => mem n (snd tv)) (c r)) rs) as [r|] eqn:Fd; [|lia].
  apply find_some in Fd. destruct Fd as [I Fd]. specialize (HC r I). destruct (c r) as [|x [|y l]]; try lia. exfalso. apply HC. reflexivity.
Qed.
Print Assumptions C16_counts_partial.

(** C16 is false of the counts in general, and without counts the type of a value met twice is doubled. *)
Theorem C16_counts_refuted :
  exists rs g g', multi_mode getf idf nonempty [$"AU"; $"LA"] true true true rs = Ok g /\
    multi_mode getf idf nonempty [$"AU"; $"LA"] true false true rs = Ok g' /\
    occurs (values_under getf isnone $"AU") rs $"w" = 2 /\ node_attr g $"w" $"count" = Some (VInt 1) /\
    node_attr g' $"w" $"type" = Some (VStr $"AUAU").
Proof. 
  exists [rc; rd].
  destruct (multi_mode getf idf nonempty [$"AU"; $"LA"] true true true [rc; rd]) as [g|] eqn:E; [|vm_compute in E; discriminate].
  destruct (multi_mode getf idf nonempty [$"AU"; $"LA"] true false true [rc; rd]) as [g'|] eqn:E'; [|vm_compute in E'; discriminate].
  exists g, g'. split; [reflexivity|]. split; [reflexivity|]. vm_compute in E, E'. injection E as <-. injection E' as <-. vm_compute. auto. Qed.
Print Assumptions C16_counts_refuted.

Example C16_example :
  exists g, multi_mode getf idf nonempty [$"AU"; $"LA"] true true true [ra; rb; rd] = Ok g /\
    ed g $"x" $"en" = Some [($"weight", VInt 1)] /\ ed g $"x" $"y" = None /\ node_attr g $"x" $"count" = Some (VInt 2) /\
    forall r, In r [ra; rb; rd] -> length (tag_lists getf (fun v => negb (nonempty v)) idf [$"AU"; $"LA"] r) <> 1.
Proof. apply ok_ex. vm_compute. do 3 (split; [reflexivity|]). intros r [<-|[<-|[<-|[]]]]; discriminate. Qed.
