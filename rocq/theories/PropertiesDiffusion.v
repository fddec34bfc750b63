(** C37, C38, C58, C59: diffusion.py. *)
From Coq Require Import String Lia Permutation.
From Verif Require Import Base PyStr Nx NxFacts RecordView SeriesSpec RecordViewFacts NetModel NetSpec NetFacts NetProofs DiffusionModel DiffusionSpec DiffusionProofs DiffusionProofs2 DiffusionProofs3 PropertiesNet.
Set Implicit Arguments.

Section Theorems.
Context {V C E : Type} `{EqDec V} `{EqDec C} `{EqDec E}.
Variable truthy : V -> bool.
Variable letters : V -> option (list V).
Notation drec := (drec V C E).

(** C37: the total of a source value is the number of references of the targets that name a source having it (once for
    each time the source has it), the number for an extra value counts these for the targets having it; the values of
    the named sources are counted, no others. *)
Theorem C37_count (all raw extra : bool) (emap : E -> E) (src tgt : list drec) :
  (raw = false /\ lists_only src) \/ lone_only src ->
  exists d, diffusion_count truthy letters all raw extra emap src tgt = Ok d /\
    (forall k, In k (dkeys d) <-> exists v s c, k = One v /\ cited truthy all src c = Some s /\ In v (entries_of s)) /\
    (forall v, In (One v) (dkeys d) -> total_for d v = Some (total (cited_in truthy all src v) tgt)) /\
    forall v e, extra_for d v e = if extra then total (fun t => cited_in truthy all src v t * extra_in emap e t) tgt else 0.
Proof. intros SH. destruct (@count_spec V C E _ _ _ truthy letters all raw extra emap src tgt SH) as (d & A1 & _ & A2 & A3 & A4). exists d. auto. Qed.

(** C37, records as keys: each reference naming the record counts once. *)
Theorem C37_raw (all raw extra : bool) (emap : E -> E) (src tgt : list drec) (s : drec) (v : V) :
  lone_only src -> unambiguous truthy all src -> In s src -> d_id s = Some (One v) -> truthy v = true -> names all s <> [] ->
  (forall s', In s' src -> d_id s' = Some (One v) -> s' = s) ->
  exists d, diffusion_count truthy letters all raw extra emap src tgt = Ok d /\
    total_for d v = Some (total (fun t => length (filter (fun c => mem c (names all s)) (refs t))) tgt).
Proof.
  intros LO U I1 F T NE UQ. destruct (@count_spec V C E _ _ _ truthy letters all raw extra emap src tgt (or_intror LO)) as (d & A1 & _ & A2 & A3 & A4). exists d. split; [exact A1|].
  assert (PS : present truthy s = true) by (unfold present; rewrite F; exact T).
  assert (CT : forall c, In c (names all s) -> exists s', cited truthy all src c = Some s' /\ d_id s' = Some (One v)).
  { intros c Ic. destruct (cited truthy all src c) as [s'|] eqn:Q.
    - exists s'. split; [reflexivity|]. destruct (cited_sound truthy all src c Q) as (I2 & P2 & C2). rewrite <- F. symmetry. apply (U s s' c); auto.
    - exfalso. rewrite cited_none in Q. exact (Q s I1 PS Ic). }
  rewrite A3.
  - f_equal. apply total_ext. intros t _. unfold cited_in. set (f := fun c => mem c (names all s)).
    assert (TF : forall l, total (fun c => if f c then 1 else 0) l = length (filter f l)).
    { induction l as [|x l IH]; [reflexivity|]. unfold total in *. cbn [fold_right filter]. rewrite IH. destruct (f x); reflexivity. }
    rewrite <- TF. apply total_ext. intros c _. unfold f. destruct (mem c (names all s)) eqn:M.
    + apply mem_In in M. destruct (CT c M) as (s' & -> & F'). unfold entries_of. rewrite F'. cbn. rewrite eqb_refl. reflexivity.
    + destruct (cited truthy all src c) as [s'|] eqn:Q; [|reflexivity]. destruct (cited_sound truthy all src c Q) as (I2 & P2 & C2). destruct (present_id truthy s' P2) as [f' F'].
      destruct (LO s' f' I2 F') as [v' ->]. unfold entries_of. rewrite F'. cbn. destruct (eqb_spec v v') as [<-|N1]; [|reflexivity].
      rewrite (UQ s' I2 F') in C2. apply mem_In in C2. congruence.
  - destruct (names all s) as [|c cs] eqn:N1; [congruence|]. destruct (CT c (or_introl eq_refl)) as (s' & Q & F'). apply A2. exists v, s', c. split; [reflexivity|]. split; [exact Q|]. unfold entries_of. rewrite F'. left. reflexivity.
Qed.

(** C37: if no citation names two sources with different values, the order of the collections does not matter. *)
Theorem C37_order (all raw extra : bool) (emap : E -> E) (src src' tgt tgt' : list drec) :
  (raw = false /\ lists_only src) \/ lone_only src -> unambiguous truthy all src -> Permutation src src' -> Permutation tgt tgt' ->
  exists d d', diffusion_count truthy letters all raw extra emap src tgt = Ok d /\ diffusion_count truthy letters all raw extra emap src' tgt' = Ok d' /\
    (forall k, In k (dkeys d) <-> In k (dkeys d')) /\ (forall v, total_for d v = total_for d' v) /\ forall v e, extra_for d v e = extra_for d' v e.
Proof.
  intros SH U P P'. destruct (@count_spec V C E _ _ _ truthy letters all raw extra emap src tgt SH) as (d & A1 & _ & A2 & A3 & A4).
  destruct (@count_spec V C E _ _ _ truthy letters all raw extra emap src' tgt' (shape_perm SH P)) as (d' & B1 & _ & B2 & B3 & B4).
  assert (KK : forall k, In k (dkeys d) <-> In k (dkeys d')).
  { intros k. rewrite A2, B2. split; intros (v & s & c & -> & Q & I1); pose proof (cited_perm U P c) as CP; rewrite Q in CP.
    - destruct (cited truthy all src' c) as [s'|] eqn:Q'; [|discriminate]. injection CP as CP. exists v, s', c. rewrite <- (entries_of_id _ _ CP). auto.
    - destruct (cited truthy all src c) as [s'|] eqn:Q'; [|discriminate]. injection CP as CP. exists v, s', c. rewrite (entries_of_id _ _ CP). auto. }
  exists d, d'. split; [exact A1|]. split; [exact B1|]. split; [exact KK|]. split.
  - intros v. destruct (mem (One v) (dkeys d)) eqn:M.
    + apply mem_In in M. rewrite A3 by exact M. rewrite B3 by (apply KK, M). f_equal. rewrite <- (total_perm _ P'). apply total_ext. intros t _. apply cited_in_perm; assumption.
    + apply mem_not_In in M. unfold total_for. rewrite (proj2 (dget_None _ d) M), (proj2 (dget_None _ d') (fun I1 => M (proj2 (KK _) I1))). reflexivity.
  - intros v e. rewrite A4, B4. destruct extra; [|reflexivity]. rewrite <- (total_perm _ P'). apply total_ext. intros t _. rewrite (@cited_in_perm V C E _ _ truthy all src src') by assumption. reflexivity.
Qed.

(** C37, compareCounts: each value gets its counts in the targets and in the sources. *)
Theorem C37_compare (raw extra : bool) (emap : E -> E) (src tgt : list drec) :
  (raw = false /\ lists_only src) \/ lone_only src ->
  exists r, diffusion_compare truthy letters true raw extra emap src tgt = Ok r /\
    forall v s c, cited truthy true src c = Some s -> In v (entries_of s) ->
      exists g l, dget (One v) r = Some (inr (g, l)) /\
        dget None g = Some (total (cited_in truthy true src v) tgt) /\ dget None l = Some (total (cited_in truthy true src v) src).
Proof.
  intros SH. destruct (@count_spec V C E _ _ _ truthy letters true raw extra emap src tgt SH) as (d & A1 & NA & A2 & A3 & _).
  destruct (@count_spec V C E _ _ _ truthy letters true raw extra (fun e => e) src src SH) as (l & B1 & NB & B2 & B3 & _).
  unfold diffusion_compare. rewrite A1, B1. cbn [bind].
  assert (KK : forall k, In k (dkeys l) <-> In k (dkeys d)) by (intros k; rewrite A2, B2; tauto).
  set (step := fun kv res => _).
  assert (RUN : forall l' r, (forall k cs, In (k, cs) l' -> exists c, dget k r = Some (inl c)) -> NoDup (dkeys l') ->
     exists r', iter step l' r = Ok r' /\ forall k, dget k r' = match dget k l', dget k r with Some cs, Some (inl c) => Some (inr (c, cs)) | _, o => o end).
  { induction l' as [|[k cs] l' IH]; intros r A ND; [exists r; split; [reflexivity|]; intros k; reflexivity|].
    destruct (A k cs (or_introl eq_refl)) as [c0 G]. cbn [iter]. unfold step at 1. cbn [fst snd]. rewrite G. cbn [bind]. inversion ND as [|? ? NI ND']; subst.
    destruct (IH (dset k (inr (c0, cs)) r)) as (r' & E1 & G1).
    - intros k' cs' I1. rewrite dget_dset. destruct (eqb_spec k' k) as [->|N1].
      + exfalso. apply NI. apply in_map_iff. exists (k, cs'). auto.
      + apply (A k' cs'). right. exact I1.
    - exact ND'.
    - exists r'. split; [exact E1|]. intros k'. rewrite G1, dget_dset. cbn [dget]. destruct (eqb_spec k' k) as [->|N1]; [|reflexivity].
      rewrite (proj2 (dget_None k l') NI), G. reflexivity. }
  assert (DG : forall k, dget k (map (fun kv => (fst kv, inl (snd kv))) d) = option_map (@inl (counts (E:=E)) (counts (E:=E) * counts (E:=E))) (dget k d)).
  { intros k. clear. induction d as [|[a b] d IH]; [reflexivity|]. cbn. destruct (eqb k a); [reflexivity|exact IH]. }
  destruct (RUN l (map (fun kv => (fst kv, inl (snd kv))) d)) as (r & E1 & G1).
  - intros k cs I1. assert (I2 : In k (dkeys d)) by (apply KK; apply in_map_iff; exists (k, cs); auto). rewrite DG. destruct (dget k d) as [c0|] eqn:Q; [exists c0; reflexivity|]. exfalso. apply dget_None in Q. exact (Q I2).
  - exact NB.
  - exists r. split; [exact E1|]. intros v s c Q I1.
    assert (Id : In (One v) (dkeys d)) by (apply A2; eauto 6). assert (Il : In (One v) (dkeys l)) by (apply B2; eauto 6).
    specialize (A3 v Id). specialize (B3 v Il). unfold total_for, counts in *. specialize (G1 (One v)). rewrite DG in G1.
    destruct (dget (One v) d) as [g|]; [|discriminate]. destruct (dget (One v) l) as [g'|]; [|discriminate]. exists g, g'. auto.
Qed.

(** C58: the table of a tag has one row for each value (and each extra value), with its counts. *)
Theorem C58_table (all compare : bool) (tag : option E) (emap : E -> E) (src tgt : list drec) :
  lists_only src \/ lone_only src -> compare = true -> all = true ->
  exists rs es ns ls, diffusion_table truthy letters all false compare tag emap src tgt = Ok (rs, es, ns, ls) /\
    NoDup rs /\ length ns = length rs /\ length ls = length rs /\
    (forall k, In k rs <-> exists v s c, k = One v /\ cited truthy all src c = Some s /\ In v (entries_of s)) /\
    forall i v, nth_error rs i = Some (One v) ->
      nth_error ns i = Some (total (cited_in truthy all src v) tgt) /\ nth_error ls i = Some (total (cited_in truthy all src v) src).
Proof.
  intros SH0 -> ->. assert (SH : (false = false /\ lists_only src) \/ lone_only src) by tauto.
  destruct (@count_spec V C E _ _ _ truthy letters true false false emap src tgt SH) as (d & A1 & NA & A2 & A3 & _).
  destruct (@count_spec V C E _ _ _ truthy letters true false false (fun e => e) src src SH) as (l & B1 & NB & B2 & B3 & _).
  unfold diffusion_table. rewrite A1, B1. cbn [bind].
  assert (TD : forall k cs, In (k, cs) d -> exists v cs', k = One v /\ dget None cs = Some (total (cited_in truthy true src v) tgt) /\ dget k l = Some cs' /\ dget None cs' = Some (total (cited_in truthy true src v) src)).
  { intros k cs I1. assert (Ik : In k (dkeys d)) by (apply in_map_iff; exists (k, cs); auto). destruct (proj1 (A2 k) Ik) as (v & s & c & -> & Q & Iv).
    assert (Il : In (One v) (dkeys l)) by (apply B2; eauto 6). specialize (A3 v Ik). specialize (B3 v Il). unfold total_for, counts in *. rewrite (In_dget _ _ _ NA I1) in A3.
    destruct (dget (One v) l) as [cs'|] eqn:G; [|discriminate]. exists v, cs'. auto. }
  rewrite count_table_spec.
  - unfold cols. eexists _, _, _, _. split; [reflexivity|].
    assert (RW : flat_map (rows_of true false tag l) d = map (fun kc => (fst kc, None, match dget None (snd kc) with Some n => n | None => 0 end, match dget (fst kc) l with Some cs => match dget None cs with Some n => n | None => 0 end | None => 0 end)) d).
    { clear. induction d as [|kc d IH]; [reflexivity|]. cbn [flat_map map]. rewrite IH. reflexivity. }
    rewrite RW, !map_map. cbn [fst snd]. split; [exact NA|]. split; [rewrite !map_length; reflexivity|]. split; [rewrite !map_length; reflexivity|]. split; [exact A2|].
    intros i v N1. unfold counts in *. rewrite !nth_error_map in *. destruct (nth_error d i) as [[k cs]|] eqn:N0; [|exfalso; cbn in N1; discriminate N1]. cbn in N1. injection N1 as ->.
    destruct (TD _ _ (nth_error_In _ _ N0)) as (v' & cs' & Ev & T1 & T2 & T3). injection Ev as <-. cbn [option_map fst snd]. unfold counts in *. rewrite T1, T2, T3. auto.
  - intros _ k cs I1. destruct (TD k cs I1) as (v & cs' & -> & T1 & T2 & T3). split; [unfold counts in *; congruence|]. intros _. exists cs'. split; [exact T2|]. unfold counts in *; congruence.
Qed.

(** C58 with an extra tag: for every row the count is that of its value and its extra value ("TargetCount" is [None]). *)
Theorem C58_extra_partial (all : bool) (tag : option E) (emap : E -> E) (src tgt : list drec) :
  lists_only src \/ lone_only src ->
  exists rs es ns, diffusion_table truthy letters all true false tag emap src tgt = Ok (rs, es, ns, []) /\
    length es = length rs /\ length ns = length rs /\
    forall i v, nth_error rs i = Some (One v) -> exists x n, nth_error es i = Some x /\ nth_error ns i = Some n /\
      n = match x with
          | None => total (cited_in truthy all src v) tgt
          | Some e => total (fun t => cited_in truthy all src v t * extra_in emap e t) tgt
          end.
Proof.
  intros SH0. assert (SH : (false = false /\ lists_only src) \/ lone_only src) by tauto.
  destruct (@diffusion_count_spec V C E _ _ _ truthy letters all false true emap src SH tgt) as (d & E1 & [ND SC] & K & HE).
  unfold diffusion_table. rewrite E1. cbn [bind]. rewrite count_table_spec by discriminate. unfold cols. eexists _, _, _. split; [reflexivity|].
  split; [rewrite !map_length; reflexivity|]. split; [rewrite !map_length; reflexivity|].
  intros i v N1. rewrite !nth_error_map in *. destruct (nth_error _ i) as [[[[k x] n] m]|] eqn:N0; [|discriminate]. cbn in N1. injection N1 as ->. exists x, n. split; [reflexivity|]. split; [reflexivity|].
  apply nth_error_In in N0. apply in_flat_map in N0. destruct N0 as ([k cs] & I1 & I2). unfold rows_of in I2. apply in_map_iff in I2. destruct I2 as ([x' n'] & Q & I2). injection Q as -> -> -> _.
  assert (G : dget (One v) d = Some cs) by (apply In_dget; assumption).
  assert (IN : forall (a : option E) (b : nat) (cs' : counts (E:=E)), In (a, b) cs' -> NoDup (map fst cs') -> dget a cs' = Some b) by (intros a b cs' Ia Nd; apply In_dget; assumption).
  assert (HN : NoDup (dkeys cs)).
  { clear - E1 G. unfold diffusion_count in E1.
    assert (INV : forall (P : dict (fval V) (counts (E:=E)) -> Prop), (forall (sd : dict C (fval V)) lid d0, zero_counts letters lid sd = Ok d0 -> P d0) ->
       (forall vals k d0 d1, P d0 -> count_one vals k d0 = Ok d1 -> P d1) -> P d).
    { intros P P0 PS. destruct (zero_counts letters (list_ids false src) (source_dict truthy all src)) as [d0|] eqn:Z; [|discriminate]. cbn [bind] in E1. apply P0 in Z.
      assert (IT : forall (A : Type) (f : A -> dict (fval V) (counts (E:=E)) -> res (dict (fval V) (counts (E:=E)))), (forall a x y, P x -> f a x = Ok y -> P y) -> forall l x y, P x -> iter f l x = Ok y -> P y).
      { intros A f Hf l. induction l as [|a l IH]; intros x0 y Px; cbn [iter]; [intros [= <-]; exact Px|]. destruct (f a x0) as [z|] eqn:Fz; [|discriminate]. cbn [bind]. apply IH. eapply Hf; eassumption. }
      revert Z E1. apply IT. intros t x0 y Px. unfold count_target. revert Px. apply IT. intros c x1 y1 Px1. destruct (dget c (source_dict truthy all src)) as [f|]; [|intros [= <-]; exact Px1].
      destruct (keys_of letters (list_ids false src) f) as [ks|]; [|discriminate]. cbn [bind]. revert Px1. apply IT. intros k x2 y2. apply PS. }
    revert cs G. change ((fun d : dict (fval V) (counts (E:=E)) => forall cs, dget (One v) d = Some cs -> NoDup (dkeys cs)) d). 
    refine (INV (fun d => forall cs, dget (One v) d = Some cs -> NoDup (dkeys cs)) _ _).
    - intros sd lid d0 Z cs G. unfold zero_counts in Z.
      assert (ZZ : forall fs x y, (forall k cs, dget k x = Some cs -> cs = [(None, 0)]) ->
         iter (fun f d => let* ks := keys_of letters lid f in Ok (fold_left (fun d k => dset k [(@None E, 0)] d) ks d)) fs x = Ok y -> forall k cs, dget k y = Some cs -> cs = [(None, 0)]).
      { induction fs as [|f fs IH]; intros x0 y Px; cbn [iter]; [intros [= <-]; exact Px|]. destruct (keys_of letters lid f) as [ks|]; [|discriminate]. cbn [bind]. apply IH.
        clear -Px. revert x0 Px. induction ks as [|k ks IH]; intros x0 Px; [exact Px|]. cbn. apply IH. intros k' cs. rewrite dget_dset. destruct (eqb k' k); [intros [= <-]; reflexivity|apply Px]. }
      assert (Q0 : forall k cs, dget k (@nil (fval V * counts (E:=E))) = Some cs -> cs = [(None, 0)]) by (intros k0 cs0 Q; discriminate).
      rewrite (ZZ _ _ _ Q0 Z (One v) cs G). repeat constructor. intros [].
    - intros vals k d0 d1 P0. unfold count_one. destruct (dget k d0) as [cs0|] eqn:G0; [|discriminate]. destruct (dget None cs0) as [n0|]; [|discriminate]. intros [= <-] cs. rewrite dget_dset.
      destruct (eqb_spec (One v) k) as [<-|N1]; [|apply P0]. intros [= <-]. specialize (P0 cs0 G0).
      assert (FD : forall c0 : counts (E:=E), NoDup (dkeys c0) -> NoDup (dkeys (fold_left (fun cs v => dincr (Some v) cs) vals c0))).
      { clear. induction vals as [|a vals IH]; intros c0 N0; [exact N0|]. cbn. apply IH. unfold dincr. destruct (dget (Some a) c0); apply NoDup_dset, N0. }
      apply FD, NoDup_dset, P0. }
  specialize (IN x n cs I2 HN). specialize (HE (One v) x). unfold held in HE. rewrite G, IN in HE. rewrite HE. destruct x as [e|]; cbn [adds].
  - apply total_ext. intros t _. rewrite gain_eq, extras_eq. reflexivity.
  - apply total_ext. intros t _. rewrite gain_eq. lia.
Qed.

(** C38: there is an edge from a part of a source to a part of a target for each citing; the nodes are the parts, with
    flags telling on which side they occur. *)
Theorem C38_graph (weighted : bool) (src tgt : list drec) : iterable truthy letters src -> iterable truthy letters tgt ->
  exists g, diffusion_graph truthy letters weighted src tgt = Ok g /\ gdir g = true /\
    (forall u v, ed g u v = edge_value weighted (citings truthy letters src tgt u v)) /\
    (forall n, is_node g n <-> exists r, In r (src ++ tgt) /\ In n (parts truthy letters r)) /\
    forall n, is_node g n -> exists s t, node_attr g n $"source" = Some (VBool s) /\ node_attr g n $"target" = Some (VBool t) /\
      (s = true <-> exists r, In r src /\ In n (parts truthy letters r)) /\ (t = true <-> exists r, In r tgt /\ In n (parts truthy letters r)).
Proof.
  intros IS IT. destruct (diffusion_graph_spec weighted IS IT) as (g & E1 & W & D & L & A1). exists g. split; [exact E1|]. split; [exact D|]. split; [exact L|]. 
  set (s := fun n => mem n (flat_map (parts truthy letters) src)). set (t := fun n => mem n (flat_map (parts truthy letters) tgt)).
  assert (Is : forall n, s n = true <-> exists r, In r src /\ In n (parts truthy letters r)) by (intros n; unfold s; rewrite mem_In, in_flat_map; tauto).
  assert (It : forall n, t n = true <-> exists r, In r tgt /\ In n (parts truthy letters r)) by (intros n; unfold t; rewrite mem_In, in_flat_map; tauto).
  assert (NN : forall n, is_node g n <-> s n || t n = true).
  { intros n. unfold is_node. rewrite nd_In, A1. fold (s n) (t n). unfold flags. destruct (s n || t n); split; try discriminate; eauto. intros [x Hx]. discriminate. }
  split.
  - intros n. rewrite NN, orb_true_iff, Is, It. split.
    + intros [(r & I1 & I2)|(r & I1 & I2)]; exists r; rewrite in_app_iff; auto.
    + intros (r & I1 & I2). apply in_app_iff in I1. destruct I1 as [I1|I1]; eauto.
  - intros n Nn. apply NN in Nn. exists (s n), (t n). unfold node_attr. rewrite A1. fold (s n) (t n). unfold flags. rewrite Nn. split; [reflexivity|]. split; [reflexivity|]. split; [apply Is|apply It].
Qed.
Theorem C38_edges (weighted : bool) (src tgt : list drec) : iterable truthy letters src -> iterable truthy letters tgt ->
  exists g, diffusion_graph truthy letters weighted src tgt = Ok g /\
    forall u v, is_edge g u v <-> exists s t c, In t tgt /\ In c (refs t) /\ cited truthy false src c = Some s /\ In u (parts truthy letters s) /\ In v (parts truthy letters t).
Proof.
  intros IS IT. destruct (diffusion_graph_spec weighted IS IT) as (g & E1 & W & D & L & A1). exists g. split; [exact E1|]. intros u v. unfold is_edge. rewrite L.
  assert (CP : forall (x : V) l, 0 < count x l <-> In x l).
  { intros x l. induction l as [|y l IH]; cbn; [intuition lia|]. destruct (eqb_spec x y) as [->|N1]; intuition; try lia. congruence. }
  assert (Q : edge_value weighted (citings truthy letters src tgt u v) <> None <-> 0 < citings truthy letters src tgt u v).
  { unfold edge_value. destruct (Nat.eqb_spec (citings truthy letters src tgt u v) 0); split; intros; try lia; try discriminate. congruence. }
  rewrite Q. unfold citings. rewrite total_pos. split.
  - intros (t & It & P). apply Nat.lt_0_mul' in P. destruct P as [P1 P2]. apply CP in P1. apply total_pos in P2. destruct P2 as (c & Ic & P2).
    destruct (cited truthy false src c) as [s|] eqn:Qs; [|lia]. apply CP in P2. exists s, t, c. auto.
  - intros (s & t & c & It & Ic & Qs & Iu & Iv). exists t. split; [exact It|]. apply Nat.mul_pos_pos; [apply CP, Iv|]. apply total_pos. exists c. split; [exact Ic|]. rewrite Qs. apply CP, Iu.
Qed.

(** C38, labelled: with weights a parallel edge for each citing and each label of the target, without the same edges
    once; the targets without label are left out. *)
Theorem C38_labelled (weighted : bool) (name : E -> E) (src tgt : list drec) : iterable truthy letters src -> iterable truthy letters tgt ->
  exists g m, diffusion_multigraph truthy letters weighted name src tgt = Ok (g, m) /\
    (forall u v e, In (u, v, e) m <-> exists s t c x, In t tgt /\ In c (refs t) /\ cited truthy false src c = Some s /\ In u (parts truthy letters s) /\ In v (parts truthy letters t) /\
        In x (match d_extra t with Some f => entries f | None => [] end) /\ e = name x) /\
    (weighted = false -> NoDup m) /\
    forall n, is_node g n <-> exists r, (In r src \/ (In r tgt /\ d_extra r <> None)) /\ In n (parts truthy letters r).
Proof.
  intros IS IT. destruct (diffusion_multigraph_spec name weighted IS IT) as (g & m & E1 & W & A1 & M). set (tgt' := filter _ tgt) in *. exists g, m. split; [exact E1|].
  assert (INL : forall u v e, In (u, v, e) (flat_map (label_edges truthy letters name src) tgt') <-> exists s t c x, In t tgt /\ In c (refs t) /\ cited truthy false src c = Some s /\ In u (parts truthy letters s) /\ In v (parts truthy letters t) /\
        In x (match d_extra t with Some f => entries f | None => [] end) /\ e = name x).
  { intros u v e. split.
    - intros I1. apply in_flat_map in I1. destruct I1 as (t & It & I1). apply filter_In in It. destruct It as [It _]. apply in_flat_map in I1. destruct I1 as (v' & Iv & I1). apply in_flat_map in I1. destruct I1 as (c & Ic & I1).
      destruct (cited truthy false src c) as [s|] eqn:Q; [|destruct I1]. apply in_flat_map in I1. destruct I1 as (u' & Iu & I1). apply in_map_iff in I1. destruct I1 as (e' & Q' & Ie). injection Q' as -> -> ->.
      unfold labels in Ie. exists s, t, c. destruct (d_extra t) as [[x|l]|]; [| |destruct Ie].
      + destruct Ie as [<-|[]]. exists x. repeat (split; [assumption|]). split; [left|]; reflexivity.
      + apply in_map_iff in Ie. destruct Ie as (x & <- & Ix). exists x. repeat (split; [assumption|]). reflexivity.
    - intros (s & t & c & x & It & Ic & Q & Iu & Iv & Ix & ->). apply in_flat_map. exists t. split; [apply filter_In; split; [exact It|]; destruct (d_extra t); [reflexivity|destruct Ix]|].
      apply in_flat_map. exists v. split; [exact Iv|]. apply in_flat_map. exists c. split; [exact Ic|]. rewrite Q. apply in_flat_map. exists u. split; [exact Iu|]. apply in_map_iff. exists (name x). split; [reflexivity|].
      unfold labels. destruct (d_extra t) as [[y|l]|]; cbn [entries] in Ix; [destruct Ix as [<-|[]]; left; reflexivity|apply in_map, Ix|destruct Ix]. }
  split; [|split].
  - intros u v e. rewrite <- INL, M. destruct weighted; [rewrite put_weighted; reflexivity|]. rewrite (proj2 (put_plain _ (NoDup_nil _))). cbn. tauto.
  - intros ->. rewrite M. apply put_plain. constructor.
  - intros n. unfold is_node. rewrite nd_In, A1. unfold flags. destruct (mem n (flat_map (parts truthy letters) src)) eqn:M1; cbn [orb].
    + apply mem_In, in_flat_map in M1. destruct M1 as (r & I1 & I2). split; [|eauto]. intros _. exists r. auto.
    + apply mem_not_In in M1. destruct (mem n (flat_map (parts truthy letters) tgt')) eqn:M2.
      * apply mem_In, in_flat_map in M2. destruct M2 as (r & I1 & I2). split; [|eauto]. intros _. exists r. apply filter_In in I1. destruct I1 as [I1 X]. split; [right; split; [exact I1|]; destruct (d_extra r); congruence|exact I2].
      * apply mem_not_In in M2. split; [intros [a Ha]; discriminate|]. intros (r & [I1|[I1 X]] & I2); exfalso.
        -- apply M1, in_flat_map. eauto.
        -- apply M2, in_flat_map. exists r. split; [apply filter_In; split; [exact I1|]; destruct (d_extra r); congruence|exact I2].
Qed.
(** C38, labelled and weighted: one parallel edge for each citing. *)
Theorem C38_parallel (name : E -> E) (src tgt : list drec) : iterable truthy letters src -> iterable truthy letters tgt ->
  exists g m, diffusion_multigraph truthy letters true name src tgt = Ok (g, m) /\
    forall u v e, length (filter (fun x => eqb (fst (fst x)) u && eqb (snd (fst x)) v && eqb (snd x) e) m) =
      total (fun t => count v (parts truthy letters t) * total (fun c => match cited truthy false src c with Some s => count u (parts truthy letters s) | None => 0 end) (refs t)
                      * count e (map name (match d_extra t with Some f => entries f | None => [] end))) tgt.
Proof.
  intros IS IT. destruct (diffusion_multigraph_spec name true IS IT) as (g & m & E1 & W & A1 & M). exists g, m. split; [exact E1|]. rewrite put_weighted in M. cbn [app] in M. subst m.
  intros u v e. set (p := fun x => _).
  assert (LF : forall (A : Type) (f : A -> list (V * V * E)) l, length (filter p (flat_map f l)) = total (fun a => length (filter p (f a))) l).
  { intros A f l. induction l as [|a l IH]; [reflexivity|]. cbn [flat_map]. rewrite filter_app, app_length, IH. reflexivity. }
  rewrite LF.
  assert (FT : forall f : drec -> nat, total f (filter (fun t => match d_extra t with Some _ => true | None => false end) tgt) = total (fun t => match d_extra t with Some _ => f t | None => 0 end) tgt).
  { intros f. clear. induction tgt as [|t tgt IH]; [reflexivity|]. cbn [filter]. unfold total in *. cbn [fold_right]. rewrite <- IH. destruct (d_extra t); reflexivity. }
  rewrite FT. apply total_ext. intros t _. destruct (d_extra t) as [x|] eqn:X; [|cbn; lia]. unfold label_edges. rewrite LF.
  assert (LB : labels name t = map name (entries x)) by (unfold labels; rewrite X; destruct x; reflexivity). rewrite LB. set (n := count e (map name (entries x))).
  set (k := total _ (refs t)).
  transitivity (total (fun v' => if eqb v' v then k * n else 0) (parts truthy letters t)).
  - apply total_ext. intros v' _. rewrite LF. destruct (eqb v' v) eqn:Qv.
    + unfold k. rewrite Nat.mul_comm, <- total_scale. apply total_ext. intros c _. destruct (cited truthy false src c) as [s|]; [|cbn; lia]. rewrite LF.
      transitivity (total (fun u' => if eqb u' u then n else 0) (parts truthy letters s)).
      * apply total_ext. intros u' _. unfold n. clear -Qv. induction (map name (entries x)) as [|y l IH]; [destruct (eqb u' u); reflexivity|]. cbn [map filter]. unfold p at 1. cbn [fst snd]. rewrite Qv, andb_true_r.
        destruct (eqb u' u); cbn [andb count]; [|exact IH]. rewrite (eqb_sym e y). destruct (eqb y e); cbn [length]; rewrite IH; reflexivity.
      * induction (parts truthy letters s) as [|y l IH]; [cbn; lia|]. unfold total in *. cbn [fold_right count]. rewrite IH, (eqb_sym u y). destruct (eqb y u); lia.
    + rewrite <- (total_zero (refs t)). apply total_ext. intros c _. destruct (cited truthy false src c) as [s|]; [|reflexivity]. rewrite LF. rewrite <- (total_zero (parts truthy letters s)). apply total_ext. intros u' _.
      clear -Qv. induction (map name (entries x)) as [|y l IH]; [reflexivity|]. cbn [map filter]. unfold p at 1. cbn [fst snd]. rewrite Qv, andb_false_r. exact IH.
  - induction (parts truthy letters t) as [|y l IH]; [reflexivity|]. unfold total in *. cbn [fold_right count]. rewrite IH, (eqb_sym v y). destruct (eqb y v); lia.
Qed.

(** C59: with a networkx that has [nodes_iter], every node gets its count, 0 if it has none, and nothing else changes. *)
Theorem C59_add_partial (is_str : fval V -> bool) (show : fval V -> fval V) (label : str) (d : dict (fval V) nat) (g : graph V) :
  WF g -> NoDup (dkeys d) -> (forall k, In k (dkeys d) -> is_str k = true) ->
  exists g', add_counts true is_str show label d g = Ok g' /\ nodes g' = nodes g /\ (forall u v, ed g' u v = ed g u v) /\
    forall n, is_node g n -> node_attr g' n label = Some (VInt (Z.of_nat (match dget (One n) d with Some k => k | None => 0 end))) /\
      forall k, k <> label -> node_attr g' n k = node_attr g n k.
Proof.
  intros W ND IST. unfold add_counts.
  assert (RS : restring is_str show d = d) by (destruct d as [|[k x] d]; [reflexivity|]; cbn; rewrite IST by (left; reflexivity); reflexivity). rewrite RS.
  set (f := fun n : V => VInt (Z.of_nat (match dget (One n) d with Some k => k | None => 0 end))).
  assert (RUN : forall l g0, WF g0 -> nodes g0 = nodes g -> incl l (nodes g) -> exists g', iter (fun n => node_set n label (f n)) l g0 = Ok g' /\ nodes g' = nodes g /\ (forall u v, ed g' u v = ed g0 u v) /\
     forall n, nd g' n = if mem n l then option_map (dset label (f n)) (nd g0 n) else nd g0 n).
  { induction l as [|n l IH]; intros g0 W0 N0 I0; [exists g0; auto|]. assert (In0 : In n (nodes g0)) by (rewrite N0; apply I0; left; reflexivity). apply nd_In in In0. destruct In0 as [a Ha].
    destruct (@set_present _ _ g0 n label (f n) a W0 Ha) as (g1 & E1 & W1 & _ & ED1 & ND1). cbn [iter]. rewrite E1. cbn [bind].
    destruct (IH g1 W1) as (g' & E2 & N2 & ED2 & ND2); [rewrite (nodes_node_set _ _ _ _ E1); exact N0|intros x Ix; apply I0; right; exact Ix|].
    exists g'. split; [exact E2|]. split; [exact N2|]. split; [intros u v; rewrite ED2; apply ED1|]. intros m. rewrite ND2, ND1. unfold mem. cbn [existsb]. destruct (eqb_spec m n) as [->|N1]; cbn [orb]; [|reflexivity].
    rewrite Ha. cbn [option_map]. destruct (existsb (eqb n) l); [|reflexivity]. f_equal. clear. induction a as [|[k x] a IH]; cbn [dset]; [rewrite eqb_refl; reflexivity|].
    destruct (eqb_spec label k) as [<-|N1]; cbn [dset]; [rewrite eqb_refl; reflexivity|]. rewrite (neq_eqb N1), IH. reflexivity. }
  destruct (RUN (nodes g) g W eq_refl (incl_refl _)) as (g' & E1 & N1 & ED & NDg). exists g'. split; [exact E1|]. split; [exact N1|]. split; [exact ED|].
  intros n In0. unfold is_node in In0. assert (M : mem n (nodes g) = true) by (apply mem_In, In0). apply nd_In in In0. destruct In0 as [a Ha]. unfold node_attr. rewrite NDg, M, Ha. cbn [option_map].
  split; [apply dget_dset_same|]. intros k Nk. apply dget_dset_other, Nk.
Qed.
(** C59: networkx 2 has no [nodes_iter]: the function always fails. *)
Theorem C59_add_refuted (is_str : fval V -> bool) (show : fval V -> fval V) (label : str) (d : dict (fval V) nat) (g : graph V) :
  add_counts false is_str show label d g = Raise AttributeError.
Proof. reflexivity. Qed.
End Theorems.

(** ** concrete records: strings with their characters; citations and extra values are numbers *)
Definition chars (s : str) : option (list str) := Some (map (fun c => [c]) s).
Definition has_text (s : str) : bool := match s with [] => false | _ => true end.
Definition drec1 := drec str nat nat.
Definition mk1 (id : option (fval str)) (c : nat) (cs : list nat) (cites : list nat) (e : option (fval nat)) : drec1 :=
  {| d_id := id; d_first := c; d_all := cs; d_cites := Some cites; d_extra := e |}.
Definition src1 : list drec1 := [mk1 (Some (Many [$"ann"; $"bob"])) 1 [1; 11] [] (Some (One 1990)); mk1 (Some (Many [$"bob"])) 2 [2] [1] (Some (One 1991)); mk1 None 3 [3] [] None].
Definition tgt1 : list drec1 := [mk1 (Some (Many [$"cid"])) 7 [7] [1; 2; 11; 99] (Some (One 2001)); mk1 (Some (Many [$"bob"; $"dan"])) 8 [8] [2; 2] None; mk1 (Some (Many [$"eve"])) 9 [9] [3] (Some (One 2002))].
Definition read (d : dict (fval str) (counts (E:=nat))) : list (fval str * list (option nat * nat)) := d.
Example src1_ok : lists_only src1 /\ unambiguous has_text true src1 /\ iterable has_text chars src1 /\ iterable has_text chars tgt1.
Proof.
  split; [intros s f I1 F|split; [|split]].
  - destruct I1 as [<-|[<-|[<-|[]]]]; cbn in F; try discriminate; injection F as <-; eauto.
  - intros s s' c I1 I2 P P' C1 C2. destruct I1 as [<-|[<-|[<-|[]]]]; cbn in P, C1; try discriminate; destruct I2 as [<-|[<-|[<-|[]]]]; cbn in P', C2; try discriminate; try reflexivity; exfalso; intuition congruence.
  - intros r v _ _ _ Q. discriminate.
  - intros r v _ _ _ Q. discriminate.
Qed.
Example C37_ex : diffusion_count has_text chars true false true (fun e => e) src1 tgt1 =
  Ok [(One $"ann", [(None, 2); (Some 2001, 2)]); (One $"bob", [(None, 5); (Some 2001, 3)])].
Proof. vm_compute. reflexivity. Qed.
Example C37_compare_ex : diffusion_compare has_text chars true false false (fun e => e) src1 tgt1 =
  Ok [(One $"ann", inr ([(None, 2)], [(None, 1)])); (One $"bob", inr ([(None, 5)], [(None, 1)]))].
Proof. vm_compute. reflexivity. Qed.
Example C58_ex : diffusion_table has_text chars true false true None (fun e => e) src1 tgt1 =
  Ok ([One $"ann"; One $"bob"], [None; None], [2; 5], [1; 1]).
Proof. vm_compute. reflexivity. Qed.
(** records as keys *)
Definition raw1 : list drec1 := [mk1 (Some (One $"R1")) 1 [1; 11] [] None; mk1 (Some (One $"R2")) 2 [2] [] None].
Example C37_raw_ex : lone_only raw1 /\ unambiguous has_text true raw1 /\
  diffusion_count has_text chars true true false (fun e => e) raw1 tgt1 = Ok [(One $"R1", [(None, 2)]); (One $"R2", [(None, 3)])].
Proof.
  split; [|split; [|vm_compute; reflexivity]].
  - intros s f [<-|[<-|[]]] F; injection F as <-; eauto.
  - intros s s' c [<-|[<-|[]]] [<-|[<-|[]]] P P' C1 C2; try reflexivity; cbn in C1, C2; exfalso; intuition congruence.
Qed.

(** C37 fails if two sources are named by one citation: the counts depend on the order of the sources, and a source is
    not counted at all. *)
Theorem C37_order_refuted : exists (a b : drec1) tgt da db, 
  diffusion_count has_text chars true true false (fun e => e) [a; b] tgt = Ok da /\ diffusion_count has_text chars true true false (fun e => e) [b; a] tgt = Ok db /\
  total_for da $"R1" = None /\ total_for db $"R1" = Some 1.
Proof. exists (mk1 (Some (One $"R1")) 1 [1] [] None), (mk1 (Some (One $"R2")) 1 [1] [] None), [mk1 (Some (One $"T")) 5 [5] [1] None]. eexists _, _. vm_compute. repeat split. Qed.
(** C37: with [useAllAuthors = False] the comparison may fail, as the local counts use all authors. *)
Theorem C37_compare_refuted : exists (src : list drec1), lone_only src /\ diffusion_compare has_text chars false true false (fun e => e) src src = Raise KeyError.
Proof.
  exists [mk1 (Some (One $"R1")) 1 [1; 11] [] None; mk1 (Some (One $"R2")) 1 [1; 12] [] None]. split; [|vm_compute; reflexivity]. intros s f [<-|[<-|[]]] F; injection F as <-; eauto.
Qed.
(** C58: with an extra tag the column of the source counts is 0, whatever they are: ann is cited once in the sources. *)
Theorem C58_source_count_refuted : exists rs es ns ls, diffusion_table has_text chars true true true None (fun e => e) src1 src1 = Ok (rs, es, ns, ls) /\
  rs = [One $"ann"; One $"ann"; One $"bob"; One $"bob"] /\ es = [None; Some 1991; None; Some 1991] /\ ns = [1; 1; 1; 1] /\ ls = [0; 0; 0; 0].
Proof. eexists _, _, _, _. vm_compute. repeat split. Qed.

Example C38_ex : exists g, diffusion_graph has_text chars true src1 tgt1 = Ok g /\
  ed g $"bob" $"bob" = Some [($"weight", VInt 2)] /\ ed g $"ann" $"cid" = Some [($"weight", VInt 1)] /\ ed g $"cid" $"ann" = None /\
  nd g $"bob" = Some [($"source", VBool true); ($"target", VBool true)] /\ nd g $"eve" = Some [($"source", VBool false); ($"target", VBool true)].
Proof. apply ok_ex. vm_compute. auto 10. Qed.
Example C38_labelled_ex : exists gm, diffusion_multigraph has_text chars true (fun e => e) src1 tgt1 = Ok gm /\
  snd gm = [($"ann", $"cid", 2001); ($"bob", $"cid", 2001); ($"bob", $"cid", 2001)].
Proof. apply ok_ex. vm_compute. reflexivity. Qed.
(** C38: the documentation says that the edges go from the target to the source *)
Theorem C38_direction_refuted : exists (src tgt : list drec1) g, lists_only src /\ lists_only tgt /\ diffusion_graph has_text chars true src tgt = Ok g /\
  (exists s t c, In s src /\ In t tgt /\ d_cites t = Some [c] /\ d_first s = c /\ entries_of s = [$"S"] /\ entries_of t = [$"T"]) /\
  is_edge g $"S" $"T" /\ ~ is_edge g $"T" $"S".
Proof.
  exists [mk1 (Some (Many [$"S"])) 1 [1] [] None], [mk1 (Some (Many [$"T"])) 5 [5] [1] None]. eexists. split; [|split; [|split; [vm_compute; reflexivity|]]].
  - intros s f [<-|[]] F; injection F as <-; eauto.
  - intros s f [<-|[]] F; injection F as <-; eauto.
  - split; [eexists _, _, 1; split; [left; reflexivity|]; split; [left; reflexivity|]; repeat split|]. split; [discriminate|]. intros Q. apply Q. reflexivity.
Qed.
(** C38: the nodes for a tag holding a string are its characters, and for 'raw' what iterating a Record gives, its tags *)
Theorem C38_lone_refuted : exists (src tgt : list drec1) g, lone_only src /\ diffusion_graph has_text chars true src tgt = Ok g /\
  entries_of (hd (mk1 None 0 [] [] None) src) = [$"TI"] /\ ~ is_node g $"TI" /\ is_node g $"T" /\ is_node g $"I".
Proof.
  exists [mk1 (Some (One $"TI")) 1 [1] [] None], []. eexists. split; [|split; [vm_compute; reflexivity|]].
  - intros s f [<-|[]] F; injection F as <-; eauto.
  - split; [reflexivity|]. unfold is_node. cbn. split; [intros [Q|[Q|[]]]; discriminate|]. split; auto.
Qed.
(** C38: the labels are the targets', not the sources' *)
Theorem C38_label_refuted : exists (src tgt : list drec1) g, diffusion_multigraph has_text chars true (fun e => e) src tgt = Ok (g, [($"S", $"T", 2001)]) /\
  d_extra (hd (mk1 None 0 [] [] None) src) = Some (One 1990).
Proof. exists [mk1 (Some (Many [$"S"])) 1 [1] [] (Some (One 1990))], [mk1 (Some (Many [$"T"])) 5 [5] [1] (Some (One 2001))]. eexists. split; [vm_compute|]; reflexivity. Qed.
Example C59_ex : exists g, add_counts true (fun _ => true) (fun k => k) $"n" [(One $"a", 3)] (add_edge $"a" $"b" [] (empty_graph false)) = Ok g /\
  node_attr g $"a" $"n" = Some (VInt 3) /\ node_attr g $"b" $"n" = Some (VInt 0).
Proof. apply ok_ex. vm_compute. auto. Qed.

Print Assumptions C37_count.
Print Assumptions C37_raw.
Print Assumptions C37_order.
Print Assumptions C37_compare.
Print Assumptions C58_table.
Print Assumptions C58_extra_partial.
Print Assumptions C38_graph.
Print Assumptions C38_edges.
Print Assumptions C38_labelled.
Print Assumptions C38_parallel.
Print Assumptions C59_add_partial.
