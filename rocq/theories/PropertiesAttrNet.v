(** C79: the attribute of nodes of networkOneMode and networkMultiLevel. *)
From Coq Require Import String Lia.
From Verif Require Import Base PyStr Nx RecordView NetModel NetSpec AttrNetModel AttrNetSpec.
From Verif Require PropertiesNet.

Section Proofs.
Context {N A : Type} `{EqDec N} `{EqDec A}.
Lemma append_in (vals : list A) : forall cur v, In v (append_missing vals cur) <-> In v cur \/ In v vals.
Proof.
  induction vals as [|x vals IH]; intros cur v; [cbn; tauto|]. cbn [append_missing]. rewrite IH. destruct (mem x cur) eqn:M.
  - apply mem_In in M. cbn. intuition (subst; auto).
  - rewrite in_app_iff. cbn. tauto.
Qed.
Lemma append_nodup (vals : list A) : forall cur, NoDup cur -> NoDup (append_missing vals cur).
Proof.
  induction vals as [|x vals IH]; intros cur ND; [exact ND|]. cbn [append_missing]. apply IH. destruct (mem x cur) eqn:M; [exact ND|].
  assert (X : ~ In x cur) by (intros I; apply mem_In in I; congruence). clear -ND X. induction ND as [|y l NI ND IH]; [repeat constructor; intros []|]. cbn. constructor.
  - rewrite in_app_iff. intros [I|[<-|[]]]; [exact (NI I)|]. apply X. left. reflexivity.
  - apply IH. intros I. apply X. right. exact I.
Qed.
Lemma append_prefix (vals : list A) : forall cur, exists more, append_missing vals cur = cur ++ more.
Proof.
  induction vals as [|x vals IH]; intros cur; [exists []; rewrite app_nil_r; reflexivity|]. cbn [append_missing]. destruct (mem x cur); [apply IH|]. destruct (IH (cur ++ [x])) as (more & ->). exists (x :: more). rewrite <- app_assoc. reflexivity.
Qed.
Lemma set_length j (l : list A) h : length (set_cell j l h) = length h.
Proof. revert j. induction h as [|x h IH]; intros [|j]; cbn; auto. Qed.
Lemma set_nth j (l : list A) h k : j < length h -> nth k (set_cell j l h) [] = if Nat.eqb k j then l else nth k h [].
Proof. revert j k. induction h as [|x h IH]; intros [|j] [|k] L; cbn in *; try lia; try reflexivity. apply IH. lia. Qed.
End Proofs.

Section Run.
Context {N A R : Type} `{EqDec N} `{EqDec A}.
Variables (c : R -> list N) (vals : R -> list A).
Definition fill (rs : list R) : lists N A := fold_left (fun s r => attr_record (vals r) (c r) s) rs (mkL [] []).
(** what the steps for the nodes of a member do to the lists before it *)
Record step (s0 : lists N A) (w : list A) (done : list N) (s : lists N A) : Prop := {
  s_len : length (cells s) = S (length (cells s0));
  s_refs : forall n, dget n (refs s) = match dget n (refs s0) with Some j => Some j | None => if mem n done then Some (length (cells s0)) else None end;
  s_last : nth (length (cells s0)) (cells s) [] = w;
  s_in : forall i, i < length (cells s0) -> forall v, In v (nth i (cells s) []) <-> In v (nth i (cells s0) []) \/ (In v w /\ exists m, In m done /\ dget m (refs s0) = Some i);
  s_nodup : forall i, i < length (cells s0) -> NoDup (nth i (cells s0) []) -> NoDup (nth i (cells s) []);
  s_more : forall i, i < length (cells s0) -> exists more, nth i (cells s) [] = nth i (cells s0) [] ++ more }.
Lemma append_same (w : list A) : forall cur, (forall v, In v w -> In v cur) -> append_missing w cur = cur.
Proof.
  induction w as [|x w IH]; intros cur I; [reflexivity|]. cbn [append_missing]. assert (M : mem x cur = true) by (apply mem_In, I; left; reflexivity). rewrite M. apply IH. intros v J. apply I. right. exact J.
Qed.
Lemma step_record w ns (s0 : lists N A) : (forall n j, dget n (refs s0) = Some j -> j < length (cells s0)) -> step s0 w ns (attr_record w ns s0).
Proof.
  intros B. unfold attr_record. induction ns as [|n ns IH] using rev_ind.
  - constructor; cbn [fold_left refs cells]; [rewrite app_length; cbn; lia| | | | |].
    + intros n. unfold mem. cbn [existsb]. destruct (dget n (refs s0)); reflexivity.
    + rewrite app_nth2, Nat.sub_diag by lia. reflexivity.
    + intros i L v. rewrite app_nth1 by lia. split; [auto|]. intros [I|(_ & m & [] & _)]. exact I.
    + intros i L. rewrite app_nth1 by lia. auto.
    + intros i L. rewrite app_nth1 by lia. exists []. rewrite app_nil_r. reflexivity.
  - rewrite fold_left_app. cbn [fold_left]. set (s := fold_left _ ns _) in *. destruct IH as [L RF LA IN ND MO]. rewrite L. replace (S (length (cells s0)) - 1) with (length (cells s0)) by lia.
    assert (MA : forall m, mem m (ns ++ [n]) = mem m ns || eqb m n) by (intros m; unfold mem; rewrite existsb_app; cbn; rewrite orb_false_r; reflexivity).
    unfold note_attr. rewrite RF. destruct (dget n (refs s0)) as [j|] eqn:Q; [|destruct (mem n ns) eqn:M].
    + pose proof (B n j Q) as BJ. assert (LJ : j < length (cells s)) by lia. constructor; cbn [refs cells].
      * rewrite set_length. exact L.
      * intros m. rewrite RF, MA. destruct (dget m (refs s0)) eqn:Qm; [reflexivity|]. destruct (eqb_spec m n) as [->|]; [congruence|]. rewrite orb_false_r. reflexivity.
      * rewrite set_nth by exact LJ. destruct (Nat.eqb_spec (length (cells s0)) j); [lia|]. exact LA.
      * intros i Li v. rewrite set_nth by exact LJ. destruct (Nat.eqb_spec i j) as [->|NE].
        -- rewrite append_in, LA, (IN j Li). split.
           ++ intros [[I|(I & m & J & E)]|I]; [left; exact I|right; split; [exact I|]; exists m; split; [apply in_or_app; left; exact J|exact E]|right; split; [exact I|]; exists n; split; [apply in_or_app; right; left; reflexivity|exact Q]].
           ++ intros [I|(I & _)]; [left; left; exact I|right; exact I].
        -- rewrite (IN i Li). split; (intros [I|(I & m & J & E)]; [left; exact I|right; split; [exact I|]; exists m; split; [|exact E]]); [apply in_or_app; left; exact J|].
           apply in_app_iff in J. destruct J as [J|[<-|[]]]; [exact J|congruence].
      * intros i Li D. rewrite set_nth by exact LJ. destruct (Nat.eqb_spec i j) as [->|NE]; [apply append_nodup|]; apply ND; assumption.
      * intros i Li. rewrite set_nth by exact LJ. destruct (Nat.eqb_spec i j) as [->|NE]; [|apply MO, Li]. destruct (MO j Li) as (m1 & ->). destruct (append_prefix (nth (length (cells s0)) (cells s) []) (nth j (cells s0) [] ++ m1)) as (m2 & ->). exists (m1 ++ m2). rewrite app_assoc. reflexivity.
    + assert (LJ : length (cells s0) < length (cells s)) by lia. rewrite (append_same (nth (length (cells s0)) (cells s) [])) by auto. constructor; cbn [refs cells].
      * rewrite set_length. exact L.
      * intros m. rewrite RF, MA. destruct (dget m (refs s0)) eqn:Qm; [reflexivity|]. destruct (eqb_spec m n) as [->|]; [rewrite M; reflexivity|]. rewrite orb_false_r. reflexivity.
      * rewrite set_nth by exact LJ. rewrite Nat.eqb_refl. exact LA.
      * intros i Li v. rewrite set_nth by exact LJ. destruct (Nat.eqb_spec i (length (cells s0))); [lia|]. rewrite (IN i Li). split; (intros [I|(I & m & J & E)]; [left; exact I|right; split; [exact I|]; exists m; split; [|exact E]]); [apply in_or_app; left; exact J|].
        apply in_app_iff in J. destruct J as [J|[<-|[]]]; [exact J|congruence].
      * intros i Li D. rewrite set_nth by exact LJ. destruct (Nat.eqb_spec i (length (cells s0))); [lia|]. apply ND; assumption.
      * intros i Li. rewrite set_nth by exact LJ. destruct (Nat.eqb_spec i (length (cells s0))); [lia|]. apply MO, Li.
    + constructor; cbn [refs cells]; try assumption.
      * intros m. rewrite MA. destruct (eqb_spec m n) as [->|NE].
        -- rewrite dget_dset_same, Q, orb_true_r. reflexivity.
        -- rewrite dget_dset_other by congruence. rewrite RF, orb_false_r. reflexivity.
      * intros i Li v. rewrite (IN i Li). split; (intros [I|(I & m & J & E)]; [left; exact I|right; split; [exact I|]; exists m; split; [|exact E]]); [apply in_or_app; left; exact J|].
        apply in_app_iff in J. destruct J as [J|[<-|[]]]; [exact J|congruence].
Qed.

Lemma first_app rs r n i : i < length rs -> (met_first c (rs ++ [r]) n i <-> met_first c rs n i).
Proof.
  intros L. unfold met_first. split; intros [(x & E & I) F]; (split; [exists x; split; [|exact I]|intros j y LT Ey; apply (F j y LT)]).
  - rewrite nth_error_app1 in E by exact L. exact E.
  - rewrite nth_error_app1 by lia. exact Ey.
  - rewrite nth_error_app1 by exact L. exact E.
  - rewrite nth_error_app1 in Ey by lia. exact Ey.
Qed.
Lemma first_last rs r n : met_first c (rs ++ [r]) n (length rs) <-> In n (c r) /\ forall r', In r' rs -> ~ In n (c r').
Proof.
  unfold met_first. split.
  - intros [(x & E & I) F]. rewrite nth_error_app2, Nat.sub_diag in E by lia. cbn in E. injection E as <-. split; [exact I|]. intros r' J. apply In_nth_error in J. destruct J as (j & E). assert (j < length rs) by (apply nth_error_Some; congruence). apply (F j); [assumption|]. rewrite nth_error_app1; assumption.
  - intros [I F]. split; [exists r; split; [rewrite nth_error_app2, Nat.sub_diag by lia; reflexivity|exact I]|]. intros j x LT E. rewrite nth_error_app1 in E by lia. apply F. eapply nth_error_In, E.
Qed.
Lemma first_bound rs n i : met_first c rs n i -> i < length rs.
Proof. intros [(x & E & _) _]. apply nth_error_Some. congruence. Qed.
Lemma first_exists rs n r : In r rs -> In n (c r) -> exists i, met_first c rs n i.
Proof.
  induction rs as [|r0 rs IH] using rev_ind; [intros []|]. intros I J.
  destruct (existsb (fun x => mem n (c x)) rs) eqn:X.
  - apply existsb_exists in X. destruct X as (x & Ix & M). apply mem_In in M. assert (Y : exists i, met_first c rs n i).
    { clear I J r r0 IH. induction rs as [|y l IH] using rev_ind; [destruct Ix|]. destruct (existsb (fun x => mem n (c x)) l) eqn:X.
      - apply existsb_exists in X. destruct X as (z & Iz & Mz). apply mem_In in Mz. destruct (in_app_or _ _ _ Ix) as [Ix'|Ix'].
        + destruct (IH Ix') as (i & F). exists i. apply first_app; [eapply first_bound, F|exact F].
        + destruct Ix' as [->|[]]. clear IH Ix. 
          assert (G : exists i, met_first c l n i).
          { clear M x. induction l as [|y l IHl]; [destruct Iz|]. destruct (mem n (c y)) eqn:My.
            - apply mem_In in My. exists 0. split; [exists y; auto|]. intros j r LT. lia.
            - assert (NI : ~ In n (c y)) by (intros Q; apply mem_In in Q; congruence). destruct Iz as [->|Iz]; [contradiction|]. destruct (IHl Iz) as (i & (r & E & I) & F). exists (S i). split; [exists r; auto|]. intros [|j] r' LT E'; [cbn in E'; injection E' as <-; exact NI|]. apply (F j); [lia|exact E']. }
          destruct G as (i & F). exists i. apply first_app; [eapply first_bound, F|exact F].
      - destruct (in_app_or _ _ _ Ix) as [Ix'|[->|[]]].
        + assert (existsb (fun x => mem n (c x)) l = true) by (apply existsb_exists; exists x; split; [exact Ix'|apply mem_In, M]). congruence.
        + exists (length l). apply first_last. split; [exact M|]. intros r' I' J'. assert (existsb (fun x => mem n (c x)) l = true) by (apply existsb_exists; exists r'; split; [exact I'|apply mem_In, J']). congruence. }
    destruct Y as (i & F). exists i. apply first_app; [eapply first_bound, F|exact F].
  - assert (NF : forall r', In r' rs -> ~ In n (c r')).
    { intros r' I' J'. assert (existsb (fun x => mem n (c x)) rs = true) by (apply existsb_exists; exists r'; split; [exact I'|apply mem_In, J']). congruence. }
    apply in_app_iff in I. destruct I as [I|[->|[]]]; [destruct (NF r I J)|]. exists (length rs). apply first_last. split; assumption.
Qed.
Lemma first_unique rs n i j : met_first c rs n i -> met_first c rs n j -> i = j.
Proof.
  intros [(x & E & I) F] [(y & E' & I') F']. destruct (Nat.lt_trichotomy i j) as [L|[L|L]]; [|exact L|].
  - destruct (F' i x L E I).
  - destruct (F j y L E' I').
Qed.
(** all members *)
Lemma fill_spec rs : let s := fill rs in
  length (cells s) = length rs /\ (forall n i, dget n (refs s) = Some i <-> met_first c rs n i) /\
  (forall i r, nth_error rs i = Some r -> (exists more, nth i (cells s) [] = vals r ++ more) /\ (NoDup (vals r) -> NoDup (nth i (cells s) [])) /\
     forall v, In v (nth i (cells s) []) <-> In v (vals r) \/ exists r' m, In r' rs /\ met_first c rs m i /\ In m (c r') /\ In v (vals r')).
Proof.
  induction rs as [|r rs IH] using rev_ind.
  - cbn. split; [reflexivity|]. split; [|intros [|i] r; discriminate]. intros n i. split; [discriminate|]. intros [(x & E & _) _]; destruct i; discriminate.
  - cbv zeta in *. unfold fill in *. rewrite fold_left_app. cbn [fold_left]. set (s0 := fold_left _ rs _) in *. destruct IH as (L0 & R0 & C0).
    assert (B0 : forall n j, dget n (refs s0) = Some j -> j < length (cells s0)) by (intros n j Q; apply R0, first_bound in Q; lia).
    destruct (@step_record (vals r) (c r) s0 B0) as [L RF LA IN ND MO]. set (s := attr_record (vals r) (c r) s0) in *. rewrite L0 in *.
    assert (RX : forall n i, dget n (refs s) = Some i <-> met_first c (rs ++ [r]) n i).
    { intros n i. rewrite RF. destruct (dget n (refs s0)) as [j|] eqn:Q.
      - apply R0 in Q. pose proof (first_bound _ _ _ Q) as BQ. pose proof (proj2 (@first_app rs r n j BQ) Q) as Q'. split; [intros E; injection E as <-; exact Q'|]. intros Q2. f_equal. exact (first_unique _ _ _ _ Q' Q2).
      - assert (NF : forall r', In r' rs -> ~ In n (c r')) by (intros r' I J; destruct (first_exists _ _ _ I J) as (k & F); apply R0 in F; congruence).
        destruct (mem n (c r)) eqn:M.
        + apply mem_In in M. assert (Q' : met_first c (rs ++ [r]) n (length rs)) by (apply first_last; split; assumption). split; [intros E; injection E as <-; exact Q'|]. intros Q2. f_equal. exact (first_unique _ _ _ _ Q' Q2).
        + split; [discriminate|]. intros [(x & E & I) _]. exfalso. apply nth_error_In, in_app_iff in E. destruct E as [E|[<-|[]]]; [exact (NF x E I)|]. apply mem_In in I. congruence. }
    split; [rewrite L, app_length; cbn; lia|]. split; [exact RX|]. intros i x E. destruct (Nat.lt_ge_cases i (length rs)) as [LT|GE].
    + rewrite nth_error_app1 in E by exact LT. destruct (C0 i x E) as ((m0 & P0) & D0 & I0). split; [|split].
      * destruct (MO i LT) as (more & ->). rewrite P0. exists (m0 ++ more). rewrite app_assoc. reflexivity.
      * intros NV. apply ND; auto.
      * intros v. rewrite (IN i LT), I0. split.
        -- intros [[I|(r' & m & Ir & F & Im & Iv)]|(Iv & m & Im & Rm)]; [left; exact I| |].
           ++ right. exists r', m. split; [apply in_or_app; left; exact Ir|]. split; [apply first_app; assumption|]. auto.
           ++ right. exists r, m. split; [apply in_or_app; right; left; reflexivity|]. split; [apply first_app; [exact LT|]; apply R0, Rm|]. auto.
        -- intros [I|(r' & m & Ir & F & Im & Iv)]; [left; left; exact I|]. apply (proj1 (first_app rs r m i LT)) in F. apply in_app_iff in Ir. destruct Ir as [Ir|[<-|[]]].
           ++ left. right. exists r', m. auto.
           ++ right. split; [exact Iv|]. exists m. split; [exact Im|]. apply R0, F.
    + assert (i = length rs) as ->.
      { assert (i < length (rs ++ [r])) by (apply nth_error_Some; congruence). rewrite app_length in H1. cbn in H1. lia. }
      rewrite nth_error_app2, Nat.sub_diag in E by lia. cbn in E. injection E as <-. rewrite LA. split; [exists []; rewrite app_nil_r; reflexivity|]. split; [auto|]. intros v. split; [auto|]. intros [I|(r' & m & Ir & F & Im & Iv)]; [exact I|].
      apply first_last in F. destruct F as [_ NF]. apply in_app_iff in Ir. destruct Ir as [Ir|[<-|[]]]; [destruct (NF r' Ir Im)|exact Iv].
Qed.
End Run.

Lemma run_both {N A R V} `{EqDec N} `{EqDec A} (get : R -> str -> option (fval V)) (str_of : V -> N) (text : V -> A) iterate modes attribute nc w (vals : R -> list A) rs :
  (forall r, In r rs -> node_vals get text iterate attribute r = Ok (vals r)) -> forall g (s : lists N A),
  iter (fun r gs => let* vals := node_vals get text iterate attribute r in let* g := level_record nc w (level_contents get str_of modes r) (fst gs) in Ok (g, attr_record vals (level_contents get str_of modes r) (snd gs))) rs (g, s) =
  (let* g' := iter (fun r => level_record nc w (level_contents get str_of modes r)) rs g in Ok (g', fold_left (fun s r => attr_record (vals r) (level_contents get str_of modes r) s) rs s)).
Proof.
  induction rs as [|r rs IH]; intros HV g s; [reflexivity|]. cbn [iter fold_left]. rewrite (HV r (or_introl eq_refl)). cbn [bind fst snd]. destruct (level_record nc w (level_contents get str_of modes r) g) as [g1|]; [|reflexivity]. cbn [bind]. apply IH. intros r' I. apply HV. right. exact I.
Qed.

(** The graph is the one without attribute. A node has the attribute if it occurs at all; it starts with the values of the member in which the node is
    met for the first time, and its values are those of all members with some node that was met for the first time in that same member. *)
Theorem C79_exact_partial : forall (N A R V : Type) (EN : EqDec N) (EA : EqDec A) (get : R -> str -> option (fval V)) (str_of : V -> N) (text : V -> A) iterate modes attribute (nodeCount edgeWeight : bool) (rs : list R) (vals : R -> list A),
  let values := fun r => map str_of (flat_map (fun t => values_under get (fun _ => false) t r) modes) in
  (forall r, In r rs -> match get r attribute with None => vals r = [] | Some (Many l) => vals r = map text l | Some (One v) => iterate v = Ok (vals r) end) ->
  exists g s, multi_level_a get str_of text iterate modes attribute nodeCount edgeWeight rs = Ok (g, s) /\
    multi_level get str_of modes nodeCount edgeWeight rs = Ok g /\
    (forall n, attribute_of s n = None <-> forall r, In r rs -> ~ In n (values r)) /\
    forall n l, attribute_of s n = Some l -> exists i first, met_first values rs n i /\ nth_error rs i = Some first /\
      (exists more, l = vals first ++ more) /\ (NoDup (vals first) -> NoDup l) /\
      forall v, In v l <-> exists r m, In r rs /\ In v (vals r) /\ In m (values r) /\ met_first values rs m i.
Proof.
  intros N A R V EN EA get str_of text iterate modes attribute nc w rs vals values HV.
  destruct (PropertiesNet.C14_counts_and_weights N R V EN get str_of modes nc w rs) as (g & Eg & _).
  exists g, (fill values vals rs). split; [|split; [exact Eg|]].
  - unfold multi_level_a. rewrite (run_both get str_of text iterate modes attribute nc w vals).
    + change (iter (fun r => level_record nc w (level_contents get str_of modes r)) rs (empty_graph false)) with (multi_level get str_of modes nc w rs). rewrite Eg. reflexivity.
    + intros r I. specialize (HV r I). unfold node_vals. destruct (get r attribute) as [[v|l]|]; congruence.
  - destruct (fill_spec values vals rs) as (L & RF & CE). set (s := fill values vals rs) in *.
    assert (SOME : forall n i, met_first values rs n i -> attribute_of s n = Some (nth i (cells s) [])).
    { intros n i F. unfold attribute_of. rewrite (proj2 (RF n i) F). apply nth_error_nth'. rewrite L. eapply first_bound, F. }
    split.
    + intros n. split.
      * intros Q r I J. destruct (first_exists values _ _ _ I J) as (i & F). rewrite (SOME n i F) in Q. discriminate.
      * intros NF. unfold attribute_of. destruct (dget n (refs s)) as [i|] eqn:Q; [|reflexivity]. apply RF in Q. destruct Q as [(x & E & I) _]. destruct (NF x (nth_error_In _ _ E) I).
    + intros n l Q. unfold attribute_of in Q. destruct (dget n (refs s)) as [i|] eqn:Qi; [|discriminate]. apply RF in Qi. pose proof Qi as [(first & E & I) _]. exists i, first. split; [exact Qi|]. split; [exact E|].
      pose proof (SOME n i Qi) as Q2. unfold attribute_of in Q2. rewrite (proj2 (RF n i) Qi) in Q2. assert (l = nth i (cells s) []) as -> by congruence.
      destruct (CE i first E) as (A1 & A2 & A3). split; [exact A1|]. split; [exact A2|]. intros v. rewrite A3. split.
      * intros [Iv|(r' & m & Ir & F & Im & Iv)]; [exists first, n; split; [eapply nth_error_In, E|auto]|exists r', m; auto].
      * intros (r & m & Ir & Iv & Im & F). right. exists r, m. auto.
Qed.
Print Assumptions C79_exact_partial.

(** So a node has the values of all members it occurs in, *)
Theorem C79_own : forall (N A R V : Type) (EN : EqDec N) (EA : EqDec A) (get : R -> str -> option (fval V)) (str_of : V -> N) (text : V -> A) iterate modes attribute (nodeCount edgeWeight : bool) (rs : list R) (vals : R -> list A) g s,
  let values := fun r => map str_of (flat_map (fun t => values_under get (fun _ => false) t r) modes) in
  (forall r, In r rs -> match get r attribute with None => vals r = [] | Some (Many l) => vals r = map text l | Some (One v) => iterate v = Ok (vals r) end) ->
  multi_level_a get str_of text iterate modes attribute nodeCount edgeWeight rs = Ok (g, s) ->
  forall r n, In r rs -> In n (values r) -> exists l, attribute_of s n = Some l /\ forall v, In v (vals r) -> In v l.
Proof.
  intros N A R V EN EA get str_of text iterate modes attribute nc w rs vals g s values HV Q r n I J.
  destruct (C79_exact_partial _ _ _ _ _ _ get str_of text iterate modes attribute nc w rs vals HV) as (g' & s' & E & _ & NO & SO). rewrite Q in E. injection E as <- <-.
  destruct (attribute_of s n) as [l|] eqn:Al; [|destruct (proj1 (NO n) Al r I J)]. exists l. split; [reflexivity|]. intros v Iv. destruct (SO n l Al) as (i & first & F & _ & _ & _ & X). apply X. exists r, n. auto.
Qed.
Print Assumptions C79_own.
(** and no others if no member is the first one for two different nodes. *)
Theorem C79_alone_partial : forall (N A R V : Type) (EN : EqDec N) (EA : EqDec A) (get : R -> str -> option (fval V)) (str_of : V -> N) (text : V -> A) iterate modes attribute (nodeCount edgeWeight : bool) (rs : list R) (vals : R -> list A) g s,
  let values := fun r => map str_of (flat_map (fun t => values_under get (fun _ => false) t r) modes) in
  (forall r, In r rs -> match get r attribute with None => vals r = [] | Some (Many l) => vals r = map text l | Some (One v) => iterate v = Ok (vals r) end) ->
  (forall i n m, met_first values rs n i -> met_first values rs m i -> n = m) ->
  multi_level_a get str_of text iterate modes attribute nodeCount edgeWeight rs = Ok (g, s) ->
  forall n l, attribute_of s n = Some l -> forall v, In v l <-> exists r, In r rs /\ In n (values r) /\ In v (vals r).
Proof.
  intros N A R V EN EA get str_of text iterate modes attribute nc w rs vals g s values HV ONE Q n l Al v.
  destruct (C79_exact_partial _ _ _ _ _ _ get str_of text iterate modes attribute nc w rs vals HV) as (g' & s' & E & _ & NO & SO). rewrite Q in E. injection E as <- <-.
  destruct (SO n l Al) as (i & first & F & _ & _ & _ & X). rewrite X. split.
  - intros (r & m & I & Iv & Im & Fm). exists r. rewrite (ONE i n m F Fm). auto.
  - intros (r & I & J & Iv). exists r, n. auto.
Qed.
Print Assumptions C79_alone_partial.

(** ** Cases *)
Import PropertiesNet.
Definition n1 := [($"AU", Many [$"x"; $"y"]); ($"LA", Many [$"en"])].
Definition n2 := [($"AU", Many [$"x"; $"z"]); ($"LA", Many [$"fr"; $"en"; $"fr"])].
Definition n3 := [($"AU", Many [$"z"]); ($"LA", Many [$"de"])].
Definition characters : str -> res (list str) := fun s => Ok (map (fun c => [c]) s).
(** [y] occurs in the first member only, in english, and yet has the value of the second, that of its co-author *)
Theorem C79_alone_refuted : exists g s, multi_level_a getf idf idf characters [$"AU"] $"LA" true true [n1; n2; n3] = Ok (g, s) /\
  attribute_of s $"y" = Some [$"en"; $"fr"] /\ attribute_of s $"x" = Some [$"en"; $"fr"] /\ attribute_of s $"z" = Some [$"fr"; $"en"; $"fr"; $"de"] /\
  forall r, In r [n1; n2; n3] -> In $"y" (values_under getf (fun _ => false) $"AU" r) -> ~ In $"fr" (values_under getf (fun _ => false) $"LA" r).
Proof.
  destruct (multi_level_a getf idf idf characters [$"AU"] $"LA" true true [n1; n2; n3]) as [[g s]|] eqn:Q; [|vm_compute in Q; discriminate]. exists g, s. split; [reflexivity|]. vm_compute in Q. injection Q as <- <-. split; [vm_compute; reflexivity|]. split; [vm_compute; reflexivity|]. split; [vm_compute; reflexivity|].
  intros r [<-|[<-|[<-|[]]]]; vm_compute; intros I J; repeat (destruct I as [I|I]; try discriminate); repeat (destruct J as [J|J]; try discriminate); assumption.
Qed.
Print Assumptions C79_alone_refuted.
(** members with one new author each *)
Definition first_of (rs : list (list (str * fval str))) := met_first (fun r => map idf (flat_map (fun t => values_under getf (fun _ => false) t r) [$"AU"])) rs.
Definition n0 := [($"AU", Many [$"x"]); ($"LA", Many [$"en"])].
Example C79_ex : (forall i n m, first_of [n0; n2; n3] n i -> first_of [n0; n2; n3] m i -> n = m) /\
  exists gs, multi_level_a getf idf idf characters [$"AU"] $"LA" true true [n0; n2; n3] = Ok gs /\ attribute_of (snd gs) $"x" = Some [$"en"; $"fr"] /\ attribute_of (snd gs) $"z" = Some [$"fr"; $"en"; $"fr"; $"de"].
Proof.
  split; [|apply ok_ex; vm_compute; auto]. intros i n m [(a & Ea & Ia) Fa] [(b & Eb & Ib) Fb]. assert (a = b) as <- by congruence. clear Eb.
  destruct i as [|[|[|i]]]; cbn in Ea; [injection Ea as <-|injection Ea as <-|injection Ea as <-|destruct i; discriminate].
  - destruct Ia as [<-|[]]. destruct Ib as [<-|[]]. reflexivity.
  - specialize (Fa 0 n0 ltac:(lia) eq_refl). specialize (Fb 0 n0 ltac:(lia) eq_refl). destruct Ia as [<-|[<-|[]]]; [destruct Fa; left; reflexivity|]. destruct Ib as [<-|[<-|[]]]; [destruct Fb; left; reflexivity|]. reflexivity.
  - destruct Ia as [<-|[]]. destruct Ib as [<-|[]]. reflexivity.
Qed.
