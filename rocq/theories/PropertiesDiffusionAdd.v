(** C59: diffusionAddCountsFromSource, for keys that are not strings and with an extra type. *)
From Coq Require Import String Lia.
From Verif Require Import Base PyStr Nx NxFacts RecordView SeriesSpec RecordViewFacts NetModel NetSpec NetFacts NetProofs DiffusionModel DiffusionSpec DiffusionProofs DiffusionProofs2.
Set Implicit Arguments.

Section Add.
Context {V : Type} `{EqDec V}.

(** ** assignments to the data of a node *)
Definition assign (us : list (str * val)) (a : attrs) : attrs := fold_left (fun a kx => dset (fst kx) (snd kx) a) us a.
Lemma assign_app us vs a : assign (us ++ vs) a = assign vs (assign us a).
Proof. apply fold_left_app. Qed.
Lemma dget_assign us : forall a k, dget k (assign us a) = match find (fun kx => eqb k (fst kx)) (rev us) with Some kx => Some (snd kx) | None => dget k a end.
Proof.
  induction us as [|[k x] us IH] using rev_ind; intros a k'; [reflexivity|]. rewrite assign_app, rev_app_distr. cbn [assign fold_left rev app find fst snd]. rewrite dget_dset.
  destruct (eqb k' k); [reflexivity|apply IH].
Qed.
Lemma set_all (n : V) us : forall (g : graph V) a, WF g -> nd g n = Some a ->
  exists g', iter (fun kx => node_set n (fst kx) (snd kx)) us g = Ok g' /\ WF g' /\ nodes g' = nodes g /\ (forall u v, ed g' u v = ed g u v) /\
    forall m, nd g' m = if eqb m n then Some (assign us a) else nd g m.
Proof.
  induction us as [|[k x] us IH]; intros g a W N.
  - exists g. split; [reflexivity|]. split; [exact W|]. split; [reflexivity|]. split; [reflexivity|]. intros m. destruct (eqb_spec m n) as [->|_]; [exact N|reflexivity].
  - destruct (@set_present _ _ g n k x a W N) as (g1 & E1 & W1 & _ & ED1 & ND1). cbn [iter fst snd]. rewrite E1. cbn [bind].
    destruct (IH g1 (dset k x a) W1) as (g' & E2 & W2 & N2 & ED2 & ND2); [rewrite ND1, eqb_refl; reflexivity|].
    exists g'. split; [exact E2|]. split; [exact W2|]. split; [rewrite N2; apply (nodes_node_set _ _ _ _ E1)|]. split; [intros u v; rewrite ED2; apply ED1|].
    intros m. rewrite ND2, ND1. destruct (eqb m n); reflexivity.
Qed.
Lemma set_nodes (us : V -> list (str * val)) : forall ns (g : graph V), WF g -> NoDup ns -> incl ns (nodes g) ->
  exists g', iter (fun n => iter (fun kx => node_set n (fst kx) (snd kx)) (us n)) ns g = Ok g' /\ nodes g' = nodes g /\ (forall u v, ed g' u v = ed g u v) /\
    forall m, nd g' m = if mem m ns then option_map (assign (us m)) (nd g m) else nd g m.
Proof.
  induction ns as [|n ns IH]; intros g W ND IN; [exists g; repeat split; reflexivity|]. inversion ND as [|? ? NI ND']; subst.
  assert (I0 : In n (nodes g)) by (apply IN; left; reflexivity). apply nd_In in I0. destruct I0 as [a Ha]. cbn [iter].
  destruct (@set_all n (us n) g a W Ha) as (g1 & E1 & W1 & N1 & ED1 & ND1). rewrite E1. cbn [bind].
  destruct (IH g1 W1 ND') as (g' & E2 & N2 & ED2 & ND2); [intros m I1; rewrite N1; apply IN; right; exact I1|].
  exists g'. split; [exact E2|]. split; [congruence|]. split; [intros u v; rewrite ED2; apply ED1|]. intros m. rewrite ND2, ND1. unfold mem in *. cbn [existsb]. destruct (eqb_spec m n) as [->|N3]; cbn [orb]; [|reflexivity].
  rewrite Ha. cbn [option_map]. destruct (existsb (eqb n) ns) eqn:M; [|reflexivity]. exfalso. apply NI. apply mem_In. exact M.
Qed.

(** the keys are strings, or none is *)
Definition alike {A} (is_str : fval V -> bool) (d : dict (fval V) A) : Prop := exists b, forall k, In k (dkeys d) -> is_str k = b.
(** what is counted under the string [k]: the first value whose text it is *)
Definition under {A} (text : fval V -> fval V) (d : dict (fval V) A) (k : V) : option A :=
  option_map snd (find (fun kv => eqb (text (fst kv)) (One k)) d).
Lemma restring_get {A} is_str (text : fval V -> fval V) (d : dict (fval V) A) k : alike is_str d -> (forall k, is_str k = true -> text k = k) ->
  dget (One k) (restring is_str text d) = under text d k.
Proof.
  intros [b AL] TX. unfold under, restring. destruct d as [|[k0 v0] d0] eqn:Q; [reflexivity|]. rewrite <- Q in *. rewrite (AL k0) by (rewrite Q; left; reflexivity).
  destruct b.
  - clear Q. induction d as [|[a x] d IH]; [reflexivity|]. cbn [dget find fst]. rewrite (TX a) by (apply AL; left; reflexivity). rewrite (eqb_sym (One k) a). destruct (eqb a (One k)); [reflexivity|].
    apply IH. intros k' I1. apply AL. right. exact I1.
  - clear Q AL. assert (G : forall l acc : dict (fval V) A, dget (One k) (fold_left (fun n kv => dset (text (fst kv)) (snd kv) n) l acc) = match find (fun kv => eqb (text (fst kv)) (One k)) (rev l) with Some kv => Some (snd kv) | None => dget (One k) acc end).
    { induction l as [|[a x] l IH] using rev_ind; intros acc; [reflexivity|]. rewrite fold_left_app, rev_app_distr. cbn [fold_left rev app find fst snd]. rewrite dget_dset, (eqb_sym (One k)).
      destruct (eqb (text a) (One k)); [reflexivity|apply IH]. }
    rewrite G, rev_involutive. destruct (find _ d); reflexivity.
Qed.

(** C59: with a networkx that has [nodes_iter], every node gets the count of the value whose text it is, 0 if there is none;
    nothing else changes.  [text] is [str], which leaves strings as they are. *)
Theorem C59_text_partial (is_str : fval V -> bool) (text : fval V -> fval V) (label : str) (d : dict (fval V) nat) (g : graph V) :
  WF g -> alike is_str d -> (forall k, is_str k = true -> text k = k) ->
  exists g', add_counts true is_str text label d g = Ok g' /\ nodes g' = nodes g /\ (forall u v, ed g' u v = ed g u v) /\
    forall n, is_node g n -> node_attr g' n label = Some (VInt (Z.of_nat (match under text d n with Some k => k | None => 0 end))) /\
      forall k, k <> label -> node_attr g' n k = node_attr g n k.
Proof.
  intros W AL TX. unfold add_counts.
  set (us := fun n : V => [(label, VInt (Z.of_nat (match under text d n with Some k => k | None => 0 end)))]).
  destruct (@set_nodes us (nodes g) g W) as (g' & E1 & N1 & ED & NDg); [apply (wf_nodup W)|apply incl_refl|].
  exists g'. split.
  - rewrite <- E1. apply iter_ext. intros n g0. cbn [us iter fst snd]. unfold us. cbn [iter fst snd]. rewrite restring_get by assumption. destruct (node_set _ _ _ g0); reflexivity.
  - split; [exact N1|]. split; [exact ED|]. intros n I0. unfold is_node in I0. assert (M : mem n (nodes g) = true) by (apply mem_In, I0). apply nd_In in I0. destruct I0 as [a Ha]. unfold node_attr. rewrite NDg, M, Ha.
    cbn [option_map us assign fold_left fst snd]. split; [apply dget_dset_same|]. intros k Nk. apply dget_dset_other, Nk.
Qed.

(** C59 with an extra type: the count is under [label], the counts for the extra values under their names; the names in
    [extraKeys] are 0 if there is no count for them.  An extra value must not be [label], the empty one is left out. *)
Theorem C59_extra_partial (is_str : fval V -> bool) (text : fval V -> fval V) (label : str) (keys : list str) (d : dict (fval V) (dict (option str) nat)) (g : graph V) :
  WF g -> alike is_str d -> (forall k, is_str k = true -> text k = k) ->
  (forall k cs, In (k, cs) d -> NoDup (dkeys cs) /\ dget None cs <> None /\ dget (Some label) cs = None) ->
  exists g', add_extra true is_str text label keys d g = Ok g' /\ nodes g' = nodes g /\ (forall u v, ed g' u v = ed g u v) /\
    forall n, is_node g n ->
      let count x := match under text d n with Some cs => dget x cs | None => None end in
      node_attr g' n label = Some (VInt (Z.of_nat (match count None with Some k => k | None => 0 end))) /\
      forall e, e <> label -> node_attr g' n e =
        match (if eqb e [] then None else count (Some e)) with
        | Some k => Some (VInt (Z.of_nat k))
        | None => if mem e keys then Some (VInt 0) else node_attr g n e
        end.
Proof.
  intros W AL TX SC. unfold add_extra.
  set (ups := fun cs : dict (option str) nat => flat_map (fun en : option str * nat => match fst en with None => [(label, VInt (Z.of_nat (snd en)))] | Some e => if eqb e [] then [] else [(e, VInt (Z.of_nat (snd en)))] end) cs).
  set (us := fun n : V => map (fun key => (key, VInt 0)) keys ++ [(label, VInt 0)] ++ match under text d n with None => [(label, VInt 0)] | Some cs => ups cs end).
  destruct (@set_nodes us (nodes g) g W) as (g' & E1 & N1 & ED & NDg); [apply (wf_nodup W)|apply incl_refl|].
  exists g'. split; [|split; [exact N1|split; [exact ED|]]].
  - rewrite <- E1. apply iter_ext. intros n g0. unfold us. rewrite iter_app, iter_map. destruct (iter _ keys g0) as [g1|e]; [|reflexivity]. cbn [bind]. rewrite iter_app. cbn [iter fst snd].
    destruct (node_set n label (VInt 0) g1) as [g2|e]; [|reflexivity]. cbn [bind]. rewrite restring_get by assumption. destruct (under text d n) as [cs|]; [|cbn [iter fst snd]; destruct (node_set n label (VInt 0) g2); reflexivity].
    unfold ups. rewrite iter_flat. apply iter_ext. intros [[e|] k] g3; cbn [fst snd]; [destruct (eqb e [])|]; cbn [iter fst snd]; [reflexivity|destruct (node_set n e (VInt (Z.of_nat k)) g3); reflexivity|destruct (node_set n label (VInt (Z.of_nat k)) g3); reflexivity].
  - intros n I0. unfold is_node in I0. assert (M : mem n (nodes g) = true) by (apply mem_In, I0). apply nd_In in I0. destruct I0 as [a Ha]. unfold node_attr. rewrite NDg, M, Ha. cbn [option_map].
    assert (ZE : forall (e : str) b, dget e (assign (map (fun key => (key, VInt 0)) keys) b) = if mem e keys then Some (VInt 0) else dget e b).
    { clear. intros e. induction keys as [|k keys IH]; intros b; [reflexivity|]. cbn [map]. change (assign ((k, VInt 0) :: map (fun key => (key, VInt 0)) keys) b) with (assign (map (fun key => (key, VInt 0)) keys) (dset k (VInt 0) b)).
      rewrite IH, dget_dset. unfold mem. cbn [existsb]. destruct (existsb (eqb e) keys); [rewrite orb_true_r; reflexivity|]. rewrite orb_false_r. reflexivity. }
    unfold us. rewrite !assign_app. destruct (under text d n) as [cs|] eqn:U.
    + assert (I1 : exists k, In (k, cs) d). { unfold under in U. destruct (find _ d) as [[k cs']|] eqn:Q; [|discriminate]. injection U as <-. apply find_some in Q. exists k. apply Q. }
      destruct I1 as [k0 I1]. destruct (SC k0 cs I1) as (NDc & T & L).
      assert (UP : forall (x : str) b, (x <> label -> dget x (assign (ups cs) b) = match (if eqb x [] then None else dget (Some x) cs) with Some k => Some (VInt (Z.of_nat k)) | None => dget x b end) /\
                                       (x = label -> dget x (assign (ups cs) b) = match dget None cs with Some k => Some (VInt (Z.of_nat k)) | None => dget x b end)).
      { clear I1 T U. intros x. induction cs as [|[y k] cs IH]; intros b; [split; [destruct (eqb x [])|]; reflexivity|]. inversion NDc as [|? ? NI NDc']; subst.
        assert (L' : dget (Some label) cs = None) by (cbn [dget] in L; destruct (eqb (Some label) y); [discriminate|exact L]).
        assert (Ly : y <> Some label) by (intros ->; cbn [dget] in L; rewrite eqb_refl in L; discriminate).
        specialize (IH NDc' L'). unfold ups in *. cbn [flat_map fst snd]. rewrite assign_app. set (b1 := assign _ b). split; intros X.
        - rewrite (proj1 (IH b1) X). destruct (eqb_spec x []) as [Ex|Nx].
          + unfold b1. destruct y as [e|]; [destruct (eqb_spec e []) as [->|Ne]|]; cbn [assign fold_left fst snd]; [reflexivity| |]; rewrite dget_dset_other; congruence.
          + cbn [dget]. destruct (eqb_spec (Some x) y) as [<-|Ny].
            * rewrite (proj2 (dget_None (Some x) cs) NI). unfold b1. rewrite (neq_eqb Nx). cbn [assign fold_left fst snd]. apply dget_dset_same.
            * destruct (dget (Some x) cs); [reflexivity|]. unfold b1. destruct y as [e|]; [destruct (eqb_spec e []) as [->|Ne]|]; cbn [assign fold_left fst snd]; [reflexivity| |]; rewrite dget_dset_other; congruence.
        - rewrite (proj2 (IH b1) X). subst x. cbn [dget]. destruct y as [e|]; [|].
          + destruct (eqb_spec None (Some e)) as [Q|_]; [discriminate|]. destruct (dget None cs); [reflexivity|]. unfold b1. destruct (eqb_spec e []) as [->|Ne]; cbn [assign fold_left fst snd]; [reflexivity|]. rewrite dget_dset_other; congruence.
          + rewrite eqb_refl, (proj2 (dget_None None cs) NI). unfold b1. cbn [assign fold_left fst snd]. apply dget_dset_same. }
      split.
      * rewrite (proj2 (UP _ _) eq_refl). destruct (dget None cs); [reflexivity|congruence].
      * intros e Ne. rewrite (proj1 (UP _ _) Ne). destruct (if eqb e [] then None else dget (Some e) cs); [reflexivity|]. cbn [assign fold_left fst snd]. rewrite dget_dset_other by exact Ne. apply ZE.
    + split.
      * cbn [assign fold_left fst snd]. apply dget_dset_same.
      * intros e Ne. cbn [assign fold_left fst snd]. rewrite !dget_dset_other by exact Ne. destruct (eqb e []); apply ZE.
Qed.
End Add.

(** numbers as values: their text is their decimal form *)
Definition num_text (k : fval str) : fval str := match k with Many [a; b] => One (a ++ $", " ++ b) | _ => k end.
Definition lone_str (k : fval str) : bool := match k with One _ => true | Many _ => false end.
Example C59_text_ex : exists g, alike lone_str [(Many [$"a"; $"b"], 3); (Many [$"c"; $"d"], 4)] /\
  add_counts true lone_str num_text $"n" [(Many [$"a"; $"b"], 3); (Many [$"c"; $"d"], 4)] (add_edge $"a, b" $"b" [] (empty_graph false)) = Ok g /\
  node_attr g $"a, b" $"n" = Some (VInt 3) /\ node_attr g $"b" $"n" = Some (VInt 0).
Proof. eexists. split; [exists false; intros k [<-|[<-|[]]]; reflexivity|]. split; [vm_compute; reflexivity|]. split; vm_compute; reflexivity. Qed.
Example C59_extra_ex : exists g, add_extra true lone_str num_text $"n" [$"1990"; $"1991"] [(One $"a", [(None, 3); (Some $"1990", 2); (Some [], 1)])] (add_edge $"a" $"b" [] (empty_graph false)) = Ok g /\
  nd g $"a" = Some [($"1990", VInt 2); ($"1991", VInt 0); ($"n", VInt 3)] /\ nd g $"b" = Some [($"1990", VInt 0); ($"1991", VInt 0); ($"n", VInt 0)].
Proof. eexists. split; [vm_compute; reflexivity|]. split; vm_compute; reflexivity. Qed.
(** C59: an extra value that is the label replaces the count *)
Theorem C59_label_refuted : exists (d : dict (fval str) (dict (option str) nat)) g', (forall k cs, In (k, cs) d -> NoDup (dkeys cs) /\ dget None cs = Some 3) /\
  add_extra true lone_str num_text $"n" [] d (add_node $"a" [] (empty_graph false)) = Ok g' /\ node_attr g' $"a" $"n" = Some (VInt 2).
Proof.
  exists [(One $"a", [(None, 3); (Some $"n", 2)])]. eexists. split; [|split; vm_compute; reflexivity].
  intros k cs [Q|[]]. injection Q as <- <-. split; [|reflexivity]. apply nodupb_NoDup. vm_compute. reflexivity.
Qed.
(** C59: networkx 2 has no [nodes_iter] *)
Theorem C59_extra_refuted {V} `{EqDec V} (is_str : fval V -> bool) (text : fval V -> fval V) (label : str) (keys : list str) (d : dict (fval V) (dict (option str) nat)) (g : graph V) :
  add_extra false is_str text label keys d g = Raise AttributeError.
Proof. reflexivity. Qed.

Print Assumptions C59_text_partial.
Print Assumptions C59_extra_partial.
Print Assumptions C59_label_refuted.
Print Assumptions C59_extra_refuted.
