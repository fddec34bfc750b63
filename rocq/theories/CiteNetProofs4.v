(** networkCitation and networkBibCoupling meet their specification. *)
From Coq Require Import String Lia.
From Verif Require Import Base PyStr Nx NxFacts RecordView SeriesSpec RecordViewFacts NetModel NetSpec NetFacts NetProofs NetProofs2 CiteNetModel CiteNetFacts CiteNetSpec CiteNetProofs CiteNetProofs2 CiteNetProofs3.
Set Implicit Arguments.

Section Citation.
Context {I C R : Type} `{EqDec I}.
Variable api : cite_api C I.
Variable rapi : rec_api R C.
Variable upper : str -> str.
Variable o : opts.
Variable rs : list R.
Notation cnt := (o_count o).
Notation w := (o_weighted o).
Notation core := (core_dict api rapi rs).
Notation info := (info api rapi o rs).
Notation named := (named api o).
Notation cited_names := (cited_names api rapi upper o rs).
Notation cited := (cited api rapi upper o rs).
Notation citing := (citing api rapi upper o rs).
Notation head_names := (head_names api rapi o).
Notation see_ops := (see_ops api rapi o rs).
Notation rec_ops := (rec_ops api rapi o rs).
Notation usable := (usable api rapi o rs).

Variables (rtc directed : bool).
Definition cit_ops (r : R) : list op := if citing r then rec_ops rtc (Some (own rapi r)) (cited r) else [].
Definition trouble : Prop :=
  exists r, In r rs /\ citing r = true /\ ((exists c, In c (cited r) /\ ~ usable c) \/ ~ usable (own rapi r) \/ (is_exact (o_type o) = true /\ cyear api (own rapi r) = None)).

Lemma citation_run : supported o rtc directed ->
  citation api rapi upper o directed rtc rs = iter (do_op cnt w) (flat_map cit_ops rs) (empty_graph directed) \/
  exists e, citation api rapi upper o directed rtc rs = Raise e /\ trouble.
Proof.
  intros S. unfold citation.
  match goal with |- context [iter ?f rs _] =>
    destruct (iter_agree (I:=I) cnt w (d:=directed) f cit_ops (fun r => citing r = true /\ bad_record api rapi o rs (Some (own rapi r)) (cited r)) rs) with (g := empty_graph (V:=I) directed) as [E|(e & E & B)] end.
  - intros r g _ V. rewrite !filter_selected with (rs := rs) (rapi := rapi). unfold cit_ops, CiteNetSpec.citing. cbn [filter].
    assert (AD := add_to_network_op api rapi (o:=o) rs (rtc:=rtc) (d:=directed) (head:=Some (own rapi r)) (cited r) (or_introl S) V). unfold CiteNetSpec.cited in *.
    destruct (selected api rapi upper o rs (own rapi r)); cbn [andb]; [|left; reflexivity]. destruct (cites rapi r) as [|c l]; cbn [length Nat.eqb negb]; [left; reflexivity|].
    rewrite filter_selected with (rs := rs) (rapi := rapi). destruct AD as [Q|(e & Q & B)]; [left; exact Q|right; exists e; auto].
  - intros r _. unfold cit_ops. destruct (citing r); [apply rec_dictlike|intros p []].
  - split; [apply WF_empty|reflexivity].
  - left. exact E.
  - right. exists e. split; [exact E|]. apply Exists_exists in B. destruct B as (r & A & CI & B). exists r. split; [exact A|]. split; [exact CI|]. destruct B as [B|[B|B]].
    + left. apply Exists_exists in B. destruct B as (c & B1 & B2). exists c. split; [exact B1|]. apply bad_unusable, B2.
    + right. left. apply bad_unusable, B.
    + right. right. exact B.
Qed.

Definition heads_ok : Prop := forall r, In r rs -> citing r = true -> exists h, name_of api o (own rapi r) = Some h /\ truthy_id api h = true.
Lemma rec_ops_head r h : name_of api o (own rapi r) = Some h -> truthy_id api h = true ->
  rec_ops rtc (Some (own rapi r)) (cited r) =
  Head h (info (own rapi r) h) :: see_ops (named (cited r)) ++ map (head_op api o rtc h (year_of_head api o (own rapi r))) (named (cited r)).
Proof. intros N T. unfold CiteNetProofs2.rec_ops. rewrite N, T. reflexivity. Qed.
Lemma heads_names r h : name_of api o (own rapi r) = Some h -> head_names r = [h].
Proof. intros N. unfold CiteNetSpec.head_names, names_of. cbn [flat_map]. rewrite N. reflexivity. Qed.
Lemma cit_names r : heads_ok -> In r rs -> names (cit_ops r) = if citing r then head_names r ++ cited_names r else [].
Proof.
  intros HO A. unfold cit_ops. destruct (citing r) eqn:CI; [|reflexivity]. destruct (HO r A CI) as (h & N & T). rewrite (rec_ops_head r N T), (heads_names r N).
  change (names (?p :: ?l)) with (names ([p] ++ l)). unfold names at 1. cbn [flat_map app]. fold (names (see_ops (named (cited r)) ++ map (head_op api o rtc h (year_of_head api o (own rapi r))) (named (cited r)))).
  rewrite names_app, see_names, named_names, names_edges by (apply head_ops_are). rewrite app_nil_r. reflexivity.
Qed.
Lemma cit_sees r n : heads_ok -> In r rs -> sees n (cit_ops r) = if citing r then count n (cited_names r) else 0.
Proof.
  intros HO A. unfold cit_ops. destruct (citing r) eqn:CI; [|reflexivity]. destruct (HO r A CI) as (h & N & T). rewrite (rec_ops_head r N T).
  unfold sees, total. cbn [fold_right]. change (sees n (see_ops (named (cited r)) ++ map (head_op api o rtc h (year_of_head api o (own rapi r))) (named (cited r))) = count n (cited_names r)).
  rewrite sees_app, sees_see_ops, named_names, sees_edges by (apply head_ops_are). apply Nat.add_0_r.
Qed.
Lemma lk_rev d (L : list (I * I)) u v : lk d (map (fun e => (snd e, fst e)) L) u v = lk d L v u.
Proof. unfold lk. induction L as [|[a b] L IH]; [reflexivity|]. unfold total in *. cbn [map fold_right fst snd]. rewrite IH. f_equal. unfold same_edge. destruct d; cbn [negb andb]; [rewrite !orb_false_r, andb_comm; reflexivity|]. 
  rewrite (andb_comm (eqb u b)), (andb_comm (eqb u a)), (orb_comm). destruct (eqb u b), (eqb v a), (eqb u a), (eqb v b); reflexivity. Qed.
Lemma cit_links r u v : heads_ok -> In r rs -> lk directed (edge_list (cit_ops r)) u v = if citing r then arcs api rapi upper o directed (forward o rtc) rs r u v else 0.
Proof.
  intros HO A. unfold cit_ops. destruct (citing r) eqn:CI; [|reflexivity]. destruct (HO r A CI) as (h & N & T). rewrite (rec_ops_head r N T). unfold arcs. rewrite (heads_names r N).
  unfold edge_list. cbn [flat_map app]. fold (edge_list (see_ops (named (cited r)) ++ map (head_op api o rtc h (year_of_head api o (own rapi r))) (named (cited r)))).
  rewrite edge_list_app, edge_list_see. cbn [app].
  assert (EL : edge_list (map (head_op api o rtc h (year_of_head api o (own rapi r))) (named (cited r))) =
    if forward o rtc then map (fun n => (h, n)) (cited_names r) else map (fun e => (snd e, fst e)) (map (fun n => (h, n)) (cited_names r))).
  { unfold CiteNetSpec.cited_names. rewrite <- named_names. rewrite !map_map. unfold head_op. destruct (forward o rtc); induction (named (cited r)) as [|ic l IH]; try reflexivity; unfold edge_list in *; cbn [map flat_map app]; rewrite IH; reflexivity. }
  rewrite EL. pose proof (lk_bipartite directed [h] (cited_names r)) as LB. unfold total in LB. cbn [fold_right] in LB.
  destruct (forward o rtc); [specialize (LB u v); rewrite Nat.add_0_r in LB; exact LB|]. rewrite lk_rev. specialize (LB v u). rewrite Nat.add_0_r in LB. rewrite LB.
  destruct directed; [reflexivity|]. unfold pairs_between. rewrite (eqb_sym v u). destruct (eqb_spec u v) as [->|NE]; [reflexivity|lia].
Qed.

Lemma total_filter {A} (p : A -> bool) (f : A -> nat) l : total (fun x => if p x then f x else 0) l = total f (filter p l).
Proof. unfold total. induction l as [|x l IH]; [reflexivity|]. cbn [fold_right filter]. rewrite IH. destruct (p x); reflexivity. Qed.
Lemma total_ext_In {A} (f g : A -> nat) l : (forall x, In x l -> f x = g x) -> total f l = total g l.
Proof. apply total_ext. Qed.

Lemma find_filter {A} (f p q : A -> bool) l : (forall x, In x l -> f x = p x && q x) -> find f l = find q (filter p l).
Proof. induction l as [|x l IH]; intros X; [reflexivity|]. cbn [find filter]. rewrite (X x (or_introl eq_refl)). destruct (p x); cbn [andb find]; [destruct (q x); [reflexivity|]|]; apply IH; intros y K; apply X; right; exact K. Qed.

Theorem citation_spec : supported o rtc directed -> heads_ok ->
  let rs' := filter citing rs in
  (exists g, citation api rapi upper o directed rtc rs = Ok g /\ WF g /\ gdir g = directed /\
    (forall n, is_node g n <-> exists r, In r rs' /\ (In n (head_names r) \/ In n (cited_names r))) /\
    (cnt = true -> forall n, node_attr g n $"count" =
       positive_count (occurs cited_names rs' n +
         match find (fun r => mem n (head_names r) || mem n (cited_names r)) rs' with Some r => if mem n (head_names r) then 1 else 0 | None => 0 end)) /\
    (forall n, is_node g n -> exists r c, In r rs' /\ (c = own rapi r \/ In c (cited r)) /\ name_of api o c = Some n /\
       forall k, k <> $"count" -> node_attr g n k = dget k (info c n)) /\
    (forall u v, let k := total (fun r => arcs api rapi upper o directed (forward o rtc) rs r u v) rs' in
       (k = 0 -> ed g u v = None) /\
       (k <> 0 -> exists r c, behind api rapi upper o directed (forward o rtc) rs u v r c /\
          ed g u v = Some (if w then ($"weight", VInt (Z.of_nat k)) :: (if is_exact (o_type o) then [($"yearDiff", years_apart api (own rapi r) c)] else []) else [])))) \/
  (exists e, citation api rapi upper o directed rtc rs = Raise e /\ trouble).
Proof.
  intros S HO rs'. destruct (citation_run S) as [E|E]; [left|right; exact E].
  destruct (run_spec (I:=I) cnt w directed cit_ops rs) as (g & RUN & W & D & M & ED).
  { intros r _. unfold cit_ops. destruct (citing r); [apply rec_closed|exact Logic.I]. }
  { intros r _. unfold cit_ops. destruct (citing r); [apply rec_dictlike|intros p []]. }
  exists g. split; [rewrite E; exact RUN|]. split; [exact W|]. split; [exact D|].
  assert (R' : forall r, In r rs' <-> In r rs /\ citing r = true) by (intros r; apply filter_In).
  set (here := fun n r => mem n (head_names r) || mem n (cited_names r)).
  assert (FN : forall n, find (fun r => mem n (names (cit_ops r))) rs = find (here n) rs').
  { intros n. unfold rs'. assert (X : forall r, In r rs -> mem n (names (cit_ops r)) = citing r && here n r).
    { intros r A. rewrite (cit_names r HO A). destruct (citing r); [|reflexivity]. unfold here. cbn [andb]. apply eq_true_iff_eq. rewrite orb_true_iff, !mem_In. apply in_app_iff. }
    apply find_filter, X. }
  assert (FO : forall r n, In r rs' -> here n r = true -> exists c p, (c = own rapi r \/ In c (cited r)) /\ name_of api o c = Some n /\ find (about n) (cit_ops r) = Some p /\
             op_attrs p = info c n /\ op_head p = if mem n (head_names r) then 1 else 0).
  { intros r n K HR. apply R' in K. destruct K as [A CI]. destruct (HO r A CI) as (h & N & T). unfold cit_ops. rewrite CI, (rec_ops_head r N T), (heads_names r N). unfold here in HR. rewrite (heads_names r N) in HR.
    cbn [find about mem existsb] in *. rewrite orb_false_r in *. destruct (eqb_spec n h) as [->|NE].
    - exists (own rapi r). eexists. split; [left; reflexivity|]. split; [exact N|]. split; [reflexivity|]. split; reflexivity.
    - cbn [orb] in HR. rewrite find_app. destruct (find (about n) (see_ops (named (cited r)))) as [p|] eqn:F.
      + apply find_see in F. destruct F as (c & B & -> & _). apply In_named in B. destruct B. exists c. eexists. split; [right; eassumption|]. split; [assumption|]. split; [reflexivity|]. split; reflexivity.
      + apply about_names in F. rewrite see_names, named_names in F. apply mem_In in HR. contradiction. }
  assert (SE : forall n, total (fun r => sees n (cit_ops r)) rs = occurs cited_names rs' n).
  { intros n. unfold occurs, rs'. rewrite <- total_filter. apply total_ext. intros r A. apply (cit_sees r n HO A). }
  assert (ND : forall n, match find (here n) rs' with
                         | None => nd g n = None
                         | Some r => exists c, (c = own rapi r \/ In c (cited r)) /\ name_of api o c = Some n /\
                             nd g n = Some (if cnt then dset cnt_ (VInt (Z.of_nat (occurs cited_names rs' n + if mem n (head_names r) then 1 else 0))) (info c n) else info c n)
                         end).
  { intros n. rewrite M, FN. destruct (find (here n) rs') as [r|] eqn:F; [|reflexivity]. apply find_some in F. destruct F as [A B].
    destruct (FO r n A B) as (c & p & C1 & C2 & Q & Q1 & Q2). exists c. split; [exact C1|]. split; [exact C2|]. rewrite Q, SE, Q1, Q2. reflexivity. }
  assert (HERE : forall n r, here n r = true <-> In n (head_names r) \/ In n (cited_names r)) by (intros n r; unfold here; rewrite orb_true_iff, !mem_In; tauto).
  assert (NN : forall n, is_node g n <-> exists r, In r rs' /\ (In n (head_names r) \/ In n (cited_names r))).
  { intros n. unfold is_node. rewrite nd_In. specialize (ND n). destruct (find (here n) rs') as [r|] eqn:F.
    - apply find_some in F. destruct F as [A B]. apply HERE in B. destruct ND as (c & _ & _ & Q). split; [exists r; auto|eauto].
    - rewrite ND. split; [intros (a & Q); discriminate|]. intros (r & A & B). pose proof (find_none _ _ F r A) as Q. apply HERE in B. congruence. }
  split; [exact NN|]. split; [|split].
  - intros HC n. fold (here n). unfold node_attr, positive_count. specialize (ND n). destruct (find (here n) rs') as [r|] eqn:F.
    + destruct ND as (c & _ & _ & Q). rewrite Q, HC. unfold cnt_. rewrite dget_dset_same. apply find_some in F. destruct F as [A B]. apply HERE in B.
      assert (P : 0 < occurs cited_names rs' n + (if mem n (head_names r) then 1 else 0)).
      { destruct (mem n (head_names r)) eqn:MH; [lia|]. destruct B as [B|B]; [apply mem_In in B; congruence|]. assert (0 < occurs cited_names rs' n) by (apply total_pos; exists r; split; [exact A|apply count_In, B]). lia. }
      destruct (occurs cited_names rs' n + (if mem n (head_names r) then 1 else 0)); [lia|reflexivity].
    + rewrite ND. unfold occurs. rewrite (total_ext _ (fun _ => 0) rs'); [rewrite total_zero; reflexivity|]. intros r A. apply count_not_In. intros B. pose proof (find_none _ _ F r A) as Q.
      assert (here n r = true) by (apply HERE; right; exact B). congruence.
  - intros n K. apply NN in K. specialize (ND n). destruct (find (here n) rs') as [r|] eqn:F.
    + apply find_some in F. destruct F as [A B]. destruct ND as (c & C1 & C2 & Q). exists r, c. split; [exact A|]. split; [exact C1|]. split; [exact C2|]. intros k NK. unfold node_attr. rewrite Q.
      destruct cnt; [apply dget_dset_other, NK|reflexivity].
    + exfalso. destruct K as (r & A & B). pose proof (find_none _ _ F r A) as Q. apply HERE in B. congruence.
  - intros u v k. assert (K : total (fun r => lk directed (edge_list (cit_ops r)) u v) rs = k).
    { unfold k, rs'. rewrite <- total_filter. apply total_ext. intros r A. apply (cit_links r u v HO A). }
    specialize (ED u v). rewrite K in ED. destruct ED as [(Z & Q)|(Z & r & p & A & B & Ep & Q)]; (split; [intros Z'; try contradiction; exact Q|intros Z'; try contradiction]).
    unfold cit_ops in B. destruct (citing r) eqn:CI; [|destruct B]. destruct (HO r A CI) as (h & N & T). rewrite (rec_ops_head r N T) in B. destruct B as [<-|B]; [discriminate|].
    apply in_app_iff in B. destruct B as [B|B]; [apply in_map_iff in B; destruct B as (ic & <- & _); discriminate|]. apply in_map_iff in B. destruct B as ([n c] & <- & B). apply In_named in B. destruct B as [Bc Bn].
    exists r, c. split.
    + split; [exact A|]. split; [exact CI|]. split; [exact Bc|]. unfold head_op in Ep. rewrite N, Bn. cbn [fst snd] in Ep.
      destruct (forward o rtc); cbn [edge_of] in Ep; apply same_edge_true in Ep; destruct directed; (destruct Ep as [[-> ->]|(QD & -> & ->)]; try discriminate); cbv beta zeta; tauto.
    + rewrite Q. unfold head_op. destruct w; [|reflexivity]. unfold weight, year_diff. destruct (forward o rtc); cbn [op_extra]; unfold year_of_head, diff, years_apart; cbn [fst snd];
        destruct (is_exact (o_type o)); cbn [extra]; try reflexivity; destruct (cyear api (own rapi r)) as [[y|]|]; reflexivity.
Qed.
(** Without weights and with authors, journals or years as nodes no edge can be added. *)
Definition noedge (g : graph I) : Prop := forall u v, ed g u v = None.
Lemma do_noedge p (g g' : graph I) : WF g -> noedge g -> (match p with Edge _ _ _ => False | _ => True end) -> do_op cnt w p g = Ok g' -> noedge g'.
Proof.
  intros W N P Q u v. destruct p as [n a|n a|x y z]; [| |destruct P]; cbn [do_op] in Q.
  - destruct (negb (has_node g n)); [injection Q as <-; rewrite ed_add_node by exact W; apply N|]. destruct cnt; [|injection Q as <-; apply N]. unfold node_incr in Q. destruct (nd g n) as [b|]; [|discriminate]. destruct (dget cnt_ b) as [c|]; [|discriminate].
    destruct (vadd c (VInt 1)) as [d|]; [|discriminate]. cbn [bind] in Q. rewrite (ed_node_set _ _ _ _ _ _ Q). apply N.
  - destruct (has_node g n); injection Q as <-; [apply N|]. rewrite ed_add_node by exact W. apply N.
Qed.
Lemma see_noedge ids : forall g g', inv directed g -> noedge g -> iter (do_op cnt w) (see_ops ids) g = Ok g' -> noedge g'.
Proof.
  induction ids as [|ic ids IH]; intros g g' V N Q; [injection Q as <-; exact N|]. unfold CiteNetProofs2.see_ops in Q. cbn [map iter] in Q. destruct (do_op cnt w (See (fst ic) (info (snd ic) (fst ic))) g) as [g1|] eqn:D; [|discriminate].
  apply (IH g1 g'); [|eapply do_noedge; [apply V|exact N| |exact D]; exact Logic.I|exact Q]. eapply do_op_inv; [exact V| |exact D]. apply info_nodup.
Qed.
Theorem unweighted_fails : is_exact (o_type o) = false -> w = false -> heads_ok ->
  (exists r, In r rs /\ citing r = true /\ cited_names r <> []) -> exists e, citation api rapi upper o directed rtc rs = Raise e.
Proof.
  intros EX HW HO (r0 & I0 & C0 & N0). unfold citation.
  assert (G : forall l g, incl l rs -> In r0 l -> inv directed g -> noedge g ->
    exists e, iter (fun r g => match filter_cites api upper o core [own rapi r] with [] => Ok g | _ => match cites rapi r with [] => Ok g | l => add_to_network api rapi o core rtc (Some (own rapi r)) (filter_cites api upper o core l) g end end) l g = Raise e).
  2: { apply G; [apply incl_refl|exact I0|split; [apply WF_empty|reflexivity]|intros u v; reflexivity]. }
  induction l as [|r l IH]; intros g IC K V N; [destruct K|]. cbn [iter].
  assert (IR : In r rs) by (apply IC; left; reflexivity).
  rewrite !filter_selected with (rs := rs) (rapi := rapi). cbn [filter]. destruct (selected api rapi upper o rs (own rapi r)) eqn:SL.
  2: { destruct K as [->|K]; [unfold CiteNetSpec.citing in C0; rewrite SL in C0; discriminate|]. apply IH; [intros x X; apply IC; right; exact X|exact K|exact V|exact N]. }
  destruct (cites rapi r) as [|c cs] eqn:CS.
  { destruct K as [->|K]; [unfold CiteNetSpec.citing in C0; rewrite CS, andb_false_r in C0; discriminate|]. apply IH; [intros x X; apply IC; right; exact X|exact K|exact V|exact N]. }
  rewrite filter_selected with (rs := rs) (rapi := rapi). rewrite <- CS. fold (cited r).
  assert (CI : citing r = true) by (unfold CiteNetSpec.citing; rewrite SL, CS; reflexivity). destruct (HO r IR CI) as (h & HN & HT).
  unfold add_to_network at 1. rewrite make_id_name, HN, EX. cbn [bind]. destruct (see_head_op api rapi o rs (own rapi r) h g) as [->|(e & -> & _)]; [|eexists; reflexivity].
  destruct (do_op cnt w (Head h (info (own rapi r) h)) g) as [g1|] eqn:D1; [|eexists; reflexivity]. cbn [bind]. assert (V1 : inv directed g1) by (eapply do_op_inv; [exact V| |exact D1]; apply info_nodup).
  assert (N1 : noedge g1) by (eapply do_noedge; [apply V|exact N| |exact D1]; exact Logic.I).
  destruct (see_all_op api rapi o rs (cited r) g1) as [->|(e & -> & _)]; [|eexists; reflexivity]. destruct (iter (do_op cnt w) (see_ops (named (cited r))) g1) as [g2|] eqn:D2; [|eexists; reflexivity]. cbn [bind]. rewrite HT.
  assert (N2 : noedge g2) by (eapply see_noedge; eassumption).
  assert (V2 : inv directed g2) by (eapply iter_inv; [exact V1| |exact D2]; apply see_ops_dictlike).
  destruct (named (cited r)) as [|[n c'] ids] eqn:NM.
  - cbn [head_edges bind add_edges_from fold_left]. destruct K as [->|K]; [|apply IH; [intros x X; apply IC; right; exact X|exact K|exact V2|exact N2]].
    exfalso. apply N0. unfold CiteNetSpec.cited_names. rewrite <- named_names, NM. reflexivity.
  - cbn [head_edges]. rewrite HW, EX. unfold has_edge. rewrite N2. cbn [bind]. eexists. reflexivity.
Qed.
End Citation.
