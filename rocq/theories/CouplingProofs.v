(** networkBibCoupling meets its specification. *)
From Coq Require Import String Lia.
From Verif Require Import Base PyStr Nx NxFacts RecordView SeriesSpec RecordViewFacts NetModel NetSpec NetFacts NetProofs NetProofs2 CiteNetModel CiteNetFacts CiteNetSpec CiteNetProofs CiteNetProofs2 CiteNetProofs3 CiteNetProofs4.
Set Implicit Arguments.

Section Graph.
Context {I : Type} `{EqDec I}.
Variable w : bool.
Variable cg : graph I.
Definition core_op (n : I) : list op :=
  match nd cg n with Some a => match dget $"inCore" a with Some (VBool true) => [Head n a] | _ => [] end | None => [] end.
Definition in_core (n : I) : bool := match nd cg n with Some a => match dget $"inCore" a with Some (VBool true) => true | _ => false end | None => false end.
Lemma copy_core_ops l : (forall n, In n l -> exists a b, nd cg n = Some a /\ dget $"inCore" a = Some b) -> NoDup l ->
  forall g, (forall n, In n l -> has_node g n = false) -> iter (copy_core cg) l g = iter (do_op false w) (flat_map core_op l) g.
Proof.
  induction l as [|n l IH]; intros AT ND g FR; [reflexivity|]. cbn [iter flat_map]. rewrite iter_app. inversion ND as [|x y NI ND']; subst. destruct (AT n (or_introl eq_refl)) as (a & b & A & B).
  unfold copy_core at 1, core_op at 1. rewrite A, B.
  assert (REST : forall g', (forall m, In m l -> has_node g' m = false) -> iter (copy_core cg) l g' = iter (do_op false w) (flat_map core_op l) g') by (intros g'; apply IH; [intros m K; apply AT; right; exact K|exact ND']).
  assert (FR' : forall m, In m l -> has_node g m = false) by (intros m K; apply FR; right; exact K).
  destruct b as [s|z|[|]|]; cbn [bind iter]; try (apply REST, FR').
  cbn [do_op]. rewrite (FR n (or_introl eq_refl)). cbn [with_count bind]. apply REST. intros m K. specialize (FR' m K). rewrite has_node_nd in *. rewrite nd_add_node. destruct (eqb_spec m n) as [->|NE]; [contradiction|exact FR'].
Qed.
Lemma couple_ops (l : list I) : forall g, couple w l g = iter (do_join false w) (pair_ops l) g.
Proof.
  induction l as [|u rest IH]; intros g; [reflexivity|]. cbn [couple]. unfold pair_ops. cbn [pairs_list]. rewrite map_app, iter_app, map_map. cbn [fst snd].
  assert (Q : forall L g, iter (join_two w u) L g = iter (do_join false w) (map (fun v => Edge u v None) L) g).
  { clear. induction L as [|v L IH]; intros g; [reflexivity|]. cbn [iter map do_join]. destruct (join_two w u v g); [apply IH|reflexivity]. }
  rewrite Q. destruct (iter (do_join false w) (map (fun v => Edge u v None) rest) g); [apply IH|reflexivity].
Qed.
Variable sources : I -> list I.
Variable order : list I.
Theorem coupling_spec :
  WF cg -> (forall n a, nd cg n = Some a -> dget $"inCore" a <> None) ->
  (forall n u, In n order -> In u (sources n) -> in_core u = true) ->
  exists g, bib_coupling w cg sources order = Ok g /\ WF g /\ gdir g = false /\
    (forall n, nd g n = if in_core n then nd cg n else None) /\
    (forall u v, ed g u v = edge_value w (total (fun n => pairs_within u v (sources n)) order)).
Proof.
  intros W AT SRC. set (es := flat_map core_op (nodes cg) ++ flat_map (fun n => pair_ops (sources n)) order).
  assert (NM : forall n, In n (names (flat_map core_op (nodes cg))) <-> in_core n = true).
  { intros n. rewrite names_flat, in_flat_map. unfold core_op, in_core. split.
    - intros (m & A & B). destruct (nd cg m) as [a|] eqn:N; [|destruct B]. destruct (dget $"inCore" a) as [[s|z|[|]|]|] eqn:Q; try destruct B as [<-|[]]; try destruct B. rewrite N, Q. reflexivity.
    - intros K. exists n. destruct (nd cg n) as [a|] eqn:N; [|discriminate]. split; [apply nd_In; eauto|]. destruct (dget $"inCore" a) as [[s|z|[|]|]|]; try discriminate. left. reflexivity. }
  assert (CO : forall p, In p (flat_map core_op (nodes cg)) -> exists n a, p = Head n a /\ nd cg n = Some a).
  { intros p K. apply in_flat_map in K. destruct K as (n & _ & B). unfold core_op in B. destruct (nd cg n) as [a|] eqn:N; [|destruct B]. destruct (dget $"inCore" a) as [[s|z|[|]|]|]; try destruct B as [<-|[]]; try destruct B. eauto. }
  assert (PO : forall p, In p (flat_map (fun n => pair_ops (sources n)) order) -> exists u v, p = Edge u v None /\ in_core u = true /\ in_core v = true).
  { intros p K. apply in_flat_map in K. destruct K as (n & A & B). apply in_map_iff in B. destruct B as ([u v] & <- & B). apply In_pairs in B. destruct B. exists u, v. split; [reflexivity|]. split; eapply SRC; eassumption. }
  assert (CL : closed [] es).
  { apply closed_pre; [apply closed_nodes; intros p K; destruct (CO p K) as (n & a & -> & _); exact Logic.I|]. intros p K. destruct (PO p K) as (u & v & -> & A & B). exists u, v, None. split; [reflexivity|]. split; apply NM; assumption. }
  assert (DL : dictlike es).
  { intros p K. apply in_app_iff in K. destruct K as [K|K]; [destruct (CO p K) as (n & a & -> & N); apply (wf_nattr W _ N)|destruct (PO p K) as (u & v & -> & _); constructor]. }
  destruct (ops_spec false w false CL DL) as (g & RUN & W' & D & M & E). exists g. split; [|split; [exact W'|split; [exact D|split]]].
  - rewrite <- RUN, <- iter_join; [|exact CL|exact DL|].
    + unfold bib_coupling, es. rewrite iter_app.
      assert (Q1 : iter (copy_core cg) (nodes cg) (empty_graph false) = iter (do_join false w) (flat_map core_op (nodes cg)) (empty_graph false)).
      { rewrite copy_core_ops; [| |apply (wf_nodup W)|reflexivity].
        - assert (Q : forall l (g : graph I), (forall p, In p l -> exists n a, p = Head n a /\ nd cg n = Some a) -> iter (do_op false w) l g = iter (do_join false w) l g).
          { clear. induction l as [|p l IH]; intros g P; [reflexivity|]. destruct (P p (or_introl eq_refl)) as (n & a & -> & _). cbn [iter do_join]. destruct (do_op false w (Head n a) g); [|reflexivity]. cbn [bind]. apply IH. intros q K. apply P. right. exact K. }
          apply Q, CO.
        - intros n K. apply nd_In in K. destruct K as (a & K). specialize (AT n a K). destruct (dget $"inCore" a) as [b|] eqn:Q; [|congruence]. exists a, b. auto. }
      rewrite Q1. destruct (iter (do_join false w) (flat_map core_op (nodes cg)) (empty_graph false)) as [g1|]; [|reflexivity]. cbn [bind]. rewrite iter_flat. apply iter_ext. intros n g'. apply couple_ops.
    + intros u v y K. apply in_app_iff in K. destruct K as [K|K]; [destruct (CO _ K) as (n & a & Q & _); discriminate|]. destruct (PO _ K) as (a & b & Q & _). congruence.
  - intros n. rewrite M. unfold node_final, es. rewrite find_app.
    assert (FE : find (about n) (flat_map (fun m => pair_ops (sources m)) order) = None) by (apply find_edges; intros p K; destruct (PO p K) as (u & v & -> & _); eauto).
    rewrite FE. destruct (find (about n) (flat_map core_op (nodes cg))) as [p|] eqn:F.
    + apply find_some in F. destruct F as [A B]. destruct (CO p A) as (m & a & -> & N). cbn [about] in B. destruct (eqb_spec n m) as [<-|NE]; [|discriminate]. cbn [op_attrs].
      replace (in_core n) with true; [symmetry; exact N|]. symmetry. apply NM. apply in_flat_map. exists (Head n a). split; [exact A|left; reflexivity].
    + apply about_names in F. destruct (in_core n) eqn:Q; [|reflexivity]. apply NM in Q. contradiction.
  - intros u v. rewrite E. unfold edge_final, edge_value.
    assert (K : edges_met false es u v = total (fun n => pairs_within u v (sources n)) order).
    { unfold es. rewrite edges_met_lk, edge_list_app, edge_list_flat.
      assert (Z : flat_map (fun r => edge_list (core_op r)) (nodes cg) = []).
      { clear. induction (nodes cg) as [|n l IH]; [reflexivity|]. cbn [flat_map]. rewrite IH, app_nil_r. unfold core_op. destruct (nd cg n) as [a|]; [|reflexivity]. destruct (dget $"inCore" a) as [[s|z|[|]|]|]; reflexivity. }
      rewrite Z, app_nil_l, edge_list_flat, lk_flat_map. apply total_ext. intros n _. rewrite edge_list_pairs. apply lk_pairs. }
    destruct (find (edge_of false u v) es) as [p|] eqn:F.
    + assert (Z : edges_met false es u v <> 0) by (intros Z; apply no_edges in Z; congruence). rewrite K in Z. apply Nat.eqb_neq in Z. rewrite Z, K. apply find_some in F. destruct F as [Ip Ep].
      unfold es in Ip. apply in_app_iff in Ip. destruct Ip as [Ip|Ip]; [destruct (CO p Ip) as (n & a & -> & _); discriminate|]. destruct (PO p Ip) as (x & y & -> & _). reflexivity.
    + apply no_edges in F. rewrite <- K, F. reflexivity.
Qed.
End Graph.

Section Coupling.
Context {I C R : Type} `{EqDec I}.
Variable api : cite_api C I.
Variable rapi : rec_api R C.
Variable upper : str -> str.
Variables (fullInfo addCR : bool).
Variable rs : list R.
Notation o := (coupling_opts fullInfo addCR).
Notation cited_names := (cited_names api rapi upper o rs).
Notation cited := (cited api rapi upper o rs).
Notation citing := (citing api rapi upper o rs).
Notation head_names := (head_names api rapi o).

Lemma all_selected c : selected api rapi upper o rs c = true.
Proof. reflexivity. Qed.
Lemma all_cited r : cited r = cites rapi r.
Proof. unfold CiteNetSpec.cited. induction (cites rapi r) as [|c l IH]; [reflexivity|]. cbn [filter]. rewrite all_selected, IH. reflexivity. Qed.
Lemma all_names r : cited_names r = map (cid api) (cites rapi r).
Proof. unfold CiteNetSpec.cited_names. rewrite all_cited. unfold names_of. induction (cites rapi r) as [|c l IH]; [reflexivity|]. cbn [flat_map map app]. rewrite IH. reflexivity. Qed.
Lemma own_names r : head_names r = [cid api (own rapi r)].
Proof. reflexivity. Qed.
Lemma citing_cites r : citing r = negb (length (cites rapi r) =? 0).
Proof. reflexivity. Qed.
Lemma in_coll c c' : cid api c = cid api c' -> in_collection api rapi rs c = in_collection api rapi rs c'.
Proof. intros Q. unfold in_collection. rewrite Q. reflexivity. Qed.
Lemma cites_work_spec u n : cites_work api rapi upper o rs u n = true <-> exists r, In r rs /\ u = cid api (own rapi r) /\ In n (map (cid api) (cites rapi r)).
Proof.
  unfold cites_work. rewrite existsb_exists. split; intros (r & A & B); exists r; split; try exact A.
  - apply andb_true_iff in B. rewrite !mem_In, own_names, all_names in B. destruct B as [[B|[]] B']. auto.
  - apply andb_true_iff. rewrite !mem_In, own_names, all_names. destruct B as [-> B]. split; [left; reflexivity|exact B].
Qed.

Definition describable : Prop := forall r c, In r rs -> (c = own rapi r \/ In c (cites rapi r)) -> ~ no_info api rapi o rs c.
Definition years_known : Prop := forall r, In r rs -> cyear api (own rapi r) <> None.
Definition ids_nonempty : Prop := forall r, In r rs -> truthy_id api (cid api (own rapi r)) = true.

Lemma pairs_nodup u v (l : list I) : NoDup l -> pairs_within u v l = if negb (eqb u v) && mem u l && mem v l then 1 else 0.
Proof.
  intros N. assert (CT : forall x, count x l = if mem x l then 1 else 0).
  { intros x. pose proof (count_NoDup x N). destruct (mem x l) eqn:M; [apply mem_In, count_In in M; lia|]. apply count_not_In. intros K. apply mem_In in K. congruence. }
  unfold pairs_within. rewrite !CT. destruct (eqb_spec u v) as [->|NE]; cbn [negb andb]; [destruct (mem v l); reflexivity|]. destruct (mem u l), (mem v l); reflexivity.
Qed.
Lemma total_count {A} (p : A -> bool) l : total (fun x => if p x then 1 else 0) l = length (filter p l).
Proof. unfold total. induction l as [|x l IH]; [reflexivity|]. cbn [fold_right filter]. rewrite IH. destruct (p x); reflexivity. Qed.

Theorem bib_coupling_spec (w : bool) : describable -> years_known -> ids_nonempty ->
  exists cg, citation api rapi upper o true true rs = Ok cg /\
  forall sources order,
    (forall n, NoDup (sources n)) -> (forall n u, In u (sources n) <-> is_edge cg u n) ->
    NoDup order -> (forall n, In n order <-> exists u, is_edge cg u n) ->
    exists g, bib_coupling w cg sources order = Ok g /\ WF g /\ gdir g = false /\
      (forall n, is_node g n <-> (exists r, In r rs /\ n = cid api (own rapi r)) /\
                                 (exists r, In r rs /\ ((n = cid api (own rapi r) /\ cites rapi r <> []) \/ In n (map (cid api) (cites rapi r))))) /\
      (forall n, is_node g n -> nd g n = nd cg n) /\
      (forall u v, ed g u v = edge_value w (if eqb u v then 0 else shared_works api rapi upper o rs u v)).
Proof.
  intros DE YK IN.
  assert (US : forall r c, In r rs -> (c = own rapi r \/ In c (cites rapi r)) -> usable api rapi o rs c) by (intros r c A B; split; [discriminate|apply (DE r c A B)]).
  assert (SUP : supported o true true) by (left; reflexivity).
  assert (HO : heads_ok api rapi upper o rs) by (intros r A _; exists (cid api (own rapi r)); split; [reflexivity|apply IN, A]).
  destruct (citation_spec (directed:=true) SUP HO) as [(cg & RUN & W & D & NN & _ & AT & ED)|(e & RUN & r & A & B & T)].
  2: { exfalso. destruct T as [(c & T1 & T2)|[T|(_ & T)]].
       - rewrite all_cited in T1. apply T2, (US r c A). right. exact T1.
       - apply T, (US r _ A). left. reflexivity.
       - apply (YK r A T). }
  exists cg. split; [exact RUN|]. intros sources order SN SI ON OI.
  assert (NODE : forall n, is_node cg n <-> exists r, In r rs /\ ((n = cid api (own rapi r) /\ cites rapi r <> []) \/ In n (map (cid api) (cites rapi r)))).
  { intros n. rewrite NN. split.
    - intros (r & A & B). apply filter_In in A. destruct A as [A CI]. exists r. split; [exact A|]. rewrite own_names, all_names in B. destruct B as [[<-|[]]|B]; [left; split; [reflexivity|]|right; exact B].
      rewrite citing_cites in CI. intros Q. rewrite Q in CI. discriminate.
    - intros (r & A & B). exists r. split.
      + apply filter_In. split; [exact A|]. rewrite citing_cites. destruct (cites rapi r); [|reflexivity]. destruct B as [[_ B]|[]]. congruence.
      + rewrite own_names, all_names. destruct B as [[-> _]|B]; [left; left; reflexivity|right; exact B]. }
  assert (EDGE : forall u n, is_edge cg u n <-> cites_work api rapi upper o rs u n = true).
  { intros u n. unfold is_edge. specialize (ED u n). cbv zeta in ED. destruct ED as [E0 E1]. rewrite cites_work_spec.
    set (k := total (fun r => arcs api rapi upper o true (forward o true) rs r u n) (filter citing rs)) in *.
    assert (KP : 0 < k <-> exists r, In r rs /\ u = cid api (own rapi r) /\ In n (map (cid api) (cites rapi r))).
    { unfold k. rewrite total_pos. split.
      - intros (r & A & B). apply filter_In in A. destruct A as [A _]. exists r. split; [exact A|]. unfold arcs in B. change (forward o true) with true in B. cbn iota in B. unfold pairs_from_to in B. rewrite own_names, all_names in B.
        cbn [count] in B. destruct (eqb_spec u (cid api (own rapi r))) as [->|]; [|cbn in B; lia]. split; [reflexivity|]. apply count_In. lia.
      - intros (r & A & -> & B). exists r. split.
        + apply filter_In. split; [exact A|]. rewrite citing_cites. destruct (cites rapi r); [destruct B|reflexivity].
        + unfold arcs. change (forward o true) with true. cbn iota. unfold pairs_from_to. rewrite own_names, all_names. cbn [count]. rewrite eqb_refl. apply count_In in B. lia. }
    rewrite <- KP. split.
    - intros X. destruct (Nat.eq_dec k 0) as [Z|Z]; [exfalso; apply X, E0, Z|lia].
    - intros P. destruct E1 as (r & c & _ & ->); [lia|discriminate]. }
  assert (CORE : forall n a, nd cg n = Some a -> dget $"inCore" a = Some (VBool (existsb (fun r => eqb n (cid api (own rapi r))) rs))).
  { intros n a N. assert (K : is_node cg n) by (apply nd_In; eauto). destruct (AT n K) as (r & c & A & B & CN & Q). apply filter_In in A. destruct A as [A _]. rewrite all_cited in B.
    specialize (Q $"inCore"). unfold node_attr in Q. rewrite N in Q. rewrite Q by discriminate. rewrite info_shows by (apply (DE r c A B)). unfold node_shows. cbn [o coupling_opts o_full o_info o_type o_values o_cr].
    assert (CI : cid api c = n) by (unfold name_of in CN; cbn in CN; congruence). subst n.
    replace (fullInfo && eqb $"inCore" $"fullCite") with false by (destruct fullInfo; reflexivity). replace (addCR && eqb $"inCore" $"citations") with false by (destruct addCR; reflexivity). reflexivity. }
  assert (INC : forall n, in_core cg n = true <-> is_node cg n /\ exists r, In r rs /\ n = cid api (own rapi r)).
  { intros n. unfold in_core, is_node. rewrite nd_In. destruct (nd cg n) as [a|] eqn:N; [|split; [discriminate|intros [(a & Q) _]; discriminate]]. rewrite (CORE n a N).
    destruct (existsb (fun r => eqb n (cid api (own rapi r))) rs) eqn:X.
    - split; [|reflexivity]. intros _. split; [eauto|]. apply existsb_exists in X. destruct X as (r & A & B). apply eqb_eq in B. exists r. split; assumption.
    - split; [discriminate|]. intros [_ (r & A & B)]. assert (existsb (fun r => eqb n (cid api (own rapi r))) rs = true) by (apply existsb_exists; exists r; split; [exact A|subst n; apply eqb_refl]). congruence. }
  assert (SRC : forall n u, In u (sources n) -> exists r, In r rs /\ u = cid api (own rapi r) /\ cites rapi r <> []).
  { intros n u K. apply SI, EDGE in K. apply cites_work_spec in K. destruct K as (r & A & B & X). exists r. split; [exact A|]. split; [exact B|]. intros Q. rewrite Q in X. destruct X. }
  destruct (coupling_spec w (cg:=cg) sources order) as (g & RG & W' & D' & M & E).
  { exact W. }
  { intros n a N. rewrite (CORE n a N). discriminate. }
  { intros n u _ K. destruct (SRC n u K) as (r & A & B & X). apply INC. split; [apply NODE; exists r; auto|eauto]. }
  exists g. split; [exact RG|]. split; [exact W'|]. split; [exact D'|].
  assert (ISN : forall n, is_node g n <-> in_core cg n = true).
  { intros n. unfold is_node. rewrite nd_In, M. destruct (in_core cg n) eqn:Q; [|split; [intros (a & K); discriminate|discriminate]]. split; [reflexivity|]. intros _. apply INC in Q. destruct Q as [Q _]. apply nd_In in Q. exact Q. }
  split; [|split].
  - intros n. rewrite ISN, INC, NODE. tauto.
  - intros n K. rewrite M. apply ISN in K. rewrite K. reflexivity.
  - intros u v. rewrite E. f_equal. rewrite (total_ext _ (fun n => if negb (eqb u v) && cites_work api rapi upper o rs u n && cites_work api rapi upper o rs v n then 1 else 0) order).
    + destruct (eqb u v); cbn [negb andb]; [apply total_zero|]. rewrite total_count. unfold shared_works. apply Permutation_length, NoDup_Permutation; [apply NoDup_filter, ON|apply NoDup_filter, NoDup_first_seen|].
      intros n. rewrite !filter_In, In_first_seen. split; intros [A B]; (split; [|exact B]); apply andb_true_iff in B; destruct B as [B _].
      * apply cites_work_spec in B. destruct B as (r & X & _ & Y). apply in_flat_map. exists r. split; [exact X|]. rewrite all_names. exact Y.
      * apply OI. exists u. apply EDGE, B.
    + intros n _. rewrite pairs_nodup by apply SN.
      assert (MS : forall x, mem x (sources n) = cites_work api rapi upper o rs x n) by (intros x; apply eq_true_iff_eq; rewrite mem_In, SI; apply EDGE).
      rewrite !MS. reflexivity.
Qed.
End Coupling.
