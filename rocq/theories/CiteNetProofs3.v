(** networkCoCitation, networkCitation and networkBibCoupling meet their specification. *)
From Coq Require Import String Lia.
From Verif Require Import Base PyStr Nx NxFacts RecordView SeriesSpec RecordViewFacts NetModel NetSpec NetFacts NetProofs NetProofs2 CiteNetModel CiteNetFacts CiteNetSpec CiteNetProofs CiteNetProofs2.
Set Implicit Arguments.

Section General.
Context {I R : Type} `{EqDec I}.
Variables (cnt w d : bool).
Lemma about_exists (n : I) es : existsb (about n) es = mem n (names es).
Proof.
  apply eq_true_iff_eq. rewrite mem_In. split.
  - intros X. destruct (in_dec eq_dec n (names es)) as [K|K]; [exact K|]. apply about_names in K. apply existsb_exists in X. destruct X as (p & A & B). pose proof (find_none _ _ K p A). congruence.
  - intros K. destruct (find (about n) es) as [p|] eqn:F; [apply find_some in F; apply existsb_exists; exists p; exact F|]. apply about_names in F. contradiction.
Qed.
(** what a sequence of steps, record by record, leads to *)
Lemma run_spec (h : R -> list (@op I)) rs : (forall r, In r rs -> closed [] (h r)) -> (forall r, In r rs -> dictlike (h r)) ->
  exists g, iter (do_op cnt w) (flat_map h rs) (empty_graph d) = Ok g /\ WF g /\ gdir g = d /\
    (forall n, nd g n = match find (fun r => mem n (names (h r))) rs with
                        | None => None
                        | Some r => match find (about n) (h r) with
                                    | None => None
                                    | Some p => Some (if cnt then dset cnt_ (VInt (Z.of_nat (total (fun r => sees n (h r)) rs + op_head p))) (op_attrs p) else op_attrs p)
                                    end
                        end) /\
    (forall u v, let k := total (fun r => lk d (edge_list (h r)) u v) rs in
       (k = 0 /\ ed g u v = None) \/
       (k <> 0 /\ exists r p, In r rs /\ In p (h r) /\ edge_of d u v p = true /\ ed g u v = Some (if w then (weight, VInt (Z.of_nat k)) :: op_extra p else []))).
Proof.
  intros CL DL.
  assert (C : closed [] (flat_map h rs)) by (apply closed_flat; exact CL).
  assert (D : dictlike (flat_map h rs)) by (intros p K; apply in_flat_map in K; destruct K as (r & A & B); apply (DL r A), B).
  destruct (ops_spec cnt w d C D) as (g & RUN & W & G & M & E). exists g. split; [exact RUN|]. split; [exact W|]. split; [exact G|]. split.
  - intros n. rewrite M. unfold node_final. rewrite find_flat. rewrite (find_ext _ (fun r => mem n (names (h r)))) by (intros r; apply about_exists).
    destruct (find _ rs) as [r|]; [|reflexivity]. destruct (find (about n) (h r)) as [p|]; [|reflexivity]. rewrite sees_flat. reflexivity.
  - intros u v k. rewrite E. unfold edge_final.
    assert (K : edges_met d (flat_map h rs) u v = k) by (rewrite edges_met_lk, edge_list_flat, lk_flat_map; reflexivity).
    destruct (find (edge_of d u v) (flat_map h rs)) as [p|] eqn:F.
    + right. split; [intros Z; rewrite <- K in Z; apply no_edges in Z; congruence|]. apply find_some in F. destruct F as [Ip Ep]. apply in_flat_map in Ip. destruct Ip as (r & A & B).
      exists r, p. rewrite K. auto.
    + left. apply no_edges in F. split; [congruence|reflexivity].
Qed.
End General.

Section Cites.
Context {I C R : Type} `{EqDec I}.
Variable api : cite_api C I.
Variable rapi : rec_api R C.
Variable upper : str -> str.
Variable o : opts.
Variable rs : list R.
Notation cnt := (o_count o).
Notation w := (o_weighted o).
Notation core := (core_dict api rapi rs).
Notation info := (info api rapi o rs).
Notation named := (named api o).
Notation cited_names := (cited_names api rapi upper o rs).
Notation cited := (cited api rapi upper o rs).
Notation see_ops := (see_ops api rapi o rs).
Notation rec_ops := (rec_ops api rapi o rs).

(** *** the attributes of a node *)
Lemma record_core c : dget (cid api c) core = record_of api rapi rs c.
Proof. apply core_get. Qed.
Lemma record_in c : in_collection api rapi rs c = match record_of api rapi rs c with Some _ => true | None => false end.
Proof. rewrite <- (core_has api rapi rs c), dhas_dget, record_core. reflexivity. Qed.
Lemma commas_eq (s : str) : no_commas s = commas_out s.
Proof. unfold no_commas, commas_out. apply filter_ext. intros c. destruct (N.eqb_spec c 44) as [->|N]; [reflexivity|]. rewrite neq_eqb by exact N. reflexivity. Qed.
Lemma info_vals_spec r tags : (forall t, In t tags -> rget rapi r t <> TList []) ->
  info_vals rapi r tags = Ok (flat_map (fun t => match field_text (rget rapi r t) with Some s => [s] | None => [] end) tags).
Proof.
  induction tags as [|t ts IH]; intros N; [reflexivity|]. cbn [info_vals flat_map]. rewrite IH by (intros t' K; apply N; right; exact K). pose proof (N t (or_introl eq_refl)) as T.
  destruct (rget rapi r t) as [s|[|s l]|v]; [rewrite commas_eq; reflexivity|contradiction|rewrite commas_eq; reflexivity|reflexivity].
Qed.
Lemma info_vals_bad r tags e : info_vals rapi r tags = Raise e -> exists t, In t tags /\ rget rapi r t = TList [].
Proof.
  induction tags as [|t ts IH]; [discriminate|]. cbn [info_vals]. destruct (rget rapi r t) as [s|[|s l]|v] eqn:Q; intros X.
  - destruct (info_vals rapi r ts); [discriminate|]. injection X as ->. destruct IH as (t' & A & B); [reflexivity|]. exists t'. split; [right; exact A|exact B].
  - exists t. split; [left; reflexivity|exact Q].
  - destruct (info_vals rapi r ts); [discriminate|]. injection X as ->. destruct IH as (t' & A & B); [reflexivity|]. exists t'. split; [right; exact A|exact B].
  - destruct (IH X) as (t' & A & B). exists t'. split; [right; exact A|exact B].
Qed.
Lemma node_info_bad c i e : node_info api rapi o core c i = Raise e -> no_info api rapi o rs c.
Proof.
  unfold node_info. rewrite record_core. intros X. match type of X with bind ?m _ = _ => destruct m as [a|e'] eqn:M; [discriminate|] end. clear X.
  unfold no_info. destruct (o_info o); [|discriminate]. destruct (o_type o); try discriminate. destruct (o_values o) as [|t ts]; [discriminate|].
  destruct (record_of api rapi rs c) as [r|] eqn:F; [|discriminate]. destruct (o_detailed o); cbn [negb] in M; [discriminate|].
  destruct (info_vals rapi r (t :: ts)) as [l|e''] eqn:V; [discriminate|]. apply info_vals_bad in V. destruct V as (t' & A & B). split; [reflexivity|]. split; [reflexivity|]. split; [reflexivity|]. exists r, t'. auto.
Qed.
Lemma bad_unusable c : bad_cite api rapi o rs c -> ~ usable api rapi o rs c.
Proof. intros [N|(i & e & A & B)] (U & V); [apply U, N|]. apply V. eapply node_info_bad. exact B. Qed.
Lemma fold_dset_get r (k : str) tags : forall d : attrs, dget k (fold_left (fun d t => dset t (detail_val (rget rapi r t)) d) tags d) =
  if mem k tags then Some (detail_val (rget rapi r k)) else dget k d.
Proof.
  induction tags as [|t ts IH]; intros d; [reflexivity|]. cbn [fold_left]. rewrite IH. unfold mem. cbn [existsb]. fold (mem k ts). destruct (mem k ts) eqn:M; [rewrite orb_true_r; reflexivity|]. rewrite orb_false_r.
  rewrite dget_dset. destruct (eqb_spec k t) as [->|N]; reflexivity.
Qed.
Ltac lits := try change [77%N; 75%N; 45%N; 73%N; 68%N] with $"MK-ID"; try change [105%N; 110%N; 102%N; 111%N] with $"info"; try change [105%N; 110%N; 67%N; 111%N; 114%N; 101%N] with $"inCore"; try change [99%N; 105%N; 116%N; 97%N; 116%N; 105%N; 111%N; 110%N; 115%N] with $"citations".
Lemma info_shows c i k : ~ no_info api rapi o rs c -> dget k (info c i) = node_shows api rapi o rs c i k.
Proof.
  intros OK. unfold CiteNetProofs2.info. destruct (node_info api rapi o core c i) as [a|e] eqn:Q; [|exfalso; apply OK; eapply node_info_bad; exact Q].
  unfold node_info in Q. match type of Q with bind ?m _ = _ => destruct m as [b|] eqn:M; [|discriminate] end. cbn [bind] in Q. injection Q as <-.
  unfold node_shows. transitivity (if o_full o && eqb k $"fullCite" then Some (VStr (cstr api c)) else dget k b).
  { destruct (o_full o); [|reflexivity]. cbn [andb]. apply dget_dset. }
  destruct (o_full o && eqb k $"fullCite"); [reflexivity|]. destruct (o_info o) eqn:OI; cbn [negb]; [|injection M as <-; reflexivity].
  destruct (o_type o) eqn:OT; try (injection M as <-; cbn [dget]; reflexivity).
  destruct (o_values o) as [|t ts] eqn:OV; [injection M as <-; reflexivity|]. rewrite record_core in M. rewrite record_in. change (length (t :: ts) =? 0) with false. cbv beta iota in M. cbv iota. remember (t :: ts) as tags eqn:TE. clear TE t ts.
  destruct (record_of api rapi rs c) as [r|] eqn:F.
  - match type of M with bind ?m _ = _ => destruct m as [d'|] eqn:M'; [|discriminate] end. cbn [bind] in M. injection M as <-.
    transitivity (if o_cr o && eqb k $"citations" then Some (VStr (join $"|" (map (cstr api) (cites rapi r)))) else if eqb k $"inCore" then Some (VBool true) else dget k d').
    { destruct (o_cr o); cbn [andb]; rewrite ?dget_dset; reflexivity. }
    destruct (o_cr o && eqb k $"citations"); [reflexivity|]. destruct (eqb k $"inCore"); [reflexivity|]. destruct (o_detailed o) eqn:OD; cbn [negb] in M'.
    + injection M' as <-. rewrite fold_dset_get. destruct (mem k tags); reflexivity.
    + rewrite info_vals_spec in M'.
      * cbn [bind] in M'. injection M' as <-. unfold field_texts. rewrite OV. cbn [dget]. lits. destruct (eqb_spec k $"MK-ID") as [->|N]; [reflexivity|]. destruct (eqb k $"info"); reflexivity.
      * intros t' K T. apply OK. unfold no_info. rewrite OI, OT, OD, OV. split; [reflexivity|]. split; [reflexivity|]. split; [reflexivity|]. exists r, t'. auto.
  - injection M as <-. destruct (o_cr o); cbn [andb app dget]; lits.
    + destruct (eqb_spec k $"MK-ID") as [->|N]; [reflexivity|]. destruct (eqb_spec k $"info") as [->|N']; [reflexivity|]. destruct (eqb_spec k $"inCore") as [->|N'']; [reflexivity|]. destruct (eqb k $"citations"); reflexivity.
    + destruct (eqb_spec k $"MK-ID") as [->|N]; [reflexivity|]. destruct (eqb_spec k $"info") as [->|N']; [reflexivity|]. reflexivity.
Qed.

(** *** names *)
Lemma named_names l : map fst (named l) = names_of api o l.
Proof. unfold CiteNetProofs2.named, names_of. induction l as [|c l IH]; [reflexivity|]. cbn [flat_map]. rewrite map_app, IH. destruct (name_of api o c); reflexivity. Qed.
Lemma In_named l i c : In (i, c) (named l) <-> In c l /\ name_of api o c = Some i.
Proof.
  unfold CiteNetProofs2.named. rewrite in_flat_map. split.
  - intros (c' & A & B). destruct (name_of api o c') as [j|] eqn:N; [|destruct B]. destruct B as [Q|[]]. injection Q as <- <-. auto.
  - intros (A & B). exists c. split; [exact A|]. rewrite B. left. reflexivity.
Qed.
Lemma sees_see_ops (n : I) ids : sees n (see_ops ids) = count n (map fst ids).
Proof. induction ids as [|ic ids IH]; [reflexivity|]. unfold CiteNetProofs2.see_ops. cbn [map]. unfold sees, total in *. cbn [fold_right count]. fold (see_ops ids). rewrite IH. destruct (eqb n (fst ic)); reflexivity. Qed.
Lemma sees_edges (n : I) es : (forall p, In p es -> exists u v y, p = Edge u v y) -> sees n es = 0.
Proof. intros E. apply no_sees. intros K. unfold names in K. apply in_flat_map in K. destruct K as (p & A & B). destruct (E p A) as (u & v & y & ->). destruct B. Qed.
Lemma names_edges (es : list (@op I)) : (forall p, In p es -> exists u v y, p = Edge u v y) -> names es = [].
Proof. intros E. induction es as [|p es IH]; [reflexivity|]. unfold names. cbn [flat_map]. destruct (E p (or_introl eq_refl)) as (u & v & y & ->). apply IH. intros q K. apply E. right. exact K. Qed.
Lemma pair_ops_are l p : In p (pair_ops (I:=I) l) -> exists u v y, p = Edge u v y.
Proof. intros K. apply pair_ops_edges in K. destruct K as (u & v & y & -> & _). eauto. Qed.
Lemma head_ops_are rtc h hy ids p : In p (map (head_op api o rtc h hy) ids) -> exists u v y, p = Edge u v y.
Proof. intros K. apply in_map_iff in K. destruct K as (ic & <- & _). unfold head_op. destruct (forward o rtc); eauto. Qed.
Lemma edge_list_see ids : edge_list (see_ops ids) = [].
Proof. induction ids as [|ic ids IH]; [reflexivity|]. unfold CiteNetProofs2.see_ops, edge_list. cbn [map flat_map app]. exact IH. Qed.
Lemma edge_list_pairs (l : list I) : edge_list (pair_ops l) = pairs_list l.
Proof. unfold pair_ops, edge_list. induction (pairs_list l) as [|[a b] L IH]; [reflexivity|]. cbn [map flat_map fst snd app]. rewrite IH. reflexivity. Qed.

(** *** co-citation *)
Lemma co_citation_run : let ops := flat_map (fun r => rec_ops true None (cited r)) rs in
  co_citation api rapi upper o rs = iter (do_op cnt w) ops (empty_graph false) \/
  exists e, co_citation api rapi upper o rs = Raise e /\ exists r c, In r rs /\ In c (cited r) /\ ~ usable api rapi o rs c.
Proof.
  intros ops. unfold co_citation.
  destruct (iter_agree (I:=I) cnt w (d:=false) (fun r g => match cites rapi r with [] => Ok g | l => add_to_network api rapi o core true None (filter_cites api upper o core l) g end)
              (fun r => rec_ops true None (cited r)) (fun r => Exists (bad_cite api rapi o rs) (cited r)) rs) with (g := empty_graph (V:=I) false) as [E|(e & E & B)].
  - intros r g _ V. unfold CiteNetSpec.cited. rewrite <- (filter_selected api rapi upper o rs (cites rapi r)).
    assert (AD := add_to_network_op api rapi (o:=o) rs (rtc:=true) (d:=false) (filter_cites api upper o core (cites rapi r)) (or_intror eq_refl) V).
    destruct (cites rapi r) as [|c l]; [left; reflexivity|]. destruct AD as [Q|(e & Q & [B|[]])]; [left; exact Q|right; exists e; split; [exact Q|exact B]].
  - intros r _. apply rec_dictlike.
  - split; [apply WF_empty|reflexivity].
  - left. exact E.
  - right. exists e. split; [exact E|]. apply Exists_exists in B. destruct B as (r & A & B). apply Exists_exists in B. destruct B as (c & B1 & B2). exists r, c. split; [exact A|]. split; [exact B1|]. apply bad_unusable, B2.
Qed.
Lemma co_names r : names (rec_ops true None (cited r)) = cited_names r.
Proof. cbn [CiteNetProofs2.rec_ops]. rewrite names_app, see_names, named_names, (names_edges (pair_ops (I:=I) _)) by (apply pair_ops_are). apply app_nil_r. Qed.
Lemma find_see (n : I) ids p : find (about n) (see_ops ids) = Some p -> exists c, In (n, c) ids /\ p = See n (info c n) /\ find (fun ic => eqb n (fst ic)) ids = Some (n, c).
Proof.
  induction ids as [|[i c] ids IH]; [discriminate|]. unfold CiteNetProofs2.see_ops. cbn [map find about fst snd]. destruct (eqb_spec n i) as [->|N].
  - intros Q. injection Q as <-. exists c. split; [left; reflexivity|]. split; reflexivity.
  - intros Q. destruct (IH Q) as (c' & A & B & D). exists c'. split; [right; exact A|]. split; [exact B|exact D].
Qed.
Lemma find_app {A} (f : A -> bool) a b : find f (a ++ b) = match find f a with Some x => Some x | None => find f b end.
Proof. induction a as [|x a IH]; [reflexivity|]. cbn [app find]. destruct (f x); [reflexivity|exact IH]. Qed.
Lemma find_edges (n : I) (es : list (@op I)) : (forall p, In p es -> exists u v y, p = Edge u v y) -> find (about n) es = None.
Proof. intros E. apply about_names. rewrite (names_edges _ E). intros []. Qed.

Theorem co_citation_spec :
  (exists g, co_citation api rapi upper o rs = Ok g /\ WF g /\ gdir g = false /\
    (forall n, is_node g n <-> exists r, In r rs /\ In n (cited_names r)) /\
    (cnt = true -> forall n, node_attr g n $"count" = positive_count (occurs cited_names rs n)) /\
    (forall n, is_node g n -> exists r c, In r rs /\ In c (cited r) /\ name_of api o c = Some n /\
       forall k, k <> $"count" -> node_attr g n k = dget k (info c n)) /\
    (forall u v, ed g u v = edge_value w (total (fun r => pairs_within u v (cited_names r)) rs))) \/
  (exists e, co_citation api rapi upper o rs = Raise e /\ exists r c, In r rs /\ In c (cited r) /\ ~ usable api rapi o rs c).
Proof.
  destruct co_citation_run as [E|E]; [left|right; exact E].
  destruct (run_spec (I:=I) cnt w false (fun r => rec_ops true None (cited r)) rs) as (g & RUN & W & D & M & ED); [intros r _; apply rec_closed|intros r _; apply rec_dictlike|].
  exists g. split; [rewrite E; exact RUN|]. split; [exact W|]. split; [exact D|].
  assert (FN : forall n, find (fun r => mem n (names (rec_ops true None (cited r)))) rs = find (fun r => mem n (cited_names r)) rs) by (intros n; apply find_ext; intros r; rewrite co_names; reflexivity).
  assert (FO : forall r n, In n (cited_names r) -> exists c, In c (cited r) /\ name_of api o c = Some n /\ find (about n) (rec_ops true None (cited r)) = Some (See n (info c n))).
  { intros r n K. cbn [CiteNetProofs2.rec_ops]. rewrite find_app, (find_edges n (pair_ops (I:=I) _)) by (apply pair_ops_are).
    destruct (find (about n) (see_ops (named (cited r)))) as [p|] eqn:F.
    - apply find_see in F. destruct F as (c & A & -> & _). apply In_named in A. exists c. destruct A. auto.
    - apply about_names in F. rewrite see_names, named_names in F. contradiction. }
  assert (SE : forall n, total (fun r => sees n (rec_ops true None (cited r))) rs = occurs cited_names rs n).
  { intros n. apply total_ext. intros r _. cbn [CiteNetProofs2.rec_ops]. rewrite sees_app, sees_see_ops, named_names, sees_edges by (apply pair_ops_are). apply Nat.add_0_r. }
  assert (ND : forall n, match find (fun r => mem n (cited_names r)) rs with
                         | None => nd g n = None
                         | Some r => exists c, In c (cited r) /\ name_of api o c = Some n /\ nd g n = Some (if cnt then dset cnt_ (VInt (Z.of_nat (occurs cited_names rs n))) (info c n) else info c n)
                         end).
  { intros n. rewrite M, FN. destruct (find (fun r => mem n (cited_names r)) rs) as [r|] eqn:F; [|reflexivity]. apply find_some in F. destruct F as [A B]. apply mem_In in B.
    destruct (FO r n B) as (c & C1 & C2 & Q). exists c. split; [exact C1|]. split; [exact C2|]. rewrite Q, SE. cbn [op_head op_attrs]. rewrite Nat.add_0_r. reflexivity. }
  assert (NN : forall n, is_node g n <-> exists r, In r rs /\ In n (cited_names r)).
  { intros n. unfold is_node. rewrite nd_In. specialize (ND n). destruct (find (fun r => mem n (cited_names r)) rs) as [r|] eqn:F.
    - apply find_some in F. destruct F as [A B]. apply mem_In in B. destruct ND as (c & _ & _ & Q). split; [exists r; auto|eauto].
    - rewrite ND. split; [intros (a & Q); discriminate|]. intros (r & A & B). pose proof (find_none _ _ F r A) as Q. cbn in Q. apply mem_In in B. congruence. }
  split; [exact NN|]. split; [|split].
  - intros HC n. unfold node_attr, positive_count. specialize (ND n). destruct (find (fun r => mem n (cited_names r)) rs) as [r|] eqn:F.
    + destruct ND as (c & _ & _ & Q). rewrite Q, HC. unfold cnt_. rewrite dget_dset_same. apply find_some in F. destruct F as [A B]. apply mem_In in B.
      assert (P : 0 < occurs cited_names rs n) by (apply total_pos; exists r; split; [exact A|apply count_In, B]). destruct (occurs cited_names rs n); [lia|reflexivity].
    + rewrite ND. unfold occurs. rewrite (total_ext _ (fun _ => 0) rs); [rewrite total_zero; reflexivity|]. intros r A. apply count_not_In. intros B. apply mem_In in B. pose proof (find_none _ _ F r A) as Q. cbn in Q. congruence.
  - intros n K. apply NN in K. specialize (ND n). destruct (find (fun r => mem n (cited_names r)) rs) as [r|] eqn:F.
    + apply find_some in F. destruct F as [A B]. destruct ND as (c & C1 & C2 & Q). exists r, c. split; [exact A|]. split; [exact C1|]. split; [exact C2|]. intros k NK. unfold node_attr. rewrite Q.
      destruct cnt; [apply dget_dset_other, NK|reflexivity].
    + exfalso. destruct K as (r & A & B). apply mem_In in B. pose proof (find_none _ _ F r A) as Q. cbn in Q. congruence.
  - intros u v. assert (K : total (fun r => lk false (edge_list (rec_ops true None (cited r))) u v) rs = total (fun r => pairs_within u v (cited_names r)) rs).
    { apply total_ext. intros r _. cbn [CiteNetProofs2.rec_ops]. rewrite edge_list_app, edge_list_see, edge_list_pairs, named_names. apply lk_pairs. }
    unfold edge_value. rewrite <- K. destruct (ED u v) as [(Z & ->)|(Z & r & p & A & B & Ep & ->)]; [rewrite Z; reflexivity|].
    apply Nat.eqb_neq in Z. rewrite Z. cbn [CiteNetProofs2.rec_ops] in B. apply in_app_iff in B. destruct B as [B|B].
    + apply in_map_iff in B. destruct B as (ic & <- & _). discriminate.
    + apply in_map_iff in B. destruct B as (e & <- & _). reflexivity.
Qed.
End Cites.
