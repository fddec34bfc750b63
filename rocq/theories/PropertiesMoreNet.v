(** C14, C34, C36, C89, continued. *)
From Coq Require Import List ZArith Lia Bool Arith.
From Coq Require Import String.
From Verif Require Import Base PyStr DecFacts ValuesProofs Nx NxFacts RecordView SeriesSpec RecordViewFacts NetModel NetSpec NetFacts PropertiesNet GraphHelpersModel CsvModel CsvProofs GraphFileModel GrantFileSpec GrantFileProofs StatsModel StatsSpec StatsProofs PropertiesStats.
Import ListNotations.
Local Open Scope list_scope.

(** ** C14 *)
(** networkOneMode: nodes are the values under the one tag, with the number of times they occur; an edge joins values of one record, with the number of pairs of places. *)
Theorem C14_one_mode : forall (N R V : Type) (E : EqDec N) (get : R -> str -> option (fval V)) (str_of : V -> N) mode (nodeCount edgeWeight : bool) (rs : list R),
  let values := fun r => map str_of (values_under get (fun _ => false) mode r) in
  exists g, one_mode get str_of mode nodeCount edgeWeight rs = Ok g /\ WF g /\ gdir g = false /\
    (forall n, nd g n = node_value nodeCount (occurs values rs n)) /\
    (forall u v, ed g u v = edge_value edgeWeight (total (fun r => pairs_within u v (values r)) rs)).
Proof.
  intros N R V E get str_of mode nc w rs values. destruct (C14_counts_and_weights N R V E get str_of [mode] nc w rs) as (g & A & W & D & B & C). exists g. split; [exact A|]. split; [exact W|]. split; [exact D|].
  assert (X : forall r, map str_of (flat_map (fun t => values_under get (fun _ => false) t r) [mode]) = values r) by (intros r; cbn [flat_map]; rewrite app_nil_r; reflexivity).
  split; [intros n; rewrite B|intros u v; rewrite C].
  - unfold occurs. rewrite (total_ext _ (fun r => count n (values r)) rs) by (intros r _; rewrite X; reflexivity). reflexivity.
  - rewrite (total_ext _ (fun r => pairs_within u v (values r)) rs) by (intros r _; rewrite X; reflexivity). reflexivity.
Qed.
Example C14_one_mode_ex : exists g, one_mode getf idf $"AU" true true [ra; rb; rc] = Ok g /\ nd g $"x" = Some [($"count", VInt 2)] /\ ed g $"x" $"y" = Some [($"weight", VInt 2)].
Proof. apply ok_ex. vm_compute. auto. Qed.

(** ** C34 *)
(** getWeight: 1 if no attribute is named, else the attribute of the edge as an int; an edge or an attribute that is not there is a KeyError. *)
Theorem C34_weight : forall (V : Type) (E : EqDec V) (g : graph V) u v,
  get_weight g u v None = Ok 1%Z /\
  forall k, (forall a z, ed g u v = Some a -> dget k a = Some (VInt z) -> get_weight g u v (Some k) = Ok z) /\
    (forall a z, ed g u v = Some a -> dget k a = Some (VStr (dec_Z z)) -> get_weight g u v (Some k) = Ok z) /\
    (forall a, ed g u v = Some a -> dget k a = None -> get_weight g u v (Some k) = Raise KeyError) /\
    (ed g u v = None -> get_weight g u v (Some k) = Raise KeyError).
Proof.
  intros V E g u v. split; [reflexivity|]. intros k. cbn [get_weight]. split; [|split; [|split]].
  - intros a z -> ->. reflexivity.
  - intros a z -> ->. cbn [to_int]. rewrite int_of_str. reflexivity.
  - intros a -> ->. reflexivity.
  - intros ->. reflexivity.
Qed.
(** Negative weights: the degrees may be negative, and getDegreeDistribution then counts from the end of its list, or raises if the list is too short. *)
Theorem C34_negative_refuted : exists g1 g2 : graph str, WF g1 /\ WF g2 /\
  get_node_degrees g1 (Some $"weight") true In_ = Ok [($"a", 2); ($"b", -1)]%Z /\ get_degree_distribution g1 (Some $"weight") true In_ = Ok [0; 0; 2]%Z /\
  get_node_degrees g2 (Some $"weight") true Out_ = Ok [($"a", -5); ($"b", 0)]%Z /\ get_degree_distribution g2 (Some $"weight") true Out_ = Raise IndexError.
Proof.
  exists (add_edge $"b" $"a" [($"weight", VInt 2)] (add_edge $"a" $"b" [($"weight", VInt (-1))] (empty_graph true))), (add_edge $"a" $"b" [($"weight", VInt (-5))] (empty_graph true)).
  split; [repeat apply WF_add_edge; apply WF_empty|]. split; [repeat apply WF_add_edge; apply WF_empty|]. repeat split; vm_compute; reflexivity.
Qed.

(** ** C36 *)
Lemma rows_read : forall rs, Forall row_written rs -> csv_rows (written_out rs) = Ok (map values rs).
Proof.
  unfold csv_rows. induction rs as [|r rs IH]; intros F; [reflexivity|]. inversion F as [|? ? W F']; subst. unfold written_out. cbn [map concat]. rewrite translate_written by exact W. change (concat (map (fun r0 => body r0 ++ eol r0) rs)) with (written_out rs).
  destruct W as ((ts & FT & B) & NB & _). rewrite B in *. destruct FT as [|v s vs ss Fv Fs]; [exfalso; apply NB; reflexivity|].
  change (csv_loop ps0 (lines (join $"," (s :: ss) ++ nl :: translate (written_out rs)))) with (loop (mkPs StartRecord [] []) (join [comma] (s :: ss) ++ nl :: translate (written_out rs))).
  rewrite (loop_written_row (translate (written_out rs)) vs ss v s StartRecord []); [|left; reflexivity|constructor; assumption|right; exact NB]. unfold loop. rewrite IH by exact F'. reflexivity.
Qed.
Lemma zip_keys : forall hs vs, dkeys (zip_row hs vs) = hs.
Proof. induction hs as [|h hs IH]; intros [|v vs]; [reflexivity|reflexivity| |]; cbn [zip_row dkeys map fst]; f_equal; apply IH. Qed.
Lemma zip_get : forall hs vs i c, NoDup hs -> nth_error hs i = Some c -> dget c (zip_row hs vs) = Some (match nth_error vs i with Some v => VStr v | None => VNone end).
Proof.
  induction hs as [|h hs IH]; intros vs i c ND E; [destruct i; discriminate E|]. inversion ND as [|? ? N1 N2]; subst. destruct i as [|i].
  - cbn in E. injection E as <-. destruct vs; cbn [zip_row dget nth_error]; rewrite eqb_refl; reflexivity.
  - cbn [nth_error] in E. assert (NC : c <> h) by (intros ->; apply N1; eapply nth_error_In; exact E).
    destruct vs as [|v vs]; cbn [zip_row dget nth_error]; rewrite (neq_eqb NC); rewrite (IH _ i c N2 E); [destruct i; reflexivity|reflexivity].
Qed.
Lemma nodes_new {V} `{EqDec V} (g : graph V) n a : nd g n = None -> nodes (add_node n a g) = nodes g ++ [n].
Proof. intros NN. unfold add_node. rewrite NN. unfold nodes. cbn [gnodes]. rewrite dkeys_dset. destruct (dhas n (gnodes g)) eqn:D; [|reflexivity]. apply dhas_spec in D. exfalso. apply dget_None in NN. exact (NN D). Qed.
(** readGraph on a table of nodes from any program, with an edge list that has a header only: one node for each row, with the values of the row under the names of the columns, None for those the
    row is too short for. *)
Theorem C36_nodes_read : forall directed columns h rs eh, good_table ($"ID" :: columns) h rs -> row_written eh ->
  NoDup (map (fun r => hd [] (values r)) rs) ->
  exists g, read_graph directed (written_out [eh]) (Some (written_out (h :: rs))) = Ok g /\ WF g /\ gdir g = directed /\
    nodes g = map (fun r => hd [] (values r)) rs /\ (forall u v, ed g u v = None) /\
    forall r, In r rs -> exists a, nd g (hd [] (values r)) = Some a /\ (forall k, dget k a = None <-> ~ In k columns) /\
      forall i c, nth_error columns i = Some c -> dget c a = Some (match nth_error (tl (values r)) i with Some v => VStr v | None => VNone end).
Proof.
  intros directed columns h rs eh (WH & VH & ND & GR) WE NI. unfold read_graph, dict_reader.
  assert (F : Forall row_written (h :: rs)) by (constructor; [exact WH|]; eapply Forall_impl; [|exact GR]; intros r [A _]; exact A). rewrite rows_read by exact F. cbn [bind map]. rewrite VH.
  assert (RR : read_rows ($"ID" :: columns) (map values rs) = Ok (map (fun r => zip_row ($"ID" :: columns) (values r)) rs)).
  { clear -GR ND. induction GR as [|r rs [W L] GR IH]; [reflexivity|]. pose proof (values_ne r W) as NV. cbn [map]. unfold read_rows; fold read_rows. destruct (values r) as [|v vs] eqn:E; [congruence|]. unfold CsvModel.read_row.
    destruct (Nat.ltb_spec (length ($"ID" :: columns)) (length (v :: vs))); [lia|]. cbn [bind]. rewrite IH. cbn [bind]. rewrite dupdate_fresh; [reflexivity|rewrite zip_keys; exact ND|intros k _ []]. }
  rewrite RR. cbn [bind]. rewrite rows_read by (constructor; [exact WE|constructor]). cbn [bind map read_rows read_edges].
  inversion ND as [|? ? NID NC]; subst.
  set (rowa := fun r : row => ddel g_id (zip_row ($"ID" :: columns) (values r))).
  assert (G : forall rs (g : graph str), WF g -> Forall (fun r => row_written r) rs -> NoDup (nodes g ++ map (fun r => hd [] (values r)) rs) ->
    exists g', read_nodes (map (fun r => zip_row ($"ID" :: columns) (values r)) rs) g = Ok g' /\ WF g' /\ gdir g' = gdir g /\ nodes g' = nodes g ++ map (fun r => hd [] (values r)) rs /\ (forall u v, ed g' u v = ed g u v) /\
      (forall n, ~ In n (map (fun r => hd [] (values r)) rs) -> nd g' n = nd g n) /\ forall r, In r rs -> nd g' (hd [] (values r)) = Some (dupdate [] (rowa r))).
  { clear -rowa. induction rs as [|r rs IH]; intros g W F N.
    - exists g. cbn. rewrite app_nil_r. split; [reflexivity|]. split; [exact W|]. repeat split; auto. intros r [].
    - inversion F as [|? ? Wr F']; subst. pose proof (values_ne r Wr) as NV. cbn [map] in N |- *. set (n0 := hd [] (values r)) in *.
      assert (ID : dget g_id (zip_row ($"ID" :: columns) (values r)) = Some (VStr n0)) by (unfold n0; destruct (values r); [congruence|reflexivity]).
      cbn [read_nodes]. rewrite ID.
      assert (NIN : ~ In n0 (nodes g)). { intros I1. apply NoDup_remove_2 in N. apply N. apply in_or_app. left. exact I1. }
      assert (NN : nd g n0 = None). { destruct (nd g n0) eqn:Q; [|reflexivity]. exfalso. apply NIN. apply nd_In. eauto. }
      change str with (list char) in *. assert (NO : nodes (add_node n0 (rowa r) g) = nodes g ++ [n0]). { apply nodes_new. exact NN. }
      destruct (IH (add_node n0 (rowa r) g)) as (g' & A & W' & D & NG & EG & ND1 & ND2).
      + apply WF_add_node. exact W.
      + exact F'.
      + rewrite NO, <- app_assoc. exact N.
      + exists g'. split; [exact A|]. split; [exact W'|]. split; [rewrite D; apply gdir_add_node|]. split; [rewrite NG, NO, <- app_assoc; reflexivity|]. split; [intros u v; rewrite EG; apply ed_add_node; exact W|].
        assert (NL : ~ In n0 (map (fun r => hd [] (values r)) rs)). { intros I1. apply NoDup_remove_2 in N. apply N. apply in_or_app. right. exact I1. }
        split.
        * intros n NI1. rewrite ND1 by (intros I1; apply NI1; right; exact I1). rewrite nd_add_node. destruct (eqb_spec n n0) as [->|_]; [exfalso; apply NI1; left; reflexivity|reflexivity].
        * intros r' [<-|I1]; [|apply ND2; exact I1]. fold n0. rewrite ND1 by exact NL. rewrite nd_add_node, eqb_refl. match goal with |- context[match ?x with Some _ => _ | None => _ end] => replace x with (@None attrs) by (symmetry; exact NN) end. reflexivity. }
  destruct (G rs (empty_graph directed)) as (g & A & W & D & NG & EG & _ & ND2).
  - apply WF_empty.
  - inversion F; assumption.
  - exact NI.
  - exists g. rewrite A. cbn [bind read_edges]. split; [reflexivity|]. split; [exact W|]. split; [exact D|]. split; [exact NG|]. split; [intros u v; rewrite EG; reflexivity|].
    intros r I1. eexists. split; [apply ND2; exact I1|].
    assert (ZK : NoDup (dkeys (zip_row ($"ID" :: columns) (values r)))) by (rewrite zip_keys; exact ND).
    assert (X : forall k, dget k (dupdate [] (rowa r)) = if eqb k $"ID" then None else dget k (zip_row ($"ID" :: columns) (values r))).
    { intros k. rewrite dget_dupdate; [|unfold rowa; apply NoDup_ddel; exact ZK]. unfold rowa. rewrite dget_ddel by exact ZK. change g_id with $"ID". destruct (eqb k $"ID"); [reflexivity|]. destruct (dget k (zip_row ($"ID" :: columns) (values r))); reflexivity. }
    split.
    + intros k. rewrite X. destruct (eqb_spec k $"ID") as [->|NK]; [split; auto|]. rewrite dget_None, zip_keys. split; [intros N I2; apply N; right; exact I2|intros N [I2|I2]; [congruence|exact (N I2)]].
    + intros i c E. rewrite X. assert (NK : c <> $"ID") by (intros ->; apply NID; eapply nth_error_In; exact E). rewrite (neq_eqb NK).
      rewrite (zip_get ($"ID" :: columns) (values r) (S i) c ND E). destruct (values r); [destruct i|]; reflexivity.
Qed.
Example C36_nodes_read_ex : exists g, read_graph false ($"Source,Target" ++ [nl]) (Some ($"ID,colour,size" ++ [nl] ++ $"a,red,2" ++ [nl] ++ $"b,blue" ++ [nl])) = Ok g /\
  nd g $"a" = Some [($"colour", VStr $"red"); ($"size", VStr $"2")] /\ nd g $"b" = Some [($"colour", VStr $"blue"); ($"size", VNone)].
Proof. eexists. split; [vm_compute; reflexivity|]. split; vm_compute; reflexivity. Qed.

(** ** C89 *)
Lemma size_lower k n : (10 ^ N.of_nat k <= n)%N -> S k <= length (dec_N n).
Proof.
  intros L. pose proof (dec_N_value n) as V. pose proof (number_bound _ (dec_N_digits n) 0%Z ltac:(lia)) as B. rewrite V in B. destruct (Nat.lt_ge_cases k (length (dec_N n))) as [Q|Q]; [exact Q|]. exfalso.
  assert (P : (10 ^ Z.of_nat (length (dec_N n)) <= 10 ^ Z.of_nat k)%Z) by (apply Z.pow_le_mono_r; lia). apply N2Z.inj_le in L. rewrite N2Z.inj_pow, nat_N_Z in L. change (Z.of_N 10) with 10%Z in L. lia.
Qed.
(** From a million on a count is written with at most six digits and a power of ten: digits that are zero at the end are left out, and with them the point. *)
Theorem C89_powers : forall float_G (g : graph str) (a k : N), WF g -> (1 <= a <= 9)%N -> (6 <= k)%N -> N.of_nat (length (nodes g)) = (a * 10 ^ k)%N ->
  graph_stats float_G g [$"nodes"] true false = Ok (Text ($"Nodes: " ++ dec_N a ++ $"E+" ++ (if (k <? 10)%N then $"0" else []) ++ dec_N k)).
Proof.
  intros float_G g a k W A K LN. rewrite (nodes_only float_G W), LN. do 3 f_equal. unfold format_G.
  assert (P : (10 ^ k = 10 ^ (k - 5) * 100000)%N). { change 100000%N with (10 ^ 5)%N. rewrite <- N.pow_add_r. f_equal. lia. }
  assert (LE : length (dec_N (a * 10 ^ k)) = N.to_nat k + 1).
  { assert (U : length (dec_N (a * 10 ^ k)) <= S (N.to_nat k)). { apply dec_N_length. rewrite Nat2N.inj_succ, N2Nat.id, N.pow_succ_r'. apply N.mul_lt_mono_pos_r; [|lia]. apply N.neq_0_lt_0. apply N.pow_nonzero. discriminate. }
    assert (D : S (N.to_nat k) <= length (dec_N (a * 10 ^ k))). { apply size_lower. rewrite N2Nat.id. rewrite <- (N.mul_1_l (10 ^ k)) at 1. apply N.mul_le_mono_r. lia. }
    lia. }
  rewrite LE. destruct (Nat.leb_spec (N.to_nat k + 1) 6); [lia|]. cbv zeta. replace (N.of_nat (N.to_nat k + 1 - 6)) with (k - 5)%N by lia.
  assert (NZ : (10 ^ (k - 5) <> 0)%N) by (apply N.pow_nonzero; discriminate).
  assert (Q : (a * 10 ^ k / 10 ^ (k - 5) = a * 100000)%N). { rewrite P. rewrite (N.mul_comm (10 ^ (k - 5))), N.mul_assoc. apply N.div_mul. exact NZ. }
  assert (R : (a * 10 ^ k mod 10 ^ (k - 5) = 0)%N). { rewrite P. rewrite (N.mul_comm (10 ^ (k - 5))), N.mul_assoc. apply N.mod_mul. exact NZ. }
  rewrite Q, R. rewrite N.mul_0_r. assert (UP : ((10 ^ (k - 5) <? 0) || (10 ^ (k - 5) =? 0) && N.odd (a * 100000))%N = false). { destruct (N.ltb_spec (10 ^ (k - 5)) 0); [lia|]. destruct (N.eqb_spec (10 ^ (k - 5)) 0); [contradiction|reflexivity]. }
  rewrite UP. assert (C : (a = 1 \/ a = 2 \/ a = 3 \/ a = 4 \/ a = 5 \/ a = 6 \/ a = 7 \/ a = 8 \/ a = 9)%N) by lia.
  assert (KE : (k - 5 + 5 = k)%N) by lia. rewrite KE.
  assert (F : forall x : N, (x * 100000 =? 1000000)%N = (x =? 10)%N). { intros x. destruct (N.eqb_spec (x * 100000) 1000000), (N.eqb_spec x 10); lia. }
  rewrite F. assert (NT : (a =? 10)%N = false) by (apply N.eqb_neq; lia). rewrite NT.
  assert (DG : rev (strip_zeros (rev (dec_N (a * 100000)))) = dec_N a /\ length (dec_N a) = 1). { destruct C as [->|[->|[->|[->|[->|[->|[->|[->| ->]]]]]]]]; split; vm_compute; reflexivity. }
  destruct DG as [-> L1]. destruct (dec_N a) as [|d [|e l]]; try discriminate L1. cbn [firstn skipn app]. destruct (k <? 10)%N; reflexivity.
Qed.
Example C89_powers_ex : format_G 3000000 = $"3E+06" /\ format_G 120000000000 = $"1.2E+11" /\ format_G 1000000 = $"1E+06".
Proof. repeat split; vm_compute; reflexivity. Qed.

Print Assumptions C14_one_mode.
Print Assumptions C34_weight.
Print Assumptions C34_negative_refuted.
Print Assumptions C36_nodes_read.
Print Assumptions C89_powers.
