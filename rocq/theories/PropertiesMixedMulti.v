(** C101: networkMultiMode of collections with records of several databases. *)
From Coq Require Import List ZArith Lia Bool Arith Permutation.
From Coq Require Import String.
From Verif Require Import Base PyStr CitationModel CitationSpec TagNames RecordModel RecordView GrantModel ValuesModel PropertiesCitation PropertiesValues WosModel WosProofs PropertiesWos
  WosNetModel WosNetSpec WosNetProofs PropertiesWosNet WosTagsModel WosTagsSpec WosTagsProofs Nx NxFacts SeriesModel SeriesSpec RecordViewFacts NetSpec NetFacts MixedModel MixedSpec MixedProofs PropertiesMixed MixedMultiModel.
From Verif Require PropertiesSeries PropertiesNet NetModel PropertiesWosTags MedlineModel ScopusModel ProQuestModel.
Import ListNotations.
Local Open Scope list_scope.

(** ** What the claim speaks of *)
(** neither an empty text nor the number 0, which networkMultiMode takes for no value *)
Definition worth (t : thing) : Prop := t <> Words [] /\ t <> Number 0.
(** the keys under which the record tells something, each with the names of what it tells *)
Definition told_names (keys : list str) (vals : str -> anyrec -> list thing) (r : anyrec) : list (str * list str) :=
  filter (fun e => match snd e with [] => false | _ => true end) (map (fun k => (k, map shown_as (vals k r))) keys).

Section Multi.
Variables upper lower title : str -> str.
Variable all_digits : str -> bool.
Variables word num : char -> bool.
Variable int_of : str -> Z.
Variable own : list str -> res fvalue.
Variable spoilt : fvalue -> bool.
Variable mend : fvalue -> option fvalue -> option fvalue -> option fvalue -> res fvalue.
Notation fill := (any_filled upper lower title all_digits word num int_of own spoilt mend).
Notation fill_all := (any_filled_all upper lower title all_digits word num int_of own spoilt mend).
Notation multi := (any_multi_mode upper lower title all_digits word num int_of own spoilt mend).

Lemma worth_filled v ts : good_value upper title v ts -> (forall t, In t ts -> worth t) -> filled v = true.
Proof.
  intros (A & N & K) W. destruct v as [s| | | | |z| | |]; try contradiction K; try reflexivity.
  all: cbn [atoms_of entries names_of] in A, N; destruct ts as [|t [|? ?]]; try discriminate A; destruct (W t (or_introl eq_refl)) as (W1 & W2); cbn [map] in A, N; injection A as A; destruct t; try discriminate A; injection A as <-.
  - destruct s; [congruence|reflexivity].
  - destruct z; [congruence|reflexivity|reflexivity].
Qed.
Lemma fill_knows keys vals r : (forall k, In k keys -> read_from_file r /\ any_tells upper lower k r (vals k r)) -> (forall k t, In k keys -> In t (vals k r) -> worth t) ->
  exists d, fill keys r = Ok d /\ knows keys vals r d /\ forall k, dget k d <> None -> In k keys.
Proof.
  induction keys as [|k ks IH]; intros H W; [exists []; split; [reflexivity|]; split; [intros k []|intros k; cbn; congruence]|].
  destruct (H k (or_introl eq_refl)) as (U & S). destruct IH as (d & E & K & O); [intros; apply H; right; assumption|intros k0 t I; apply W; right; exact I|]. cbn [any_filled].
  destruct (told_reads upper lower title all_digits word num int_of own spoilt mend r k (vals k r) U S) as [(_ & N & ->)|(v & _ & G' & _ & ->)]; cbn [bind]; rewrite E; cbn [bind].
  - exists d. split; [reflexivity|]. split; [|intros x D; right; apply O, D]. intros x [<-|I]; [|apply K, I]. rewrite N. destruct (dget k d) as [f|] eqn:D; [|reflexivity].
    assert (J : In k ks) by (apply O; congruence). specialize (K k J). rewrite D, N in K. exact K.
  - rewrite (worth_filled v _ G' (fun t => W k t (or_introl eq_refl))). destruct G' as (_ & G & _). exists ((k, names_of v) :: d). split; [reflexivity|]. split.
    + intros x I. cbn [dget]. destruct (eqb_spec x k) as [->|Q]; [exact G|]. apply K. destruct I as [->|I]; [congruence|exact I].
    + intros x. cbn [dget]. destruct (eqb_spec x k) as [->|Q]; [left; reflexivity|]. intros D. right. apply O, D.
Qed.
Lemma all_knows keys vals rs : (forall k, In k keys -> told upper lower k rs (vals k)) -> (forall r k t, In r rs -> In k keys -> In t (vals k r) -> worth t) ->
  exists ds, fill_all keys rs = Ok ds /\ Forall2 (knows keys vals) rs ds.
Proof.
  induction rs as [|r rs IH]; intros T W; [exists []; split; [reflexivity|constructor]|]. destruct IH as (ds & E & F); [intros k I x J; apply (T k I); right; exact J|intros x k t I; apply W; right; exact I|].
  destruct (fill_knows keys vals r) as (d & D & K & _); [intros k I; apply (T k I); left; reflexivity|intros k t; apply W; left; reflexivity|]. exists (d :: ds). cbn [any_filled_all]. rewrite D. cbn [bind]. rewrite E. split; [reflexivity|constructor; assumption].
Qed.
Notation lists keys := (tag_lists (fun (d : dict str (fval str)) k => dget k d) (fun _ : str => negb true) (fun s : str => s) keys).
Lemma knows_lists keys vals r d : knows keys vals r d -> lists keys d = told_names keys vals r.
Proof.
  intros K. unfold tag_lists, told_names. rewrite (map_ext_in _ (fun k => (k, map shown_as (vals k r)))).
  - apply filter_ext. intros (k & l). cbn [snd]. destruct l; reflexivity.
  - intros k I. rewrite map_id. f_equal. apply (knows_under keys vals r d k K I).
Qed.
Lemma find_F2 {A B} (P : A -> B -> Prop) (p : A -> bool) (q : B -> bool) l m : Forall2 P l m -> (forall a b, P a b -> p a = q b) ->
  match find p l, find q m with Some a, Some b => P a b | None, None => True | _, _ => False end.
Proof. intros F H. induction F as [|a b l m X F IH]; cbn [find]; [exact I|]. rewrite (H a b X). destruct (q b); [exact X|exact IH]. Qed.
(** C101: networkMultiMode has a node for each thing that is told, named as it is shown, and an edge for each two that a record tells under different keys, with the
    number of such pairs.  The count of a node is the number of times it is told, less one if the first record to tell it tells things under one key only; its
    type is a key under which it is told or, without counts, all those keys one after the other. *)
Theorem C101_multi_mode : forall keys rs (vals : str -> anyrec -> list thing) recordType nodeCount edgeWeight, (forall k, In k keys -> told upper lower k rs (vals k)) ->
  (forall r k t, In r rs -> In k keys -> In t (vals k r) -> worth t) ->
  let names := told_names keys vals in
  exists g, multi keys recordType nodeCount edgeWeight rs = Ok g /\ WF g /\ gdir g = false /\
    (forall n, is_node g n <-> exists r k, In r rs /\ In k keys /\ In n (map shown_as (vals k r))) /\
    (forall u v, ed g u v = edge_value edgeWeight (total (fun r => pairs_across u v (map snd (names r))) rs)) /\
    (nodeCount = true -> forall n, node_attr g n $"count" =
       positive_count (total (fun r => total (fun k => count n (map shown_as (vals k r))) keys) rs -
                       match find (fun r => existsb (fun e => mem n (snd e)) (names r)) rs with
                       | Some r => match names r with [_] => 1 | _ => 0 end
                       | None => 0
                       end)) /\
    (nodeCount = true -> recordType = true -> forall n, is_node g n -> exists k r, node_attr g n $"type" = Some (VStr k) /\ In r rs /\ In k keys /\ In n (map shown_as (vals k r))) /\
    (nodeCount = false -> recordType = true -> forall n, is_node g n -> node_attr g n $"type" =
       Some (VStr (flat_map (fun r => flat_map (fun e => flat_map (fun m => if eqb n m then fst e else []) (snd e)) (names r)) rs))).
Proof.
  intros keys rs vals rt nc w T W names. destruct (all_knows keys vals rs T W) as (ds & E & F). unfold any_multi_mode. rewrite E. cbn [bind].
  destruct (PropertiesNet.C16_edges _ _ _ _ (fun (d : dict str (fval str)) k => dget k d) (fun s : str => s) (fun _ => true) keys rt nc w ds) as (g & G & WG & D & N & X & C & TY & TL).
  exists g. split; [exact G|]. split; [exact WG|]. split; [exact D|].
  assert (IN : forall r k n, (exists l, In (k, l) (names r) /\ In n l) <-> In k keys /\ In n (map shown_as (vals k r))).
  { intros r k n. unfold names, told_names. split.
    - intros (l & I & J). apply filter_In in I. destruct I as (I & _). apply in_map_iff in I. destruct I as (k' & Q & I). injection Q as -> <-. auto.
    - intros (I & J). exists (map shown_as (vals k r)). split; [|exact J]. apply filter_In. split; [apply in_map_iff; eauto|]. cbn [snd]. destruct (map shown_as (vals k r)); [destruct J|reflexivity]. }
  assert (ND : forall k n, (exists d l, In d ds /\ In (k, l) (lists keys d) /\ In n l) <-> exists r, In r rs /\ In k keys /\ In n (map shown_as (vals k r))).
  { intros k n. split.
    - intros (d & l & I & J & L). destruct (F2_in_r _ _ _ _ F I) as (r & I' & K). exists r. split; [exact I'|]. apply IN. exists l. split; [|exact L]. unfold names. rewrite <- (knows_lists keys vals r d K). exact J.
    - intros (r & I & J). apply IN in J. destruct J as (l & J & L). destruct (F2_in_l _ _ _ _ F I) as (d & I' & K). exists d, l. split; [exact I'|]. split; [|exact L]. rewrite (knows_lists keys vals r d K). exact J. }
  split; [|split; [|split; [|split]]].
  - intros n. rewrite N. split.
    + intros (d & k & l & H). destruct (proj1 (ND k n) (ex_intro _ d (ex_intro _ l H))) as (r & H'). eauto.
    + intros (r & k & H). destruct (proj2 (ND k n) (ex_intro _ r H)) as (d & l & H'). eauto.
  - intros u v. rewrite X. f_equal. symmetry. apply (total_F2 (knows keys vals) _ _ _ _ F). intros r d _ K. cbv beta. rewrite (knows_lists keys vals r d K). reflexivity.
  - intros Hn n. rewrite (C Hn n). f_equal. f_equal.
    + symmetry. apply (total_F2 (knows keys vals) _ _ _ _ F). intros r d _ K. cbv beta. rewrite (knows_lists keys vals r d K). unfold told_names. clear. induction keys as [|k ks IH]; [reflexivity|].
      cbn [map filter snd]. destruct (map shown_as (vals k r)) as [|x l] eqn:Q; unfold total in *; cbn [fold_right]; rewrite IH, ?Q; reflexivity.
    + pose proof (find_F2 (knows keys vals) (fun r => existsb (fun e => mem n (snd e)) (names r)) (fun d => existsb (fun tv => mem n (snd tv)) (lists keys d)) rs ds F) as H.
      match type of H with ?P -> _ => assert (Y : P) by (intros r d K; rewrite (knows_lists keys vals r d K); reflexivity) end. specialize (H Y).
      destruct (find (fun r => existsb (fun e => mem n (snd e)) (names r)) rs) as [r|]; destruct (find (fun d => existsb (fun tv => mem n (snd tv)) (lists keys d)) ds) as [d|]; try contradiction H; [|reflexivity].
      rewrite (knows_lists keys vals r d H). reflexivity.
  - intros Hn Hr n I. destruct (TY Hn Hr n I) as (k & d & l & A & B). destruct (proj1 (ND k n) (ex_intro _ d (ex_intro _ l B))) as (r & B'). eauto.
  - intros Hn Hr n I. rewrite (TL Hn Hr n I). do 2 f_equal. assert (Q : forall r d, knows keys vals r d -> lists keys d = names r) by (intros r d; apply knows_lists). clear - F Q. induction F as [|r d rs ds K F IH]; [reflexivity|]. cbn [flat_map]. rewrite (Q r d K), IH. reflexivity.
Qed.
(** Needed: that no text is empty.  An empty title is told by a record, and yet is no node. *)
Theorem C101_multi_mode_needed : exists rs (vals : str -> anyrec -> list thing), told upper lower $"title" rs (vals $"title") /\ (exists r, In r rs /\ In [] (map shown_as (vals $"title" r))) /\
  exists g, multi [$"title"] true true true rs = Ok g /\ ~ is_node g [].
Proof.
  exists [AnyScopus (ScopusModel.srec_of [($"EID", $"2"); ($"Title", [])])], (fun _ _ => [Words []]). split; [|split].
  - intros r [<-|[]]. split; [exact I|]. split; [intros [J|[J|[]]]; discriminate J|]. exists $"Title". split; [cbn; tauto|]. right. exists []. split; [reflexivity|]. apply ss_text. cbn; tauto.
  - eexists. split; [left; reflexivity|left; reflexivity].
  - eexists. split; [vm_compute; reflexivity|]. intros J. vm_compute in J. exact J.
Qed.
End Multi.
(** ** The records of C101_ex *)
Definition multi_vals (k : str) : anyrec -> list thing := if eqb k $"title" then mix_titles else mix_authors.
Example C101_multi_ex : exists w m, wos_parse mix_wos = ([w], None) /\ MedlineModel.medline_file mix_alpha mix_medline = Ok ([m], false) /\
  let rs := [AnyWos w; AnyMedline m; AnyScopus mix_scopus; AnyProQuest mix_proquest] in
  (forall k, In k [$"authorsShort"; $"title"] -> told mix_up mix_id k rs (multi_vals k)) /\ (forall r k t, In r rs -> In k [$"authorsShort"; $"title"] -> In t (multi_vals k r) -> worth t) /\
  exists g, mixed any_multi_mode [$"authorsShort"; $"title"] true true true rs = Ok g /\ edge_attr g $"Doe, J" $"On things" $"weight" = Some (VInt 2) /\
    node_attr g $"Doe, J" $"count" = Some (VInt 3) /\ node_attr g $"On things" $"type" = Some (VStr $"title").
Proof.
  destruct C101_ex as (w & m & E & M & A & T & _). exists w, m. split; [exact E|]. split; [exact M|]. cbv zeta. split; [|split].
  - intros k [<-|[<-|[]]]; [exact A|exact T].
  - intros r k t I J K. destruct I as [<-|[<-|[<-|[<-|[]]]]]; destruct J as [<-|[<-|[]]]; vm_compute in K; repeat (destruct K as [<-|K]; [split; discriminate|]); destruct K.
  - clear A T. destruct (wos_parse mix_wos) as [l e] eqn:E'. vm_compute in E'. injection E' as <- <-. injection E as <-.
    destruct (MedlineModel.medline_file mix_alpha mix_medline) as [[l' e']|] eqn:M'; vm_compute in M'; [|discriminate M']. injection M' as <- <-. injection M as <-.
    match goal with |- exists g, ?W = _ /\ _ => destruct W as [g|] eqn:G; vm_compute in G; [|discriminate] end. injection G as <-. eexists. split; [reflexivity|]. vm_compute. auto.
Qed.
Print Assumptions C101_multi_mode.
Print Assumptions C101_multi_mode_needed.
