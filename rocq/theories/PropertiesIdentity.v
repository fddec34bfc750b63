(** * C107: which records are the same, and collections of grants that are changed. *)
From Coq Require Import List ZArith Lia Bool Arith.
From Coq Require Import String.
From Verif Require Import Base IdentityModel IdentitySpec IdentityProofs.
Import ListNotations.
Local Open Scope list_scope.

Section C107.
Context {V : Type}.
Variable shown : list V -> str.
Variable hash : str -> Z.
Variable nserc : dict str V -> dict str V -> dict str V.
Notation "x == y" := (obj_eq shown hash x y) (at level 70).
Notation hashed := (obj_hash shown hash).

(** C107: equality is reflexive and symmetric, and equal records have the same hash, whatever their classes are; ... *)
Theorem C107_laws (x y : obj) : (x == x) = true /\ (x == y) = (y == x) /\ ((x == y) = true -> hashed x = hashed y).
Proof.
  split; [apply beq_iff; split; [left; reflexivity|reflexivity]|]. split; [|intros E; apply beq_iff in E; apply E].
  apply eq_true_iff_eq. rewrite !beq_iff. assert (S : forall c d, related c d -> related d c) by (unfold related; intros c d [H|[H|[H|[H|H]]]]; auto 6). split; intros [A B]; auto.
Qed.
(** ... records of classes that files are read into are equal exactly if their classes and what is hashed of them are the same: for good records the id; ... *)
Theorem C107_ids (x y : obj) : from_files (o_cls x) -> from_files (o_cls y) -> o_bad x = false -> o_bad y = false ->
  (hash (o_id x) = hash (o_id y) -> o_id x = o_id y) ->
  ((x == y) = true <-> o_cls x = o_cls y /\ o_id x = o_id y).
Proof.
  intros Lx Ly Bx By F. rewrite beq_iff. unfold obj_hash. rewrite Bx, By. split.
  - intros [R H]. split; [exact (leaf_related _ _ Lx Ly R)|exact (F H)].
  - intros [R H]. rewrite R, H. split; [left; reflexivity|reflexivity].
Qed.
(** ... and for bad ones the values and the error, so that equality is transitive; ... *)
Theorem C107_bad (x y : obj) : from_files (o_cls x) -> from_files (o_cls y) -> o_bad x = true -> o_bad y = true ->
  ((x == y) = true <-> o_cls x = o_cls y /\ hash (shown (dvals (o_data x)) ++ o_error x) = hash (shown (dvals (o_data y)) ++ o_error y)).
Proof.
  intros Lx Ly Bx By. rewrite beq_iff. unfold obj_hash. rewrite Bx, By. split.
  - intros [R H]. split; [exact (leaf_related _ _ Lx Ly R)|exact H].
  - intros [R H]. rewrite R. split; [left; reflexivity|exact H].
Qed.
Theorem C107_transitive (x y z : obj) : from_files (o_cls x) -> from_files (o_cls y) -> from_files (o_cls z) -> (x == y) = true -> (y == z) = true -> (x == z) = true.
Proof.
  intros Lx Ly Lz. rewrite !beq_iff. intros [A B] [C D]. apply leaf_related in A; [|assumption..]. apply leaf_related in C; [|assumption..]. split; [left; congruence|congruence].
Qed.
(** ... with objects of the class Record it is not: such a record is equal to records of two databases which are different; ... *)
Theorem C107_transitive_refuted : exists x y z : @obj V, o_bad x = false /\ o_bad y = false /\ o_bad z = false /\ (x == y) = true /\ (y == z) = true /\ (x == z) = false.
Proof.
  set (o := fun c => @mkObj V c $"A" false [] []). exists (o WosC), (o RecordC), (o ScopusC). split; [reflexivity|]. split; [reflexivity|]. split; [reflexivity|].
  split; [apply beq_iff; split; [right; right; left; reflexivity|reflexivity]|]. split; [apply beq_iff; split; [right; left; reflexivity|reflexivity]|]. reflexivity.
Qed.
(** ... and bad records are equal whatever the tags of their values are; ... *)
Theorem C107_tags_refuted (v : V) : exists x y : @obj V, o_data x = [($"AU", v)] /\ o_data y = [($"TI", v)] /\ o_bad x = true /\ o_bad y = true /\ o_id x <> o_id y /\ (x == y) = true.
Proof.
  exists (mkObj WosC $"A" true [] [($"AU", v)]), (mkObj WosC $"B" true [] [($"TI", v)]). do 4 (split; [reflexivity|]). split; [discriminate|]. apply beq_iff. split; [left; reflexivity|reflexivity].
Qed.

(** ... for good grants, whose hashes are apart if their ids are: after any history of adding, discarding and changing grants, a grant is in the collection exactly if one with its
    class and id has been added and not been discarded since; the collection lists one such grant, and only once; ... *)
Theorem C107_history_partial (l : list (@obj V)) : (forall o, In o l -> o_bad o = false /\ from_files (o_cls o)) ->
  (forall o p, In o l -> In p l -> hash (o_id o) = hash (o_id p) -> o_id o = o_id p) ->
  forall h r, let w := acts shown hash nserc (mkWorld l []) h in
    contains shown hash w r = inside l h r /\
    (contains shown hash w r = true <-> exists i, In i (listing w) /\ same l i r = true) /\
    (forall i j a b, nth_error (listing w) a = Some i -> nth_error (listing w) b = Some j -> same l i j = true -> a = b).
Proof.
  intros G F h r w. assert (G1 : forall o, In o l -> o_bad o = false) by (intros o Io; apply (G o Io)). assert (G2 : forall o, In o l -> from_files (o_cls o)) by (intros o Io; apply (G o Io)).
  destruct (acts_contains shown hash nserc l G1 G2 F h r) as [A I0]. fold w in A, I0. split; [exact A|]. split; [|exact (listing_once hash l w I0)].
  rewrite (contains_key shown hash l G1 G2 F w r I0). split.
  - destruct (key l r) as [k|] eqn:K; [|discriminate]. intros M. apply mem_In in M. apply in_map_iff in M as (e & E & Ie). exists (snd e). split; [apply in_map; exact Ie|]. rewrite same_key, E, K. apply eqb_refl.
  - intros (i & Ii & S). rewrite same_key in S. destruct (key l i) as [k|] eqn:K; [|discriminate]. destruct (key l r) as [k'|] eqn:K'; [|discriminate]. apply eqb_eq in S. subst k'.
    apply mem_In. unfold listing in Ii. apply in_map_iff in Ii as (e & <- & Ie). apply in_map_iff. exists e. split; [exact K|exact Ie].
Qed.
(** ... this is false of bad grants: once one is changed the collection which lists it does not find it, and adding it again lists it twice; ... *)
Theorem C107_lost_refuted (v v' : V) : hash (shown [v] ++ $"E") <> hash (shown [v; v'] ++ $"E") ->
  exists o : obj, let h := [Add 0; Store 0 $"x" v'] in let w := acts shown hash nserc (mkWorld [o] []) h in
    listing w = [0] /\ contains shown hash w 0 = false /\ listing (act shown hash nserc w (Discard 0)) = [0] /\ listing (act shown hash nserc w (Add 0)) = [0; 0].
Proof.
  intros N. exists (mkObj CihrC $"A" true $"E" [($"a", v)]). cbv zeta.
  set (o' := mkObj CihrC $"A" true $"E" [($"a", v); ($"x", v')]). set (w0 := mkWorld [mkObj CihrC $"A" true $"E" [($"a", v)]] []).
  assert (W : acts shown hash nserc w0 [Add 0; Store 0 $"x" v'] = mkWorld [o'] [(hash (shown [v] ++ $"E"), 0)]) by reflexivity. rewrite W.
  assert (Q : finds shown hash (mkWorld [o'] [(hash (shown [v] ++ $"E"), 0)]) 0 (hash (shown [v] ++ $"E"), 0) = false).
  { unfold finds. cbn [nth_error w_objs fst snd]. change (obj_hash shown hash o') with (hash (shown [v; v'] ++ $"E")). destruct (Z.eqb_spec (hash (shown [v] ++ $"E")) (hash (shown [v; v'] ++ $"E"))); [contradiction|reflexivity]. }
  assert (C : contains shown hash (mkWorld [o'] [(hash (shown [v] ++ $"E"), 0)]) 0 = false) by (unfold contains; cbn [w_set existsb]; rewrite Q; reflexivity).
  split; [reflexivity|]. split; [exact C|]. split.
  - cbn [act w_set w_objs remove_first]. rewrite Q. reflexivity.
  - cbn [act w_set w_objs nth_error]. rewrite C. reflexivity.
Qed.
(** ... and a good grant that is updated with a bad one is lost too. *)
Theorem C107_update_refuted (v : V) : hash $"A" <> hash (shown [v] ++ $"E") ->
  exists o p : obj, o_bad o = false /\ let w := acts shown hash nserc (mkWorld [o; p] []) [Add 0; Update 0 1] in listing w = [0] /\ contains shown hash w 0 = false.
Proof.
  intros N. exists (mkObj CihrC $"A" false [] []), (mkObj CihrC $"B" true $"E" [($"a", v)]). split; [reflexivity|]. cbv zeta.
  set (p := mkObj CihrC $"B" true $"E" [($"a", v)]). set (o' := mkObj CihrC $"A" true $"E" [($"a", v)]).
  assert (W : acts shown hash nserc (mkWorld [mkObj CihrC $"A" false [] []; p] []) [Add 0; Update 0 1] = mkWorld [o'; p] [(hash $"A", 0)]) by reflexivity. rewrite W. split; [reflexivity|].
  unfold contains, finds. cbn [w_set existsb nth_error w_objs fst snd]. change (obj_hash shown hash o') with (hash (shown [v] ++ $"E")). destruct (Z.eqb_spec (hash $"A") (hash (shown [v] ++ $"E"))); [contradiction|reflexivity].
Qed.
End C107.
Print Assumptions C107_laws.
Print Assumptions C107_ids.
Print Assumptions C107_bad.
Print Assumptions C107_transitive.
Print Assumptions C107_transitive_refuted.
Print Assumptions C107_tags_refuted.
Print Assumptions C107_history_partial.
Print Assumptions C107_lost_refuted.
Print Assumptions C107_update_refuted.

(** three grants, two of them with one id, one of these added, changed, the other discarded; the texts themselves, read as numbers, serve as hashes *)
Definition ex_hash (s : str) : Z := fold_left (fun a c => 2000000 * a + Z.of_N c + 1)%Z s 0%Z.
Definition ex_grants : list (@obj str) := [mkObj CihrC $"A" false [] []; mkObj CihrC $"A" false [] [($"x", $"y")]; mkObj NsfC $"A" false [] []].
Definition ex_history : list (@action str) := [Add 0; Store 0 $"t" $"v"; Add 1; Add 2; Update 0 1; Delete 0 $"t"].
Example C107_ex : (forall o, In o ex_grants -> o_bad o = false /\ from_files (o_cls o)) /\ (forall o p, In o ex_grants -> In p ex_grants -> ex_hash (o_id o) = ex_hash (o_id p) -> o_id o = o_id p) /\
  let w := acts (@concat N) ex_hash (fun d _ => d) (mkWorld ex_grants []) ex_history in
  listing w = [0; 2] /\ contains (@concat N) ex_hash w 1 = true /\ contains (@concat N) ex_hash (act (@concat N) ex_hash (fun d _ => d) w (Discard 1)) 0 = false.
Proof.
  split; [|split].
  - intros o [<-|[<-|[<-|[]]]]; (split; [reflexivity|]); cbn; auto 12.
  - intros o p [<-|[<-|[<-|[]]]] [<-|[<-|[<-|[]]]]; reflexivity.
  - vm_compute. auto.
Qed.
Example C107_lost_ex : ex_hash (@concat N [$"a"] ++ $"E") <> ex_hash (@concat N [$"a"; $"b"] ++ $"E").
Proof. vm_compute. discriminate. Qed.
