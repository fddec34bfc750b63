(** C92: writing graphs to disk with writeGraph: the names of the files, what is there after the call and if it is interrupted. *)
From Coq Require Import List ZArith Lia Bool Arith Permutation.
From Coq Require Import String.
From Verif Require Import Base PyStr Nx NxFacts CsvModel CsvProofs GraphFileModel GraphFileProofs PropertiesGraphFile GraphSaveModel GraphSaveProofs.
Import ListNotations.
Local Open Scope list_scope.

(** ** names *)
(** A path of parts that are not empty, a dot or two dots, and do not begin with a tilde; [rooted]: from the root, [tail]: with a slash at the end *)
Definition path_text (rooted tail : bool) (parts : list str) : str := (if rooted then $"/" else []) ++ join $"/" parts ++ (if tail then $"/" else []).
Definition path_parts (parts : list str) : Prop :=
  parts <> [] /\ Forall (fun p => p <> [] /\ ~ In 47%N p /\ p <> $"." /\ p <> $"..") parts /\ hd_error (hd [] parts) <> Some 126%N.
Lemma file_named home what typ suffix name : file_name home what typ suffix name = named (expand_user home (CliModel.normpath name)) (what ++ typ ++ $"." ++ suffix).
Proof. reflexivity. Qed.
Lemma name_plain home what typ suffix rooted tail parts : path_parts parts ->
  file_name home what typ suffix (path_text rooted tail parts) = path_text rooted false parts ++ $"_" ++ what ++ typ ++ $"." ++ suffix.
Proof.
  intros (NE & F & T). assert (P : plain parts) by (split; assumption). rewrite file_named. unfold path_text. change $"/" with [slash].
  rewrite (norm_plain parts rooted tail P). assert (EX : expand_user home ((if rooted then [slash] else []) ++ join [slash] parts) = (if rooted then [slash] else []) ++ join [slash] parts).
  { destruct (join_plain_head parts P) as (c & t & J & NC & HD). destruct rooted; [reflexivity|]. cbn [app]. rewrite J. unfold expand_user. destruct (HD _ eq_refl) as (e & Q). rewrite Q in T.
    destruct (N.eq_dec c 126) as [->|N]; [exfalso; apply T; reflexivity|]. destruct c as [|c]; [reflexivity|]. repeat (destruct c as [c|c|]; try reflexivity; try congruence). }
  rewrite EX. rewrite (named_plain parts rooted _ P). rewrite app_nil_r, <- app_assoc. reflexivity.
Qed.
(** The files are called after the path, with a slash at its end or without; then comes what is in it, the direction if asked for, and the suffix. *)
Theorem C92_names : forall home suffix (typing directed rooted tail : bool) parts what, path_parts parts ->
  file_name home what (graph_type typing directed) suffix (path_text rooted tail parts) =
    path_text rooted false parts ++ $"_" ++ what ++ (if typing then if directed then $"_directed" else $"_undirected" else []) ++ $"." ++ suffix.
Proof. intros. apply name_plain. assumption. Qed.
(** A path that begins with a tilde, alone or with the name of a user, is one in the home directory of that user; without such a user the tilde is kept. *)
Definition part_ok (p : str) : Prop := p <> [] /\ ~ In 47%N p /\ p <> $"." /\ p <> $"..".
Lemma strip_tail b (tail : bool) : b <> [] -> last b 0%N <> slash -> rstrip_slash (b ++ (if tail then [slash] else [])) = b.
Proof.
  intros NE L. destruct (exists_last NE) as (x & c & ->). rewrite last_last in L. unfold rstrip_slash. destruct tail; rewrite ?app_nil_r, ?rev_app_distr; cbn [rev app drop_slashes];
    rewrite ?eqb_refl, (neq_eqb L); cbn [rev app]; rewrite rev_involutive; reflexivity.
Qed.
Lemma join_end (qs : list str) (x : str) (c : char) : exists y : str, join [slash] (qs ++ [x ++ [c]]) = y ++ [c].
Proof.
  induction qs as [|q qs (y & IH)]; [exists x; reflexivity|]. exists (q ++ [slash] ++ y).
  assert (JC : join [slash] ((q :: qs) ++ [x ++ [c]]) = q ++ [slash] ++ join [slash] (qs ++ [x ++ [c]])) by (destruct qs; reflexivity). rewrite JC, IH, <- !app_assoc. reflexivity.
Qed.
Lemma join_last (ps : list str) : Forall part_ok ps -> ps <> [] -> forall b : str, last (b ++ join [slash] ps) 0%N <> slash.
Proof.
  intros F NE b. destruct (exists_last NE) as (qs & t & ->). apply Forall_app in F. destruct F as [_ F]. inversion F as [|? ? (T1 & T2 & _) _]; subst.
  destruct (exists_last T1) as (x & c & E). destruct (join_end qs x c) as (y & Q). rewrite <- E in Q. change str with (list char) in *. rewrite Q, app_assoc, last_last. intros ->.
  apply T2. rewrite E. apply in_or_app. right. left. reflexivity.
Qed.
Theorem C92_home : forall home suffix (typing directed tail htail : bool) user hs parts what,
  ~ In 47%N user -> hs <> [] -> Forall part_ok hs -> parts <> [] -> Forall part_ok parts ->
  let file := file_name home what (graph_type typing directed) suffix (path_text false tail (($"~" ++ user) :: parts)) in
  let rest := $"_" ++ what ++ (if typing then if directed then $"_directed" else $"_undirected" else []) ++ $"." ++ suffix in
  (home user = Some (path_text true htail hs) -> file = path_text true false (hs ++ parts) ++ rest) /\
  (home user = None -> file = path_text false false (($"~" ++ user) :: parts) ++ rest).
Proof.
  intros home suffix typing directed tail htail user hs parts what U HN HF PN PF file rest. subst file rest. change 47%N with slash in U.
  assert (P : plain (($"~" ++ user) :: parts)).
  { split; [discriminate|]. constructor; [|exact PF]. split; [discriminate|]. split; [intros [Q|Q]; [discriminate | exact (U Q)]|]. split; discriminate. }
  assert (J : join [slash] (($"~" ++ user) :: parts) = 126%N :: user ++ slash :: join [slash] parts) by (destruct parts; [congruence|]; reflexivity).
  split; intros HU.
  - rewrite file_named. unfold path_text at 1. change $"/" with [slash]. rewrite (norm_plain _ false tail P). cbn [app]. rewrite J. unfold expand_user.
    rewrite split_two, (split_none slash user U). cbn [app hd]. rewrite HU.
    assert (R : rstrip_slash (path_text true htail hs) = [slash] ++ join [slash] hs).
    { unfold path_text. change $"/" with [slash]. rewrite app_assoc. apply strip_tail; [discriminate|]. apply join_last; assumption. }
    rewrite R, skipn_app, skipn_all, Nat.sub_diag. cbn [app skipn].
    assert (E : slash :: join [slash] hs ++ slash :: join [slash] parts = (if true then [slash] else []) ++ join [slash] (hs ++ parts)).
    { cbn [app]. f_equal. clear - HN PN. induction hs as [|x hs IH]; [congruence|]. destruct hs as [|y hs]; [destruct parts; [congruence|]; reflexivity|].
      change (join [slash] ((x :: y :: hs) ++ parts)) with (x ++ [slash] ++ join [slash] ((y :: hs) ++ parts)). rewrite <- IH by discriminate.
      change (join [slash] (x :: y :: hs)) with (x ++ [slash] ++ join [slash] (y :: hs)). rewrite <- !app_assoc. reflexivity. }
    rewrite E. rewrite (named_plain (hs ++ parts) true).
    + unfold path_text. change $"/" with [slash]. rewrite app_nil_r, <- app_assoc. reflexivity.
    + split; [intros Q; apply app_eq_nil in Q; destruct Q; congruence | apply Forall_app; split; assumption].
  - rewrite file_named. unfold path_text at 1. change $"/" with [slash]. rewrite (norm_plain _ false tail P). cbn [app].
    assert (X : expand_user home (126%N :: user ++ slash :: join [slash] parts) = (if false then [slash] else []) ++ join [slash] (($"~" ++ user) :: parts)).
    { unfold expand_user. rewrite split_two, (split_none slash user U). cbn [app hd]. rewrite HU. symmetry. exact J. }
    rewrite J, X, (named_plain _ false _ P). unfold path_text. change $"/" with [slash]. rewrite app_nil_r. reflexivity.
Qed.
Print Assumptions C92_home.
Example C92_home_ex : exists home : str -> option str, ~ In 47%N ($"ann") /\ home $"ann" = Some (path_text true true [$"home"; $"ann"]) /\ home [] = Some (path_text true false [$"root"]) /\
  home $"bob" = None /\ Forall part_ok [$"home"; $"ann"] /\ Forall part_ok [$"out"; $"net"] /\
  file_name home $"edgeList" [] $"csv" $"~ann/out/net" = $"/home/ann/out/net_edgeList.csv".
Proof.
  exists (fun u => if eqb u $"ann" then Some $"/home/ann/" else if eqb u [] then Some $"/root" else None).
  assert (PO : forall p, negb (eqb p []) && negb (mem 47%N p) && negb (eqb p $".") && negb (eqb p $"..") = true -> part_ok p).
  { intros p H. apply andb_prop in H. destruct H as [H H4]. apply andb_prop in H. destruct H as [H H3]. apply andb_prop in H. destruct H as [H1 H2].
    split; [intros ->; discriminate H1|]. split; [intros I; apply mem_In in I; rewrite I in H2; discriminate H2|]. split; intros ->; [discriminate H3 | discriminate H4]. }
  split; [vm_compute; intuition discriminate|]. split; [reflexivity|]. split; [reflexivity|]. split; [reflexivity|].
  split; [repeat constructor; apply PO; vm_compute; reflexivity|]. split; [repeat constructor; apply PO; vm_compute; reflexivity|]. vm_compute. reflexivity.
Qed.
(** The two files of a graph always have different names, whatever the name; ... *)
Theorem C92_two_files : forall home typ suffix name, file_name home $"edgeList" typ suffix name <> file_name home $"nodeAttributes" typ suffix name.
Proof. intros. rewrite !file_named. apply named_two. discriminate. Qed.
(** ... and the four files of two graphs with different paths, or of one directed and one not, with the direction in the names, have too. *)
Lemma app_last_ne (a b x : str) c d : c <> d -> a ++ [c] ++ x <> b ++ [d] ++ x.
Proof. intros N E. rewrite !app_assoc in E. apply app_inv_tail in E. apply app_inj_tail in E. destruct E. contradiction. Qed.
Lemma path_text_inj r r' ps ps' : path_parts ps -> path_parts ps' -> path_text r false ps = path_text r' false ps' -> r = r' /\ ps = ps'.
Proof.
  intros (NE & F & _) (NE' & F' & _) E. unfold path_text in E. rewrite !app_nil_r in E.
  assert (P : plain ps) by (split; assumption). assert (P' : plain ps') by (split; assumption).
  destruct (join_plain_head _ P) as (c & t & J & NC & _), (join_plain_head _ P') as (c' & t' & J' & NC' & _). change $"/" with [slash] in E.
  assert (RR : r = r') by (destruct r, r'; try reflexivity; exfalso; cbn [app] in E; rewrite ?J, ?J' in E; congruence). subst r'. split; [reflexivity|].
  apply app_inv_head in E. assert (S : forall qs, plain qs -> split_char slash (join [slash] qs) = qs) by (intros qs [Q1 Q2]; apply JournalProofs.split_join; [exact Q1|]; intros l I; apply (proj1 (Forall_forall _ _) Q2 l I)).
  rewrite <- (S ps P), <- (S ps' P'), E. reflexivity.
Qed.
Theorem C92_distinct : forall home suffix (typing directed directed' rooted tail rooted' tail' : bool) parts parts' what what',
  path_parts parts -> path_parts parts' -> In what [$"edgeList"; $"nodeAttributes"] -> In what' [$"edgeList"; $"nodeAttributes"] ->
  file_name home what (graph_type typing directed) suffix (path_text rooted tail parts) = file_name home what' (graph_type typing directed') suffix (path_text rooted' tail' parts') ->
  what = what' /\ rooted = rooted' /\ parts = parts' /\ (typing = true -> directed = directed').
Proof.
  intros home suffix typing directed directed' rooted tail rooted' tail' parts parts' what what' P P' W W' E. rewrite !name_plain in E by assumption.
  assert (D : typing = true -> directed = directed').
  { intros ->. destruct directed, directed'; try reflexivity; exfalso; unfold graph_type in E; revert E.
    - intros E. assert (Q : (path_text rooted false parts ++ $"_" ++ what) ++ [95%N] ++ ($"directed." ++ suffix) = (path_text rooted' false parts' ++ $"_" ++ what' ++ $"_u") ++ [110%N] ++ ($"directed." ++ suffix)) by (rewrite <- !app_assoc; exact E).
      revert Q. apply app_last_ne. discriminate.
    - intros E. assert (Q : (path_text rooted' false parts' ++ $"_" ++ what') ++ [95%N] ++ ($"directed." ++ suffix) = (path_text rooted false parts ++ $"_" ++ what ++ $"_u") ++ [110%N] ++ ($"directed." ++ suffix)) by (rewrite <- !app_assoc; symmetry; exact E).
      revert Q. apply app_last_ne. discriminate. }
  assert (G : graph_type typing directed = graph_type typing directed') by (destruct typing; [rewrite (D eq_refl)|]; reflexivity). rewrite G in E.
  assert (E2 : path_text rooted false parts ++ $"_" ++ what = path_text rooted' false parts' ++ $"_" ++ what').
  { apply (app_inv_tail (graph_type typing directed' ++ $"." ++ suffix)). rewrite <- !app_assoc. exact E. }
  assert (WW : what = what').
  { destruct W as [<-|[<-|[]]], W' as [<-|[<-|[]]]; try reflexivity; exfalso; revert E2.
    - intros E2. assert (Q : (path_text rooted false parts ++ $"_edgeLis") ++ [116%N] ++ [] = (path_text rooted' false parts' ++ $"_nodeAttribute") ++ [115%N] ++ []) by (rewrite <- !app_assoc; exact E2). revert Q. apply app_last_ne. discriminate.
    - intros E2. assert (Q : (path_text rooted false parts ++ $"_nodeAttribute") ++ [115%N] ++ [] = (path_text rooted' false parts' ++ $"_edgeLis") ++ [116%N] ++ []) by (rewrite <- !app_assoc; exact E2). revert Q. apply app_last_ne. discriminate. }
  subst what'. rewrite !app_assoc in E2. apply app_inv_tail in E2. apply app_inv_tail in E2. destruct (path_text_inj _ _ _ _ P P' E2) as [-> ->]. auto.
Qed.
(** A slash at the end does not put the files into the directory, ... *)
Theorem C92_inside_refuted : ~ forall home parts, path_parts parts -> file_name home $"edgeList" [] $"csv" (path_text false true parts) = path_text false true parts ++ $"edgeList.csv".
Proof. intros H. specialize (H (fun _ => None) [$"out"]). assert (P : path_parts [$"out"]) by (split; [discriminate|]; split; [|discriminate]; repeat constructor; try discriminate; vm_compute; intuition discriminate). specialize (H P). vm_compute in H. discriminate. Qed.
(** ... the empty name and the tilde do not give files in the present and the home directory. *)
Example C92_names_ex : file_name (fun _ => Some $"/home/u") $"edgeList" [] $"csv" $"out/net" = $"out/net_edgeList.csv"
  /\ file_name (fun _ => Some $"/home/u") $"edgeList" $"_directed" $"txt" $"/a/./b//net/" = $"/a/b/net_edgeList_directed.txt"
  /\ file_name (fun _ => Some $"/home/u") $"edgeList" [] $"csv" [] = $"._edgeList.csv"
  /\ file_name (fun _ => Some $"/home/u") $"edgeList" [] $"csv" $"/" = $"/edgeList.csv"
  /\ file_name (fun _ => Some $"/home/u") $"edgeList" [] $"csv" $"~/net" = $"/home/u/net_edgeList.csv"
  /\ file_name (fun _ => Some $"/home/u") $"edgeList" [] $"csv" $"~" = $"/home/u_edgeList.csv".
Proof. vm_compute. auto 10. Qed.

(** ** the disk *)
Section Disk.
Variable can_open : str -> bool.
Variable home : str -> option str.
Variable order : list str -> list str.
Hypothesis any_order : forall l, Permutation l (order l).
Let edge_name typing suffix (g : graph str) name := file_name home $"edgeList" (graph_type typing (gdir g)) suffix name.
Let node_name typing suffix (g : graph str) name := file_name home $"nodeAttributes" (graph_type typing (gdir g)) suffix name.

(** what reading the files gives (C36): the same nodes and edges, and the texts of the attributes *)
Definition same_as_text (g g' : graph str) : Prop :=
  gdir g' = gdir g /\ nodes g' = nodes g /\
  (forall x y, (exists a, ed g' x y = Some a) <-> (exists a, ed g x y = Some a)) /\
  (forall n a a', nd g n = Some a -> nd g' n = Some a' -> forall k x, dget k a' = Some x <-> x = VStr (text_of a k) /\ exists m b y, nd g m = Some b /\ dget k b = Some y) /\
  (forall u v a a', ed g u v = Some a -> ed g' u v = Some a' -> forall k x, dget k a' = Some x <-> x = VStr (text_of a k) /\ exists u' v' b y, ed g u' v' = Some b /\ dget k b = Some y).
(** the disk has a graph under a name *)
Definition holds (d : disk) (typing : bool) (suffix : str) (g : graph str) (name : str) : Prop :=
  exists edge_file node_file g', dget (edge_name typing suffix g name) d = Some edge_file /\ dget (node_name typing suffix g name) d = Some node_file /\
    read_graph (gdir g) edge_file (Some node_file) = Ok g' /\ same_as_text g g'.
Lemma whole_ok f t : can_open f = true -> whole can_open f (Ok t) = ([Open f; Put f t], Ok tt).
Proof. intros C. unfold whole. rewrite C. reflexivity. Qed.
Lemma save_default g name typing suffix overwrite d :
  WF g -> storable_graph g -> can_open (edge_name typing suffix g name) = true -> can_open (node_name typing suffix g name) = true ->
  (overwrite = false -> dget (edge_name typing suffix g name) d = None /\ dget (node_name typing suffix g name) d = None) ->
  exists et nt, write_edges order g = Ok et /\ write_nodes order g = Ok nt /\
    save_graph can_open home order g name true typing suffix overwrite false d =
      ([Open (edge_name typing suffix g name); Put (edge_name typing suffix g name) et; Open (node_name typing suffix g name); Put (node_name typing suffix g name) nt], Ok tt).
Proof.
  intros W S CE CN OV. destruct (C36_roundtrip order g any_order W S) as (nt & et & _ & A & B & _). exists et, nt. split; [exact B|]. split; [exact A|]. unfold save_graph.
  fold (edge_name typing suffix g name) (node_name typing suffix g name). rewrite !dhas_dget.
  assert (X : forall f, (overwrite = false -> dget f d = None) -> negb overwrite && match dget f d with Some _ => true | None => false end = false) by (intros f Q; destruct overwrite; [reflexivity|]; rewrite (Q eq_refl); reflexivity).
  rewrite !X by (intros Q; apply OV; exact Q). unfold save_edges, save_nodes. rewrite A, B. rewrite !whole_ok by assumption. destruct (length (edges g) <? 1), (length (gnodes g) <? 1); reflexivity.
Qed.
Lemma two_names typing suffix g name : edge_name typing suffix g name <> node_name typing suffix g name.
Proof. apply C92_two_files. Qed.
Lemma after_save d e n et nt : e <> n -> let d' := after d [Open e; Put e et; Open n; Put n nt] in
  dget e d' = Some et /\ dget n d' = Some nt /\ forall f, f <> e -> f <> n -> dget f d' = dget f d.
Proof.
  intros N d'. assert (N' : n <> e) by congruence. unfold d', after. cbn [fold_left happen].
  split; [|split; [|intros f F1 F2]]; repeat (rewrite dget_dset || rewrite eqb_refl || rewrite (neq_eqb N) || rewrite (neq_eqb N') || rewrite (neq_eqb F1) || rewrite (neq_eqb F2)); reflexivity.
Qed.
(** Saving a graph the format can hold succeeds, the files can be read back, and no other file is touched. *)
Theorem C92_saved : forall g name typing suffix overwrite d,
  WF g -> storable_graph g -> can_open (edge_name typing suffix g name) = true -> can_open (node_name typing suffix g name) = true ->
  (overwrite = false -> dget (edge_name typing suffix g name) d = None /\ dget (node_name typing suffix g name) d = None) ->
  exists evs, save_graph can_open home order g name true typing suffix overwrite false d = (evs, Ok tt) /\ holds (after d evs) typing suffix g name /\
    forall f, f <> edge_name typing suffix g name -> f <> node_name typing suffix g name -> dget f (after d evs) = dget f d.
Proof.
  intros g name typing suffix overwrite d W S CE CN OV. destruct (save_default g name typing suffix overwrite d W S CE CN OV) as (et & nt & B & A & Q). eexists. split; [exact Q|].
  destruct (after_save d _ _ et nt (two_names typing suffix g name)) as (X & Y & Z). split; [|exact Z].
  destruct (C36_roundtrip order g any_order W S) as (nt' & et' & g' & A' & B' & R & _ & R1 & R2 & R3 & R4 & R5). rewrite A in A'. injection A' as <-. rewrite B in B'. injection B' as <-.
  exists et, nt, g'. exact (conj X (conj Y (conj R (conj R1 (conj R2 (conj R3 (conj R4 R5))))))).
Qed.
(** Without overwriting, a call that would overwrite either file fails and touches nothing. *)
Theorem C92_kept : forall g name edge_info typing suffix same d,
  dget (edge_name typing suffix g name) d <> None \/ dget (node_name typing suffix g name) d <> None ->
  save_graph can_open home order g name edge_info typing suffix false same d = ([], Raise OSError).
Proof.
  intros g name ei typing suffix same d E. unfold save_graph. fold (edge_name typing suffix g name) (node_name typing suffix g name). rewrite !dhas_dget. cbn [negb andb].
  destruct (dget (edge_name typing suffix g name) d); [reflexivity|]. destruct E as [E|E]; [congruence|]. destruct (dget (node_name typing suffix g name) d); [reflexivity | congruence].
Qed.
(** Any number of graphs saved one after another under different paths are all there in the end. *)
Fixpoint save_all (typing : bool) (suffix : str) (overwrite : bool) (l : list (graph str * (bool * list str))) (d : disk) : disk :=
  match l with [] => d | (g, (r, ps)) :: l' => save_all typing suffix overwrite l' (after d (fst (save_graph can_open home order g (path_text r false ps) true typing suffix overwrite false d))) end.
Theorem C92_history : forall typing suffix l d, (forall f, can_open f = true) ->
  NoDup (map snd l) -> (forall g r ps, In (g, (r, ps)) l -> WF g /\ storable_graph g /\ path_parts ps) ->
  forall g r ps, In (g, (r, ps)) l -> holds (save_all typing suffix true l d) typing suffix g (path_text r false ps).
Proof.
  intros typing suffix l d CO. revert d. induction l as [|[g1 [r1 ps1]] l IH]; intros d ND OK g r ps I; [destruct I|]. cbn [save_all]. inversion ND as [|? ? N1 N2]; subst. cbn [map snd] in N1.
  destruct (OK g1 r1 ps1 (or_introl eq_refl)) as (W & S & P1).
  destruct (C92_saved g1 (path_text r1 false ps1) typing suffix true d W S (CO _) (CO _)) as (evs & Q & HH & OT); [discriminate|]. rewrite Q. cbn [fst].
  destruct I as [I|I]; [|apply IH; auto; intros; eapply OK; right; eassumption]. injection I as <- <- <-.
  assert (KEEP : forall l d f, (forall g r ps, In (g, (r, ps)) l -> WF g /\ storable_graph g /\ path_parts ps) ->
    (forall g r ps, In (g, (r, ps)) l -> f <> edge_name typing suffix g (path_text r false ps) /\ f <> node_name typing suffix g (path_text r false ps)) -> dget f (save_all typing suffix true l d) = dget f d).
  { clear - CO any_order. induction l as [|[g [r ps]] l IH]; intros d f OK N; [reflexivity|]. cbn [save_all]. rewrite IH; [|intros; eapply OK; right; eassumption | intros; eapply N; right; eassumption].
    destruct (OK g r ps (or_introl eq_refl)) as (W & S & _). destruct (C92_saved g (path_text r false ps) typing suffix true d W S (CO _) (CO _)) as (evs & Q & _ & OT); [discriminate|]. rewrite Q.
    destruct (N g r ps (or_introl eq_refl)) as [F1 F2]. apply OT; assumption. }
  assert (DIFF : forall what g' r' ps', In what [$"edgeList"; $"nodeAttributes"] -> In (g', (r', ps')) l ->
    file_name home what (graph_type typing (gdir g1)) suffix (path_text r1 false ps1) <> edge_name typing suffix g' (path_text r' false ps') /\
    file_name home what (graph_type typing (gdir g1)) suffix (path_text r1 false ps1) <> node_name typing suffix g' (path_text r' false ps')).
  { intros what g' r' ps' IW IL. destruct (OK g' r' ps' (or_intror IL)) as (_ & _ & P').
    assert (NO : ~ (r1 = r' /\ ps1 = ps')) by (intros [-> ->]; apply N1; change (r', ps') with (snd (g', (r', ps'))); apply in_map, IL).
    split; intros E; apply (C92_distinct home suffix typing (gdir g1) (gdir g') r1 false r' false ps1 ps' what _ P1 P' IW) in E; try (apply NO; tauto); cbn; auto. }
  destruct HH as (et & nt & g' & H1 & H2 & H3 & H4). exists et, nt, g'.
  rewrite !KEEP; [auto | intros; eapply OK; right; eassumption | intros; apply DIFF; [cbn; auto | assumption] | intros; eapply OK; right; eassumption | intros; apply DIFF; [cbn; auto | assumption]].
Qed.

(** ** interruptions *)
(** the disk at some time during a call: after some of the events, the last text perhaps not written to the end *)
Definition during (d : disk) (evs : list event) (d' : disk) : Prop :=
  exists a b, evs = a ++ b /\ (d' = after d a \/ exists f t u c, b = Put f (t ++ u) :: c /\ d' = after d (a ++ [Put f t])).
(** At any time during any call no other file is touched, nor a file that was there if overwriting is off, and the file of nodes is
    touched only when that of edges is finished. *)
Lemma whole_files f t evs r : whole can_open f t = (evs, r) -> (evs = [] /\ r = Raise OSError) \/ (exists e, t = Raise e /\ evs = [Open f] /\ r = Raise e) \/ (exists x, t = Ok x /\ evs = [Open f; Put f x] /\ r = Ok tt).
Proof. unfold whole. destruct (can_open f); [|intros Q; injection Q as <- <-; auto]. destruct t as [x|e]; intros Q; injection Q as <- <-; eauto 10. Qed.
Lemma save_events g name ei typing suffix overwrite same d evs r : save_graph can_open home order g name ei typing suffix overwrite same d = (evs, r) ->
  let e := edge_name typing suffix g name in let n := node_name typing suffix g name in
  evs = [] \/ ((overwrite = true \/ dget e d = None /\ dget n d = None) /\
  ((forall x, In x evs -> x = Open e \/ exists t, x = Put e t) \/
   exists et nv, write_edges order g = Ok et /\ evs = [Open e; Put e et] ++ nv /\ (forall x, In x nv -> x = Open n \/ exists t, x = Put n t))).
Proof.
  intros Q e n. unfold save_graph in Q. fold (edge_name typing suffix g name) (node_name typing suffix g name) in Q. fold e n in Q. rewrite !dhas_dget in Q.
  destruct (negb overwrite && match dget e d with Some _ => true | None => false end) eqn:C1; [injection Q as <- <-; auto|].
  destruct (negb overwrite && match dget n d with Some _ => true | None => false end) eqn:C2; [injection Q as <- <-; auto|].
  right. split.
  { destruct overwrite; [auto|]. right. cbn [negb andb] in C1, C2. destruct (dget e d); [discriminate|]. destruct (dget n d); [discriminate|]. auto. }
  destruct (save_edges can_open order ei same g e) as [es r1] eqn:SE.
  assert (E1 : (forall x, In x es -> x = Open e \/ exists t, x = Put e t) /\ (r1 = Ok tt -> exists et, write_edges order g = Ok et /\ es = [Open e; Put e et])).
  { assert (WH : forall t, whole can_open e t = (es, r1) -> (forall x, In x es -> x = Open e \/ exists t, x = Put e t) /\ (r1 = Ok tt -> exists et, t = Ok et /\ es = [Open e; Put e et])).
    { intros t X. apply whole_files in X. destruct X as [[-> ->]|[(x & -> & -> & ->)|(x & -> & -> & ->)]].
      - split; [intros ? []|discriminate].
      - split; [intros y [<-|[]]; auto|discriminate].
      - split; [intros y [<-|[<-|[]]]; eauto|eauto]. }
    unfold save_edges in SE. destruct (length (edges g) <? 1); [apply WH, SE|]. destruct ei.
    - destruct same; [injection SE as <- <-; split; [intros ? []|discriminate]|apply WH, SE].
    - destruct (can_open e); injection SE as <- <-; (split; [|discriminate]); [intros y [<-|[<-|[]]]; eauto | intros ? []]. }
  destruct E1 as [E1 E2]. destruct r1 as [[]|x]; [|injection Q as <- <-; left; exact E1].
  destruct (E2 eq_refl) as (et & WE & ->). right. destruct (save_nodes can_open order same g n) as [ns r2] eqn:SN. injection Q as <- <-. exists et, ns. split; [exact WE|]. split; [reflexivity|].
  assert (WH : forall t, whole can_open n t = (ns, r2) -> forall x, In x ns -> x = Open n \/ exists t, x = Put n t).
  { intros t X. apply whole_files in X. destruct X as [[-> ->]|[(x & -> & -> & ->)|(x & -> & -> & ->)]]; intros y I; [destruct I | destruct I as [<-|[]]; auto | destruct I as [<-|[<-|[]]]; eauto]. }
  unfold save_nodes in SN. destruct (length (gnodes g) <? 1); [apply (WH _ SN)|]. destruct same; [injection SN as <- <-; intros ? [] | apply (WH _ SN)].
Qed.
(** the file of an event *)
Definition file_of (e : event) : str := match e with Open g => g | Put g _ => g end.
Lemma during_other d evs d' f : during d evs d' -> (forall e, In e evs -> file_of e <> f) -> dget f d' = dget f d.
Proof.
  intros (a & b & E & D) N. destruct D as [->|(g & t & u & c & B & ->)]; apply after_other; intros x I.
  - apply (N x). rewrite E. apply in_or_app. left. exact I.
  - apply in_app_or in I. destruct I as [I|[<-|[]]]; [apply (N x); rewrite E; apply in_or_app; left; exact I|]. apply (N (Put g (t ++ u))). rewrite E, B. apply in_or_app. right. left. reflexivity.
Qed.
Theorem C92_interrupted : forall g name edge_info typing suffix overwrite same d evs r d',
  save_graph can_open home order g name edge_info typing suffix overwrite same d = (evs, r) -> during d evs d' ->
  (forall f, f <> edge_name typing suffix g name -> f <> node_name typing suffix g name -> dget f d' = dget f d) /\
  (overwrite = false -> forall f t, dget f d = Some t -> dget f d' = Some t) /\
  (dget (node_name typing suffix g name) d' <> dget (node_name typing suffix g name) d -> exists et, write_edges order g = Ok et /\ dget (edge_name typing suffix g name) d' = Some et).
Proof.
  intros g name ei typing suffix overwrite same d evs r d' Q D. apply save_events in Q. cbv zeta in Q. set (e := edge_name typing suffix g name) in *. set (n := node_name typing suffix g name) in *.
  assert (NEQ : e <> n) by apply two_names. clearbody e n.
  destruct Q as [->|(OV & Q)].
  - destruct D as (a & b & E & D). symmetry in E. apply app_eq_nil in E. destruct E as [-> ->]. destruct D as [->|(f & t & u & c & B & _)]; [|discriminate]. unfold after. cbn [fold_left]. repeat split; auto. congruence.
  - assert (OT : forall f, f <> e -> f <> n -> dget f d' = dget f d).
    { intros f F1 F2. apply (during_other d evs d' f D). intros x I. destruct Q as [Q|(et & nv & _ & -> & Q)].
      - destruct (Q x I) as [->|[t ->]]; cbn [file_of]; congruence.
      - apply in_app_or in I. destruct I as [[<-|[<-|[]]]|I]; [cbn [file_of]; congruence | cbn [file_of]; congruence|]. destruct (Q x I) as [->|[t ->]]; cbn [file_of]; congruence. }
    split; [exact OT|]. split.
    + intros -> f t F. destruct OV as [OV|[O1 O2]]; [discriminate|]. rewrite <- F. apply OT; congruence.
    + intros CH. destruct Q as [Q|(et & nv & WE & -> & Q)].
      * exfalso. apply CH. apply (during_other d evs d' n D). intros x I. destruct (Q x I) as [->|[t ->]]; cbn [file_of]; congruence.
      * exists et. split; [exact WE|].
        (* the edge file does not change any more after the first two events, and the node file does not change before *)
        assert (FULL : forall a', (forall x, In x a' -> file_of x <> e) -> dget e (after d ([Open e; Put e et] ++ a')) = Some et).
        { intros a' N. unfold after. rewrite fold_left_app. fold (after (fold_left happen [Open e; Put e et] d) a'). rewrite after_other by exact N. cbn [fold_left happen]. rewrite !dget_dset, !eqb_refl. reflexivity. }
        assert (NV : forall x, In x nv -> file_of x <> e) by (intros x I; destruct (Q x I) as [->|[t ->]]; cbn [file_of]; congruence).
        destruct D as (a & b & E & D). destruct a as [|x1 [|x2 a]].
        -- exfalso. apply CH. cbn [app] in E, D. destruct D as [->|(f & t & u & c & B & _)]; [reflexivity|]. rewrite B in E. discriminate.
        -- exfalso. apply CH. cbn [app] in E, D. injection E as <- E. destruct D as [->|(f & t & u & c & B & ->)].
           ++ apply after_other. intros y [<-|[]]. cbn [file_of]. exact NEQ.
           ++ rewrite B in E. injection E as <- _ _. apply after_other. intros y [<-|[<-|[]]]; cbn [file_of]; exact NEQ.
        -- cbn [app] in E. injection E as <- <- E. destruct D as [->|(f & t & u & c & B & ->)].
           ++ change (Open e :: Put e et :: a) with ([Open e; Put e et] ++ a). apply FULL. intros y I. apply NV. rewrite E. apply in_or_app. left. exact I.
           ++ change ((Open e :: Put e et :: a) ++ [Put f t]) with ([Open e; Put e et] ++ a ++ [Put f t]). apply FULL. intros y I. apply in_app_or in I. destruct I as [I|[<-|[]]]; [apply NV; rewrite E; apply in_or_app; left; exact I|].
              apply (NV (Put f (t ++ u))). rewrite E, B. apply in_or_app. right. left. reflexivity.
Qed.
End Disk.
(** A call that fails can leave a file without its old text: with edgeInfo off and an edge there it always does. *)
Theorem C92_edgeInfo_refuted : forall can_open home order g name typing suffix same d,
  let e := file_name home $"edgeList" (graph_type typing (gdir g)) suffix name in
  edges g <> [] -> can_open e = true ->
  exists evs, save_graph can_open home order g name false typing suffix true same d = (evs, Raise UnboundLocalError) /\
    dget e (after d evs) = Some ([34%N] ++ $"Source" ++ [34; 44; 34]%N ++ $"Target" ++ [34; 13; 10]%N).
Proof.
  intros can_open home order g name typing suffix same d e NE C. eexists. unfold save_graph. fold e. cbn [negb andb]. unfold save_edges. destruct (edges g); [congruence|]. cbn [length Nat.ltb Nat.leb]. rewrite C.
  split; [reflexivity|]. unfold after. cbn [fold_left happen]. rewrite !dget_dset, !eqb_refl. reflexivity.
Qed.
(** An interruption between the two files leaves files that can be read and give a graph that was never saved. *)
Definition first_graph : graph str := add_edge $"a" $"b" [] (empty_graph false).
Definition second_graph : graph str := add_edge $"c" $"d" [] (empty_graph false).
Theorem C92_mixture_refuted : ~ forall g1 g2 d evs d' et nt g',
  save_graph (fun _ => true) (fun _ => None) (fun l => l) g1 $"x" true false $"csv" true false [] = (evs, Ok tt) -> d = after [] evs ->
  (exists evs2, save_graph (fun _ => true) (fun _ => None) (fun l => l) g2 $"x" true false $"csv" true false d = (evs2, Ok tt) /\ during d evs2 d') ->
  dget $"x_edgeList.csv" d' = Some et -> dget $"x_nodeAttributes.csv" d' = Some nt -> read_graph false et (Some nt) = Ok g' -> nodes g' = nodes g1 \/ nodes g' = nodes g2.
Proof.
  intros H. assert (S : exists evs evs2 et nt g', save_graph (fun _ => true) (fun _ => None) (fun l => l) first_graph $"x" true false $"csv" true false [] = (evs, Ok tt) /\
    save_graph (fun _ => true) (fun _ => None) (fun l => l) second_graph $"x" true false $"csv" true false (after [] evs) = (evs2, Ok tt) /\
    dget $"x_edgeList.csv" (after (after [] evs) (firstn 2 evs2)) = Some et /\ dget $"x_nodeAttributes.csv" (after (after [] evs) (firstn 2 evs2)) = Some nt /\ read_graph false et (Some nt) = Ok g' /\
    nodes g' = [$"a"; $"b"; $"c"; $"d"]).
  { do 5 eexists. split; [vm_compute; reflexivity|]. split; [vm_compute; reflexivity|]. split; [vm_compute; reflexivity|]. split; [vm_compute; reflexivity|]. split; vm_compute; reflexivity. }
  destruct S as (evs & evs2 & et & nt & g' & S1 & S2 & S3 & S4 & S5 & S6).
  assert (D : during (after [] evs) evs2 (after (after [] evs) (firstn 2 evs2))) by (exists (firstn 2 evs2), (skipn 2 evs2); split; [symmetry; apply firstn_skipn | left; reflexivity]).
  destruct (H first_graph second_graph _ evs _ et nt g' S1 eq_refl (ex_intro _ evs2 (conj S2 D)) S3 S4 S5) as [E|E]; rewrite S6 in E; vm_compute in E; discriminate.
Qed.
Example C92_parts_ex : path_parts [$"out"; $"net"] /\ path_text true true [$"out"; $"net"] = $"/out/net/".
Proof. split; [|reflexivity]. split; [discriminate|]. split; [|discriminate]. repeat constructor; try discriminate; vm_compute; intuition discriminate. Qed.
Example C92_saved_ex : WF (ug true) /\ storable_graph (ug true) /\
  (let d := after [($"y", $"z")] (fst (save_graph (fun _ => true) (fun _ => None) (fun l => l) (ug true) $"out/net" true true $"csv" false false [($"y", $"z")])) in dkeys d = [$"y"; $"out/net_edgeList_directed.csv"; $"out/net_nodeAttributes_directed.csv"]).
Proof. split; [apply WF_ug|]. split; [apply C36_hypotheses_met|]. vm_compute. reflexivity. Qed.
Print Assumptions C92_names.
Print Assumptions C92_two_files.
Print Assumptions C92_distinct.
Print Assumptions C92_inside_refuted.
Print Assumptions C92_saved.
Print Assumptions C92_kept.
Print Assumptions C92_history.
Print Assumptions C92_interrupted.
Print Assumptions C92_edgeInfo_refuted.
Print Assumptions C92_mixture_refuted.
