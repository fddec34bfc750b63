(** C90: directories of grant files *)
From Coq Require Import List ZArith Lia Bool Arith.
From Coq Require Import String.
From Verif Require Import Base PyStr SeriesSpec GrantModel GrantSpec GrantProofs GrantFileModel GrantFileSpec GrantFileProofs PropertiesGrantFile GrantDirModel GrantDirSpec GrantDirProofs.
Import ListNotations.
Local Open Scope list_scope.

Lemma each_one pep hash ext fs os : each_alone pep hash ext fs os -> Forall2 (fun f o => match o with Some d => one_file f d | None => True end) fs os.
Proof. induction 1 as [|f [d|] fs os O F IH]; constructor; auto. exact (alone_one _ _ _ _ _ O). Qed.
(** A directory gives a collection only if each of its files with the extension could be read alone, or is of no known kind and no extension was given. The grants that are not of NSERC are those of the
    files, and of grants that are the same the first one; the kinds of grants, the errors and being bad come from the files. *)
Theorem C90_collection : forall pep479 hash ext es c, from_dir pep479 hash ext es = Ok c ->
  exists fs os, are_read ext es fs /\ each_alone pep479 hash ext fs os /\ first_of_each (flat_map others_of (known os)) (others_of c) /\
    c_types c = first_seen (flat_map c_types (known os)) /\ c_bad c = existsb c_bad (known os) /\
    (NoDup (map (fun e => fname (snd e)) es) -> c_errors c = flat_map c_errors (known os)).
Proof.
  intros pep hash ext es c E. change (read_grants pep hash ext (dlisted ext es) c0 = Ok c) in E. pose proof (read_all pep hash ext (dlisted ext es) c0 (listed_ends ext es)) as [A B]. destruct (B c E) as [os O]. rewrite (A os O) in E. pose proof (each_one _ _ _ _ _ O) as F.
  exists (dlisted ext es), os. split; [apply read_listed; reflexivity|]. split; [exact O|]. destruct (all_so_far _ _ [] c0 c F so_far_0 E) as (_ & S1 & S2 & S3). cbn [app] in *. rewrite others_eq. split; [exact S1|]. split; [exact S2|]. split; [exact S3|].
  intros ND. rewrite (all_errors _ _ c0 c F); [reflexivity| |intros f _ []|exact E]. clear -ND. unfold dlisted. rewrite map_map. induction es as [|e es IH]; [constructor|]. inversion ND as [|? ? NI ND']; subst. cbn [filter]. destruct (_ && _); [|exact (IH ND')]. cbn [map]. constructor; [|exact (IH ND')].
  intros I1. apply NI. apply in_map_iff in I1 as (y & Q & I1). apply filter_In in I1 as [I1 _]. apply in_map_iff. exists y. auto.
Qed.
(** If the grants of NSERC in all files are good and have texts only, there is a collection, and the grants of NSERC in it are those of the files, merged: one for each identifier, with all
    the texts of each field in the order of the files. The files of other kinds make no difference. *)
Theorem C90_nserc_partial : forall pep479 hash ext es fs os, are_read ext es fs -> each_alone pep479 hash ext fs os ->
  (forall d g, In d (known os) -> In g (nserc_of d) -> plain_grant g) ->
  exists c, from_dir pep479 hash ext es = Ok c /\ merged_grants (flat_map nserc_of (known os)) (nserc_of c).
Proof.
  intros pep hash ext es fs os R O P. apply read_listed in R. subst fs. pose proof (read_all pep hash ext (dlisted ext es) c0 (listed_ends ext es)) as [A _]. pose proof (each_one _ _ _ _ _ O) as F.
  destruct (all_nserc _ os [] [] c0 F P eq_refl) as (c & l & E & N & H); [split; [reflexivity|intros c d []]|]. exists c. split; [unfold from_dir; rewrite <- E; apply A; exact O|]. cbn [app] in H.
  assert (NO : nserc_of c = map m_grant (mem_of l)). { rewrite <- N. unfold nserc_of, grants_of. clear. induction (c_grants c) as [|m s IH]; [reflexivity|]. cbn [map filter]. unfold isN. destruct (eqb _ _); cbn [map]; rewrite IH; reflexivity. }
  rewrite NO. apply held_merged; [|exact H]. apply Forall_forall. intros g I1. apply in_flat_map in I1 as (d & I1 & I2). unfold nserc_of, grants_of in I2. apply filter_In in I2 as [I2 K]. apply in_map_iff in I2 as (m & <- & I2).
  apply in_flat_map in I1 as (o & I1 & I3). destruct o as [d'|]; [|destruct I3]. destruct I3 as [<-|[]]. clear -F I1 I2 K. induction F as [|f o fs os OF F IH]; [destruct I1|]. destruct I1 as [->|I1]; [|exact (IH I1)]. destruct OF as ((k & _ & [(_ & W & _)|(NK & W)]) & _).
  - destruct (W m I2) as (_ & X & _). exact X.
  - destruct (W m I2) as (_ & Q). apply eqb_eq in K. congruence.
Qed.
(** A file of no known kind is passed over if no extension is given, and ends everything otherwise. *)
Theorem C90_unknown : forall pep479 hash ext before f after, ends_with ext (fname f) -> from_file pep479 hash ext f = Raise BadInputFile ->
  (ext = [] -> from_dir pep479 hash ext (before ++ (true, f) :: after) = from_dir pep479 hash ext (before ++ after)) /\
  (ext <> [] -> exists e, from_dir pep479 hash ext (before ++ (true, f) :: after) = Raise e).
Proof.
  intros pep hash ext a f b X U. assert (P : process pep hash f = Raise UnknownFile).
  { rewrite (alone pep hash ext f (proj2 (ends_in_iff _ _) X)) in U. destruct (process pep hash f) as [[k [gs e]]|x] eqn:P; [discriminate|]. destruct x; try discriminate; first [reflexivity | exfalso; exact (process_raise _ _ _ P)]. }
  split.
  - intros ->. unfold from_dir, dlisted. rewrite !filter_app, !map_app. cbn [filter fst snd]. rewrite (proj2 (ends_in_iff _ _) X). cbn [andb map snd]. generalize (map snd (filter (fun e => ends_in [] (fname (snd e)) && fst e) a)). intros l.
    generalize {| c_grants := []; c_types := []; c_bad := false; c_errors := [] |}. induction l as [|y l IH]; intros c; cbn [app read_grants].
    + rewrite P. reflexivity.
    + destruct (process pep hash y) as [[k [gs e]]|[]]; try reflexivity; [|apply IH]. destruct (match k with NSERCG => _ | _ => _ end); [apply IH|reflexivity].
  - intros NE. destruct (from_dir pep hash ext (a ++ (true, f) :: b)) as [c|e] eqn:E; [|exists e; reflexivity]. exfalso. destruct (C90_collection _ _ _ _ _ E) as (fs & os & R & O & _). apply read_listed in R.
    assert (I1 : In f fs). { rewrite R. unfold dlisted. rewrite filter_app, map_app. apply in_app_iff. right. cbn [filter fst snd]. rewrite (proj2 (ends_in_iff _ _) X). left. reflexivity. }
    clear -O I1 U NE. induction O as [|y o fs os Q O IH]; [destruct I1|]. destruct I1 as [->|I1]; [|exact (IH I1)]. destruct o; [congruence|]. exact (NE (proj1 Q)).
Qed.

(** ** Examples *)
Definition n1 : gfile := doc $"d/NSERC_1.csv" (line_ $"Cle,Title" ++ line_ $"7,Bees" ++ line_ $"8,Ants").
Definition n2 : gfile := doc $"d/NSERC_2.csv" (line_ $"Cle,Title" ++ line_ $"9,Flies" ++ line_ $"7,Wasps").
Definition o1 : gfile := doc $"d/mine.csv" (line_ $"Who,What" ++ line_ $"Roe,Bees").
Definition u1 : gfile := doc $"d/read.me" $"hello".
Example C90_ex : exists c, from_dir false h0 [] [(true, n1); (true, u1); (true, o1); (false, n2); (true, n2)] = Ok c /\ c_types c = [NSERCG; FallbackG] /\ c_bad c = false /\
  map (fun g => (g_id g, text_of $"Title" (g_data g))) (nserc_of c) = [($"NSERC:7", $"Bees; Wasps"); ($"NSERC:8", $"Ants"); ($"NSERC:9", $"Flies")] /\ length (others_of c) = 1.
Proof. eexists. split; [vm_compute; reflexivity|]. repeat split; vm_compute; reflexivity. Qed.
Example C90_hypotheses_ex : exists os, are_read [] [(true, n1); (true, u1); (true, o1); (false, n2); (true, n2)] [n1; u1; o1; n2] /\ each_alone false h0 [] [n1; u1; o1; n2] os /\
  (forall d g, In d (known os) -> In g (nserc_of d) -> plain_grant g) /\ length (flat_map nserc_of (known os)) = 4.
Proof.
  eexists [Some _; None; Some _; Some _]. split; [apply read_listed; vm_compute; reflexivity|]. split.
  - constructor; [vm_compute; reflexivity|]. constructor; [split; [reflexivity|vm_compute; reflexivity]|]. constructor; [vm_compute; reflexivity|]. constructor; [vm_compute; reflexivity|constructor].
  - split; [|reflexivity]. assert (X : forall g : grant, g_bad g = false -> g_err g = None -> nodupb (dkeys (g_data g)) = true -> forallb (fun x => match snd x with GText _ => true | _ => false end) (g_data g) = true -> plain_grant g).
    { intros g A B C D. split; [exact A|]. split; [exact B|]. split; [apply nodupb_NoDup; exact C|]. intros f v I1. rewrite forallb_forall in D. specialize (D _ I1). cbn in D. destruct v; try discriminate. eauto. }
    intros d g [<-|[<-|[<-|[]]]] I1; cbn in I1; try (destruct I1; fail); destruct I1 as [<-|[<-|[]]]; apply X; vm_compute; reflexivity.
Qed.
Example C90_unknown_ex : ends_with [] (fname u1) /\ from_file false h0 [] u1 = Raise BadInputFile /\ ends_with $"me" (fname u1) /\ from_file false h0 $"me" u1 = Raise BadInputFile.
Proof. split; [exists (fname u1); symmetry; apply app_nil_r|]. split; [vm_compute; reflexivity|]. split; [exists $"d/read."; reflexivity|vm_compute; reflexivity]. Qed.

(** ** What does not hold *)
(** Each of the two files can be read alone without any error; in one directory they cannot: a value that is missing in the first is there in the second. *)
Theorem C90_missing_refuted : forall hash, exists f g cf cg, fname f <> fname g /\ from_file false hash [] f = Ok cf /\ c_bad cf = false /\ from_file false hash [] g = Ok cg /\ c_bad cg = false /\
  from_dir false hash [] [(true, f); (true, g)] = Raise TypeError.
Proof.
  intros hash. exists (doc $"NSERC_1.csv" (line_ $"Cle,Title" ++ line_ $"7")), (doc $"NSERC_2.csv" (line_ $"Cle,Title" ++ line_ $"7,Bees")). do 2 eexists. split; [discriminate|]. split; [vm_compute; reflexivity|]. split; [reflexivity|]. split; [vm_compute; reflexivity|]. split; [reflexivity|]. vm_compute. reflexivity.
Qed.
(** The rows without Cle of one file are merged if they are the same; if what comes out is the same as a row of an earlier file, this grant cannot be found any more where it is, and nothing is read
    if the files also have a grant in common. *)
Theorem C90_bad_refuted : exists hash f g cf cg, fname f <> fname g /\ from_file false hash [] f = Ok cf /\ c_bad cf = false /\ from_file false hash [] g = Ok cg /\ c_bad cg = false /\
  from_dir false hash [] [(true, f); (true, g)] = Raise KeyError.
Proof.
  exists h0, (doc $"NSERC_1.csv" (line_ $"Cle,Title" ++ line_ $"7,Ants" ++ line_ $",Bees; Bees")), (doc $"NSERC_2.csv" (line_ $"Cle,Title" ++ line_ $"7,Wasps" ++ line_ $",Bees" ++ line_ $",Bees")). do 2 eexists. split; [discriminate|]. split; [vm_compute; reflexivity|]. split; [reflexivity|]. split; [vm_compute; reflexivity|]. split; [reflexivity|]. vm_compute. reflexivity.
Qed.
(** If they have no grant in common, the collection has the grant twice. *)
Theorem C90_twice_refuted : exists hash f g c a b, from_dir false hash [] [(true, f); (true, g)] = Ok c /\ grants_of c = [a; b] /\ same_grant a b.
Proof.
  exists h0, (doc $"NSERC_1.csv" (line_ $"Cle,Title" ++ line_ $",Bees; Bees")), (doc $"NSERC_2.csv" (line_ $"Cle,Title" ++ line_ $",Bees" ++ line_ $",Bees")). do 3 eexists. split; [vm_compute; reflexivity|]. split; [vm_compute; reflexivity|].
  split; [reflexivity|]. right. repeat split; reflexivity.
Qed.
(** The grants of NSERC depend on the order in which the directory is listed. *)
Theorem C90_order_refuted : forall hash, exists f g a b, from_dir false hash [] [(true, f); (true, g)] = Ok a /\ from_dir false hash [] [(true, g); (true, f)] = Ok b /\
  map (fun x => text_of $"Title" (g_data x)) (nserc_of a) = [$"Bees; Wasps"] /\ map (fun x => text_of $"Title" (g_data x)) (nserc_of b) = [$"Wasps; Bees"].
Proof.
  intros hash. exists (doc $"NSERC_1.csv" (line_ $"Cle,Title" ++ line_ $"7,Bees")), (doc $"NSERC_2.csv" (line_ $"Cle,Title" ++ line_ $"7,Wasps")). do 2 eexists. split; [vm_compute; reflexivity|]. split; [vm_compute; reflexivity|]. split; vm_compute; reflexivity.
Qed.

Print Assumptions C90_collection.
Print Assumptions C90_nserc_partial.
Print Assumptions C90_unknown.
Print Assumptions C90_missing_refuted.
Print Assumptions C90_bad_refuted.
Print Assumptions C90_twice_refuted.
Print Assumptions C90_order_refuted.
