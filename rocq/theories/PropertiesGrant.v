(** C47, C61 - C63: grants. *)
From Coq Require Import List ZArith Lia Bool Arith.
From Coq Require Import String.
From Verif Require Import Base PyStr JournalModel TextModel Nx SeriesSpec NetModel NetSpec GrantModel GrantSpec GrantProofs GrantProofs2 GrantProofs3.
Import ListNotations.
Local Open Scope list_scope.

(** Updating one grant with another keeps the texts of both, without an error, when all fields are texts. *)
Theorem C47_update_partial : forall g other, NoDup (dkeys (g_data g)) -> NoDup (dkeys (g_data other)) ->
  (forall f v, In (f, v) (g_data g) \/ In (f, v) (g_data other) -> exists s, v = GText s) ->
  exists g', nserc_update g other = (g', None) /\ g_id g' = g_id g /\ forall f, text_of f (g_data g') = merged f [g_data g; g_data other].
Proof.
  intros g other N1 N2 T. destruct (update_spec (g_data other) (g_data g)) as (d & E & _ & X); [split; [exact N2|intros f v I1; apply (T f v); now right]|split; [exact N1|intros f v I1; apply (T f v); now left]|].
  unfold nserc_update. rewrite E. eexists. split; [reflexivity|]. split; [reflexivity|]. intros f. cbn [g_data]. rewrite X. change [g_data g; g_data other] with ([g_data g] ++ [g_data other]). rewrite merged_app, !merged_one. reflexivity.
Qed.
(** A file gives one grant for each key, with the texts of all rows with that key, in order. *)
Theorem C47_file_partial : forall hash rows, Forall row_ok (map snd rows) -> exists s, nserc_file hash rows None = (s, None) /\ merges (map snd rows) (map m_grant s).
Proof.
  intros hash rows F. destruct (file_spec hash rows [] [] F kept_nil) as (l & E & K). exists (mem_of l). split; [exact E|]. exact (kept_merges _ _ K).
Qed.
(** Several files give what one file with all their rows gives. *)
Theorem C47_directory_partial : forall hash files, Forall (fun x => Forall row_ok (map snd (fst (snd x))) /\ snd (snd x) = None) files ->
  exists s, nserc_files hash files [] [] = Ok (s, []) /\ merges (flat_map (fun x => map snd (fst (snd x))) files) (map m_grant s).
Proof.
  intros hash files F. destruct (files_spec hash files [] [] [] F kept_nil) as (l & E & K). exists (mem_of l). split; [exact E|]. exact (kept_merges _ _ K).
Qed.
Definition row1 : gfields := [($"Cle", GText $"7"); ($"Title", GText $"Bees"); ($"Name", GText $"Roe")].
Definition row2 : gfields := [($"Cle", GText $"7"); ($"Title", GText []); ($"Name", GText $"Doe")].
Definition row3 : gfields := [($"Cle", GText $"8"); ($"Title", GText $"Ants"); ($"Name", GText $"Poe")].
Example row_ok_ex : Forall row_ok [row1; row2; row3].
Proof.
  assert (K : forall a b c, a <> [] -> row_ok [($"Cle", GText a); ($"Title", GText b); ($"Name", GText c)]).
  { intros a b c NE. split; [apply nodupb_NoDup; reflexivity|]. split; [|exists a; split; [exact NE|reflexivity]]. intros f v [E|[E|[E|[]]]]; injection E as <- <-; eauto. }
  constructor; [apply K; discriminate|]. constructor; [apply K; discriminate|]. constructor; [apply K; discriminate|constructor].
Qed.
Example C47_file_ex : forall hash, exists a b k1 k2, nserc_file hash [($"", row1); ($"", row3); ($"", row2)] None = ([mkMember k1 a; mkMember k2 b], None) /\
  g_data a = [($"Cle", GText $"7; 7"); ($"Title", GText $"Bees"); ($"Name", GText $"Roe; Doe")] /\ g_data b = row3.
Proof. intros hash. do 4 eexists. split; [vm_compute; reflexivity|]. split; reflexivity. Qed.
(** A value that both grants have is kept twice, the key too. *)
Theorem C47_duplicates_refuted : exists g other g', nserc_update g other = (g', None) /\ g_data g = [($"Cle", GText $"7"); ($"Title", GText $"Bees")] /\ g_data other = g_data g /\
  text_of $"Title" (g_data g') = $"Bees; Bees" /\ text_of $"Cle" (g_data g') = $"7; 7".
Proof.
  set (g := mkGrant NSERCG $"NSERC:7" false None [($"Cle", GText $"7"); ($"Title", GText $"Bees")]). exists g, g. eexists. split; [vm_compute; reflexivity|]. repeat split; reflexivity.
Qed.
(** A value that is missing in the other grant's row is kept as the text None; one that is missing in the first ends the update halfway. *)
Theorem C47_missing_refuted : exists g other g1 g2,
  g_data g = [($"Cle", GText $"7"); ($"Title", GText $"Bees"); ($"Name", GText $"Roe")] /\ g_data other = [($"Cle", GText $"7"); ($"Title", GNone); ($"Name", GText $"Doe")] /\
  nserc_update g other = (g1, None) /\ text_of $"Title" (g_data g1) = $"Bees; None" /\
  nserc_update other g = (g2, Some TypeError) /\ text_of $"Name" (g_data g2) = $"Doe" /\ text_of $"Title" (g_data g2) = [].
Proof.
  exists (mkGrant NSERCG $"NSERC:7" false None [($"Cle", GText $"7"); ($"Title", GText $"Bees"); ($"Name", GText $"Roe")]), (mkGrant NSERCG $"NSERC:7" false None [($"Cle", GText $"7"); ($"Title", GNone); ($"Name", GText $"Doe")]).
  do 2 eexists. repeat split; vm_compute; reflexivity.
Qed.
(** Rows without a key: the same row three times. The second changes the grant the first gave, so that the third is not recognized: two grants, and an error is in no file. *)
Theorem C47_bad_refuted : forall hash, exists d l, dget $"Cle" d = Some (GText []) /\
  nserc_file hash [($"x", d); ($"x", d); ($"x", d)] None = (l, None) /\ length l = 2.
Proof. intros hash. exists [($"Cle", GText []); ($"Title", GText $"Bees")]. eexists. repeat split; vm_compute; reflexivity. Qed.

(** ** Networks *)
(** When the tags are None or one name, the grants are looked at one by one: the weight of an edge is the number of pairs in all grants, a node has the field it was met in first,
    and its count is the sum of its places, which are one for the first name of a grant, two for the second, and so on. *)
Theorem C61_network_partial : forall lower inst counted weighted sep t gs, sep <> [] -> (forall l, t <> TMany l) ->
  (forall g, In g gs -> NoDup (dkeys (g_data g)) /\ readable (looked_at lower inst g t) g) ->
  let lists := map (fun g => people sep (looked_at lower inst g t) g) gs in
  exists net, co_network lower inst counted weighted sep t gs = (Ok net, t) /\ gdir net = false /\
    (forall u v, ed net u v = edge_value weighted (total (fun l => pairs_within u v (map fst l)) lists)) /\
    forall n, nd net n = match first_field n (concat lists) with
                         | None => None
                         | Some f => Some ((if counted then [($"count", VInt (Z.of_nat (total (fun l => places n 1 (map fst l)) lists)))] else []) ++ [($"field", VStr f)])
                         end.
Proof.
  intros lower inst counted weighted sep t gs NE NM OK lists.
  assert (TA : forall g, tags_after lower inst g t = t) by (intros g; destruct t; [reflexivity|reflexivity|exfalso; exact (NM l eq_refl)]).
  assert (TF : fold_left (fun t x => tags_after lower inst x t) gs t = t) by (clear OK lists; induction gs as [|g gs IH]; [reflexivity|]; cbn [fold_left]; rewrite TA; exact IH).
  assert (TL : GrantProofs2.lists lower inst sep t gs = lists) by (unfold lists; clear OK TF lists; induction gs as [|g gs IH]; [reflexivity|]; cbn [GrantProofs2.lists map]; rewrite TA, IH; reflexivity).
  assert (TR : all_readable lower inst t gs). { clear TF TL lists. induction gs as [|g gs IH]; [exact Logic.I|]. cbn [all_readable]. destruct (OK g (or_introl eq_refl)) as [A B]. split; [exact A|]. split; [exact B|]. rewrite TA. apply IH. intros; apply OK; now right. }
  destruct (network_spec lower inst counted weighted sep t gs NE TR) as (net & E & _ & D & EE & NN). exists net. rewrite TF in E. rewrite TL in EE, NN. split; [exact E|]. split; [exact D|]. split; assumption.
Qed.
(** The same for a list of tags when there are no grants that have their own fields for names. *)
Theorem C61_list_partial : forall lower inst counted weighted sep tags gs, sep <> [] ->
  (forall g, In g gs -> g_kind g <> NSERCG /\ g_kind g <> NSFG /\ NoDup (dkeys (g_data g)) /\ readable tags g) ->
  let lists := map (people sep tags) gs in
  exists net, co_network lower inst counted weighted sep (TMany tags) gs = (Ok net, TMany tags) /\ gdir net = false /\
    (forall u v, ed net u v = edge_value weighted (total (fun l => pairs_within u v (map fst l)) lists)) /\
    forall n, is_node net n <-> In n (map fst (concat lists)).
Proof.
  intros lower inst counted weighted sep tags gs NE OK lists.
  assert (LA : forall g, In g gs -> looked_at lower inst g (TMany tags) = tags) by (intros g I1; destruct (OK g I1) as (A & B & _); unfold looked_at; destruct (g_kind g); congruence).
  assert (TA : forall g, In g gs -> tags_after lower inst g (TMany tags) = TMany tags) by (intros g I1; destruct (OK g I1) as (A & B & _); unfold tags_after, all_tags; destruct (g_kind g); try congruence; reflexivity).
  assert (TF : fold_left (fun t x => tags_after lower inst x t) gs (TMany tags) = TMany tags) by (clear OK lists LA; induction gs as [|g gs IH]; [reflexivity|]; cbn [fold_left]; rewrite TA by (now left); apply IH; intros; apply TA; now right).
  assert (TL : GrantProofs2.lists lower inst sep (TMany tags) gs = lists) by (unfold lists; clear OK TF lists; induction gs as [|g gs IH]; [reflexivity|]; cbn [GrantProofs2.lists map]; rewrite TA, LA by (now left); rewrite IH; [reflexivity| |]; intros; [apply LA|apply TA]; now right).
  assert (TR : all_readable lower inst (TMany tags) gs). { clear TF TL lists. induction gs as [|g gs IH]; [exact Logic.I|]. cbn [all_readable]. destruct (OK g (or_introl eq_refl)) as (_ & _ & A & B). rewrite LA, TA by (now left). split; [exact A|]. split; [exact B|]. apply IH; intros; [apply OK|apply LA|apply TA]; now right. }
  destruct (network_spec lower inst counted weighted sep (TMany tags) gs NE TR) as (net & E & _ & D & EE & NN). exists net. rewrite TF in E. rewrite TL in EE, NN. split; [exact E|]. split; [exact D|]. split; [exact EE|].
  intros n. unfold is_node, nodes. specialize (NN n). unfold nd, first_field in NN. destruct (dget n (concat lists)) as [f|] eqn:G.
  - split; intros _; eapply dget_Some_key; eassumption.
  - apply dget_None in G. apply dget_None in NN. split; intros I1; exfalso; [exact (NN I1)|exact (G I1)].
Qed.
Definition fund (i : str) (names : str) : grant := mkGrant FallbackG i false None [($"PI", GText names)].
Definition nsf1 (i : str) (names : list str) : grant := mkGrant NSFG ($"NSF:" ++ i) false None [($"AwardID", GText i); ($"Investigator", GTexts names)].
Example C61_ex : exists net, co_network (fun s => s) false true true $"," (TOne $"PI") [fund $"1" $"Roe, Doe"; nsf1 $"2" [$"Doe, chief"; $"Poe"]] = (Ok net, TOne $"PI") /\
  ed net $"Doe" $"Roe" = Some [($"weight", VInt 1)] /\ ed net $"Poe" $"Doe" = Some [($"weight", VInt 1)] /\ ed net $"Poe" $"Roe" = None /\
  nd net $"Doe" = Some [($"count", VInt 3); ($"field", VStr $"PI")].
Proof. eexists. split; [vm_compute; reflexivity|]. repeat split; reflexivity. Qed.
(** The count of a node is not the number of times a name is listed. *)
Theorem C61_count_refuted : exists gs net, gs = [fund $"1" $"A, B, C"] /\ co_network (fun s => s) false true true $"," (TOne $"PI") gs = (Ok net, TOne $"PI") /\
  node_attr net $"A" $"count" = Some (VInt 1) /\ node_attr net $"B" $"count" = Some (VInt 2) /\ node_attr net $"C" $"count" = Some (VInt 3).
Proof. do 2 eexists. split; [reflexivity|]. split; [vm_compute; reflexivity|]. repeat split; reflexivity. Qed.
(** A list of tags is changed by the call, and the changes count for the grants that follow: the second NSF grant has each of its investigators twice,
    so that they are tied to themselves, and their edge counts four times. *)
Theorem C61_tags_refuted : exists net, co_network (fun s => s) false true true $"," (TMany [$"PI"]) [nsf1 $"1" [$"Roe"]; nsf1 $"2" [$"Doe"; $"Poe"]] = (Ok net, TMany [$"PI"; $"Investigator"; $"Investigator"]) /\
  ed net $"Doe" $"Poe" = Some [($"weight", VInt 4)] /\ ed net $"Doe" $"Doe" = Some [($"weight", VInt 1)].
Proof. eexists. split; [vm_compute; reflexivity|]. repeat split; reflexivity. Qed.
(** What a list of tags is after the call: NSF grants add the name of their field each time. *)
Theorem C61_tags : forall lower counted weighted sep tags gs, sep <> [] ->
  (forall g, In g gs -> g_kind g <> NSERCG /\ NoDup (dkeys (g_data g)) /\ readable ($"Investigator" :: tags) g) ->
  exists net, co_network lower false counted weighted sep (TMany tags) gs = (Ok net, TMany (tags ++ repeat $"Investigator" (length (filter (fun g => eqb (g_kind g) NSFG) gs)))).
Proof.
  intros lower counted weighted sep tags gs NE OK.
  assert (TF : forall gs k, (forall g, In g gs -> g_kind g <> NSERCG /\ NoDup (dkeys (g_data g)) /\ readable ($"Investigator" :: tags) g) ->
    all_readable lower false (TMany (tags ++ repeat $"Investigator" k)) gs /\ fold_left (fun t x => tags_after lower false x t) gs (TMany (tags ++ repeat $"Investigator" k)) = TMany (tags ++ repeat $"Investigator" (k + length (filter (fun g => eqb (g_kind g) NSFG) gs)))).
  { clear gs OK. induction gs as [|g gs IH]; intros k OK; [cbn [filter length]; rewrite Nat.add_0_r; split; [exact Logic.I|reflexivity]|]. destruct (OK g (or_introl eq_refl)) as (NK & ND & RD).
    assert (OK' : forall g, In g gs -> g_kind g <> NSERCG /\ NoDup (dkeys (g_data g)) /\ readable ($"Investigator" :: tags) g) by (intros; apply OK; now right).
    assert (RT : forall j, readable (tags ++ repeat $"Investigator" j) g). { intros j f I1. apply RD. apply in_app_iff in I1 as [I1|I1]; [now right|]. apply repeat_spec in I1. left. symmetry. exact I1. }
    assert (RS : repeat $"Investigator" k ++ [$"Investigator"] = repeat $"Investigator" (k + 1)) by (rewrite repeat_app; reflexivity).
    cbn [all_readable fold_left filter]. unfold tags_after at 1 3, all_tags, looked_at. destruct (eqb_spec (g_kind g) NSFG) as [E|NS].
    - rewrite E. rewrite <- app_assoc, RS. destruct (IH (k + 1) OK') as [A B]. split; [split; [exact ND|]; split; [apply RT|exact A]|]. cbn [length]. replace (k + S (length (filter (fun g0 => eqb (g_kind g0) NSFG) gs))) with (k + 1 + length (filter (fun g0 => eqb (g_kind g0) NSFG) gs)) by lia. exact B.
    - destruct (IH k OK') as [A B]. assert (KD : g_kind g <> NSERCG /\ g_kind g <> NSFG) by auto. destruct (g_kind g); try tauto; cbn [tag_list]; (split; [split; [exact ND|]; split; [apply RT|exact A]|exact B]). }
  destruct (TF gs 0 OK) as [A B]. cbn [repeat] in A, B. rewrite app_nil_r in A, B. destruct (network_spec lower false counted weighted sep (TMany tags) gs NE A) as (net & E & _). exists net. rewrite E, B. reflexivity.
Qed.

(** ** Grants of Medline and Scopus *)
(** A Medline grant keeps all of its text: number, code, agency and country. *)
Theorem C62_medline : forall ps agency country, Forall (fun p => ~ In 47%N p) (ps ++ [agency; country]) -> hd $"x" ps <> [] ->
  let g := medline_grant (join $"/" (ps ++ [agency; country])) in
  g_bad g = false /\ text_of $"agency" (g_data g) = agency /\ text_of $"country" (g_data g) = country /\ whole (g_data g) = join $"/" (ps ++ [agency; country]).
Proof.
  intros ps agency country F H g. unfold g, medline_grant. rewrite (medline_shape ps agency country F). destruct ps as [|p [|q [|r ps]]].
  - cbn [rev]. repeat split; reflexivity.
  - cbn [rev app hd] in *. destruct p as [|c p]; [exfalso; apply H; reflexivity|]. destruct (length (c :: p) =? 2); repeat split; reflexivity.
  - cbn [rev app hd] in *. destruct p as [|c p]; [exfalso; apply H; reflexivity|]. destruct (length q =? 2) eqn:L; [destruct q as [|cq q]; [discriminate|]; repeat split; reflexivity|]. cbn [g_bad g_data]. repeat split; try reflexivity.
    rewrite whole_number by discriminate. change ((c :: p) ++ $"/" ++ q) with (join $"/" [c :: p; q]). rewrite join_join by discriminate. reflexivity.
  - assert (NL : exists a b m, rev (p :: q :: r :: ps) = a :: b :: m /\ m <> []).
    { destruct (rev (p :: q :: r :: ps)) as [|a [|b [|c m]]] eqn:E; [apply (f_equal (@length _)) in E; rewrite rev_length in E; discriminate E ..|]. exists a, b, (c :: m). split; [reflexivity|discriminate]. }
    destruct NL as (a & b & m & E & NM). rewrite E. destruct m as [|c m]; [congruence|]. rewrite <- E, rev_involutive. clear E. cbn [g_bad g_data]. repeat split; try reflexivity.
    cbn [hd] in H. destruct p as [|cp p]; [exfalso; apply H; reflexivity|]. cbn [app]. rewrite whole_number by (cbn; discriminate). rewrite join_join by discriminate. reflexivity.
Qed.
(** With at most two parts before the agency, the last of them is the code if it has two letters; all other parts are the number. *)
Theorem C62_code : forall number code agency country, Forall (fun p => ~ In 47%N p) [number; code; agency; country] ->
  (length code = 2 -> let d := g_data (medline_grant (join $"/" [number; code; agency; country])) in text_of $"number" d = number /\ text_of $"code" d = code) /\
  (length code <> 2 -> let d := g_data (medline_grant (join $"/" [number; code; agency; country])) in text_of $"number" d = number ++ $"/" ++ code /\ dget $"code" d = None) /\
  (length code = 2 -> let d := g_data (medline_grant (join $"/" [code; agency; country])) in dget $"number" d = None /\ text_of $"code" d = code) /\
  (length code <> 2 -> let d := g_data (medline_grant (join $"/" [code; agency; country])) in text_of $"number" d = code /\ dget $"code" d = None).
Proof.
  intros number code agency country F. assert (F' : Forall (fun p => ~ In 47%N p) ([code] ++ [agency; country])) by (inversion F; assumption).
  pose proof (medline_shape [number; code] agency country F) as A. pose proof (medline_shape [code] agency country F') as B. cbn [app] in A, B. cbn [rev app] in A, B.
  unfold medline_grant. rewrite A, B. repeat match goal with |- _ /\ _ => split end; intros L; destruct (Nat.eqb_spec (length code) 2); try contradiction; split; reflexivity.
Qed.
Example C62_medline_ex : medline_fields $"R01 1234/CA/NCI NIH HHS/United States" = ([($"country", GText $"United States"); ($"agency", GText $"NCI NIH HHS"); ($"code", GText $"CA"); ($"number", GText $"R01 1234")], None).
Proof. vm_compute. reflexivity. Qed.
(** Grants of different agencies are equal when they have no number. *)
Theorem C62_agency_refuted : exists a b, a = medline_grant $"NIH HHS/United States" /\ b = medline_grant $"Howard Hughes Medical Institute/United States" /\
  g_bad a = false /\ g_bad b = false /\ g_id a = g_id b /\ length (gadd b (gadd a [])) = 1.
Proof. do 2 eexists. split; [reflexivity|]. split; [reflexivity|]. repeat split; vm_compute; reflexivity. Qed.
(** A text without a slash is bad and all of it is the country. *)
Theorem C62_bad : forall s, ~ In 47%N s -> g_bad (medline_grant s) = true /\ g_err (medline_grant s) = Some BadGrant /\ text_of $"country" (g_data (medline_grant s)) = s.
Proof. intros s N. unfold medline_grant, medline_fields. pose proof (slash_parts [s]) as E. cbn [join] in E. rewrite E; [|discriminate|constructor; [exact N|constructor]]. repeat split; reflexivity. Qed.
(** The last three parts of a Scopus grant are the code, the agency's code and the agency. *)
Theorem C62_scopus : forall ps code acode agency, Forall (fun p => contains $", " p = false) (ps ++ [code; acode; agency]) ->
  let g := scopus_grant (join $", " (ps ++ [code; acode; agency])) in
  g_bad g = false /\ text_of $"code" (g_data g) = code /\ text_of $"agencyCode" (g_data g) = acode /\ text_of $"agency" (g_data g) = agency.
Proof.
  intros ps code acode agency F g. unfold g, scopus_grant, scopus_fields. rewrite scopus_parts; [|destruct ps; discriminate|exact F]. rewrite rev_app_distr. cbn [rev app]. repeat split; reflexivity.
Qed.
(** The parts before are lost, so that different grants are equal. *)
Theorem C62_dropped_refuted : exists a b, a = scopus_grant $"12, CA, NCI, National Cancer Institute" /\ b = scopus_grant $"13, CA, NCI, National Cancer Institute" /\ a = b.
Proof. do 2 eexists. split; [reflexivity|]. split; [reflexivity|]. vm_compute. reflexivity. Qed.

(** ** NSF files *)
(** A file that uses no name both for a text and for a group gives all of its texts. *)
Theorem C63_fields_partial : forall top, one_way top -> exists d, nsf_fields top = Ok d /\
  forall f, dget f d = match leaf_value f top with Some v => Some v | None => match gathered f top with [] => None | l => Some (GTexts l) end end.
Proof. exact nsf_spec. Qed.
Definition leaf_ (t s : str) : element := Elem t (Some s) [].
Definition award : element := Elem $"Award" None [leaf_ $"AwardTitle" $"Bees"; Elem $"Organization" None [leaf_ $"Code" $"03"; Elem $"Directorate" None [leaf_ $"LongName" $"Biology"]; Elem $"Division" None [leaf_ $"LongName" $"Insects"]];
  Elem $"Investigator" None [leaf_ $"FirstName" $"Jo"; leaf_ $"LastName" $"Roe"; leaf_ $"RoleCode" $"PI"]; Elem $"Investigator" None [leaf_ $"LastName" $"Doe"; leaf_ $"FirstName" $"Al"];
  Elem $"Institution" None [leaf_ $"Name" $"Hive"; leaf_ $"City" $"Rome"]; leaf_ $"AwardID" $"77"].
Example award_ok : one_way award.
Proof.
  intros f. destruct (leaf_value f award) eqn:E; [right|left; reflexivity]. unfold leaf_value in E. destruct (filter _ _) as [|c l] eqn:Q in E; [discriminate|]. assert (I1 : In c (c :: l)) by now left. rewrite <- Q in I1. apply filter_In in I1 as [I1 P]. cbn in I1.
  apply andb_prop in P as [P G]. apply andb_prop in P as [P L]. unfold named in P. apply eqb_eq in P. subst f. clear E Q. decompose [or] I1; subst; try contradiction; try discriminate L; try discriminate G; vm_compute; reflexivity.
Qed.
Example C63_ex : exists d, nsf_fields award = Ok d /\ dget $"Investigator" d = Some (GTexts [$"Jo Roe; PI"; $"Al Doe; "]) /\ dget $"Institution" d = Some (GTexts [$"Hive; Rome"]) /\ g_id (nsf_grant $"f.xml" d) = $"NSF:77".
Proof. eexists. split; [vm_compute; reflexivity|]. repeat split; reflexivity. Qed.
(** A text and a group with the same name: the error is none that the reader expects; the other way round the group is lost. A text that is there twice is kept once. *)
Theorem C63_same_name_refuted : exists a b c d1 d2,
  a = Elem $"Award" None [leaf_ $"Program" $"x"; Elem $"Program" None [leaf_ $"Text" $"y"]] /\ nsf_fields a = Raise AttributeError /\
  b = Elem $"Award" None [Elem $"Program" None [leaf_ $"Text" $"y"]; leaf_ $"Program" $"x"] /\ nsf_fields b = Ok d1 /\ dget $"Program" d1 = Some (GText $"x") /\
  c = Elem $"Award" None [leaf_ $"Program" $"x"; leaf_ $"Program" $"y"] /\ nsf_fields c = Ok d2 /\ dget $"Program" d2 = Some (GText $"y").
Proof. do 5 eexists. repeat split; vm_compute; reflexivity. Qed.

Print Assumptions C47_update_partial.
Print Assumptions C47_file_partial.
Print Assumptions C47_directory_partial.
Print Assumptions C47_duplicates_refuted.
Print Assumptions C47_missing_refuted.
Print Assumptions C47_bad_refuted.
Print Assumptions C61_network_partial.
Print Assumptions C61_list_partial.
Print Assumptions C61_count_refuted.
Print Assumptions C61_tags_refuted.
Print Assumptions C61_tags.
Print Assumptions C62_medline.
Print Assumptions C62_code.
Print Assumptions C62_agency_refuted.
Print Assumptions C62_bad.
Print Assumptions C62_scopus.
Print Assumptions C62_dropped_refuted.
Print Assumptions C63_fields_partial.
Print Assumptions C63_same_name_refuted.
