(** C47, C61, C62, C82, continued: updates of other grants, files with errors, identifiers, separators, empty rows and files without a table. *)
From Coq Require Import List ZArith Lia Bool Arith.
From Coq Require Import String.
From Verif Require Import Base PyStr JournalModel TextModel Nx SeriesSpec NetModel NetSpec CsvModel CsvProofs GrantModel GrantSpec GrantProofs GrantProofs2 GrantProofs3 PropertiesGrant GrantFileModel GrantFileSpec GrantFileProofs PropertiesGrantFile.
Import ListNotations.
Local Open Scope list_scope.

(** ** C47 *)
(** Updating a grant of another kind than NSERC: where both grants have a value the other one's is kept, everything only one of them has is kept too. The grant is bad afterwards
    if one of them was, and has the error of the other if that is bad. A grant of another kind changes nothing. *)
Theorem C47_other_kinds : forall g other, NoDup (dkeys (g_data other)) ->
  (g_kind g <> g_kind other -> base_update g other = g) /\
  (g_kind g = g_kind other ->
     let g' := base_update g other in
     g_kind g' = g_kind g /\ g_id g' = g_id g /\
     (forall f v, dget f (g_data other) = Some v -> dget f (g_data g') = Some v) /\
     (forall f, dget f (g_data other) = None -> dget f (g_data g') = dget f (g_data g)) /\
     (g_bad g' = true <-> g_bad g = true \/ g_bad other = true) /\
     (g_bad other = true -> g_err g' = g_err other) /\ (g_bad other = false -> g_err g' = g_err g)).
Proof.
  intros g other ND. unfold base_update. destruct (eqb_spec (g_kind g) (g_kind other)) as [E|NE]; (split; intros H; [congruence || reflexivity|]); [|congruence].
  cbn [g_kind g_id g_data g_bad g_err]. split; [reflexivity|]. split; [reflexivity|]. split; [|split; [|split; [apply orb_true_iff|split; intros ->; reflexivity]]].
  - intros f v D. rewrite (dget_dupdate f (g_data g) (g_data other) ND), D. reflexivity.
  - intros f D. rewrite (dget_dupdate f (g_data g) (g_data other) ND), D. reflexivity.
Qed.
Example C47_other_kinds_ex :
  let g := mkGrant CIHRG $"a" false None [($"PI Names", GText $"Roe"); ($"Title", GText $"Bees")] in
  let other := mkGrant CIHRG $"b" true (Some BadGrant) [($"PI Names", GText []); ($"Year", GText $"2000")] in
  base_update g other = mkGrant CIHRG $"a" true (Some BadGrant) [($"PI Names", GText []); ($"Title", GText $"Bees"); ($"Year", GText $"2000")].
Proof. vm_compute. reflexivity. Qed.

(** Several files some of which ended with an error: the grants are those of all rows that were read, and the errors name exactly the files that ended with one. *)
Theorem C47_errors_partial : forall hash files, Forall (fun x => Forall row_ok (map snd (fst (snd x)))) files ->
  exists s errs, nserc_files hash files [] [] = Ok (s, errs) /\ merges (flat_map (fun x => map snd (fst (snd x))) files) (map m_grant s) /\
    forall f, dget f errs = Some BadGrant /\ (exists rows e, In (f, (rows, Some e)) files) \/ dget f errs = None /\ (forall rows e, ~ In (f, (rows, Some e)) files).
Proof.
  intros hash files F.
  assert (G : forall files before l errs, Forall (fun x => Forall row_ok (map snd (fst (snd x)))) files -> kept before l ->
    exists l' errs', nserc_files hash files (mem_of l) errs = Ok (mem_of l', errs') /\ kept (before ++ flat_map (fun x => map snd (fst (snd x))) files) l' /\
      forall f, dget f errs' = Some BadGrant /\ (exists rows e, In (f, (rows, Some e)) files) \/ dget f errs' = dget f errs /\ (forall rows e, ~ In (f, (rows, Some e)) files)).
  { clear files F. induction files as [|[f0 [rows ended]] files IH]; intros before l errs F K.
    - exists l, errs. cbn. rewrite app_nil_r. split; [reflexivity|]. split; [exact K|]. intros f. right. split; [reflexivity|intros ? ? []].
    - inversion F as [|? ? R F']; subst. cbn [fst snd] in R. cbn [nserc_files]. destruct (file_spec hash rows [] [] R kept_nil) as (l2 & E2 & K2). unfold nserc_file. rewrite rows_ended. change (@nil member) with (mem_of []).
      rewrite E2. cbn [fst snd]. cbn [app] in K2. destruct (merge_spec _ _ _ _ K K2) as (l3 & E3 & K3). rewrite E3. cbn [bind].
      set (errs1 := match match ended with Some _ => Some BadGrant | None => None end with Some x => dset f0 x errs | None => errs end).
      destruct (IH _ _ errs1 F' K3) as (l' & errs' & E4 & K4 & X). exists l', errs'. split; [exact E4|]. split; [cbn [flat_map fst snd]; rewrite app_assoc; exact K4|]. intros f. destruct (X f) as [[D (r & e & I1)]|[D N]].
      + left. split; [exact D|]. exists r, e. right. exact I1.
      + unfold errs1 in D. destruct ended as [x|].
        * rewrite dget_dset in D. destruct (eqb_spec f0 f) as [->|NF].
          -- left. split; [rewrite D, ?eqb_refl; reflexivity|]. exists rows, x. left. reflexivity.
          -- right. split; [rewrite D; destruct (eqb_spec f f0); [congruence|reflexivity]|]. intros r e [I1|I1]; [congruence|exact (N r e I1)].
        * right. split; [exact D|]. intros r e [I1|I1]; [congruence|exact (N r e I1)]. }
  destruct (G files [] [] [] F kept_nil) as (l & errs & E & K & X). exists (mem_of l), errs. split; [exact E|]. split; [exact (kept_merges _ _ K)|]. intros f. exact (X f).
Qed.
Example C47_errors_ex : forall hash, exists s, nserc_files hash [($"a.csv", ([($"", row1)], Some RuntimeError)); ($"b.csv", ([($"", row3)], None))] [] [] = Ok (s, [($"a.csv", BadGrant)]) /\ length s = 2.
Proof. intros hash. eexists. split; vm_compute; reflexivity. Qed.

(** ** C61 *)
(** With an empty separator the names of a grant cannot be found: if the first of the fields looked at is a text the call raises. *)
Theorem C61_separator : forall lower inst counted weighted tag s d k i b e gs, k <> NSERCG -> k <> NSFG -> dget tag d = Some (GText s) ->
  fst (co_network lower inst counted weighted [] (TOne tag) (mkGrant k i b e d :: gs)) = Raise ValueError.
Proof.
  intros lower inst counted weighted tag s d k i b e gs N1 N2 D. unfold co_network. cbn [co_loop]. unfold investigators, all_tags. cbn [g_kind g_data].
  destruct k; try congruence; cbn [tag_list investigators_at]; rewrite D; reflexivity.
Qed.
Example C61_separator_ex : fst (co_network (fun s => s) false true true [] (TOne $"PI Names") [mkGrant CIHRG $"a" false None [($"PI Names", GText $"Roe, Jo; Doe, Al")]]) = Raise ValueError /\
  exists net, fst (co_network (fun s => s) false true true $";" (TOne $"PI Names") [mkGrant CIHRG $"a" false None [($"PI Names", GText $"Roe, Jo; Doe, Al")]]) = Ok net /\ ed net $"Roe, Jo" $"Doe, Al" = Some [($"weight", VInt 1)].
Proof. split; [vm_compute; reflexivity|]. eexists. split; vm_compute; reflexivity. Qed.

(** ** C62 *)
(** The identifier of a Medline grant: number, code and country if there is a number, else code, agency and country. What is missing is left empty; so grants that differ in their agency only,
    and have a number, are one, see C62_agency_refuted. *)
Theorem C62_identifier : forall number code agency country, Forall (fun p => ~ In 47%N p) [number; code; agency; country] ->
  (length code = 2 -> g_id (medline_grant (join $"/" [number; code; agency; country])) = number ++ $"/" ++ code ++ $"-" ++ country) /\
  (length code <> 2 -> g_id (medline_grant (join $"/" [number; code; agency; country])) = (number ++ $"/" ++ code) ++ $"/-" ++ country) /\
  (length code = 2 -> g_id (medline_grant (join $"/" [code; agency; country])) = code ++ $"-" ++ agency ++ $"-" ++ country) /\
  (length code <> 2 -> g_id (medline_grant (join $"/" [code; agency; country])) = code ++ $"/-" ++ country) /\
  g_id (medline_grant (join $"/" [agency; country])) = $"/-" ++ country /\
  g_id (medline_grant country) = $"--" ++ country.
Proof.
  intros number code agency country F. assert (F' : Forall (fun p => ~ In 47%N p) ([code] ++ [agency; country])) by (inversion F; assumption).
  assert (F2 : Forall (fun p => ~ In 47%N p) ([] ++ [agency; country])) by (inversion F' as [|? ? ? F2]; exact F2).
  pose proof (medline_shape [number; code] agency country F) as A. pose proof (medline_shape [code] agency country F') as B. pose proof (medline_shape [] agency country F2) as C. cbn [app] in A, B, C. cbn [rev app] in A, B, C.
  assert (D : medline_fields country = ([($"country", GText country)], Some BadGrant)).
  { unfold medline_fields. pose proof (slash_parts [country]) as E. cbn [join] in E. rewrite E; [reflexivity|discriminate|]. inversion F2 as [|? ? ? F3]; exact F3. }
  unfold medline_grant. rewrite A, B, C, D. repeat match goal with |- _ /\ _ => split end; try (intros L; destruct (Nat.eqb_spec (length code) 2); try contradiction); try reflexivity.
Qed.
Example C62_identifier_ex : g_id (medline_grant $"R01 1234/CA/NCI NIH HHS/United States") = $"R01 1234/CA-United States" /\ g_id (medline_grant $"CA/NCI NIH HHS/United States") = $"CA-NCI NIH HHS-United States".
Proof. split; vm_compute; reflexivity. Qed.

(** ** C82 *)
(** an empty line *)
Definition empty_line (r : row) : Prop := values r = [] /\ body r = [] /\ (eol r = [10%N] \/ eol r = [13; 10]%N).
Definition not_empty (x : (N * str) * row) : bool := match body (snd x) with [] => false | _ => true end.
Lemma read_empty eof n lst ls : read_lines eof ps0 n lst ([nl] :: ls) = let (rs, e) := read_lines eof ps0 (n + 1) [nl] ls in (((n + 1)%N, [nl], []) :: rs, e).
Proof. reflexivity. Qed.
Lemma read_mixed eof : forall rs n lst, Forall (fun r => row_written r \/ empty_line r) rs -> read_lines eof ps0 n lst (lines (translate (written_out rs))) = (tagged n rs, eof).
Proof.
  induction rs as [|r rs IH]; intros n lst F; [destruct eof; reflexivity|]. inversion F as [|? ? [W|W] F']; subst; unfold written_out; cbn [map concat]; change (concat (map (fun r0 => body r0 ++ eol r0) rs)) with (written_out rs).
  - rewrite translate_written by exact W. rewrite lines_two, read_row by exact W. rewrite IH by exact F'. reflexivity.
  - destruct W as (V & B & E). rewrite B. assert (T : translate (([] ++ eol r) ++ written_out rs) = nl :: translate (written_out rs)) by (destruct E as [-> | ->]; reflexivity). rewrite T.
    change (lines (nl :: translate (written_out rs))) with ([nl] :: lines (translate (written_out rs))). rewrite read_empty, IH by exact F'. cbn [tagged]. rewrite V, B. cbn [breaks count N.of_nat]. rewrite N.add_0_r. reflexivity.
Qed.
Lemma kept_rows : forall rs n, Forall (fun r => row_written r \/ empty_line r) rs ->
  filter not_blank (tagged n rs) = map (fun x => (fst x, values (snd x))) (filter not_empty (combine (row_ends n rs) rs)).
Proof.
  induction rs as [|r rs IH]; intros n F; [reflexivity|]. inversion F as [|? ? W F']; subst. cbn [tagged row_ends combine filter]. unfold not_blank at 1, not_empty at 1. cbn [snd]. destruct W as [W|(V & B & _)].
  - pose proof (values_ne r W) as NV. destruct W as (_ & NB & _). destruct (body r) as [|c t]; [congruence|]. destruct (values r) as [|v vs] eqn:V; [congruence|]. cbn [map fst snd]. rewrite V, IH by exact F'. reflexivity.
  - rewrite V, B. apply IH. exact F'.
Qed.
(** Empty lines after the first row of a csv file change nothing but the numbers of the lines. *)
Theorem C82_empty_lines : forall pep479 hash extension f name columns h rs,
  file_name (fname f) name -> ends_with $"csv" (fname f) -> ends_with extension (fname f) -> ~ begins_with $"cihr_" name -> ~ begins_with $"NSERC_" name ->
  ftext f = written_out (h :: rs) -> row_written h -> values h = columns -> NoDup columns -> Forall (fun r => (row_written r \/ empty_line r) /\ length (values r) <= length columns) rs ->
  (exists r, In r rs /\ row_written r) -> ~ of_scopus columns ->
  exists c, from_file pep479 hash extension f = Ok c /\ c_types c = [FallbackG] /\ c_bad c = pep479 /\ c_errors c = (if pep479 then [(fname f, BadGrant)] else []) /\
    Forall2 (fun x g => g_kind g = FallbackG /\ placed hash name (fst x) g /\ has_values columns (values (snd x)) (g_data g) /\ g_bad g = false /\ g_err g = None)
      (filter not_empty (combine (row_ends (breaks (body h) + 1) rs) rs)) (map m_grant (c_grants c)).
Proof.
  intros pep hash ext f name columns h rs NM CS EX NC NN TX WH VH ND GT SOME SC. pose proof (name_is _ _ NM) as BN.
  assert (MX : Forall (fun r => row_written r \/ empty_line r) rs) by (eapply Forall_impl; [|exact GT]; intros r [A _]; exact A).
  assert (TB : forall eof, table eof 0 (lines (translate (written_out (h :: rs)))) = (Some columns, filter not_blank (tagged (breaks (body h) + 1) rs), eof)).
  { intros eof. unfold table. rewrite read_mixed by (constructor; [left; exact WH|exact MX]). cbn [tagged]. rewrite <- VH. reflexivity. }
  set (kept := filter not_blank (tagged (breaks (body h) + 1) rs)) in *.
  assert (LG : existsb (too_long columns) kept = false).
  { destruct (existsb _ kept) eqn:E; [|reflexivity]. exfalso. apply existsb_exists in E as (x & I1 & L). unfold kept in I1. apply filter_In in I1 as [I1 _]. apply (in_map snd) in I1. rewrite tagged_values in I1. apply in_map_iff in I1 as (r & Q & I1).
    rewrite Forall_forall in GT. destruct (GT r I1) as [_ LE]. unfold too_long in L. apply Nat.ltb_lt in L. rewrite Q in LE. lia. }
  assert (NE : negb (length kept <? 1) = true).
  { unfold kept. rewrite kept_rows by exact MX. rewrite map_length. destruct SOME as (r & I1 & W). apply negb_true_iff, Nat.ltb_ge. generalize (breaks (body h) + 1)%N. clear -I1 W. induction rs as [|x rs IH]; intros n; [destruct I1|]. cbn [row_ends combine filter].
    destruct I1 as [->|I1]; [unfold not_empty at 1; cbn [snd]; destruct W as (_ & NB & _); destruct (body r); [congruence|cbn [length]; lia]|]. destruct (not_empty _); cbn [length]; [lia|apply IH; exact I1]. }
  assert (NX : is_nsf f = false).
  { unfold is_nsf. rewrite BN. rewrite (ends_no $".xml" name); [reflexivity|]. intros E. pose proof (name_end _ _ _ NM E) as E'.
    revert CS. apply (ends_clash $"xml" $"csv"); [reflexivity|discriminate|]. destruct E' as [b E']. exists (b ++ $"."). rewrite <- app_assoc. exact E'. }
  assert (CC : is_cihr f = Ok false) by (unfold is_cihr; rewrite BN, (starts_no _ _ NC); reflexivity).
  assert (CN : is_nserc f = Ok false) by (unfold is_nserc; rewrite BN, (starts_no _ _ NN); reflexivity).
  assert (CF : is_fallback f = true).
  { unfold is_fallback, text_lines. rewrite TX. rewrite (proj2 (ends_in_iff $"csv" (fname f)) CS). rewrite TB, (not_scopus _ SC), LG, NE. reflexivity. }
  unfold from_file. rewrite (proj2 (ends_in_iff ext (fname f)) EX). cbn [negb]. unfold process. rewrite NX, CC. cbn [bind]. rewrite CN. cbn [bind]. rewrite CF.
  unfold parse_fallback, text_lines, lines_reader. rewrite TX, TB, BN. unfold other_file.
  set (rows := map (fun r => (fst r, row_dict columns r)) kept).
  assert (G : gathered_in (map (fun r => fallback hash name (fst (fst r)) (snd (fst r)) (snd r)) rows) (fold_left (fun s r => gadd (fallback hash name (fst (fst r)) (snd (fst r)) (snd r)) s) rows [])).
  { apply (gathered_all FallbackG None columns (fallback hash name)) with (before := []).
    - intros k l d _. repeat split; reflexivity.
    - intros k1 l1 d1 k2 l2 d2 E. exact (line_id_inj _ _ _ _ _ E).
    - cbn [app]. unfold rows. rewrite map_map. cbn [fst]. unfold kept. pose proof (tagged_distinct rs (breaks (body h) + 1)) as TD. revert TD. generalize (tagged (breaks (body h) + 1) rs). clear. induction l as [|x l IH]; intros TD; [constructor|]. cbn [map] in TD.
      inversion TD as [|? ? N1 N2]; subst. cbn [filter]. destruct (not_blank x); [|apply IH; exact N2]. cbn [map]. constructor; [|apply IH; exact N2]. intros I1. apply N1. apply in_map_iff in I1 as (y & Q & I1). apply filter_In in I1 as [I1 _]. apply in_map_iff. exists y. auto.
    - cbn [app]. unfold rows. apply Forall_forall. intros r I1. apply in_map_iff in I1 as (x & <- & _). cbn [snd]. apply row_has_values. exact ND.
    - exact gathered_nil. }
  apply gathered_good in G; [|intros g I1; apply in_map_iff in I1 as (x & <- & _); reflexivity].
  assert (R : Forall2 (fun x g => g_kind g = FallbackG /\ placed hash name (fst x) g /\ has_values columns (values (snd x)) (g_data g) /\ g_bad g = false /\ g_err g = None)
      (filter not_empty (combine (row_ends (breaks (body h) + 1) rs) rs)) (map m_grant (fold_left (fun s r => gadd (fallback hash name (fst (fst r)) (snd (fst r)) (snd r)) s) rows []))).
  { rewrite G. unfold rows, kept. rewrite map_map, kept_rows by exact MX. rewrite map_map. cbn [fst snd]. induction (filter not_empty _) as [|x l IH]; [constructor|]. cbn [map]. constructor; [|exact IH].
    split; [reflexivity|]. split; [exists (pad20 (hash (snd (fst x)))); split; [apply pad20_wide|reflexivity]|]. split; [exact (row_has_values columns (fst x, values (snd x)) ND)|split; reflexivity]. }
  destruct pep; cbn [eof_of_lines]; eexists; (split; [reflexivity|]); repeat split; exact R.
Qed.
Example C82_empty_lines_ex : exists c a b, from_file false h0 $"csv" (doc $"my.csv" (line_ $"Who,What" ++ line_ [] ++ line_ $"Roe,Bees" ++ line_ [] ++ line_ [] ++ line_ $"Doe,Ants")) = Ok c /\ map m_grant (c_grants c) = [a; b] /\
  g_id a = $"my.csv-l:3-00000000000000000009" /\ g_id b = $"my.csv-l:6-00000000000000000009" /\ g_data b = [($"Who", GText $"Doe"); ($"What", GText $"Ants")].
Proof. do 3 eexists. split; [vm_compute; reflexivity|]. split; [vm_compute; reflexivity|]. repeat split; vm_compute; reflexivity. Qed.
(** A file of CIHR that ends after its first three lines gives no grants; since python 3.7 the collection is bad all the same. *)
Theorem C82_cihr_no_table : forall pep479 hash extension f name head, file_name (fname f) name -> ends_with extension (fname f) -> begins_with $"cihr_" name -> ~ ends_with $".xml" name ->
  cihr_head head -> ftext f = head ->
  exists c, from_file pep479 hash extension f = Ok c /\ c_types c = [CIHRG] /\ c_grants c = [] /\ c_bad c = pep479 /\ c_errors c = (if pep479 then [(fname f, BadGrant)] else []).
Proof.
  intros pep hash ext f name head NM EX NC NX HD TX. pose proof (name_is _ _ NM) as BN.
  assert (IX : is_nsf f = false) by (unfold is_nsf; rewrite BN, (ends_no $".xml" name NX); reflexivity).
  destruct (head_lines head [] HD) as (a & b & c & HL & HA & HB & HC). rewrite app_nil_r in HL. change (lines (translate [])) with (@nil str) in HL.
  assert (CC : is_cihr f = Ok true).
  { unfold is_cihr, text_lines. rewrite BN, (proj2 (begins_iff $"cihr_" name) NC), TX, HL. cbn [negb nth skipn]. rewrite HA, HB, HC. reflexivity. }
  unfold from_file. rewrite (proj2 (ends_in_iff ext (fname f)) EX). cbn [negb]. unfold process. rewrite IX, CC. cbn [bind]. unfold parse_cihr, text_lines. rewrite TX, HL. cbn [length Nat.ltb Nat.leb skipn].
  destruct pep; eexists; (split; [reflexivity|]); repeat split.
Qed.
Example C82_cihr_no_table_ex : exists c, from_file true h0 [] (doc $"cihr_1.csv" cihr_top) = Ok c /\ c_bad c = true /\ c_grants c = [].
Proof. eexists. split; [vm_compute; reflexivity|]. split; reflexivity. Qed.

Print Assumptions C47_other_kinds.
Print Assumptions C47_errors_partial.
Print Assumptions C61_separator.
Print Assumptions C62_identifier.
Print Assumptions C82_empty_lines.
Print Assumptions C82_cihr_no_table.
