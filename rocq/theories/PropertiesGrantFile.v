(** C82: grant files *)
From Coq Require Import List ZArith Lia Bool Arith.
From Coq Require Import String.
From Verif Require Import Base PyStr Nx CsvModel CsvProofs DecFacts GrantModel GrantSpec GrantProofs GrantProofs3 PropertiesGrant GrantFileModel GrantFileSpec GrantFileProofs.
Import ListNotations.
Local Open Scope list_scope.

(** A csv file that is no file of CIHR, NSERC or Scopus gives one grant for each row; the grants are told apart by the number of the row's last line.
    Since python 3.7 the collection is always bad. *)
Theorem C82_other : forall pep479 hash extension f name columns h rs,
  file_name (fname f) name -> ends_with $"csv" (fname f) -> ends_with extension (fname f) -> ~ begins_with $"cihr_" name -> ~ begins_with $"NSERC_" name ->
  ftext f = written_out (h :: rs) -> good_table columns h rs -> rs <> [] -> ~ of_scopus columns ->
  exists c, from_file pep479 hash extension f = Ok c /\ c_types c = [FallbackG] /\ c_bad c = pep479 /\ c_errors c = (if pep479 then [(fname f, BadGrant)] else []) /\
    one_for_each (fun at_ r g => g_kind g = FallbackG /\ placed hash name at_ g /\ has_values columns (values r) (g_data g) /\ g_bad g = false /\ g_err g = None)
      (row_ends (breaks (body h) + 1) rs) rs (map m_grant (c_grants c)).
Proof.
  intros pep hash ext f name columns h rs NM CS EX NC NN TX GT NE SC. pose proof (name_is _ _ NM) as BN. pose proof (good_rows _ _ _ GT) as GR. assert (VH : values h = columns) by apply GT. assert (ND : NoDup columns) by apply GT.
  assert (NX : is_nsf f = false).
  { unfold is_nsf. rewrite BN. rewrite (ends_no $".xml" name); [reflexivity|]. intros E. pose proof (name_end _ _ _ NM E) as E'.
    revert CS. apply (ends_clash $"xml" $"csv"); [reflexivity|discriminate|]. destruct E' as [b E']. exists (b ++ $"."). rewrite <- app_assoc. exact E'. }
  assert (CC : is_cihr f = Ok false) by (unfold is_cihr; rewrite BN, (starts_no _ _ NC); reflexivity).
  assert (CN : is_nserc f = Ok false) by (unfold is_nserc; rewrite BN, (starts_no _ _ NN); reflexivity).
  assert (CF : is_fallback f = true).
  { unfold is_fallback, text_lines. rewrite TX. rewrite (proj2 (ends_in_iff $"csv" (fname f)) CS). rewrite table_written by exact GR. rewrite VH, (not_scopus _ SC), no_long by apply GT. rewrite some_rows by exact NE. reflexivity. }
  unfold from_file. rewrite (proj2 (ends_in_iff ext (fname f)) EX). cbn [negb]. unfold process. rewrite NX, CC. cbn [bind]. rewrite CN. cbn [bind]. rewrite CF.
  unfold parse_fallback, text_lines. rewrite TX, (reader_rows _ _ _ _ _ GT), BN. unfold other_file.
  set (rows := map (fun r => (fst r, row_dict columns r)) (tagged (0 + breaks (body h) + 1) rs)).
  assert (G : gathered_in (map (fun r => fallback hash name (fst (fst r)) (snd (fst r)) (snd r)) rows) (fold_left (fun s r => gadd (fallback hash name (fst (fst r)) (snd (fst r)) (snd r)) s) rows [])).
  { apply (gathered_all FallbackG None columns (fallback hash name)) with (before := []).
    - intros k l d _. repeat split; reflexivity.
    - intros k1 l1 d1 k2 l2 d2 E. exact (line_id_inj _ _ _ _ _ E).
    - cbn [app]. unfold rows. rewrite map_map. cbn [fst]. apply tagged_distinct.
    - cbn [app]. unfold rows. apply Forall_forall. intros r I1. apply in_map_iff in I1 as (x & <- & _). cbn [snd]. apply row_has_values. exact ND.
    - exact gathered_nil. }
  apply gathered_good in G; [|intros g I1; apply in_map_iff in I1 as (x & <- & _); reflexivity].
  assert (R : one_for_each (fun at_ r g => g_kind g = FallbackG /\ placed hash name at_ g /\ has_values columns (values r) (g_data g) /\ g_bad g = false /\ g_err g = None)
      (row_ends (breaks (body h) + 1) rs) rs (map m_grant (fold_left (fun s r => gadd (fallback hash name (fst (fst r)) (snd (fst r)) (snd r)) s) rows []))).
  { rewrite G. unfold rows. rewrite map_map. cbn [fst snd]. apply each_tagged. intros k l r. cbn [fst snd]. split; [reflexivity|]. split; [exists (pad20 (hash l)); split; [apply pad20_wide|reflexivity]|].
    split; [apply (row_has_values columns (k, l, values r) ND)|split; reflexivity]. }
  destruct pep; cbn [eof_of_lines]; eexists; (split; [reflexivity|]); repeat split; exact R.
Qed.

Lemma head_lines head t : cihr_head head -> exists a b c, lines (translate (head ++ t)) = a :: b :: c :: lines (translate t) /\
  starts_with $"Search Criteria" a = true /\ ends_in ($",,,,,,,,," ++ [nl]) b = true /\ ends_in ($",,,,,,,,," ++ [nl]) c = true.
Proof.
  intros (l1 & l2 & l3 & e1 & e2 & e3 & -> & NL & NE & B & E2 & E3).
  assert (ST : forall l e u, In l [l1; l2; l3] -> In e [e1; e2; e3] -> lines (translate (l ++ e ++ u)) = (l ++ [nl]) :: lines (translate u)).
  { intros l e u I1 I2. rewrite translate_app by apply (NL l I1). destruct (NE e I2) as [-> | ->]; apply lines_full; apply (NL l I1). }
  exists (l1 ++ [nl]), (l2 ++ [nl]), (l3 ++ [nl]). rewrite <- !app_assoc. rewrite !ST by (cbn; auto). split; [reflexivity|]. split; [|split].
  - apply begins_iff. destruct B as [x ->]. exists (x ++ [nl]). rewrite <- app_assoc. reflexivity.
  - apply ends_in_iff. destruct E2 as [x ->]. exists x. rewrite <- app_assoc. reflexivity.
  - apply ends_in_iff. destruct E3 as [x ->]. exists x. rewrite <- app_assoc. reflexivity.
Qed.
(** A file of CIHR gives one grant for each row that has PI Names, with the number of the row's last line. Rows whose PI Names are empty give bad grants; those with the same values give one. *)
Theorem C82_cihr_partial : forall pep479 hash extension f name head columns h rs,
  file_name (fname f) name -> ends_with extension (fname f) -> begins_with $"cihr_" name -> ~ ends_with $".xml" name ->
  cihr_head head -> ftext f = head ++ written_out (h :: rs) -> good_table columns h rs -> In $"PI Names" columns ->
  exists c gs, from_file pep479 hash extension f = Ok c /\ c_types c = [CIHRG] /\ c_bad c = pep479 /\ c_errors c = (if pep479 then [(fname f, BadGrant)] else []) /\
    one_for_each (fun at_ r g => g_kind g = CIHRG /\ placed hash name at_ g /\ has_values columns (values r) (g_data g) /\
        (g_bad g = true <-> exists i, nth_error columns i = Some $"PI Names" /\ nth_error (values r) i = Some [])) (row_ends (3 + breaks (body h) + 1) rs) rs gs /\
    let kept := map m_grant (c_grants c) in
    filter (fun g => negb (g_bad g)) kept = filter (fun g => negb (g_bad g)) gs /\ (forall g, In g kept -> In g gs) /\
    (forall g, In g gs -> g_bad g = true -> exists g', In g' kept /\ g_bad g' = true /\ g_data g' = g_data g) /\ NoDup (map g_data (filter g_bad kept)).
Proof.
  intros pep hash ext f name head columns h rs NM EX NC NX HD TX GT PI. pose proof (name_is _ _ NM) as BN. pose proof (good_rows _ _ _ GT) as GR. assert (VH : values h = columns) by apply GT. assert (ND : NoDup columns) by apply GT.
  assert (IX : is_nsf f = false) by (unfold is_nsf; rewrite BN, (ends_no $".xml" name NX); reflexivity).
  destruct (head_lines head (written_out (h :: rs)) HD) as (a & b & c & HL & HA & HB & HC).
  assert (CC : is_cihr f = Ok true).
  { unfold is_cihr, text_lines. rewrite BN, (proj2 (begins_iff $"cihr_" name) NC), TX, HL. cbn [negb nth skipn]. rewrite HA, HB, HC. cbn [negb]. rewrite table_written by exact GR. rewrite VH.
    assert (M : mem $"PI Names" columns = true) by (apply mem_In; exact PI). destruct (tagged _ rs); [reflexivity|rewrite M; reflexivity]. }
  unfold from_file. rewrite (proj2 (ends_in_iff ext (fname f)) EX). cbn [negb]. unfold process. rewrite IX, CC. cbn [bind]. unfold parse_cihr, text_lines. rewrite TX, HL. cbn [length Nat.ltb Nat.leb skipn].
  rewrite (reader_rows _ _ _ _ _ GT), BN. unfold other_file. set (rows := map (fun r => (fst r, row_dict columns r)) (tagged (3 + breaks (body h) + 1) rs)).
  assert (G : gathered_in (map (fun r => cihr hash name (fst (fst r)) (snd (fst r)) (snd r)) rows) (fold_left (fun s r => gadd (cihr hash name (fst (fst r)) (snd (fst r)) (snd r)) s) rows [])).
  { apply (gathered_all CIHRG (Some BadGrant) columns (cihr hash name)) with (before := []).
    - intros k l d _. repeat split; reflexivity.
    - intros k1 l1 d1 k2 l2 d2 E. exact (line_id_inj _ _ _ _ _ E).
    - cbn [app]. unfold rows. rewrite map_map. cbn [fst]. apply tagged_distinct.
    - cbn [app]. unfold rows. apply Forall_forall. intros r I1. apply in_map_iff in I1 as (x & <- & _). cbn [snd]. apply row_has_values. exact ND.
    - exact gathered_nil. }
  set (gs := map (fun r => cihr hash name (fst (fst r)) (snd (fst r)) (snd r)) rows) in *. set (s := fold_left (fun (s : gset) r => gadd (cihr hash name (fst (fst r)) (snd (fst r)) (snd r)) s) rows []) in *.
  assert (R : one_for_each (fun at_ r g => g_kind g = CIHRG /\ placed hash name at_ g /\ has_values columns (values r) (g_data g) /\
        (g_bad g = true <-> exists i, nth_error columns i = Some $"PI Names" /\ nth_error (values r) i = Some [])) (row_ends (3 + breaks (body h) + 1) rs) rs gs).
  { unfold gs, rows. rewrite map_map. cbn [fst snd]. apply each_tagged. intros k l r. cbn [fst snd]. split; [reflexivity|]. split; [exists (pad20 (hash l)); split; [apply pad20_wide|reflexivity]|].
    pose proof (row_has_values columns (k, l, values r) ND) as HV. split; [exact HV|]. cbn [cihr g_bad]. destruct HV as [_ HV]. cbn [snd] in HV. split.
    - intros B. destruct (In_nth_error _ _ PI) as [i E]. exists i. split; [exact E|]. rewrite (HV i _ E) in B. destruct (nth_error (values r) i) as [[|x v]|]; [reflexivity|discriminate B|discriminate B].
    - intros (i & E & V). rewrite (HV i _ E), V. reflexivity. }
  assert (FIN : let kept := map m_grant s in filter (fun g => negb (g_bad g)) kept = filter (fun g => negb (g_bad g)) gs /\ (forall g, In g kept -> In g gs) /\
    (forall g, In g gs -> g_bad g = true -> exists g', In g' kept /\ g_bad g' = true /\ g_data g' = g_data g) /\ NoDup (map g_data (filter g_bad kept))).
  { destruct G as (_ & G1 & G2 & G3 & G4). split; [exact G2|]. split; [intros g I1; apply in_map_iff in I1 as (m & <- & I1); exact (G1 m I1)|]. split; [|exact G4].
    intros g I1 B. destruct (G3 g I1 B) as (m & M1 & M2 & M3). exists (m_grant m). split; [apply in_map; exact M1|auto]. }
  destruct pep; cbn [eof_of_lines]; eexists; exists gs; (split; [reflexivity|]); repeat split; try exact R; apply FIN.
Qed.

Lemma rows_ended hash : forall rows e s, nserc_rows hash rows e s =
  (fst (nserc_rows hash rows None s), match snd (nserc_rows hash rows None s) with Some x => Some x | None => match e with Some _ => Some BadGrant | None => None end end).
Proof.
  induction rows as [|[l d] rows IH]; intros e s; [reflexivity|]. cbn [nserc_rows]. destruct (gmem _ s); [|apply IH]. destruct (update_first _ s) as [s' [x|]]; [reflexivity|apply IH].
Qed.
(** A file of NSERC whose rows all have a key gives one grant for each key, see C47. *)
Theorem C82_nserc_partial : forall pep479 hash extension f name columns h rs,
  file_name (fname f) name -> ends_with extension (fname f) -> begins_with $"NSERC_" name -> ~ ends_with $".xml" name ->
  ftext f = written_out (h :: rs) -> good_table columns h rs -> rs <> [] ->
  (forall r, In r rs -> length (values r) = length columns /\ exists i v, nth_error columns i = Some $"Cle" /\ nth_error (values r) i = Some v /\ v <> []) ->
  exists c ds, from_file pep479 hash extension f = Ok c /\ c_types c = [NSERCG] /\ c_bad c = pep479 /\ c_errors c = (if pep479 then [(fname f, BadGrant)] else []) /\
    Forall2 (fun r d => has_values columns (values r) d) rs ds /\ merges ds (map m_grant (c_grants c)).
Proof.
  intros pep hash ext f name columns h rs NM EX NC NX TX GT NE FULL. pose proof (name_is _ _ NM) as BN. pose proof (good_rows _ _ _ GT) as GR. assert (VH : values h = columns) by apply GT. assert (ND : NoDup columns) by apply GT.
  assert (IX : is_nsf f = false) by (unfold is_nsf; rewrite BN, (ends_no $".xml" name NX); reflexivity).
  assert (CC : is_cihr f = Ok false).
  { unfold is_cihr. rewrite BN, starts_no; [reflexivity|]. intros [x E]. destruct NC as [y E']. rewrite E in E'. discriminate E'. }
  assert (CN : is_nserc f = Ok true).
  { unfold is_nserc, text_lines. rewrite BN, (proj2 (begins_iff $"NSERC_" name) NC), TX. cbn [negb]. rewrite table_written by exact GR. rewrite VH, no_long by apply GT. rewrite some_rows by exact NE. reflexivity. }
  unfold from_file. rewrite (proj2 (ends_in_iff ext (fname f)) EX). cbn [negb]. unfold process. rewrite IX, CC. cbn [bind]. rewrite CN. cbn [bind].
  unfold parse_nserc, text_lines. rewrite TX, (reader_rows _ _ _ _ _ GT), map_map. cbn [fst snd]. set (rows := map (fun x => (snd (fst x), row_dict columns x)) (tagged (0 + breaks (body h) + 1) rs)).
  set (ds := map snd rows).
  assert (HD : Forall2 (fun r d => has_values columns (values r) d) rs ds).
  { unfold ds, rows. rewrite map_map. cbn [snd]. generalize (0 + breaks (body h) + 1)%N. clear -ND. induction rs as [|r rs IH]; intros n; [constructor|]. cbn [tagged map]. constructor; [exact (row_has_values columns (_, _, values r) ND)|apply IH]. }
  assert (OK : Forall row_ok ds).
  { clear -HD FULL ND. induction HD as [|r d rs ds H _ IH]; constructor; [|apply IH; intros; apply FULL; right; assumption]. destruct (FULL r (or_introl eq_refl)) as (L & i & v & E1 & E2 & NV). destruct H as [K V].
    split; [rewrite K; exact ND|]. split; [|exists v; split; [exact NV|]; rewrite (V i _ E1), E2; reflexivity]. intros k w I1. assert (I2 : In k columns) by (rewrite <- K; unfold dkeys; apply in_map_iff; exists (k, w); auto).
    destruct (In_nth_error _ _ I2) as [j J]. pose proof (V j k J) as G. assert (ND' : NoDup (dkeys d)) by (rewrite K; exact ND). rewrite (In_dget _ _ _ ND' I1) in G. destruct (nth_error (values r) j) as [x|] eqn:X; [exists x; congruence|].
    exfalso. apply nth_error_None in X. assert (j < length columns) by (apply nth_error_Some; congruence). lia. }
  destruct (C47_file_partial hash rows OK) as (s & E & M). unfold nserc_file in *. rewrite rows_ended, E. cbn [fst snd].
  destruct pep; cbn [eof_of_lines]; eexists; exists ds; (split; [reflexivity|]); repeat split; [exact HD|exact M|exact HD|exact M].
Qed.

(** A file of NSF, whose element Award is read as C63 says, gives one grant. *)
Theorem C82_nsf_partial : forall pep479 hash extension f name root top,
  file_name (fname f) name -> ends_with extension (fname f) -> ends_with $".xml" name -> ftree f = Some root -> filter (named $"Award") (e_children root) = [top] -> one_way top ->
  exists c g, from_file pep479 hash extension f = Ok c /\ c_types c = [NSFG] /\ c_bad c = false /\ c_errors c = [] /\ map m_grant (c_grants c) = [g] /\ g_kind g = NSFG /\
    (forall k, dget k (g_data g) = match leaf_value k top with Some v => Some v | None => match gathered k top with [] => None | l => Some (GTexts l) end end) /\
    match leaf_value $"AwardID" top with
    | Some (GText (x :: i)) => g_bad g = false /\ g_id g = $"NSF:" ++ x :: i
    | Some (GText []) | None => gathered $"AwardID" top = [] -> g_bad g = true /\ g_id g = $"NSF:" ++ name
    | _ => True
    end.
Proof.
  intros pep hash ext f name root top NM EX NX TR AW OW. pose proof (name_is _ _ NM) as BN. change (filter (named $"Award") (e_children root)) with (findall $"Award" root) in AW.
  assert (IX : is_nsf f = true) by (unfold is_nsf; rewrite BN, (proj2 (ends_in_iff $".xml" name) NX), TR, AW; reflexivity).
  destruct (C63_fields_partial top OW) as (d & D & DF).
  unfold from_file. rewrite (proj2 (ends_in_iff ext (fname f)) EX). cbn [negb]. unfold process. rewrite IX. unfold parse_nsf. rewrite TR, AW, D, BN. cbn [bind]. eexists. exists (nsf_grant name d). split; [reflexivity|].
  assert (DD : g_data (nsf_grant name d) = d /\ g_kind (nsf_grant name d) = NSFG) by (unfold nsf_grant; destruct (dget $"AwardID" d) as [[[|]| |]|]; split; reflexivity). destruct DD as [D1 D2].
  repeat split; [exact D2|rewrite D1; exact DF|]. pose proof (DF $"AwardID") as A. unfold nsf_grant. destruct (leaf_value $"AwardID" top) as [[[|x i]|l|]|]; try exact Logic.I.
  - intros _. rewrite A. split; reflexivity.
  - rewrite A. split; reflexivity.
  - intros GA. rewrite GA in A. rewrite A. split; reflexivity.
Qed.

(** No other file is read, and none without the extension. *)
Theorem C82_unknown : forall pep479 hash extension f name, file_name (fname f) name -> ends_with extension (fname f) ->
  ~ ends_with $".xml" name -> ~ begins_with $"cihr_" name -> ~ begins_with $"NSERC_" name -> ~ ends_with $"csv" (fname f) -> from_file pep479 hash extension f = Raise BadInputFile.
Proof.
  intros pep hash ext f name NM EX NX NC NN CS. pose proof (name_is _ _ NM) as BN. unfold from_file. rewrite (proj2 (ends_in_iff ext (fname f)) EX). cbn [negb].
  unfold process, is_nsf, is_cihr, is_nserc, is_fallback. rewrite BN, (ends_no _ _ NX), (starts_no _ _ NC), (starts_no _ _ NN), (ends_no _ _ CS). reflexivity.
Qed.
Theorem C82_extension : forall pep479 hash extension f, ~ ends_with extension (fname f) -> from_file pep479 hash extension f = Raise GrantCollectionException.
Proof. intros pep hash ext f N. unfold from_file. rewrite (ends_no _ _ N). reflexivity. Qed.

(** ** Cases *)
Definition h0 (s : str) : Z := Z.of_nat (length s).
Definition line_ (s : str) : str := s ++ [10%N].
Definition doc (name text : str) : gfile := {| fname := name; ftext := text; ftree := None |}.
Definition q1 : str := [34%N].
(** a row with a value in quotes that has a comma, a double quote and a line end *)
Definition r_head : row := {| values := [$"Who"; $"What"]; body := $"Who,What"; eol := [13; 10]%N |}.
Definition r_one : row := {| values := [$"Roe, J"; $"Be" ++ q1 ++ [10%N] ++ $"es"]; body := q1 ++ $"Roe, J" ++ q1 ++ $"," ++ q1 ++ $"Be" ++ q1 ++ q1 ++ [10%N] ++ $"es" ++ q1; eol := [10%N] |}.
Definition r_two : row := {| values := [$"Doe"]; body := $"Doe"; eol := [10%N] |}.
Ltac plain := apply as_it_is; [intros c I1 I2; cbn in I1, I2; intuition congruence|cbn; lia].
Example C82_table_ex : good_table [$"Who"; $"What"] r_head [r_one; r_two].
Proof.
  split; [|split; [reflexivity|split; [apply nodupb_NoDup; reflexivity|constructor; [|constructor; [|constructor]]]]].
  - split; [|split; [discriminate|right; reflexivity]]. exists [$"Who"; $"What"]. split; [|reflexivity]. constructor; [plain|constructor; [plain|constructor]].
  - split; [|cbn; lia]. split; [|split; [discriminate|left; reflexivity]]. exists [q1 ++ $"Roe, J" ++ q1; q1 ++ ($"Be" ++ q1 ++ q1 ++ [10%N] ++ $"es") ++ q1]. split; [|vm_compute; reflexivity].
    constructor; [apply (in_quotes $"Roe, J")|constructor; [apply (in_quotes ($"Be" ++ q1 ++ [10%N] ++ $"es"))|constructor]]; try (intros I1; vm_compute in I1; intuition congruence); vm_compute; discriminate.
  - split; [|cbn; lia]. split; [|split; [discriminate|left; reflexivity]]. exists [$"Doe"]. split; [|reflexivity]. constructor; [plain|constructor].
Qed.
Example C82_other_ex : exists c a b, from_file false h0 $"csv" (doc $"dir/my.csv" (written_out [r_head; r_one; r_two])) = Ok c /\ map m_grant (c_grants c) = [a; b] /\
  g_id a = $"my.csv-l:3-00000000000000000004" /\ g_id b = $"my.csv-l:4-00000000000000000004" /\ g_data a = [($"Who", GText $"Roe, J"); ($"What", GText ($"Be" ++ q1 ++ [10%N] ++ $"es"))] /\
  g_data b = [($"Who", GText $"Doe"); ($"What", GNone)].
Proof. do 3 eexists. split; [vm_compute; reflexivity|]. split; [vm_compute; reflexivity|]. repeat split; vm_compute; reflexivity. Qed.
Definition cihr_top : str := line_ $"Search Criteria,,,,,,,,," ++ line_ $"x,,,,,,,,," ++ line_ $",,,,,,,,,".
Example C82_cihr_ex : cihr_head cihr_top /\ exists c a b, from_file false h0 [] (doc $"cihr_1.csv" (cihr_top ++ line_ $"PI Names,Title" ++ line_ $"Roe,Bees" ++ line_ $",Ants")) = Ok c /\ c_types c = [CIHRG] /\
  map m_grant (c_grants c) = [a; b] /\ g_id a = $"cihr_1.csv-l:5-00000000000000000009" /\ g_bad a = false /\ g_bad b = true.
Proof.
  split.
  - exists $"Search Criteria,,,,,,,,,", $"x,,,,,,,,,", $",,,,,,,,,", [10%N], [10%N], [10%N]. split; [vm_compute; reflexivity|]. split; [intros l [<-|[<-|[<-|[]]]]; split; intros I1; vm_compute in I1; intuition congruence|].
    split; [intros e [<-|[<-|[<-|[]]]]; left; reflexivity|]. split; [exists $",,,,,,,,,"; reflexivity|]. split; [exists $"x"; reflexivity|exists []; reflexivity].
  - do 3 eexists. split; [vm_compute; reflexivity|]. split; [reflexivity|]. split; [vm_compute; reflexivity|]. repeat split; vm_compute; reflexivity.
Qed.
Example C82_nserc_ex : exists c a, from_file true h0 [] (doc $"NSERC_2.csv" (line_ $"Cle,Title" ++ line_ $"7,Bees" ++ line_ $"7,")) = Ok c /\ c_types c = [NSERCG] /\ map m_grant (c_grants c) = [a] /\ g_id a = $"NSERC:7" /\
  dget $"Title" (g_data a) = Some (GText $"Bees").
Proof. do 2 eexists. split; [vm_compute; reflexivity|]. split; [reflexivity|]. split; [vm_compute; reflexivity|]. split; vm_compute; reflexivity. Qed.
Example C82_nsf_ex : exists c, from_file true h0 $"xml" {| fname := $"a/1.xml"; ftext := []; ftree := Some (Elem $"rootTag" None [award]) |} = Ok c /\ map (fun m => g_id (m_grant m)) (c_grants c) = [$"NSF:77"].
Proof. eexists. split; vm_compute; reflexivity. Qed.

(** ** What does not hold *)
(** Since python 3.7 a csv file without any fault makes the collection bad; the error says that the file has decoding issues. *)
Theorem C82_errors_refuted : forall hash, exists c, from_file true hash $"csv" (doc $"my.csv" (written_out [r_head; r_one; r_two])) = Ok c /\ length (c_grants c) = 2 /\ c_bad c = true /\ c_errors c = [($"my.csv", BadGrant)].
Proof.
  intros hash. destruct (C82_other true hash $"csv" (doc $"my.csv" (written_out [r_head; r_one; r_two])) $"my.csv" [$"Who"; $"What"] r_head [r_one; r_two]) as (c & E & _ & B & R & O).
  - split; [intros I1; vm_compute in I1; intuition congruence|left; reflexivity].
  - exists $"my."; reflexivity.
  - exists $"my."; reflexivity.
  - intros [x Q]. discriminate Q.
  - intros [x Q]. discriminate Q.
  - reflexivity.
  - exact C82_table_ex.
  - discriminate.
  - intros S1. specialize (S1 $"EID"). cbn in S1. assert (In $"EID" [$"Who"; $"What"]) as I1 by (apply S1; auto 12). apply mem_In in I1. vm_compute in I1. discriminate I1.
  - exists c. split; [exact E|]. split; [|split; [exact B|exact R]]. rewrite <- (map_length m_grant). remember (map m_grant (c_grants c)) as l. clear -O. inversion O as [|? ? ? ? ? ? _ O2]; subst. inversion O2 as [|? ? ? ? ? ? _ O3]; subst. inversion O3. reflexivity.
Qed.
(** The row that is cut off by the end of a file is then lost. *)
Theorem C82_cut_refuted : forall hash, exists f c1 c2, f = doc $"my.csv" (line_ $"Who,What" ++ line_ $"Roe,Bees" ++ $"Doe," ++ q1 ++ $"An") /\
  from_file false hash [] f = Ok c1 /\ length (c_grants c1) = 2 /\ from_file true hash [] f = Ok c2 /\ length (c_grants c2) = 1.
Proof. intros hash. do 3 eexists. split; [reflexivity|]. split; [vm_compute; reflexivity|]. split; [|split; [vm_compute; reflexivity|reflexivity]]. cbn [c_grants].
  unfold gkey_of; reflexivity. Qed.
(** Two rows of a file of CIHR without PI Names and with the same values are one grant, although they are in different lines. *)
Theorem C82_same_bad_refuted : forall hash, exists c, from_file false hash [] (doc $"cihr_1.csv" (cihr_top ++ line_ $"PI Names,Title" ++ line_ $",Ants" ++ line_ $",Ants")) = Ok c /\ length (c_grants c) = 1.
Proof. intros hash. eexists. split; vm_compute; reflexivity. Qed.
(** A file of CIHR whose column has another name, or whose first lines were edited, is read as a file of an unknown kind, from its first line on. *)
Theorem C82_edited_refuted : forall hash, exists c, from_file false hash [] (doc $"cihr_1.csv" (line_ $"Search Criteria,,,,,,,,," ++ line_ $"x" ++ line_ $",,,,,,,,," ++ line_ $"PI Names,Title" ++ line_ $"Roe,Bees")) = Ok c /\
  c_types c = [FallbackG] /\ length (c_grants c) = 4 /\ c_bad c = false.
Proof. intros hash. eexists. split; [vm_compute; reflexivity|]. repeat split. Qed.
(** What csv cannot read is an error of the csv module when the file has the name of a file of NSERC or CIHR, and BadInputFile otherwise. *)
Theorem C82_csv_error_refuted : forall pep479 hash, exists text, from_file pep479 hash [] (doc $"NSERC_1.csv" text) = Raise EOther /\ from_file pep479 hash [] (doc $"x.csv" text) = Raise BadInputFile.
Proof. intros pep hash. exists (line_ $"Cle,Title" ++ [0%N]). split; vm_compute; reflexivity. Qed.

Print Assumptions C82_other.
Print Assumptions C82_cihr_partial.
Print Assumptions C82_nserc_partial.
Print Assumptions C82_nsf_partial.
Print Assumptions C82_unknown.
Print Assumptions C82_extension.
Print Assumptions C82_errors_refuted.
Print Assumptions C82_cut_refuted.
Print Assumptions C82_same_bad_refuted.
Print Assumptions C82_edited_refuted.
Print Assumptions C82_csv_error_refuted.
