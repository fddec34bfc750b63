(** * C96: the arguments of getj9dict and isJournal. *)
From Coq Require Import String.
From Verif Require Import Base PyStr Span JournalModel JournalSpec JournalProofs JournalOptModel JournalOptSpec.
Set Implicit Arguments.

Lemma file_there n (d : dict str (dict str str)) : file n d <> [] -> opened n d = d /\ exists x l, dget n d = Some (x :: l).
Proof. intros F. unfold file, opened, database in *. revert F. rewrite dhas_dget. destruct (dget n d) as [[|x l]|]; intros F; [destruct (F eq_refl)|split; [reflexivity|eauto]|destruct (F eq_refl)]. Qed.
Lemma chosen_read pages ret dbname manualDB (d : dict str (dict str str)) : files_ok d -> there ret dbname manualDB d ->
  exists r, getj9 pages dbname manualDB ret d = (d, Ok r) /\ forall j, dget j r = option_map (fun t => Names (split_char 124%N t)) (chosen ret dbname manualDB d j).
Proof.
  intros F (T1 & T2). unfold getj9, read_wos, read_manual, chosen. destruct (eqb_spec ret $"both") as [->|NB].
  - cbn [orb]. destruct (@file_there dbname d) as (-> & x & l & E); [apply T1; left; reflexivity|]. unfold db_of. rewrite E. cbn [fst snd]. rewrite dhas_dget.
    destruct (dget manualDB d) as [m|] eqn:M; eexists; (split; [reflexivity|]); intros j; unfold said, file; rewrite E.
    + rewrite (@read_into_get m (F _ _ M)), (@read_into_get _ (F _ _ E)). destruct (dget j m); [reflexivity|]. destruct (dget j (x :: l)); reflexivity.
    + rewrite (@read_into_get _ (F _ _ E)). destruct (dget j (x :: l)); reflexivity.
  - destruct (eqb_spec ret $"WOS") as [->|NW].
    + cbn [orb]. destruct (@file_there dbname d) as (-> & x & l & E); [apply T1; right; reflexivity|]. unfold db_of. rewrite E. change (eqb $"WOS" $"manual") with false. cbn [orb].
      eexists. split; [reflexivity|]. intros j. rewrite (@read_into_get _ (F _ _ E)). unfold file. rewrite E. destruct (dget j (x :: l)); reflexivity.
    + cbn [orb]. destruct (eqb_spec ret $"manual") as [->|NM].
      * rewrite dhas_dget. destruct (dget manualDB d) as [m|] eqn:M; [|destruct (T2 eq_refl eq_refl)]. unfold db_of, file. rewrite M. eexists. split; [reflexivity|]. intros j. rewrite (@read_into_get m (F _ _ M)). destruct (dget j m); reflexivity.
      * exists []. split; [reflexivity|]. reflexivity.
Qed.
(** C96: the dictionary holds what the chosen databases say, and the files stay as they are. *)
Theorem C96_choice :
  forall pages (returnDict dbname manualDB : str) (d : dict str (dict str str)), files_ok d -> there returnDict dbname manualDB d ->
    exists r, getj9 pages dbname manualDB returnDict d = (d, Ok r) /\
      forall j, dget j r = match chosen returnDict dbname manualDB d j with Some t => Some (Names (split_char 124%N t)) | None => None end.
Proof. intros pages ret dbname manualDB d F T. destruct (chosen_read pages F T) as (r & Q & G). exists r. split; [exact Q|]. intros j. rewrite G. destruct (chosen _ _ _ _ _); reflexivity. Qed.
Print Assumptions C96_choice.

Lemma answers said d check j : (forall k, dget k d = option_map (fun t => Names (split_char 124%N t)) (said k)) ->
  match check, j with
  | true, Some (x :: t) => excluded_in d (x :: t)
  | _, _ => let* n := is_journal_in d j in Ok (match n with Some n => Name n | None => Flag false end)
  end = Ok (if check : bool then Flag (excluded_by said j) else match name_by said j with Some n => Name n | None => Flag false end).
Proof.
  intros G. assert (N : is_journal_in d j = Ok (name_by said j)).
  { unfold is_journal_in, name_by. destruct j as [[|x t]|]; try reflexivity. rewrite G. destruct (said (x :: t)) as [s|]; [|reflexivity]. cbn [option_map]. destruct (split_first s) as [r E]. rewrite E. cbn [first_of bind]. destruct (first_name s); reflexivity. }
  destruct check; [|rewrite N; reflexivity]. destruct j as [[|x t]|]; try reflexivity. unfold excluded_in, excluded_by. rewrite G. destruct (said (x :: t)) as [s|]; [|reflexivity]. cbn [option_map]. destruct (split_first s) as [r E]. rewrite E. cbn [first_of]. destruct (first_name s); reflexivity.
Qed.
(** C96: the first question of a process is answered from the chosen databases: the full name or False, and with
    checkIfExcluded whether the journal is marked as excluded.  Missing: later questions, which use the same dictionary. *)
Theorem C96_first_answer_partial :
  forall pages (returnDict dbname manualDB : str) (d : dict str (dict str str)) (check : bool) (j : option str), files_ok d -> there returnDict dbname manualDB d ->
    snd (is_journal_opt pages dbname manualDB returnDict check (mkO d None) j) =
      Ok (if check then Flag (excluded_by (chosen returnDict dbname manualDB d) j)
          else match name_by (chosen returnDict dbname manualDB d) j with Some n => Name n | None => Flag false end).
Proof.
  intros pages ret dbname manualDB d check j F T. destruct (chosen_read pages F T) as (r & Q & G). unfold is_journal_opt, load_opt. cbn [dictionary dbs]. rewrite Q. cbn [snd]. apply answers, G.
Qed.
Print Assumptions C96_first_answer_partial.
(** C96: once a question was answered the arguments of all later ones, but for checkIfExcluded, have no effect: the answers are
    those of the choice of the first, whatever has happened to the files since. *)
Theorem C96_first_decides :
  forall pages (ret1 db1 man1 ret2 db2 man2 : str) (d d' : dict str (dict str str)) (check1 check : bool) (j1 j : option str) st a, files_ok d -> there ret1 db1 man1 d ->
    is_journal_opt pages db1 man1 ret1 check1 (mkO d None) j1 = (st, Ok a) ->
    snd (is_journal_opt pages db2 man2 ret2 check (mkO d' (dictionary st)) j) =
      Ok (if check then Flag (excluded_by (chosen ret1 db1 man1 d) j)
          else match name_by (chosen ret1 db1 man1 d) j with Some n => Name n | None => Flag false end).
Proof.
  intros pages ret1 db1 man1 ret2 db2 man2 d d' check1 check j1 j st a F T Q. destruct (chosen_read pages F T) as (r & Q1 & G). unfold is_journal_opt, load_opt in Q. cbn [dictionary dbs] in Q. rewrite Q1 in Q. injection Q as <- _.
  unfold is_journal_opt, load_opt. cbn [dictionary snd]. apply answers, G.
Qed.
Print Assumptions C96_first_decides.
(** C96, refuted: asked for the manual database only, after a first question with the default arguments, a journal that is not
    in it is still found. *)
Theorem C96_later_refuted : exists (d : dict str (dict str str)) (st : osession) a, files_ok d /\
  (forall ret, there ret wos_name manual_name d) /\
  is_journal_opt [] wos_name manual_name $"both" false (mkO d None) (Some $"J") = (st, Ok a) /\
  chosen $"manual" wos_name manual_name d $"J" = None /\
  snd (is_journal_opt [] wos_name manual_name $"manual" false st (Some $"J")) = Ok (Name $"Journal").
Proof.
  exists [(wos_name, [($"J", $"Journal")]); (manual_name, [($"X", $"Xy")])]. eexists _, _. split; [|split; [|split; [vm_compute; reflexivity|split; vm_compute; reflexivity]]].
  - intros n db. cbn [dget]. destruct (eqb n wos_name); [intros Q; injection Q as <-; repeat constructor; intros []|]. destruct (eqb n manual_name); [intros Q; injection Q as <-; repeat constructor; intros []|discriminate].
  - intros ret. split; intros _ Q; vm_compute in Q; discriminate.
Qed.
Print Assumptions C96_later_refuted.

(** C96: with the default names and both databases it is the function of JournalModel.v. *)
Theorem C96_default :
  forall pages (d : dict str (dict str str)),
    snd (getj9 pages wos_name manual_name $"both" d) = snd (getj9dict pages (file wos_name d) (dget manual_name d)) /\
    file wos_name (fst (getj9 pages wos_name manual_name $"both" d)) = fst (getj9dict pages (file wos_name d) (dget manual_name d)) /\
    dget manual_name (fst (getj9 pages wos_name manual_name $"both" d)) = dget manual_name d.
Proof.
  assert (NE : manual_name <> wos_name) by (intros Q; vm_compute in Q; discriminate).
  intros pages d. unfold getj9, read_wos, read_manual, getj9dict, update_file. change (eqb $"both" $"both") with true. change (eqb $"both" $"manual") with false. cbn [orb].
  assert (O : db_of wos_name (opened wos_name d) = file wos_name d). { unfold db_of, opened, file. rewrite dhas_dget. destruct (dget wos_name d) eqn:E; [rewrite E; reflexivity|]. rewrite dget_dset_same. reflexivity. }
  assert (OM : dget manual_name (opened wos_name d) = dget manual_name d). { unfold opened. destruct (dhas wos_name d); [reflexivity|]. apply dget_dset_other, NE. }
  assert (OO : opened wos_name (opened wos_name d) = opened wos_name d). { unfold opened. destruct (dhas wos_name d) eqn:E; [rewrite E; reflexivity|]. rewrite dhas_dget, dget_dset_same. reflexivity. }
  rewrite O, OO, O. destruct (file wos_name d) as [|x l] eqn:F.
  - destruct (updatej9DB pages []) as [w|e].
    + assert (DB : db_of wos_name (dset (V:=dict str str) wos_name w (opened wos_name d)) = w) by (unfold db_of; rewrite dget_dset_same; reflexivity). rewrite DB. destruct w as [|y w].
      * cbn [fst snd]. unfold file. rewrite dget_dset_same, dget_dset_other by exact NE. auto.
      * unfold db_of. rewrite dhas_dget, !dget_dset_other by exact NE. rewrite OM. destruct (dget manual_name d) as [m|]; cbn [fst snd]; unfold file; rewrite dget_dset_same, dget_dset_other by exact NE; auto.
    + cbn [fst snd]. unfold file, db_of in O |- *. rewrite O. auto.
  - rewrite dhas_dget. rewrite OM. unfold db_of at 1. rewrite OM. destruct (dget manual_name d); cbn [fst snd]; unfold file, db_of in O |- *; rewrite O, OM; auto.
Qed.
Print Assumptions C96_default.

(** C96, refuted: without a manual database, asking for it alone downloads the list of the publisher into it. *)
Theorem C96_missing_manual_refuted :
  forall pages (dbname manualDB : str) (d : dict str (dict str str)), dget manualDB d = None ->
    (forall w, updatej9DB pages [] = Ok w -> NoDup (dkeys w) ->
       exists d' r, getj9 pages dbname manualDB $"manual" d = (d', Ok r) /\ dget manualDB d' = Some w /\ (forall n, n <> manualDB -> dget n d' = dget n d) /\
         forall j, dget j r = match dget j w with Some t => Some (Names (split_char 124%N t)) | None => None end) /\
    (forall e, updatej9DB pages [] = Raise e ->
       exists d', getj9 pages dbname manualDB $"manual" d = (d', Raise e) /\ getj9 pages dbname manualDB $"manual" d' = (d', Ok [])).
Proof.
  intros pages dbname manualDB d N. unfold getj9, read_wos, read_manual, update_file. change (eqb $"manual" $"both") with false. change (eqb $"manual" $"WOS") with false. change (eqb $"manual" $"manual") with true. cbn [orb].
  unfold opened. rewrite !dhas_dget, N. unfold db_of at 1 3. rewrite !dget_dset_same. split.
  - intros w -> ND. eexists _, _. split; [reflexivity|]. split; [apply dget_dset_same|]. split; [intros n NE; rewrite !dget_dset_other by exact NE; reflexivity|]. intros j. unfold db_of. rewrite dget_dset_same, read_into_get by exact ND. reflexivity.
  - intros e ->. eexists. split; [reflexivity|]. rewrite dhas_dget, dget_dset_same. unfold db_of. rewrite dget_dset_same. reflexivity.
Qed.
Print Assumptions C96_missing_manual_refuted.
(** C96, refuted: an empty or missing database with another name than the default is never filled; asking for it fails. *)
Theorem C96_other_name_refuted :
  forall pages (returnDict dbname manualDB : str) (d : dict str (dict str str)), dbname <> wos_name -> file dbname d = [] -> returnDict = $"both" \/ returnDict = $"WOS" ->
    exists e d', getj9 pages dbname manualDB returnDict d = (d', Raise e) /\ (forall w, updatej9DB pages (file wos_name d) = Ok w -> e = RuntimeError /\ dget wos_name d' = Some w).
Proof.
  intros pages ret dbname manualDB d NE F R. unfold getj9, read_wos, update_file. assert (RR : eqb ret $"both" || eqb ret $"WOS" = true) by (destruct R as [-> | ->]; reflexivity). rewrite RR.
  assert (O : db_of dbname (opened dbname d) = []). { unfold db_of, opened. rewrite dhas_dget. unfold file in F. destruct (dget dbname d) eqn:E; [rewrite E; exact F|]. rewrite dget_dset_same. reflexivity. }
  assert (OW : db_of wos_name (opened wos_name (opened dbname d)) = file wos_name d).
  { assert (Z : dget wos_name (opened dbname d) = dget wos_name d). { unfold opened. destruct (dhas dbname d); [reflexivity|]. apply dget_dset_other. congruence. }
    unfold db_of, file. unfold opened at 1. rewrite dhas_dget, Z. destruct (dget wos_name d) eqn:E; [rewrite Z; reflexivity|]. rewrite dget_dset_same. reflexivity. }
  rewrite O, OW. destruct (updatej9DB pages (file wos_name d)) as [w|e] eqn:U.
  - assert (Z : db_of dbname (dset (V:=dict str str) wos_name w (opened wos_name (opened dbname d))) = []).
    { unfold db_of in *. rewrite dget_dset_other by exact NE. unfold opened at 1. destruct (dhas wos_name (opened dbname d)); [exact O|]. rewrite dget_dset_other by exact NE. exact O. }
    rewrite Z. eexists _, _. split; [reflexivity|]. intros w' Q. injection Q as <-. split; [reflexivity|apply dget_dset_same].
  - eexists _, _. split; [reflexivity|]. discriminate.
Qed.
Print Assumptions C96_other_name_refuted.
(** C96, refuted: a journal that a citation has excluded in this process is not seen as excluded by it, although it is by the
    next process. *)
Theorem C96_excluded_refuted :
  forall pages (returnDict dbname manualDB : str) (st st' : osession) (j : str), j <> [] ->
    cite_add_opt manualDB st j None true = (st', None) ->
    snd (is_journal_opt pages dbname manualDB returnDict true st' (Some j)) = Ok (Flag false) /\
    (files_ok (dbs st') -> there returnDict dbname manualDB (dbs st') -> returnDict = $"both" \/ returnDict = $"manual" ->
     snd (is_journal_opt pages dbname manualDB returnDict true (mkO (dbs st') None) (Some j)) = Ok (Flag true)).
Proof.
  intros pages ret dbname manualDB st st' j NJ Q. unfold cite_add_opt in Q. destruct (dictionary st) as [d|]; [|discriminate]. injection Q as <-. split.
  - destruct j as [|x t]; [congruence|]. unfold is_journal_opt, load_opt. cbn [dictionary snd]. unfold excluded_in. rewrite dget_dset_same. reflexivity.
  - intros F T R. pose proof (@C96_first_answer_partial pages ret dbname manualDB _ true (Some j) F T) as A. cbn [dbs] in *. rewrite A. do 2 f_equal. unfold excluded_by. destruct j as [|x t]; [congruence|].
    assert (C : forall db, chosen ret dbname manualDB (dset manualDB (dupdate db [(x :: t, [])]) (dbs st)) (x :: t) = Some []).
    { intros db. unfold chosen, said, file. rewrite dget_dset_same. destruct R as [-> | ->].
      - change (eqb $"both" $"both") with true. cbn [dupdate fold_left fst snd]. cbv iota. rewrite dget_dset_same. reflexivity.
      - change (eqb $"manual" $"both") with false. change (eqb $"manual" $"WOS") with false. change (eqb $"manual" $"manual") with true. cbv iota. cbn [dupdate fold_left fst snd]. rewrite dget_dset_same. reflexivity. }
    unfold addToDB. match goal with |- context [chosen ?a ?b ?c ?d ?e] => replace (chosen a b c d e) with (Some (@nil char)) by (symmetry; apply C) end. reflexivity.
Qed.
Print Assumptions C96_excluded_refuted.

Example C96_example :
  let d := [(wos_name, [($"J", $"Journal|Other"); ($"K", $"Kay")]); (manual_name, [($"K", []); ($"M", $"Mine")])] in
  files_ok d /\ (forall ret, there ret wos_name manual_name d) /\
  map (fun ret => map (fun j => snd (is_journal_opt [] wos_name manual_name ret false (mkO d None) (Some j))) [$"J"; $"K"; $"M"]) [$"both"; $"WOS"; $"manual"; $"none"] =
    [[Ok (Name $"Journal"); Ok (Flag false); Ok (Name $"Mine")]; [Ok (Name $"Journal"); Ok (Name $"Kay"); Ok (Flag false)];
     [Ok (Flag false); Ok (Flag false); Ok (Name $"Mine")]; [Ok (Flag false); Ok (Flag false); Ok (Flag false)]] /\
  snd (is_journal_opt [] wos_name manual_name $"both" true (mkO d None) (Some $"K")) = Ok (Flag true).
Proof.
  cbv zeta. split; [|split; [|split; vm_compute; reflexivity]].
  - intros n db. cbn [dget]. destruct (eqb n wos_name); [intros Q; injection Q as <-|destruct (eqb n manual_name); [intros Q; injection Q as <-|discriminate]]; (constructor; [intros [Q|[]]; vm_compute in Q; discriminate|constructor; [intros []|constructor]]).
  - intros ret. split; intros _ Q; vm_compute in Q; discriminate.
Qed.
(** a page that can be downloaded, and a session in which a citation has excluded its journal *)
Example C96_example2 :
  let page := page_text {| head := []; anchor := $"<A NAME=1"; rows := [($"Nature", $"NATURE")]; foot := [] |} in
  updatej9DB [Ok page] [] = Ok [($"NATURE", $"Nature")] /\
  getj9 [Ok page] wos_name manual_name $"manual" [] = ([(manual_name, [($"NATURE", $"Nature")])], Ok [($"NATURE", Names [$"Nature"])]) /\
  snd (getj9 [Ok page] $"mine" manual_name $"WOS" []) = Raise RuntimeError /\
  exists st st', load_opt [] wos_name manual_name $"both" (mkO [(wos_name, [($"J", $"Journal")])] None) = (st, Ok [($"J", Names [$"Journal"])]) /\
    cite_add_opt manual_name st $"J" None true = (st', None) /\ dbs st' = [(wos_name, [($"J", $"Journal")]); (manual_name, [($"J", [])])].
Proof. cbv zeta. split; [vm_compute; reflexivity|]. split; [vm_compute; reflexivity|]. split; [vm_compute; reflexivity|]. eexists _, _. split; [vm_compute; reflexivity|]. split; vm_compute; reflexivity. Qed.
