(** C83: the command line program. *)
From Coq Require Import List ZArith Lia Bool Arith.
From Coq Require Import String.
From Verif Require Import Base PyStr Nx NxFacts GraphHelpersModel GraphHelpersSpec GraphHelpersProofs JournalProofs CliModel CliSpec CliProofs.
Import ListNotations.
Local Open Scope list_scope.

(** Examples use letters of ascii *)
Definition up : str -> str := map (fun c => if ((97 <=? c) && (c <=? 122))%N then (c - 32)%N else c).
Definition num (s : str) : option ext := if eqb s $"inf" then Some PInf else option_map Fin (PyInt.py_int s).

(** A menu takes the first line that is one of its options and passes over lines that are none of them; q ends the program. *)
Theorem C83_menu : forall options ls fs ev, ~ In $"q" options -> ~ In $"i" options ->
  (forall k rest, In k options -> first_accepted (menu_line options) ls k rest -> menu options (World ls fs ev) = (Ret k, World rest fs ev)) /\
  (forall rest, first_accepted (menu_line options) ls $"q" rest -> menu options (World ls fs ev) = (Quit, World rest fs ev)) /\
  (none_accepted (menu_line options) ls -> menu options (World ls fs ev) = (Err EOFError, World [] fs ev)).
Proof.
  intros options ls fs ev NQ NI. split; [|split].
  - intros k rest I F. apply menu_runs; assumption.
  - intros rest F. unfold menu. cbn [typed files events]. pose proof (menu_line_ok options ls NQ NI) as M. destruct (menu_from options true ls) as [[k| | |] r].
    + destruct M as [I M]. destruct (first_unique _ _ _ _ _ _ F M) as [-> _]. contradiction.
    + destruct (first_unique _ _ _ _ _ _ F M) as [Q _]. discriminate.
    + destruct (first_unique _ _ _ _ _ _ F M) as [_ ->]. reflexivity.
    + destruct M as [_ M]. destruct F as (b & -> & A & _). destruct (M $"q"); [apply in_app_iff; right; left; reflexivity|exact A].
  - intros N. unfold menu. cbn [typed files events]. pose proof (menu_line_ok options ls NQ NI) as M.
    assert (X : forall s r, ~ first_accepted (menu_line options) ls s r) by (intros s r (b & E & A & _); apply (N s); [rewrite E; apply in_app_iff; right; left; reflexivity|exact A]).
    destruct (menu_from options true ls) as [[k| | |] r]; [destruct M as [_ M]; destruct (X _ _ M)|destruct (X _ _ M)|destruct (X _ _ M)|]. destruct M as [-> _]. reflexivity.
Qed.
Print Assumptions C83_menu.
Example C83_menu_example : menu [$"1"; $"2"] (World [$"7"; []; $"2"; $"1"] [] []) = (Ret $"2", World [$"1"] [] []) /\ menu [$"1"; $"2"] (World [$"0"; $"q"; $"1"] [] []) = (Quit, World [$"1"] [] []).
Proof. split; vm_compute; reflexivity. Qed.
(** The other line that every menu offers, i for a console, does not lead back to the menu: after the console the program stops with a TypeError. *)
Theorem C83_console_refuted : forall options ls rest fs ev, ~ In $"q" options -> ~ In $"i" options -> first_accepted (menu_line options) ls $"i" rest -> menu options (World ls fs ev) = (Err TypeError, World rest fs ev).
Proof.
  intros options ls rest fs ev NQ NI F. unfold menu. cbn [typed files events]. pose proof (menu_line_ok options ls NQ NI) as M. destruct (menu_from options true ls) as [[k| | |] r].
  - destruct M as [I M]. destruct (first_unique _ _ _ _ _ _ F M) as [-> _]. contradiction.
  - destruct (first_unique _ _ _ _ _ _ F M) as [_ ->]. reflexivity.
  - destruct (first_unique _ _ _ _ _ _ F M) as [Q _]. discriminate.
  - destruct M as [_ M]. destruct F as (b & -> & A & _). destruct (M $"i"); [apply in_app_iff; right; left; reflexivity|exact A].
Qed.
Print Assumptions C83_console_refuted.

(** A question is answered by the first line that is y, n or empty, in any case; empty is yes. *)
Theorem C83_question : forall upper q ls fs ev,
  (forall s rest, first_accepted (fun s => upper s = $"Y" \/ upper s = [] \/ upper s = $"N") ls s rest ->
     exists b, yes_no upper q (World ls fs ev) = (Ret b, World rest fs (ev ++ [Asked q b])) /\ (b = false <-> upper s = $"N")) /\
  (none_accepted (fun s => upper s = $"Y" \/ upper s = [] \/ upper s = $"N") ls -> yes_no upper q (World ls fs ev) = (Err EOFError, World [] fs ev)).
Proof.
  intros upper q ls fs ev. unfold yes_no. cbn [typed files events]. pose proof (yes_no_line upper ls) as Y. split.
  - intros s rest F. destruct (yes_no_from upper ls) as [[b|] r].
    + destruct Y as (s' & F' & B). destruct (first_unique _ _ _ _ _ _ F F') as [-> ->]. exists b. split; [reflexivity|]. destruct b.
      * split; [discriminate|]. intros E. destruct (proj1 B eq_refl E).
      * split; [intros _|reflexivity]. destruct (@eqb_spec str _ (upper s) $"N") as [E|N]; [exact E|]. discriminate (proj2 B N).
    + destruct Y as [_ M]. destruct F as (b & -> & A & _). destruct (M s); [apply in_app_iff; right; left; reflexivity|exact A].
  - intros N. destruct (yes_no_from upper ls) as [[b|] r]; [|destruct Y as [-> _]; reflexivity]. destruct Y as (s & (b' & E & A & _) & _). destruct (N s); [rewrite E; apply in_app_iff; right; left; reflexivity|exact A].
Qed.
Print Assumptions C83_question.
Example C83_question_example : yes_no up $"ok? " (World [$"maybe"; $"n"; $"y"] [] []) = (Ret false, World [$"y"] [] [Asked $"ok? " false]).
Proof. vm_compute. reflexivity. Qed.

(** The network that is made is the one that the lines ask for. *)
Theorem C83_network : forall upper tags make w g w', get_network upper tags make w = (Ret g, w') ->
  exists r, asks_for_network upper tags (typed w) r (typed w') /\ make r = Ok g.
Proof.
  intros upper tags make w g w' E. apply then_ok in E as (r & w1 & R & E). exists r. destruct (make r) as [g'|e]; [|discriminate]. injection E as <- <-. split; [exact (request_ok _ _ _ _ _ R)|reflexivity].
Qed.
Print Assumptions C83_network.
Example C83_network_example : get_request up [$"AU"; $"TI"] (World [$"3"; $"zz"; $"ti"; $"Au"; $"x"; []; $"1"] [] []) = (Ret (MultiMode [$"TI"; $"AU"]), World [$"1"] [] []).
Proof. vm_compute. reflexivity. Qed.
(** A tag with a small letter in its name, as those of Scopus and ProQuest records have, can not be entered. *)
Theorem C83_tag_refuted : forall ls fs ev t w', tag up [$"Title"; $"EID"] (World ls fs ev) = (Ret t, w') -> t <> $"Title".
Proof.
  intros ls fs ev t w' E. apply tag_ok in E as (s & _ & ->). intros Q. assert (F : Forall (fun c => ~ (97 <= c <= 122)%N) (up s)).
  { unfold up. apply Forall_forall. intros c I. apply in_map_iff in I as (d & <- & _). destruct (N.leb_spec 97 d), (N.leb_spec d 122); cbn [andb]; lia. }
  rewrite Q in F. inversion F; subst. inversion H2; subst. apply H3. vm_compute. split; discriminate.
Qed.
Print Assumptions C83_tag_refuted.

(** The filters that are asked for are applied one after another, each as the menu says; for undirected networks and except for the two that ask for a maximum. *)
Theorem C83_filters_partial : forall to_number g w g' w', WF g -> gdir g = false -> thresholds to_number g w = (Ret g', w') ->
  exists fs, asks_for to_number (typed w) fs (typed w') /\ (Forall (fun f => ~ a_maximum f) fs -> one_after_another fs g g').
Proof. intros to_number g w g' w' W D E. exact (thresholds_ok to_number _ g w g' w' W D E). Qed.
Print Assumptions C83_filters_partial.
(** If all weights are numbers, lines that ask for filters are followed to their end. *)
Theorem C83_filters_end : forall to_number ls fs rest g fl ev, asks_for to_number ls fs rest -> WF g -> (forall u v a, ed g u v = Some a -> exists z, int_attr $"weight" a z) ->
  exists g', thresholds to_number g (World ls fl ev) = (Ret g', World rest fl ev).
Proof. intros to_number ls fs rest g fl ev A W NW. apply (thresholds_run to_number ls fs rest A); [cbn; lia|exact W|exact NW]. Qed.
Print Assumptions C83_filters_end.
Definition weight (z : Z) : attrs := [($"weight", VInt z)].
Definition net (d : bool) : graph str := add_node $"d" [] (add_edge $"c" $"c" (weight 1) (add_edge $"b" $"c" (weight 5) (add_edge $"a" $"b" (weight 2) (empty_graph d)))).
Lemma WF_net d : WF (net d).
Proof. unfold net. repeat first [apply WF_add_node | apply WF_add_edge]. apply WF_empty. Qed.
Example C83_filters_example : exists g', thresholds num (net false) (World [$"9"; $"1"; $"3"; $"many"; $"2"; $"0"; $"1"] [] []) = (Ret g', World [$"1"] [] []) /\
  nodes g' = [$"a"; $"b"; $"c"] /\ map fst (edges g') = [($"a", $"b"); ($"b", $"c")].
Proof. eexists. vm_compute. repeat split. Qed.
(** The other two do the opposite of what they say: asked for edges of weight up to 3 the program keeps those of 3 and more, ... *)
Theorem C83_edges_above_refuted : exists g g' u v a, WF g /\ thresholds num g (World [$"4"; $"3"; $"0"] [] []) = (Ret g', World [] [] []) /\
  ed g u v = Some a /\ weighs a MInf (Fin 3) /\ ed g' u v = None /\ exists u' v' a', ed g' u' v' = Some a' /\ ~ weighs a' MInf (Fin 3).
Proof.
  exists (net false). eexists. exists $"a", $"b". eexists. split; [apply WF_net|]. split; [vm_compute; reflexivity|]. split; [vm_compute; reflexivity|]. split.
  - exists 2%Z. split; [eexists; split; reflexivity|]. split; [exact Logic.I|lia].
  - split; [vm_compute; reflexivity|]. exists $"b", $"c". eexists. split; [vm_compute; reflexivity|]. intros (z & (x & X & Y) & R). injection X as <-. injection Y as <-. destruct R as [_ R]. cbn in R. lia.
Qed.
Print Assumptions C83_edges_above_refuted.
(** ... and asked for nodes of degree up to 3 it keeps those of 3 and more; ... *)
Theorem C83_nodes_above_refuted : exists g g' n m, WF g /\ thresholds num g (World [$"6"; $"3"; $"0"] [] []) = (Ret g', World [] [] []) /\
  In n (nodes g) /\ (weighted_degree g n <= 3)%Z /\ ~ In n (nodes g') /\ In m (nodes g') /\ (3 < weighted_degree g m)%Z.
Proof.
  exists (net false). eexists. exists $"a", $"b". split; [apply WF_net|]. split; [vm_compute; reflexivity|]. split; [apply mem_In; reflexivity|]. split; [vm_compute; discriminate|].
  split; [apply mem_not_In; reflexivity|]. split; [apply mem_In; reflexivity|vm_compute; reflexivity].
Qed.
Print Assumptions C83_nodes_above_refuted.
(** ... in a directed network, as a citation network is, nodes that have only edges leading to them are dropped as isolates. *)
Theorem C83_isolates_refuted : exists g g' e n, WF g /\ gdir g = true /\ thresholds num g (World [$"1"; $"0"] [] []) = (Ret g', World [] [] []) /\
  In e (edges g) /\ touches n e = true /\ ~ In n (nodes g').
Proof.
  exists (add_edge $"a" $"b" (weight 1) (empty_graph true)). eexists. exists ($"a", $"b", weight 1), $"b". split; [apply WF_add_edge, WF_empty|]. split; [reflexivity|]. split; [vm_compute; reflexivity|].
  split; [left; reflexivity|]. split; [reflexivity|]. apply mem_not_In. reflexivity.
Qed.
Print Assumptions C83_isolates_refuted.

(** ** Files *)
(** Without a name on the command line no file that exists is overwritten unless the user has just said yes, however the session goes and ends; ... *)
Theorem C83_overwrite : forall upper arg_files tags to_number absolute cite journal in_db excluded cites make contour ls fs o w',
  session upper None arg_files tags to_number absolute cite journal in_db excluded cites make contour (World ls fs []) = (o, w') ->
  careful (events w') /\ truthful fs (events w') /\ forall f, In f (files w') <-> In f fs \/ written (events w') f.
Proof.
  intros upper arg_files tags to_number absolute cite journal in_db excluded cites make contour ls fs o w' E.
  assert (G : good fs (World ls fs [])).
  { split; [split|].
    - intros before k f o' after Q. destruct before; discriminate.
    - intros f. cbn [files events]. split; [auto|]. intros [I|(k & o' & [])]. exact I.
    - intros before k f after Q. destruct before; discriminate. }
  assert (K : keeps fs (session upper None arg_files tags to_number absolute cite journal in_db excluded cites make contour)).
  { unfold session. apply keeps_then; [apply keeps_quiet, quiet_files|]. intros _. apply keeps_then; [apply keeps_what|]. intros b. destruct b; [|apply keeps_quiet, quiet_ret].
    apply keeps_then; [apply keeps_quiet, quiet_network|]. intros g. apply keeps_then; [apply keeps_quiet, quiet_turns; intros n; apply quiet_thresholds|]. intros _. apply keeps_turns. intros n. apply keeps_output. }
  destruct (K _ _ _ E G) as [[T KN] C]. auto.
Qed.
Print Assumptions C83_overwrite.
Definition simple (name : option str) (ls fs : list str) : outcome unit * world :=
  session up name [$"in.txt"] [$"AU"] num (fun p => p) unit (fun _ => None) (fun _ _ _ => false) (fun _ _ _ => false) [] (fun _ => Ok (net false)) false (World ls fs []).
Example C83_overwrite_example :
  simple None [$"3"; $"old"; $"n"; []; $"6"; $"0"; $"1"; $"g"; $"y"] [$"in.txt"; $"old.txt"; $"g_edgeList.csv"] =
    (Ret tt, World [] [$"in.txt"; $"old.txt"; $"g_edgeList.csv"; $".txt"; $"g_nodeAttributes.csv"]
       [Asked $"old.txt already exists overwrite (y/n)? " false; Wrote RecordsFile $".txt" false; Asked $"{}, overwrite (y/n)? " true; Wrote EdgeFile $"g_edgeList.csv" true; Wrote NodeFile $"g_nodeAttributes.csv" false]).
Proof. vm_compute. reflexivity. Qed.
(** ... with a name on the command line files are overwritten without a question. *)
Theorem C83_named_refuted : exists ls fs w' f, simple (Some $"out") ls fs = (Ret tt, w') /\ In (Wrote RecordsFile f true) (events w') /\ forall q b, ~ In (Asked q b) (events w').
Proof.
  exists [$"2"], [$"in.txt"; $"out.txt"]. eexists. exists $"out.txt". split; [vm_compute; reflexivity|]. split; [left; reflexivity|]. intros q b [Q|[]]. discriminate.
Qed.
Print Assumptions C83_named_refuted.

(** A session that ends well has written what was chosen in the first menu and, if that goes on to a network, what was chosen in the last one, and no other file. *)
Theorem C83_task : forall upper arg_name arg_files tags to_number absolute cite journal in_db excluded cites make contour ls fs w',
  session upper arg_name arg_files tags to_number absolute cite journal in_db excluded cites make contour (World ls fs []) = (Ret tt, w') ->
  exists ls1 k rest l, first_accepted (menu_line task_options) ls1 k rest /\ (arg_files <> [] -> ls1 = ls) /\ first_files k l /\
    (k = $"2" \/ k = $"4" \/ k = $"6" \/ k = $"7" -> files_written (events w') = l) /\
    (k = $"1" \/ k = $"3" \/ k = $"5" -> exists g ls2 k2 rest2 l2, (exists r, make r = Ok g) /\ chosen_output contour ls2 k2 rest2 /\ last_files k2 l2 /\ files_written (events w') = l ++ l2).
Proof.
  intros upper arg_name arg_files tags to_number absolute cite journal in_db excluded cites make contour ls fs w' E. unfold session in E. apply then_ok in E as (ps & w1 & G & E). pose proof (adds_quiet _ _ _ _ _ (quiet_files _ _) G) as A1.
  assert (T : arg_files <> [] -> typed w1 = ls). { intros NE. unfold get_files in G. destruct arg_files; [congruence|]. destruct (all_there _ _ _); [|discriminate]. injection G as _ <-. reflexivity. }
  apply then_ok in E as (b & w2 & W & E). apply task_ok in W as (k & rest & l & F & FF & A & B). exists (typed w1), k, rest, l. split; [exact F|]. split; [exact T|]. split; [exact FF|]. pose proof (adds_trans _ _ _ _ _ A1 A) as A2. destruct b.
  - destruct (proj1 B eq_refl) as [K|[K|K]]; (split; [intros [Q|[Q|[Q|Q]]]; rewrite K in Q; discriminate|]); intros _;
      (apply then_ok in E as (g & w3 & N & E); pose proof (adds_quiet _ _ _ _ _ (quiet_network _ _ _) N) as A3; apply then_ok in N as (r & w3' & _ & MK); apply then_ok in E as (g' & w4 & TH & E);
       pose proof (adds_quiet _ _ _ _ _ (quiet_turns _ _ (fun n => quiet_thresholds _ n g)) TH) as A4; apply adds_output in E as (k2 & rest2 & l2 & C & LF & A5);
       exists g, (typed w4), k2, rest2, l2; split; [exists r; destruct (make r); [injection MK as <- _; reflexivity|discriminate]|]; split; [exact C|]; split; [exact LF|];
       exact (adds_trans _ _ _ _ _ A2 (adds_trans _ _ _ _ _ A3 (adds_trans _ _ _ _ _ A4 A5)))).
  - injection E as <-. split; [intros _; exact A2|]. intros K. apply B in K. discriminate.
Qed.
Print Assumptions C83_task.

(** writeGraph without overwriting writes both files or neither. *)
Theorem C83_both : forall s ls fs ev, let e := graph_name $"edgeList" s in let n := graph_name $"nodeAttributes" s in
  (In e fs \/ In n fs -> write_graph s false (World ls fs ev) = (Ret (Raise OSError), World ls fs ev)) /\
  (~ In e fs -> ~ In n fs -> write_graph s false (World ls fs ev) = (Ret (Ok tt), World ls (fs ++ [e; n]) (ev ++ [Wrote EdgeFile e false; Wrote NodeFile n false]))).
Proof.
  intros s ls fs ev e n. unfold write_graph, andthen, there, ret, write. cbn [files typed events]. fold e. fold n. split.
  - intros [I|I]; apply mem_In in I; rewrite I, ?orb_true_r; reflexivity.
  - intros N1 N2. assert (NE : e <> n). { unfold e, n, graph_name. set (p := normpath s). destruct (last (split_char 47%N p) []) as [|c l]; intros Q; apply app_inv_head in Q; discriminate. }
    apply mem_not_In in N1 as M1. apply mem_not_In in N2 as M2. rewrite M1, M2. cbn [negb orb andb files typed events]. rewrite M1. replace (mem n (fs ++ [e])) with false.
    + rewrite <- !app_assoc. reflexivity.
    + symmetry. apply mem_not_In. rewrite in_app_iff. intros [I|[I|[]]]; congruence.
Qed.
Print Assumptions C83_both.
(** The files of a graph are called after the name that is given, if that is a plain path; ... *)
Theorem C83_graph_names : forall parts what, parts <> [] -> Forall (fun p => p <> [] /\ ~ In 47%N p /\ p <> $"." /\ p <> $"..") parts ->
  graph_name what (join $"/" parts) = join $"/" parts ++ $"_" ++ what ++ $".csv" /\ graph_name what ($"/" ++ join $"/" parts) = $"/" ++ join $"/" parts ++ $"_" ++ what ++ $".csv".
Proof.
  intros parts what NE F.
  assert (S : split_char 47%N (join $"/" parts) = parts) by (apply split_join; [exact NE|]; intros l I; apply (proj1 (Forall_forall _ _) F l I)).
  assert (NP : forall abs acc, norm_parts abs acc parts = rev acc ++ parts).
  { clear S NE. intros abs. induction F as [|p ps (P1 & _ & P3 & P4) F IH]; intros acc; cbn [norm_parts]; [rewrite app_nil_r; reflexivity|].
    rewrite (neq_eqb P1), (neq_eqb P3), (neq_eqb P4). cbn [orb]. rewrite IH. cbn [rev]. rewrite <- app_assoc. reflexivity. }
  assert (H1 : exists c t, join $"/" parts = c :: t /\ c <> 47%N).
  { destruct parts as [|p ps]; [congruence|]. inversion F as [|? ? (P1 & P2 & _) _]; subst. destruct p as [|c p]; [congruence|]. exists c. destruct ps as [|q ps]; cbn [join app]; (eexists; split; [reflexivity|]; intros ->; apply P2; left; reflexivity). }
  destruct H1 as (c & t & J & NC). assert (L : lead (join $"/" parts) = []). { rewrite J. unfold lead. rewrite (neq_eqb NC). destruct t as [|? [|? ?]]; reflexivity. }
  assert (LP : exists d l, last parts [] = d :: l). { destruct (exists_last NE) as (ps & q & E). rewrite E, last_last. rewrite E in F. apply Forall_app in F as [_ F]. inversion F as [|? ? (P1 & _) _]; subst. destruct q; [congruence|eauto]. }
  destruct LP as (d & l & LP). split.
  - assert (NM : normpath (join $"/" parts) = join $"/" parts). { unfold normpath. rewrite L, S. cbn [eqb]. rewrite NP. cbn [rev app]. rewrite J. reflexivity. }
    unfold graph_name. rewrite NM, S. unfold str, char in *. rewrite LP. reflexivity.
  - assert (S2 : split_char 47%N ($"/" ++ join $"/" parts) = [] :: parts) by (change ($"/" ++ join $"/" parts) with ([] ++ 47%N :: join $"/" parts); rewrite split_char_line, S by (intros []); reflexivity).
    assert (L2 : lead ($"/" ++ join $"/" parts) = $"/"). { rewrite J. change ($"/" ++ c :: t) with (47%N :: c :: t). unfold lead. rewrite (neq_eqb NC). destruct t; reflexivity. }
    assert (NM : normpath ($"/" ++ join $"/" parts) = $"/" ++ join $"/" parts). { unfold normpath. rewrite L2, S2. cbn [norm_parts]. change (eqb (@nil char) []) with true. cbn [orb]. rewrite NP. reflexivity. }
    unfold graph_name. rewrite NM, S2. assert (LP2 : last ([] :: parts) [] = d :: l) by (destruct parts; [congruence|exact LP]). unfold str, char in *. rewrite LP2. rewrite <- app_assoc. reflexivity.
Qed.
Print Assumptions C83_graph_names.
Example C83_graph_names_example : graph_name $"edgeList" $"out/net" = $"out/net_edgeList.csv" /\ graph_name $"edgeList" $"./out/../net" = $"net_edgeList.csv".
Proof. split; vm_compute; reflexivity. Qed.
(** ... a path that ends in a slash does not name files in that directory. *)
Theorem C83_slash_refuted : graph_name $"edgeList" $"out/" = $"out_edgeList.csv" /\ graph_name $"edgeList" [] = $"._edgeList.csv".
Proof. split; vm_compute; reflexivity. Qed.
Print Assumptions C83_slash_refuted.

(** ** Journals *)
(** Going over the citations asks about each journal that the database does not know and marks it as it was answered, ... *)
Theorem C83_journals_partial : forall upper cite journal in_db excluded db cs w w', go_over upper cite journal in_db excluded db cs w = (Ret tt, w') ->
  files w' = files w /\ exists marks : list (str * bool),
    events w' = events w ++ flat_map (fun m => [Asked $"add as a journal (y/n)? " (snd m); Marked (if snd m then db else $"manualj9Abbreviations") (fst m) (snd m)]) marks /\
    (forall j b, In (j, b) marks -> exists c, In c cs /\ journal c = Some j) /\
    forall c j, In c cs -> journal c = Some j -> In j (map fst marks) \/ exists ev later, events w' = ev ++ later /\ (in_db db ev c = true \/ excluded db ev c = true).
Proof.
  intros upper cite journal in_db excluded db cs. induction cs as [|c cs IH]; intros w w' E; cbn [go_over] in E.
  - injection E as <-. split; [reflexivity|]. exists []. cbn. rewrite app_nil_r. split; [reflexivity|]. split; [intros j b []|intros c j []].
  - destruct (journal c) as [j|] eqn:J.
    + assert (X : in_db db (events w) c = true \/ excluded db (events w) c = true -> go_over upper cite journal in_db excluded db cs w = (Ret tt, w') -> files w' = files w /\ exists marks : list (str * bool),
        events w' = events w ++ flat_map (fun m => [Asked $"add as a journal (y/n)? " (snd m); Marked (if snd m then db else $"manualj9Abbreviations") (fst m) (snd m)]) marks /\
        (forall j b, In (j, b) marks -> exists c', In c' (c :: cs) /\ journal c' = Some j) /\
        forall c' j', In c' (c :: cs) -> journal c' = Some j' -> In j' (map fst marks) \/ exists ev later, events w' = ev ++ later /\ (in_db db ev c' = true \/ excluded db ev c' = true)).
      { intros K Q. destruct (IH _ _ Q) as (F & marks & V & M1 & M2). split; [exact F|]. exists marks. split; [exact V|]. split.
        - intros j0 b I. destruct (M1 _ _ I) as (c' & I' & J'). exists c'. split; [right; exact I'|exact J'].
        - intros c' j' [<-|I] J'; [|exact (M2 _ _ I J')]. right. eexists (events w), _. split; [exact V|exact K]. }
      destruct (in_db db (events w) c) eqn:D; [apply X; auto|]. destruct (excluded db (events w) c) eqn:XC; [apply X; auto|]. clear X.
      apply then_ok in E as (b & w1 & Y & E). destruct (yes_no_ends _ _ _ _ _ Y) as (F1 & [(b' & Q & V1)|(Q & _)]); [|discriminate]. injection Q as <-. apply then_ok in E as (u & w2 & N & E). unfold note in N. injection N as _ <-.
      destruct (IH _ _ E) as (F & marks & V & M1 & M2). cbn [files events] in F, V. split; [congruence|]. exists ((j, b) :: marks). split; [|split].
      * cbn [flat_map fst snd]. rewrite V, V1, <- !app_assoc. destruct b; reflexivity.
      * intros j0 b0 [Q|I]; [injection Q as <- <-; exists c; split; [left; reflexivity|exact J]|]. destruct (M1 _ _ I) as (c' & I' & J'). exists c'. split; [right; exact I'|exact J'].
      * intros c' j' [<-|I] J'; [left; left; cbn; congruence|]. destruct (M2 _ _ I J') as [H|H]; [left; right; exact H|right; exact H].
    + destruct (IH _ _ E) as (F & marks & V & M1 & M2). split; [exact F|]. exists marks. split; [exact V|]. split.
      * intros j0 b I. destruct (M1 _ _ I) as (c' & I' & J'). exists c'. split; [right; exact I'|exact J'].
      * intros c' j' [<-|I] J'; [congruence|exact (M2 _ _ I J')].
Qed.
Print Assumptions C83_journals_partial.
(** ... but one that is not a journal is marked in the default database, whatever database was chosen. *)
Theorem C83_skipped_refuted : exists db w', db <> $"manualj9Abbreviations" /\
  go_over up str (fun j => Some j) (fun _ _ _ => false) (fun _ _ _ => false) db [$"NATURE"; $"MY BOOK"] (World [$"y"; $"n"] [] []) = (Ret tt, w') /\
  In (Marked db $"NATURE" true) (events w') /\ forall b, ~ In (Marked db $"MY BOOK" b) (events w').
Proof.
  exists $"mine". eexists. split; [vm_compute; discriminate|]. split; [vm_compute; reflexivity|]. split; [cbn; auto|]. intros b I. cbn in I. repeat (destruct I as [I|I]; [discriminate|]). destruct I.
Qed.
Print Assumptions C83_skipped_refuted.

(** ** The files that are read *)
(** Files on the command line must all exist; otherwise lines are read until all paths of one, between spaces, exist. *)
Theorem C83_paths : forall arg_files absolute ls fs ev, (forall p, absolute (absolute p) = absolute p) ->
  (arg_files <> [] -> (forall p, In p arg_files -> In (absolute p) fs) -> get_files arg_files absolute (World ls fs ev) = (Ret (map absolute arg_files), World ls fs ev)) /\
  (arg_files <> [] -> (exists p, In p arg_files /\ ~ In (absolute p) fs) -> get_files arg_files absolute (World ls fs ev) = (Err TypeError, World ls fs ev)) /\
  (arg_files = [] -> forall s rest, first_accepted (fun s => forall p, In p (split_char 32%N s) -> In (absolute p) fs) ls s rest ->
     get_files arg_files absolute (World ls fs ev) = (Ret (map absolute (split_char 32%N s)), World rest fs ev)).
Proof.
  intros arg_files absolute ls fs ev ID.
  assert (A1 : forall ps, (forall p, In p ps -> In (absolute p) fs) -> all_there absolute fs ps = Ok (map absolute ps)).
  { induction ps as [|p ps IH]; intros H; cbn [all_there map]; [reflexivity|]. rewrite (proj2 (mem_In _ _) (H p (or_introl eq_refl))), IH by (intros q I; apply H; right; exact I). reflexivity. }
  assert (A2 : forall ps, (exists p, In p ps /\ ~ In (absolute p) fs) -> all_there absolute fs ps = Raise TypeError).
  { induction ps as [|p ps IH]; intros (q & I & N); cbn [all_there]; [destruct I|]. destruct (mem (absolute p) fs) eqn:M; [|reflexivity]. rewrite IH; [reflexivity|]. destruct I as [->|I]; [apply mem_In in M; contradiction|eauto]. }
  unfold get_files. cbn [files typed events]. split; [|split].
  - intros NE H. destruct arg_files as [|f r]; [congruence|]. rewrite A1 by exact H. reflexivity.
  - intros NE H. destruct arg_files as [|f r]; [congruence|]. rewrite A2 by exact H. reflexivity.
  - intros -> s rest (b & -> & A & F). replace (paths_from absolute fs (b ++ s :: rest)) with (Some (map absolute (split_char 32%N s)), rest).
    + rewrite A1. { rewrite map_map, (map_ext _ _ ID). reflexivity. } intros p I. apply in_map_iff in I as (q & <- & I). rewrite ID. apply A, I.
    + symmetry. induction b as [|x b IH]; cbn [app paths_from].
      * replace (forallb (fun p => mem p fs) (map absolute (split_char 32%N s))) with true; [reflexivity|]. symmetry. apply forallb_forall. intros p I. apply in_map_iff in I as (q & <- & I). apply mem_In, A, I.
      * destruct (forallb (fun p => mem p fs) (map absolute (split_char 32%N x))) eqn:FB; [|apply IH; intros y I; apply F; right; exact I]. exfalso. apply (F x (or_introl eq_refl)). intros p I.
        apply mem_In. apply (proj1 (forallb_forall _ _) FB). apply in_map, I.
Qed.
Print Assumptions C83_paths.
Example C83_paths_example : get_files [] (fun p => $"/" ++ p) (World [$"a c"; $"a b"; $"1"] [$"/a"; $"/b"; $"//a"; $"//b"] []) = (Ret [$"//a"; $"//b"], World [$"1"] [$"/a"; $"/b"; $"//a"; $"//b"] []).
Proof. vm_compute. reflexivity. Qed.

(** The exit status does not tell whether the program did its work: a session that ends well has the status of one that fails. *)
Theorem C83_status_refuted : exists ls ls' fs e, let '(o, w) := simple None ls fs in let '(o', w') := simple None ls' fs in
  o = Ret tt /\ In (Wrote RecordsFile $"a.txt" false) (events w) /\ o' = Err e /\ events w' = [] /\ exit_status o = exit_status o'.
Proof. exists [$"2"; $"a"], [$"2"], [$"in.txt"], EOFError. vm_compute. repeat split. left. reflexivity. Qed.
Print Assumptions C83_status_refuted.
