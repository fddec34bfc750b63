(** C106: the genders of names, from the file of names to the counts. *)
From Coq Require Import List ZArith Lia Bool Arith.
From Coq Require Import String.
From Verif Require Import Base PyStr CsvModel SeriesSpec RecordViewFacts AnalysisModel NamesModel NamesSpec NamesProofs.
Import ListNotations.
Local Open Scope list_scope.

Section Names.
Variable title : str -> str.
Notation ask := (name_string_gender title).
(** the name has no family name and first name *)
Definition no_pair (s : str) : Prop := forall a b, s <> a ++ $", " ++ b.

Lemma ask_file net s ne first heading rows t w : full_name s first -> good_row heading -> Forall good_row rows -> n_table w = None ->
  n_file w = Some t \/ (n_file w = None /\ net false = Gets t) -> t = file_of heading rows ->
  ask net s ne w = (Ok (Said (gender_of title rows first)), mkNames (Some t) (Some (table_of title rows))).
Proof.
  intros FN H F T D ->. destruct (full_cut s first FN) as (a & given & ws & E & <-). unfold name_string_gender. rewrite E, T. unfold get_mapping.
  destruct D as [D|(D & G)]; rewrite D; [|rewrite G]; rewrite (read_file title heading rows H F), look_up_spec, ?D; reflexivity.
Qed.
(** C106: the first question reads the file of names and answers with the gender of the last row that has the first name; later ones use what was read; ... *)
Theorem C106_first : forall net s no_except first heading rows w, full_name s first -> good_row heading -> Forall good_row rows -> n_table w = None -> n_file w = Some (file_of heading rows) ->
  exists d, ask net s no_except w = (Ok (Said (gender_of title rows first)), mkNames (n_file w) (Some d)).
Proof. intros net s ne first heading rows w FN H F T D. rewrite D. exists (table_of title rows). eapply ask_file; eauto. Qed.
(** ... without a file one is downloaded and kept; ... *)
Theorem C106_download : forall net s no_except first heading rows w, full_name s first -> good_row heading -> Forall good_row rows -> n_table w = None -> n_file w = None -> net false = Gets (file_of heading rows) ->
  exists d, ask net s no_except w = (Ok (Said (gender_of title rows first)), mkNames (Some (file_of heading rows)) (Some d)).
Proof. intros net s ne first heading rows w FN H F T D G. exists (table_of title rows). eapply ask_file; eauto. Qed.
(** ... if that fails the question raises what the download raises, also with noExcept, and nothing has changed; ... *)
Theorem C106_offline : forall net s no_except first w e, full_name s first -> n_table w = None -> n_file w = None -> net false = Fails e -> ask net s no_except w = (Raise e, w).
Proof. intros net s ne first w e FN T D G. destruct (full_cut s first FN) as (a & given & ws & E & _). unfold name_string_gender, get_mapping. rewrite E, T, D, G. reflexivity. Qed.
(** ... a name that is not a pair is unknown, whatever the file is like; without noExcept the exception is the answer, ... *)
Theorem C106_no_pair : forall net s w, no_pair s -> ask net s true w = (Ok (Said (Some $"Unknown")), w) /\ ask net s false w = (Ok (Returned GenderException), w).
Proof. intros net s w N. unfold name_string_gender. rewrite (no_cut s N). auto. Qed.
(** ... so that it is false that it raises. *)
Theorem C106_raises_refuted : forall net w, snd (ask net $"Plato" false w) = w /\ forall e, fst (ask net $"Plato" false w) <> Raise e.
Proof. intros net w. split; [reflexivity|discriminate]. Qed.

(** ** Histories *)
Fixpoint asked (es : list event) : list str := match es with [] => [] | Ask _ s _ :: es' => s :: asked es' | _ :: es' => asked es' end.
Definition same_process (e : event) : Prop := e <> Restart.
Lemma run_loaded es : forall w d, Forall same_process es -> n_table w = Some d ->
  Forall2 (fun s a => forall first, full_name s first -> exists given, a = Ok (Said (look_up title d given)) /\ hd [] (split_char sp given) = first) (asked es) (fst (run title es w)).
Proof.
  induction es as [|[net s ne|f|] es IH]; intros w d F T; [constructor| | |inversion F as [|? ? A B]; exfalso; apply A; reflexivity]; inversion F as [|? ? A B]; subst; cbn [run asked].
  - destruct (ask net s ne w) as [a w'] eqn:E. specialize (IH w' d B). destruct (run title es w') as [l w''] eqn:R. cbn [fst]. unfold name_string_gender in E. constructor.
    + intros first FN. destruct (full_cut s first FN) as (x & given & ws & C & H). rewrite C, T in E. injection E as <- <-. eauto.
    + apply IH. destruct (cut2 44%N sp s) as [|x [|y z]]; [injection E as _ <-; exact T|injection E as _ <-; exact T|]. rewrite T in E. injection E as _ <-. exact T.
  - apply IH; [exact B|exact T].
Qed.
(** Once the file has been read, changes of it, its loss or the state of the network make no difference in the same process. *)
Theorem C106_history : forall net s no_except first heading rows w es, full_name s first -> good_row heading -> Forall good_row rows -> n_table w = None -> n_file w = Some (file_of heading rows) ->
  Forall same_process es ->
  Forall2 (fun s a => forall first, full_name s first -> a = Ok (Said (gender_of title rows first))) (asked (Ask net s no_except :: es)) (fst (run title (Ask net s no_except :: es) w)).
Proof.
  intros net s ne first heading rows w es FN H F T D P. cbn [run asked]. rewrite (ask_file net s ne first heading rows _ w FN H F T (or_introl D) eq_refl).
  destruct (run title es (mkNames (Some (file_of heading rows)) (Some (table_of title rows)))) as [l w'] eqn:R. cbn [fst]. constructor.
  - intros f' FN'. destruct (full_cut s first FN) as (a & g & ws & E & <-), (full_cut s f' FN') as (a' & g' & ws' & E' & <-). rewrite E in E'. injection E' as <- <- <-. reflexivity.
  - pose proof (run_loaded es (mkNames (Some (file_of heading rows)) (Some (table_of title rows))) (table_of title rows) P eq_refl) as Q. rewrite R in Q. cbn [fst] in Q.
    clear - Q. induction Q as [|x a xs l Q _ IH]; constructor; [|exact IH]. intros f FN. destruct (Q f FN) as (given & -> & <-). rewrite look_up_spec. reflexivity.
Qed.
(** All answers of one process are from one table, whatever happens to the file and the network. *)
Theorem C106_one_table : forall es w, Forall same_process es -> exists gender : str -> option str,
  Forall2 (fun s a => forall first x, full_name s first -> a = Ok x -> x = Said (gender (title first))) (asked es) (fst (run title es w)).
Proof.
  intros es w P. assert (L : forall es w d, Forall same_process es -> n_table w = Some d ->
    Forall2 (fun s a => forall first x, full_name s first -> a = Ok x -> x = Said ((fun n => match dget n d with Some g => g | None => Some $"Unknown" end) (title first))) (asked es) (fst (run title es w))).
  { clear. intros es w d P T. pose proof (run_loaded es w d P T) as Q. clear - Q. induction Q as [|s a ss l Q _ IH]; constructor; [|exact IH]. intros first x FN E. destruct (Q first FN) as (given & -> & <-). injection E as <-. reflexivity. }
  destruct (n_table w) as [d|] eqn:T; [exists (fun n => match dget n d with Some g => g | None => Some $"Unknown" end); apply L; assumption|].
  revert w T. induction es as [|[net s ne|f|] es IH]; intros w T; [exists (fun _ => None); constructor| | |inversion P as [|? ? A B]; exfalso; apply A; reflexivity]; inversion P as [|? ? A B]; subst.
  - cbn [run asked]. destruct (ask net s ne w) as [a w'] eqn:E. unfold name_string_gender in E.
    assert (C : (exists d given, n_table w' = Some d /\ a = Ok (Said (look_up title d given)) /\ (forall first, full_name s first -> hd [] (split_char sp given) = first)) \/
                (n_table w' = None /\ forall first x, full_name s first -> a <> Ok x)).
    { destruct (cut2 44%N sp s) as [|u [|given ws]] eqn:CU.
      - injection E as <- <-. right. split; [exact T|]. intros first x FN. destruct (full_cut s first FN) as (? & ? & ? & Q & _). congruence.
      - injection E as <- <-. right. split; [exact T|]. intros first x FN. destruct (full_cut s first FN) as (? & ? & ? & Q & _). congruence.
      - rewrite T in E. destruct (get_mapping title net false w) as [[d|e] w1] eqn:G; injection E as <- <-.
        + left. exists d, given. split; [reflexivity|]. split; [reflexivity|]. intros first FN. destruct (full_cut s first FN) as (? & g & ? & Q & H). congruence.
        + right. split; [|discriminate]. unfold get_mapping in G. destruct (n_file w); [injection G as _ <-; exact T|]. destruct (net false); injection G as _ <-; exact T. }
    destruct C as [(d & given & T' & -> & H)|(T' & N)].
    + exists (fun n => match dget n d with Some g => g | None => Some $"Unknown" end). specialize (L es w' d B T'). destruct (run title es w') as [l w'']. cbn [fst] in *. constructor; [|exact L].
      intros first x FN Q. injection Q as <-. unfold look_up. rewrite (H first FN). reflexivity.
    + destruct (IH B w' T') as (g & Q). exists g. destruct (run title es w') as [l w'']. cbn [fst] in *. constructor; [|exact Q]. intros first x FN Q'. exfalso. exact (N first x FN Q').
  - apply (IH B (mkNames f (n_table w)) T).
Qed.

(** ** Interrupted downloads *)
(** questions and new starts of the interpreter, nobody touches the file *)
Definition untouched (e : event) : Prop := match e with Ask _ s _ => exists first, full_name s first | Change _ => False | Restart => True end.
(** False: that a failed download is made up for later.  If it stops before anything is written, an empty file stays, and all later questions raise StopIteration, in every
    later process and whatever the network is like; ... *)
Theorem C106_interrupted_refuted : forall net s no_except first e es, full_name s first -> net false = Stops [] e -> Forall untouched es ->
  exists l w, run title (Ask net s no_except :: es) (mkNames None None) = (Raise e :: l, w) /\ Forall (fun a => a = Raise StopIteration) l /\ n_file w = Some [].
Proof.
  intros net s ne first e es FN G U. assert (Q : forall es, Forall untouched es -> exists l, run title es (mkNames (Some []) None) = (l, mkNames (Some []) None) /\ Forall (fun a => a = Raise StopIteration) l).
  { clear. induction es as [|[net s ne|f|] es IH]; intros U; [exists []; split; [reflexivity|constructor]| | |]; inversion U as [|? ? A B]; subst.
    - destruct A as (first & FN). destruct (full_cut s first FN) as (a & given & ws & E & _). destruct (IH B) as (l & R & F). cbn [run].
      assert (K : ask net s ne (mkNames (Some []) None) = (Raise StopIteration, mkNames (Some []) None)) by (unfold name_string_gender; rewrite E; reflexivity).
      rewrite K, R. eexists. split; [reflexivity|]. constructor; [reflexivity|exact F].
    - destruct A.
    - apply IH, B. }
  destruct (Q es U) as (l & R & F). exists l, (mkNames (Some []) None). split; [|auto]. cbn [run]. destruct (full_cut s first FN) as (a & given & ws & E & _).
  assert (A : ask net s ne (mkNames None None) = (Raise e, mkNames (Some []) None)) by (unfold name_string_gender, get_mapping; rewrite E; cbn [n_table n_file]; rewrite G; reflexivity).
  rewrite A, R. reflexivity.
Qed.
(** ... if it stops after some rows, those are the table from then on: other names are unknown without any error. *)
Theorem C106_cut_refuted : forall net s no_except first e heading rows net' s' no_except' first', full_name s first -> full_name s' first' -> good_row heading -> Forall good_row rows ->
  net false = Stops (file_of heading rows) e ->
  exists w, run title [Ask net s no_except; Ask net' s' no_except'] (mkNames None None) = ([Raise e; Ok (Said (gender_of title rows first'))], w).
Proof.
  intros net s ne first e heading rows net' s' ne' first' FN FN' H F G. cbn [run]. destruct (full_cut s first FN) as (a & given & ws & E & _).
  assert (A : ask net s ne (mkNames None None) = (Raise e, mkNames (Some (file_of heading rows)) None)) by (unfold name_string_gender, get_mapping; rewrite E; cbn [n_table n_file]; rewrite G; reflexivity).
  rewrite A. rewrite (ask_file net' s' ne' first' heading rows (file_of heading rows) (mkNames (Some (file_of heading rows)) None) FN' H F eq_refl (or_introl eq_refl) eq_refl). eexists. reflexivity.
Qed.
(** False: that useUK chooses the table.  With a file in place it is not looked at. *)
Theorem C106_uk_refuted : forall net net' uk uk' w, n_file w <> None -> get_mapping title net uk w = get_mapping title net' uk' w.
Proof. intros net net' uk uk' w N. unfold get_mapping. destruct (n_file w); [reflexivity|congruence]. Qed.

(** ** Counts *)
(** genderStats counts, for each of the three genders, the different names of each record that the file gives it. *)
Definition judged (rows : list row) (names : list str) (g : str -> option str) : Prop :=
  forall n, In n names -> (exists first, full_name n first /\ g n = gender_of title rows first) \/ (no_pair n /\ g n = Some $"Unknown").
Lemma record_judged rows net g auths : judged rows auths g -> forall w t d, n_file w = Some t -> (n_table w = None -> read_names title t = Ok (table_of title rows)) -> (forall x, n_table w = Some x -> x = table_of title rows) ->
  exists w', record_names title net auths d w = (Ok (fold_left (fun d n => dset n (Said (g n)) d) auths d), w') /\ n_file w' = Some t /\ (n_table w' = None -> read_names title t = Ok (table_of title rows)) /\ (forall x, n_table w' = Some x -> x = table_of title rows).
Proof.
  induction auths as [|n auths IH]; intros J w t d D R X; [exists w; auto|]. cbn [record_names fold_left].
  assert (A : exists w', ask net n true w = (Ok (Said (g n)), w') /\ n_file w' = Some t /\ (n_table w' = None -> read_names title t = Ok (table_of title rows)) /\ (forall x, n_table w' = Some x -> x = table_of title rows)).
  { destruct (J n (or_introl eq_refl)) as [(first & FN & ->)|(N & ->)].
    - destruct (full_cut n first FN) as (a & given & ws & E & <-). unfold name_string_gender. rewrite E. destruct (n_table w) as [x|] eqn:T.
      + rewrite (X x eq_refl). rewrite look_up_spec. exists w. rewrite T. split; [reflexivity|]. split; [exact D|]. split; [discriminate|]. intros y Q. injection Q as <-. apply X. reflexivity.
      + unfold get_mapping. rewrite D, (R eq_refl), look_up_spec. eexists. split; [reflexivity|]. cbn [n_file n_table]. split; [exact D|]. split; [discriminate|]. intros y Q. injection Q as <-. reflexivity.
    - exists w. split; [apply (C106_no_pair net n w N)|]. auto. }
  destruct A as (w' & -> & D' & R' & X'). apply IH; auto. intros m I. apply J. right. exact I.
Qed.
Definition judged_as (g : str -> option str) (k : str) (n : str) : bool := match g n with Some s => eqb s k | None => false end.
Theorem C106_stats : forall net rs heading rows g w, good_row heading -> Forall good_row rows -> n_table w = None -> n_file w = Some (file_of heading rows) ->
  judged rows (concat rs) g ->
  let number k := total (fun r => length (filter (judged_as g k) (first_seen r))) rs in
  fst (stats_of title net rs (0, 0, 0) w) = Ok (number $"Male", number $"Female", number $"Unknown").
Proof.
  intros net rs heading rows g w H F T D J number.
  assert (Q : forall rs m f u w, judged rows (concat rs) g -> n_file w = Some (file_of heading rows) -> (n_table w = None -> read_names title (file_of heading rows) = Ok (table_of title rows)) -> (forall x, n_table w = Some x -> x = table_of title rows) ->
    fst (stats_of title net rs (m, f, u) w) = Ok (m + total (fun r => length (filter (judged_as g $"Male") (first_seen r))) rs, f + total (fun r => length (filter (judged_as g $"Female") (first_seen r))) rs, u + total (fun r => length (filter (judged_as g $"Unknown") (first_seen r))) rs)).
  { clear J D T w number rs. induction rs as [|r rs IH]; intros m f u w J D R X; [cbn; rewrite !Nat.add_0_r; reflexivity|].
    destruct (record_judged rows net g r (fun n I => J n (in_or_app _ _ _ (or_introl I))) w _ [] D R X) as (w' & E & D' & R' & X'). cbn [stats_of]. rewrite E.
    rewrite (fold_answers (fun n => Said (g n))). unfold counts_of, dvals. rewrite map_map. cbn [snd].
    assert (C : forall k l, length (filter (is_gender k) (map (fun n => Said (g n)) l)) = length (filter (judged_as g k) l)).
    { clear. intros k. induction l as [|n l IH]; [reflexivity|]. cbn [map filter is_gender]. unfold judged_as at 1. destruct (g n) as [s|]; [destruct (eqb s k); cbn [length]; rewrite IH; reflexivity|exact IH]. }
    rewrite !C. rewrite IH; [|intros n I; apply J; apply in_or_app; right; exact I|exact D'|exact R'|exact X'].
    unfold total. cbn [fold_right]. rewrite !Nat.add_assoc. reflexivity. }
  apply (Q rs 0 0 0 w J D); [intros _; apply read_file with (heading := heading); assumption|congruence].
Qed.
End Names.

Definition ex_heading := Row [Cell true $"Name"; Cell true $"years.appearing"; Cell true $"count.male"; Cell true $"count.female"; Cell true $"prob.gender"; Cell true $"obs.male"] false.
Definition ex_rows := [Row [Cell true $"Ann"; Cell false $"130"; Cell false $"10"; Cell false $"9000"; Cell true $"Female"; Cell false $"0.001"] false;
                       Row [Cell true $"John"; Cell false $"130"; Cell false $"9000"; Cell false $"10"; Cell true $"Male"; Cell false $"0.999"] true;
                       Row [Cell true $"Kim"; Cell false $"130"; Cell false $"50"; Cell false $"50"; Cell true $"Unknown"; Cell false []] false].
Definition ex_judge (n : str) : option str := if eqb n $"Doe, Ann B" then Some $"Female" else if eqb n $"Roe, John" then Some $"Male" else Some $"Unknown".
Example C106_ex : good_row ex_heading /\ Forall good_row ex_rows /\ full_name $"Doe, Ann B" $"Ann" /\ full_name $"Roe, John" $"John" /\ no_pair $"Plato" /\
  judged (fun s => s) ex_rows (concat [[$"Doe, Ann B"; $"Roe, John"]; [$"Plato"; $"Roe, John"; $"Roe, John"]]) ex_judge /\
  fst (run (fun s => s) [Ask (fun _ => Stops [] EOther) $"Roe, John" true; Ask (fun _ => Gets (file_of ex_heading ex_rows)) $"Roe, John" true; Change None; Restart; Ask (fun _ => Gets (file_of ex_heading ex_rows)) $"Doe, Ann B" true] (mkNames None None))
    = [Raise EOther; Raise StopIteration; Ok (Said (Some $"Female"))] /\
  fst (stats_of (fun s => s) (fun _ => Fails EOther) [[$"Doe, Ann B"; $"Roe, John"]; [$"Plato"; $"Roe, John"; $"Roe, John"]] (0, 0, 0) (mkNames (Some (file_of ex_heading ex_rows)) None)) = Ok (2, 1, 1).
Proof.
  assert (GR : forall r, good_rowb r = true -> good_row r) by (apply good_rowb_ok).
  assert (F1 : full_name $"Doe, Ann B" $"Ann"). { exists $"Doe", $" B". split; [reflexivity|]. repeat split; try (vm_compute; intuition discriminate). right. left. exists $"B". reflexivity. }
  assert (F2 : full_name $"Roe, John" $"John"). { exists $"Roe", []. split; [reflexivity|]. repeat split; try (vm_compute; intuition discriminate). }
  assert (NP : no_pair $"Plato"). { intros a b Q. assert (I : In 44%N $"Plato") by (rewrite Q; apply in_or_app; right; left; reflexivity). vm_compute in I. intuition discriminate. }
  split; [apply GR; vm_compute; reflexivity|]. split; [apply Forall_forall; intros r I; apply GR; destruct I as [<-|[<-|[<-|[]]]]; vm_compute; reflexivity|]. split; [exact F1|]. split; [exact F2|]. split; [exact NP|].
  split; [|split; vm_compute; reflexivity].
  intros n I. cbn [concat app] in I. destruct I as [<-|[<-|[<-|[<-|[<-|[]]]]]]; [left; exists $"Ann"; split; [exact F1|vm_compute; reflexivity]|left; exists $"John"; split; [exact F2|vm_compute; reflexivity]|right; split; [exact NP|reflexivity]|left; exists $"John"; split; [exact F2|vm_compute; reflexivity]..].
Qed.
Print Assumptions C106_first.
Print Assumptions C106_download.
Print Assumptions C106_offline.
Print Assumptions C106_no_pair.
Print Assumptions C106_raises_refuted.
Print Assumptions C106_history.
Print Assumptions C106_one_table.
Print Assumptions C106_interrupted_refuted.
Print Assumptions C106_cut_refuted.
Print Assumptions C106_uk_refuted.
Print Assumptions C106_stats.
