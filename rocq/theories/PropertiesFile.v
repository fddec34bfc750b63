(** C75: encodings and kinds of files; C76: collections written to files and read again, as bytes. *)
From Coq Require Import List ZArith Lia Bool Arith Permutation.
From Coq Require Import String.
From Verif Require Import Base PyStr FileModel FileProofs.
From Verif Require CollectionProofs JournalProofs.
From Verif Require Import WosModel WosProofs PropertiesWos MedlineModel MedlineSpec MedlineProofs2 ScopusModel ScopusSpec ScopusSpec2 ScopusProofs2 ProQuestModel PropertiesMedline PropertiesScopus.
Import ListNotations.
Local Open Scope list_scope.

(** ** C75 *)
(** C75: texts of characters other than surrogates can be encoded and are got back, two texts never have the same bytes, and bytes that can be decoded are those of
    the text; other texts raise. *)
Theorem C75_utf8 : forall s b, (utf8_encode s = Ok b -> utf8_decode b = Some s) /\ (utf8_decode b = Some s -> utf8_encode s = Ok b) /\
  ((exists b, utf8_encode s = Ok b) <-> forall c, In c s -> (c < 1114112)%N /\ ~ (55296 <= c < 57344)%N).
Proof.
  intros s b. split; [|split; [|split]].
  - intros E. apply encode_ok in E as [F ->]. apply decode_encode, F.
  - intros D. apply encode_ok, (decoded (length b)); [apply le_n|exact D].
  - intros [x E] c I. apply encode_ok in E as [F _]. exact (proj1 (Forall_forall _ _) F c I).
  - intros H. exists (flat_map utf8_char s). apply encode_ok. split; [|reflexivity]. apply Forall_forall. exact H.
Qed.
(** What the detectors look for: the mark of a WOS file in one of the first three lines, ... *)
Definition text_lines (s : str) : list str := lines (translate s).
Definition without_bom (s t : str) : Prop := s = 65279%N :: t \/ (s = t /\ forall u, s <> 65279%N :: u).
Theorem C75_wos_file : forall b, detector WosFile b = true <->
  exists s t n l before after, utf8_decode b = Some s /\ without_bom s t /\ n < 3 /\ nth_error (text_lines t) n = Some l /\ l = before ++ $"VR 1.0" ++ after.
Proof.
  intros b. cbn [detector]. unfold in_utf8. destruct (utf8_decode b) as [s|] eqn:D; [|split; [discriminate|intros (s & t & n & l & x & y & E & _); discriminate]].
  unfold is_wos_file, read_lines. assert (W : forall t, without_bom s t <-> strip_bom s = t).
  { intros t. unfold without_bom, strip_bom. destruct s as [|c u].
    - split; [intros [E|[E _]]; [discriminate|exact E]|intros <-; right; split; [reflexivity|discriminate]].
    - destruct (eqb_spec c bom) as [->|N].
      + split; [intros [E|[_ E]]; [injection E as ->; reflexivity|destruct (E u eq_refl)]|intros ->; left; reflexivity].
      + split; [intros [E|[-> _]]; [injection E as E _; destruct (N E)|reflexivity]|intros <-; right; split; [reflexivity|intros v E; injection E as E _; exact (N E)]]. }
  split.
  - intros H. apply existsb_exists in H as (l & I & C). apply contains_spec in C as (x & y & E). apply In_nth_error in I as (n & G). exists s, (strip_bom s), n, l, x, y. split; [reflexivity|]. split; [apply W; reflexivity|].
    assert (L : n < 3). { assert (Q : n < length (firstn 3 (lines (translate (strip_bom s))))) by (apply nth_error_Some; congruence). rewrite firstn_length in Q. lia. }
    split; [exact L|]. split; [|exact E]. unfold text_lines. rewrite <- (firstn_skipn 3 (lines (translate (strip_bom s)))). rewrite nth_error_app1; [exact G|]. apply nth_error_Some. congruence.
  - intros (s' & t & n & l & x & y & E & WT & L & G & C). injection E as <-. apply W in WT. subst t. apply existsb_exists. exists l. split; [|apply contains_spec; exists x, y; exact C].
    unfold text_lines in G. rewrite <- (firstn_skipn 3 (lines (translate (strip_bom s)))) in G. destruct (Nat.lt_ge_cases n (length (firstn 3 (lines (translate (strip_bom s)))))) as [Q|Q].
    + rewrite nth_error_app1 in G by exact Q. eapply nth_error_In. exact G.
    + exfalso. rewrite firstn_length in Q. assert (Q' : n < length (lines (translate (strip_bom s)))); [|lia]. rewrite <- (firstn_skipn 3 (lines (translate (strip_bom s)))). apply nth_error_Some. congruence.
Qed.
(** ... a line that starts with PMID in the first two of a Medline file, ... *)
Theorem C75_medline_file : forall b, detector MedlineFile b = true <-> exists n l after, n < 2 /\ nth_error (text_lines b) n = Some l /\ l = $"PMID- " ++ after.
Proof.
  intros b. cbn [detector]. unfold is_medline_file, latin_decode. fold (text_lines b). destruct (text_lines b) as [|l1 [|l2 ls]]; cbn [firstn existsb].
  - split; [discriminate|]. intros (n & l & x & _ & G & _). destruct n; discriminate.
  - rewrite orb_false_r, starts_with_spec. split; [intros [x E]; exists 0, l1, x; auto|]. intros (n & l & x & L & G & E). destruct n as [|n]; [injection G as <-; eauto|destruct n; discriminate].
  - rewrite orb_false_r, orb_true_iff, !starts_with_spec. split.
    + intros [[x E]|[x E]]; [exists 0, l1, x; auto|exists 1, l2, x; auto].
    + intros (n & l & x & L & G & E). destruct n as [|[|n]]; [injection G as <-; eauto|injection G as <-; eauto|lia].
Qed.
(** ... the three lines at the start of a ProQuest report, or after what the first look has consumed: one line, two lines if the first is the rule, three if also the
    second is as expected. *)
Definition rule : str := repeat 95%N 60 ++ [nl].
Definition report : str := $"Report Information from ProQuest" ++ [nl].
Theorem C75_proquest_file : forall b, detector ProQuestFile b = true <->
  exists s before after, utf8_decode b = Some s /\ text_lines s = before ++ [rule; [nl]; report] ++ after /\
    (before = [] \/ (exists x, before = [x] /\ x <> rule) \/ (exists x, before = [rule; x] /\ x <> [nl]) \/ (exists x, before = [rule; [nl]; x] /\ x <> report)).
Proof.
  intros b. cbn [detector]. unfold in_utf8. destruct (utf8_decode b) as [s|] eqn:D; [|split; [discriminate|intros (s & t & n & E & _); discriminate]].
  unfold is_proquest_file. fold (text_lines s).
  assert (RR : ruler = rule) by reflexivity.
  assert (OK : forall ls r, check_round ls = Some (true, r) <-> ls = rule :: [nl] :: report :: r).
  { intros ls r. unfold check_round. rewrite RR. destruct ls as [|a ls]; [split; discriminate|]. destruct (eqb_spec a rule) as [->|N]; [|split; [discriminate|intros E; injection E as E _; destruct (N E)]].
    destruct ls as [|c ls]; [split; discriminate|]. destruct (eqb_spec c [nl]) as [->|N]; [|split; [discriminate|intros E; injection E as E _; destruct (N E)]].
    destruct ls as [|d ls]; [split; discriminate|]. fold report. destruct (eqb_spec d report) as [->|N]; [|split; [discriminate|intros E; injection E as E _; destruct (N E)]].
    split; intros E; injection E as ->; reflexivity. }
  assert (NO : forall ls r, check_round ls = Some (false, r) <-> exists before, ls = before ++ r /\
    ((exists x, before = [x] /\ x <> rule) \/ (exists x, before = [rule; x] /\ x <> [nl]) \/ (exists x, before = [rule; [nl]; x] /\ x <> report))).
  { intros ls r. unfold check_round. rewrite RR. fold report. split.
    - destruct ls as [|a ls]; [discriminate|]. destruct (eqb_spec a rule) as [->|N]; [|intros E; injection E as ->; exists [a]; split; [reflexivity|left; eauto]].
      destruct ls as [|c ls]; [discriminate|]. destruct (eqb_spec c [nl]) as [->|N]; [|intros E; injection E as ->; exists [rule; c]; split; [reflexivity|right; left; eauto]].
      destruct ls as [|d ls]; [discriminate|]. destruct (eqb_spec d report) as [->|N]; [discriminate|intros E; injection E as ->; exists [rule; [nl]; d]; split; [reflexivity|right; right; eauto]].
    - intros (before & -> & [(x & -> & N)|[(x & -> & N)|(x & -> & N)]]); cbn [app]; rewrite ?eqb_refl, neq_eqb by exact N; reflexivity. }
  split.
  - intros H. destruct (check_round (text_lines s)) as [[[] r]|] eqn:C; [| |discriminate].
    + apply OK in C. exists s, [], r. split; [reflexivity|]. split; [exact C|left; reflexivity].
    + apply NO in C as (before & E & HB). destruct (check_round r) as [[[] r']|] eqn:C2; try discriminate. apply OK in C2. exists s, before, r'. split; [reflexivity|]. split; [rewrite E, C2; reflexivity|right; exact HB].
  - intros (s' & before & after & E & T & HB). injection E as <-. rewrite T. destruct HB as [->|HB].
    + assert (C : check_round ([] ++ [rule; [nl]; report] ++ after) = Some (true, after)) by (apply OK; reflexivity). rewrite C. reflexivity.
    + assert (C : check_round (before ++ [rule; [nl]; report] ++ after) = Some (false, [rule; [nl]; report] ++ after)) by (apply NO; eauto). rewrite C.
      assert (C2 : check_round ([rule; [nl]; report] ++ after) = Some (true, after)) by (apply OK; reflexivity). rewrite C2. reflexivity.
Qed.
(** ... and, after a byte order mark, in the first two lines of a Scopus file, the names of the usual columns up to two. *)
Definition odd_columns (cols odd : list str) : Prop := NoDup odd /\ forall c, In c odd <-> (In c cols /\ ~ In c scopus_header) \/ (In c scopus_header /\ ~ In c cols).
Lemma one_column x : sym_diff [x] scopus_header <? 3 = false.
Proof.
  apply Nat.ltb_ge. unfold sym_diff. replace (nodup eq_dec scopus_header) with scopus_header by (vm_compute; reflexivity).
  assert (G : 3 <= length (filter (fun y => negb (mem y [x])) [$"Authors"; $"Title"; $"Year"; $"Source title"])).
  { assert (M : forall y, mem y [x] = eqb y x) by (intros y; cbn; rewrite orb_false_r; reflexivity || (cbn; destruct (eqb y x); reflexivity)). cbn [filter]. rewrite !M.
    destruct (eqb_spec $"Authors" x) as [E1|_]; [subst x; vm_compute; lia|]. destruct (eqb_spec $"Title" x) as [E1|_]; [subst x; vm_compute; lia|]. destruct (eqb_spec $"Year" x) as [E1|_]; [subst x; vm_compute; lia|].
    cbn [negb length]. destruct (eqb $"Source title" x); cbn; lia. }
  change scopus_header with ([$"Authors"; $"Title"; $"Year"; $"Source title"] ++ skipn 4 scopus_header). rewrite filter_app, app_length. lia.
Qed.
Lemma sym_diff_odd cols : exists odd, odd_columns cols odd /\ sym_diff cols scopus_header = length odd.
Proof.
  exists (filter (fun x => negb (mem x scopus_header)) (nodup eq_dec cols) ++ filter (fun x => negb (mem x cols)) (nodup eq_dec scopus_header)). split; [|unfold sym_diff; rewrite app_length; reflexivity]. split.
  - apply CollectionProofs.NoDup_app_disj; [apply NoDup_filter, NoDup_nodup|apply NoDup_filter, NoDup_nodup|]. intros x I J. apply filter_In in I as [_ I]. apply filter_In in J as [J _]. apply nodup_In in J. apply mem_In in J. rewrite J in I. discriminate.
  - intros c. rewrite in_app_iff, !filter_In, !nodup_In, !negb_true_iff. assert (N : forall l : list str, mem c l = false <-> ~ In c l) by (intros l; split; [apply mem_not_In|intros NI; destruct (mem c l) eqn:M; [apply mem_In in M; contradiction|reflexivity]]). rewrite !N. reflexivity.
Qed.
Theorem C75_scopus_file : forall b, detector ScopusFile b = true <->
  exists s n l cols end_ odd, utf8_decode b = Some (65279%N :: s) /\ n < 2 /\ nth_error (text_lines s) n = Some l /\
    l = join $"," cols ++ [end_] /\ cols <> [] /\ (forall c, In c cols -> ~ In 44%N c) /\ odd_columns cols odd /\ length odd <= 2.
Proof.
  assert (X : forall l, sym_diff (header_of l) scopus_header <? 3 = true <->
    exists cols end_ odd, l = join $"," cols ++ [end_] /\ cols <> [] /\ (forall c, In c cols -> ~ In 44%N c) /\ odd_columns cols odd /\ length odd <= 2).
  { intros l. split.
    - intros H. destruct l as [|x l]; [unfold header_of in H; cbn [init_ removelast split_char] in H; rewrite one_column in H; discriminate|]. unfold header_of in H. apply Nat.ltb_lt in H. destruct (sym_diff_odd (split_char comma (init_ (x :: l)))) as (odd & O & E).
      exists (split_char comma (init_ (x :: l))), (last (x :: l) 0%N), odd. split; [|split; [|split; [|split]]].
      + change $"," with [comma]. rewrite join_split. apply (@app_removelast_last char); discriminate.
      + destruct (split_some comma (init_ (x :: l))) as (p & q & ->). discriminate.
      + intros c I. exact (split_free comma (init_ (x :: l)) c I).
      + exact O.
      + lia.
    - intros (cols & z & odd & -> & NE & NC & [ND O] & L). unfold header_of, init_. rewrite removelast_last. change $"," with [comma]. rewrite (@JournalProofs.split_join comma cols NE NC). destruct (sym_diff_odd cols) as (odd' & [ND' O'] & ->).
      apply Nat.ltb_lt. assert (PL : length odd' = length odd); [|lia]. apply Permutation_length, NoDup_Permutation; [exact ND'|exact ND|]. intros c. rewrite O, O'. reflexivity. }
  intros b. cbn [detector]. unfold in_utf8. destruct (utf8_decode b) as [s|] eqn:D; [|split; [discriminate|intros (s & n & l & c & z & o & E & _); discriminate]].
  unfold is_scopus_file. split.
  - destruct s as [|c s]; [discriminate|]. cbn [translate]. destruct (eqb_spec c cr) as [->|NC]; [discriminate|]. destruct (eqb_spec c bom) as [->|NB]; [|discriminate]. cbn [andb existsb]. cbv zeta. rewrite orb_false_r, orb_true_iff. rewrite !X. fold (text_lines s).
    assert (NE : forall n, (exists cols end_ odd, nth n (text_lines s) [] = join $"," cols ++ [end_] /\ cols <> [] /\ (forall c, In c cols -> ~ In 44%N c) /\ odd_columns cols odd /\ length odd <= 2) -> n < 2 ->
      exists s' n' l cols end_ odd, Some (bom :: s) = Some (65279%N :: s') /\ n' < 2 /\ nth_error (text_lines s') n' = Some l /\ l = join $"," cols ++ [end_] /\ cols <> [] /\ (forall c, In c cols -> ~ In 44%N c) /\ odd_columns cols odd /\ length odd <= 2).
    { intros n (cols & z & odd & E & R) L. exists s, n, (nth n (text_lines s) []), cols, z, odd. split; [reflexivity|]. split; [exact L|]. split; [|split; [exact E|exact R]]. apply nth_error_nth'. destruct (Nat.lt_ge_cases n (length (text_lines s))) as [Q|Q]; [exact Q|]. rewrite nth_overflow in E by exact Q. destruct (join $"," cols); discriminate. }
    intros [H|H]; [apply (NE 0 H); lia|apply (NE 1 H); lia].
  - intros (s' & n & l & cols & z & odd & E & L & G & EL & R). injection E as ->. cbn [translate]. change (eqb 65279%N cr) with false. change (eqb 65279%N bom) with true. cbn [andb existsb]. cbv zeta. fold (text_lines s'). apply (nth_error_nth _ _ []) in G.
    assert (Y : sym_diff (header_of (nth n (text_lines s') [])) scopus_header <? 3 = true) by (apply X; exists cols, z, odd; split; [etransitivity; [exact G|exact EL]|exact R]). destruct n as [|[|n]]; [rewrite Y; reflexivity|rewrite Y, orb_true_r; reflexivity|lia].
Qed.
(** The kind of a file is the first of WOS, Medline, ProQuest and Scopus that recognises it. Its records are all of this kind and it alone is among the collected types; the
    collection is bad and the file among the errors if the parser reports one. A file that none recognises raises, as does one without the extension. *)
Definition of_kind (k : source) (r : record) : Prop :=
  match k, r with WosFile, WosRec _ | MedlineFile, MedlineRec _ | ProQuestFile, ProQuestRec _ | ScopusFile, ScopusRec _ => True | _, _ => False end.
Theorem C75_kind : forall alpha path name ext b before,
  path = before ++ ext ->
  (forall k earlier later, [WosFile; MedlineFile; ProQuestFile; ScopusFile] = earlier ++ k :: later -> (forall j, In j earlier -> detector j b = false) -> detector k b = true ->
     match read_path alpha path name ext b with
     | Ok c => Forall (of_kind k) (f_recs c) /\ f_types c = [type_name k] /\ (name <> [] -> f_name c = name) /\ f_errors c = if f_bad c then [path] else []
     | Raise e => processor alpha k b = Raise e
     end) /\
  ((forall k, detector k b = false) -> read_path alpha path name ext b = Raise BadInputFile).
Proof.
  intros alpha path name ext b before ->. unfold read_path. assert (EX : ends_in ext (before ++ ext) = true) by (unfold ends_in; apply starts_with_spec; exists (rev before); apply rev_app_distr). rewrite EX. cbn [negb]. clear EX.
  set (nm := match name with [] => _ | _ => name end). assert (NM : name <> [] -> nm = name) by (unfold nm; destruct name; congruence). clearbody nm. split.
  - unfold handlers. generalize [WosFile; MedlineFile; ProQuestFile; ScopusFile]. intros hs k earlier later -> NE DK. induction earlier as [|j earlier IH]; cbn [app try_handlers].
    + rewrite DK. assert (P : forall rs e, processor alpha k b = Ok (rs, e) -> Forall (of_kind k) rs).
      { intros rs e. destruct k; cbn [processor of_kind].
        - unfold in_utf8. destruct (utf8_decode b) as [s|]; [|intros E; injection E as <- _; constructor]. destruct (wos_parse s) as [l x]. intros E. injection E as <- _. apply Forall_forall. intros r I. apply in_map_iff in I as (y & <- & _). exact Logic.I.
        - destruct (medline_file _ _) as [[l x]|]; [|discriminate]. intros E. injection E as <- _. apply Forall_forall. intros r I. apply in_map_iff in I as (y & <- & _). exact Logic.I.
        - unfold in_utf8. destruct (utf8_decode b) as [s|]; [|intros E; injection E as <- _; constructor]. destruct (proquest_file s) as [[l x]|]; [|discriminate]. intros E. injection E as <- _. apply Forall_forall. intros r I. apply in_map_iff in I as (y & <- & _). exact Logic.I.
        - unfold in_utf8. destruct (utf8_decode b) as [s|]; [|intros E; injection E as <- _; constructor]. intros E. injection E as <- _. apply Forall_forall. intros r I. apply in_map_iff in I as (y & <- & _). exact Logic.I. }
      destruct (processor alpha k b) as [[rs e]|e]; [|reflexivity]. cbn [bind f_recs f_types f_name f_errors f_bad]. split; [apply (P rs e eq_refl)|]. auto.
    + rewrite (NE j) by (left; reflexivity). apply IH. intros i I. apply NE. right. exact I.
  - intros N. unfold handlers. cbn [try_handlers]. rewrite !N. reflexivity.
Qed.
Theorem C75_extension : forall alpha path name ext b, (forall before, path <> before ++ ext) -> read_path alpha path name ext b = Raise RCTypeError.
Proof.
  intros alpha path name ext b N. unfold read_path. destruct (ends_in ext path) eqn:E; [|reflexivity]. exfalso. unfold ends_in in E. apply starts_with_spec in E as [x E]. apply (N (rev x)).
  rewrite <- (rev_involutive path), E, rev_app_distr, rev_involutive. reflexivity.
Qed.
(** Without a name the collection has that of the file, without directories and without what follows the last dot. *)
Theorem C75_name : forall alpha dir stem suffix b c, stem <> [] -> (forall t, stem <> $"." ++ t) -> ~ In 47%N stem -> ~ In 47%N suffix -> ~ In 46%N suffix ->
  read_path alpha (dir ++ $"/" ++ stem ++ $"." ++ suffix) [] [] b = Ok c -> f_name c = stem.
Proof.
  intros alpha dir stem suffix b c NE ND NS NS2 ND2 E. unfold read_path in E. cbn [ends_in rev starts_with negb] in E. change (ends_in [] (dir ++ $"/" ++ stem ++ $"." ++ suffix)) with true in E. cbn [negb] in E.
  rewrite (stem_of dir stem suffix NE ND NS NS2 ND2) in E. revert E. generalize handlers. intros hs. induction hs as [|k hs IH]; cbn [try_handlers]; [discriminate|]. destruct (detector k b); [|exact IH]. destruct (processor alpha k b) as [[rs e]|]; [|discriminate]. intros E. injection E as <-. reflexivity.
Qed.

(** ** C76 *)
(** a good record that was read from the bytes of a file *)
Definition read_from_bytes (r : wrec) : Prop := exists b s recs err, utf8_decode b = Some s /\ wos_parse s = (recs, err) /\ In r recs /\ wbad r = false.
Lemma bytes_file r : read_from_bytes r -> read_from_a_file r.
Proof. intros (b & s & recs & err & _ & P & I & B). exists s, recs, err. auto. Qed.
Lemma In_strip c s : In c (strip_bom s) -> In c s.
Proof. unfold strip_bom. destruct s as [|x s]; [auto|]. destruct (eqb x bom); [right; assumption|auto]. Qed.
Lemma In_translate c s : In c (translate s) -> In c s \/ c = nl.
Proof.
  assert (G : forall n s, length s <= n -> In c (translate s) -> In c s \/ c = nl); [|apply (G (length s)), le_n]. clear. induction n as [|n IH]; intros [|x s] L; cbn [translate length] in *; try (intros []; fail); [lia|].
  destruct (eqb x cr).
  - destruct s as [|d s]; [intros [<-|[]]; auto|]. destruct (eqb_spec d nl) as [->|N]; intros [<-|I]; auto.
    + apply IH in I as [I|I]; cbn in *; auto. lia.
    + apply IH in I as [I|I]; cbn in *; auto. lia.
  - intros [<-|I]; [left; left; reflexivity|]. apply IH in I as [I|I]; auto; [left; right; exact I|lia].
Qed.
Lemma scalar_ascii c : (c < 128)%N -> scalar c.
Proof. intros L. split; lia. Qed.
Lemma written_scalar r t : read_from_bytes r -> write_record r = Ok t -> Forall scalar t.
Proof.
  intros (b & s & recs & err & D & P & I & B) W. destruct (C21_written_text_is_the_source_text s recs err r P I B) as (before & body & er & after & E & _ & W'). rewrite W in W'. injection W' as ->.
  destruct (decoded (length b) b s (le_n _) D) as [F _]. apply Forall_app. split.
  - apply Forall_forall. intros c IC. assert (J : In c (translate (strip_bom s))) by (rewrite E, !in_app_iff; auto). apply In_translate in J as [J| ->]; [|apply scalar_ascii; reflexivity].
    exact (proj1 (Forall_forall _ _) F c (In_strip _ _ J)).
  - repeat constructor; apply scalar_ascii; reflexivity.
Qed.
Lemma all_scalar rs t : (forall r, In r rs -> read_from_bytes r) -> write_all rs = Ok t -> Forall scalar t.
Proof.
  revert t. induction rs as [|r rs IH]; intros t H W; cbn [write_all] in W; [injection W as <-; constructor|]. destruct (write_record r) as [a|] eqn:A; [|discriminate]. cbn [bind] in W.
  destruct (write_all rs) as [x|] eqn:X; [|discriminate]. injection W as <-. apply Forall_app. split; [eapply written_scalar; [apply H; left; reflexivity|exact A]|]. constructor; [apply scalar_ascii; reflexivity|].
  apply IH; [|reflexivity]. intros q I. apply H. right. exact I.
Qed.
Lemma wos_bytes rs : rs <> [] -> (forall r, In r rs -> read_from_bytes r) -> exists txt, write_file [$"WOSRecord"] rs = Ok txt /\ Forall scalar txt /\ write_wos_bytes rs = Ok (flat_map utf8_char txt).
Proof.
  intros NE H. assert (G : Forall good_rec rs) by (apply read_all_good; intros r I; apply bytes_file, H, I). pose proof (write_file_ok rs NE G) as W. eexists. split; [exact W|].
  assert (F : Forall scalar (bom :: concat (header_lines ++ body_lines rs ++ [$"EF"]))).
  { pose proof W as W2. unfold write_file in W2. destruct rs as [|r0 rs0] eqn:ER; [congruence|]. rewrite <- ER in *. replace (match rs with [] => true | _ => false end) with false in W2 by (rewrite ER; reflexivity). rewrite andb_false_r in W2. rewrite eqb_refl in W2.
    destruct (write_all rs) as [x|] eqn:X; [|discriminate]. cbn [bind] in W2. assert (OI : forall x y : str, Ok x = Ok y -> x = y) by (intros p q Q; congruence). apply OI in W2. rewrite <- W2. apply Forall_app. split; [|apply Forall_app; split].
    - assert (Y : forallb (fun c => negb (no_code c)) wos_header = true) by (vm_compute; reflexivity). apply Forall_forall. intros c I. rewrite forallb_forall in Y. specialize (Y c I). apply no_code_spec. destruct (no_code c); [discriminate|reflexivity].
    - eapply all_scalar; [exact H|exact X].
    - repeat constructor; apply scalar_ascii; reflexivity. }
  split; [exact F|]. unfold write_wos_bytes. rewrite W. cbn [bind]. apply encode_ok. split; [exact F|reflexivity].
Qed.
(** C76: every collection of WOS records that were read from files can be written, and the file gives a collection of the same records, of the type WOSRecord and without
    errors; ... *)
Theorem C76_wos : forall alpha rs path before ext name, rs <> [] -> NoDup (map wid rs) -> (forall r, In r rs -> read_from_bytes r) -> path = before ++ ext -> name <> [] ->
  exists b, write_wos_bytes rs = Ok b /\ read_path alpha path name ext b = Ok (mkFcoll (map WosRec rs) [$"WOSRecord"] name false []).
Proof.
  intros alpha rs path before ext name NE ND H -> NN. destruct (wos_bytes rs NE H) as (txt & W & F & B). exists (flat_map utf8_char txt). split; [exact B|].
  destruct (C22_file_roundtrip rs NE ND (fun r I => bytes_file r (H r I))) as (txt' & W' & IS & P). rewrite W in W'. injection W' as <-.
  unfold read_path. assert (EX : ends_in ext (before ++ ext) = true) by (unfold ends_in; apply starts_with_spec; exists (rev before); apply rev_app_distr). rewrite EX. cbn [negb handlers try_handlers detector processor]. unfold in_utf8. rewrite decode_encode by exact F. rewrite IS, P.
  cbn [bind]. destruct name; [congruence|reflexivity].
Qed.
(** ... if the writing was interrupted at any byte, reading the file raises or reports an error; ... *)
Lemma two_lines (l1 l2 : str) ls rest w m : full_line l1 -> full_line l2 -> ls = l1 ++ l2 ++ rest -> ls = w ++ m -> m <> [] ->
  lines w = [] \/ (exists q x, l1 = q ++ x /\ q <> [] /\ lines w = [q]) \/ lines w = [l1] \/ (exists q x, l2 = q ++ x /\ q <> [] /\ lines w = [l1; q]) \/ (exists L, lines w = l1 :: l2 :: L).
Proof.
  intros (b1 & E1 & N1) (b2 & E2 & N2) E W NM. assert (LS : lines ls = l1 :: l2 :: lines rest).
  { rewrite E, E1, <- app_assoc. cbn [app]. rewrite lines_full by exact N1. rewrite E2, <- app_assoc. cbn [app]. rewrite lines_full by exact N2. reflexivity. }
  assert (T : Trunc (lines ls) (lines w)). { apply (@lines_prefix (lines ls) w m); [apply lines_file_lines|rewrite lines_concat; exact W|exact NM]. }
  rewrite LS in T. generalize dependent (lines w). intros lw T. inversion T as [l ls0|l q x ls0 EQ NQ NX NN|l ls0 ps T2]; subst.
  - left. reflexivity.
  - right. left. exists q, x. auto.
  - right. right. inversion T2 as [l ls0|l q x ls0 EQ NQ NX NN|l ls0 ps' T3]; subst.
    + left. reflexivity.
    + right. left. exists q, x. auto.
    + right. right. exists ps'. reflexivity.
Qed.
Definition fn_line : str := $"FN Thomson Reuters Web of Science" ++ [8482%N; nl].
Definition vr_line : str := $"VR 1.0" ++ [nl].
Lemma fl_ok (l : str) : l <> [] -> last l 0%N = nl -> mem nl (removelast l) = false -> full_line l.
Proof. intros NE L M. exists (removelast l). split; [rewrite <- L; apply app_removelast_last, NE|apply mem_not_In, M]. Qed.
Theorem C76_interrupted : forall alpha rs path before ext name b written missing, rs <> [] -> (forall r, In r rs -> read_from_bytes r) -> path = before ++ ext ->
  write_wos_bytes rs = Ok b -> b = written ++ missing -> missing <> [] ->
  match read_path alpha path name ext written with Ok c => f_bad c = true /\ f_errors c = [path] | Raise e => e = BadInputFile end.
Proof.
  intros alpha rs path before ext name b w m NE H -> B E NM. destruct (wos_bytes rs NE H) as (txt & W & F & B'). rewrite B in B'. injection B' as B'.
  assert (G : Forall good_rec rs) by (apply read_all_good; intros r I; apply bytes_file, H, I). pose proof (write_file_ok rs NE G) as WO. rewrite W in WO. assert (OI : forall x y : str, Ok x = Ok y -> x = y) by (intros p q Q; congruence). apply OI in WO.
  set (rest := concat (body_lines rs ++ [$"EF"])). assert (TX : txt = bom :: fn_line ++ vr_line ++ rest) by (rewrite WO; reflexivity).
  assert (NC : ~ In cr txt) by (rewrite WO; intros [Q|I]; [discriminate|exact (cr_free rs G I)]).
  assert (ML : is_medline_file w = false).
  { unfold is_medline_file. rewrite translate_id. 2: { intros I. apply NC. apply (In_encode cr txt eq_refl). rewrite <- B', E. apply in_or_app. left. exact I. }
    destruct (two_lines (flat_map utf8_char (bom :: fn_line)) vr_line b (flat_map utf8_char rest) w m) as [Q|[(q & x & EQ & NQ & Q)|[Q|[(q & x & EQ & NQ & Q)|(L & Q)]]]]; try assumption.
    - apply fl_ok; [discriminate|reflexivity|reflexivity].
    - apply fl_ok; [discriminate|reflexivity|reflexivity].
    - rewrite B', TX. rewrite app_comm_cons, !flat_map_app. reflexivity.
    - rewrite Q. reflexivity.
    - rewrite Q. destruct q as [|c q]; [congruence|]. injection EQ as <- _. reflexivity.
    - rewrite Q. reflexivity.
    - rewrite Q. destruct q as [|c q]; [congruence|]. injection EQ as <- _. reflexivity.
    - rewrite Q. reflexivity. }
  unfold read_path. assert (EX : ends_in ext (before ++ ext) = true) by (unfold ends_in; apply starts_with_spec; exists (rev before); apply rev_app_distr). rewrite EX. cbn [negb handlers try_handlers detector processor].
  unfold latin_decode. rewrite ML. unfold in_utf8. destruct (utf8_decode w) as [p|] eqn:D; [|reflexivity].
  pose proof (decode_app w m p D) as DA. rewrite <- E, B', decode_encode in DA by exact F. destruct (utf8_decode m) as [t|] eqn:DM; [|discriminate]. injection DA as DA.
  assert (NT : t <> []). { intros ->. destruct (decoded (length m) m [] (le_n _) DM) as [_ ->]. exact (NM eq_refl). }
  destruct (is_wos_file p).
  - pose proof (C23_interrupted_file_is_reported rs txt p t NE (fun r I => bytes_file r (H r I)) W DA NT) as R. destruct (wos_parse p) as [l [e|]]; [|cbn in R; congruence]. cbn [bind f_bad f_errors]. auto.
  - assert (NCP : ~ In cr p) by (intros I; apply NC; rewrite DA; apply in_or_app; left; exact I).
    assert (PQ : is_proquest_file p = false).
    { unfold is_proquest_file. rewrite translate_id by exact NCP. destruct (two_lines (bom :: fn_line) vr_line txt rest p t) as [Q|[(q & x & EQ & NQ & Q)|[Q|[(q & x & EQ & NQ & Q)|(L & Q)]]]]; try assumption.
      - apply fl_ok; [discriminate|reflexivity|reflexivity].
      - apply fl_ok; [discriminate|reflexivity|reflexivity].
      - rewrite Q. reflexivity.
      - rewrite Q. destruct q as [|c q]; [congruence|]. injection EQ as <- _. reflexivity.
      - rewrite Q. reflexivity.
      - rewrite Q. destruct q as [|c q]; [congruence|]. injection EQ as <- _. reflexivity.
      - rewrite Q. reflexivity. }
    rewrite PQ. assert (SC : is_scopus_file p = false); [|rewrite SC; reflexivity].
    unfold is_scopus_file. rewrite translate_id by exact NCP. destruct p as [|c p]; [reflexivity|]. cbn [app] in DA. rewrite TX in DA. injection DA as <- DA. rewrite eqb_refl. cbn [andb]. cbv zeta.
    assert (HO : forall q : str, ~ In comma q -> sym_diff (header_of q) scopus_header <? 3 = false).
    { intros q N. unfold header_of, init_. rewrite split_one; [apply one_column|]. intros I. apply N. destruct q as [|x q]; [destruct I|]. rewrite (app_removelast_last 0%N (l := x :: q)) by discriminate. apply in_or_app. left. exact I. }
    assert (N1 : ~ In comma fn_line) by (apply mem_not_In; vm_compute; reflexivity). assert (N2 : ~ In comma vr_line) by (apply mem_not_In; vm_compute; reflexivity).
    destruct (two_lines fn_line vr_line (fn_line ++ vr_line ++ rest) rest p t) as [Q|[(q & x & EQ & NQ & Q)|[Q|[(q & x & EQ & NQ & Q)|(L & Q)]]]]; try assumption; try reflexivity.
    + apply fl_ok; [discriminate|reflexivity|reflexivity].
    + apply fl_ok; [discriminate|reflexivity|reflexivity].
    + rewrite Q. cbn [nth existsb]. rewrite !HO; [reflexivity|intros []].
    + rewrite Q. cbn [nth existsb]. rewrite !HO; [reflexivity|intros []|]. intros I. apply N1. rewrite EQ. apply in_or_app. left. exact I.
    + rewrite Q. cbn [nth existsb]. rewrite !HO; [reflexivity|intros []|exact N1].
    + rewrite Q. cbn [nth existsb]. rewrite !HO; [reflexivity| |exact N1]. intros I. apply N2. rewrite EQ. apply in_or_app. left. exact I.
    + rewrite Q. cbn [nth existsb]. rewrite !HO; [reflexivity|exact N2|exact N1].
Qed.
(** ... collections of Medline records can be written if their characters are in latin-1, and come back, provided that nothing in the file looks like the header of a WOS file; ... *)
Lemma not_wos s : ~ In cr s -> contains $"VR 1.0" s = false -> is_wos_file s = false.
Proof.
  intros NC N. unfold is_wos_file, read_lines. destruct (existsb _ _) eqn:X; [|reflexivity]. exfalso. apply existsb_exists in X as (l & I & C). rewrite translate_id in I by (intros J; apply NC, In_strip, J).
  assert (Y : contains $"VR 1.0" s = true); [|congruence]. apply contains_spec. apply contains_spec in C as (a & b & ->).
  assert (J : In (a ++ $"VR 1.0" ++ b) (lines (strip_bom s))) by (rewrite <- (firstn_skipn 3 (lines (strip_bom s))); apply in_or_app; left; exact I).
  assert (Z : exists u v, strip_bom s = u ++ $"VR 1.0" ++ v).
  { apply in_split in J as (l1 & l2 & E). exists (concat l1 ++ a), (b ++ concat l2). rewrite <- (lines_concat (strip_bom s)), E, concat_app. cbn [concat]. rewrite <- !app_assoc. reflexivity. }
  destruct Z as (u & v & E). unfold strip_bom in E. destruct s as [|c s]; [destruct u; discriminate|]. destruct (eqb c bom); [exists (c :: u), v; rewrite E; reflexivity|exists u, v; exact E].
Qed.
Theorem C76_medline_partial : forall alpha rs path before ext name b, letters alpha -> rs <> [] -> Forall (writable alpha) rs -> NoDup (map mid rs) -> path = before ++ ext -> name <> [] ->
  write_medline_bytes rs = Ok b -> (forall x y, b <> x ++ $"VR 1.0" ++ y) ->
  exists rs', read_path alpha path name ext b = Ok (mkFcoll (map MedlineRec rs') [$"MedlineRecord"] name false []) /\ Forall2 same_record rs' rs.
Proof.
  intros alpha rs path before ext name b AL NE F ND -> NN W NV. destruct (file_back alpha rs AL NE F ND) as (txt & rs' & WT & IS & P & SR). unfold write_medline_bytes in W. rewrite WT in W. cbn [bind] in W. unfold latin_encode in W. destruct (forallb (fun c : N => (c <? 256)%N) txt); [|discriminate]. injection W as <-.
  exists rs'. split; [|exact SR]. assert (NC : ~ In cr txt).
  { destruct (records_lines alpha AL rs F ND) as (L & rs2 & E1 & E2 & E3 & _). unfold write_mfile in WT. destruct rs as [|r rs]; [congruence|]. rewrite E1 in WT. cbn [bind] in WT. injection WT as <-. intros [Q|I]; [discriminate|]. apply in_concat in I as (l & IL & IC). exact (E3 l IL IC). }
  unfold read_path. assert (EX : ends_in ext (before ++ ext) = true) by (unfold ends_in; apply starts_with_spec; exists (rev before); apply rev_app_distr). rewrite EX. cbn [negb handlers try_handlers detector processor].
  assert (NW : in_utf8 txt false is_wos_file = false).
  { unfold in_utf8. destruct (utf8_decode txt) as [s|] eqn:D; [|reflexivity]. destruct (decoded (length txt) txt s (le_n _) D) as [_ EQ]. apply not_wos.
    - intros I. apply NC. rewrite EQ. apply In_encode; [reflexivity|exact I].
    - destruct (contains $"VR 1.0" s) eqn:C; [|reflexivity]. exfalso. apply contains_encode in C; [|apply ascii_text; reflexivity]. rewrite <- EQ in C. apply contains_spec in C as (x & y & C). exact (NV x y C). }
  rewrite NW. unfold latin_decode. rewrite IS, P. cbn [bind]. destruct name; [congruence|reflexivity].
Qed.
(** ... likewise Scopus records. *)
Theorem C76_scopus_partial : forall alpha rs path before ext name b, rs <> [] -> Forall swritable rs -> Forall one_line rs -> NoDup (map sid rs) -> path = before ++ ext -> name <> [] ->
  write_scopus_bytes rs = Ok b -> (forall x y, b <> x ++ $"VR 1.0" ++ y) ->
  exists rs', read_path alpha path name ext b = Ok (mkFcoll (map ScopusRec rs') [$"ScopusRecord"] name false []) /\ Forall2 same_srec rs' rs.
Proof.
  intros alpha rs path before ext name b NE F O ND -> NN W NV. destruct (sfile_back rs NE F O ND) as (txt & rs' & WT & IS & P & SR). unfold write_scopus_bytes in W. rewrite WT in W. cbn [bind] in W. apply encode_ok in W as [SC ->].
  exists rs'. split; [|exact SR]. assert (NC : ~ In cr txt).
  { destruct (records_rows rs F O ND) as (L & rs2 & E1 & E2 & E3 & _). unfold write_sfile in WT. destruct rs as [|r rs]; [congruence|]. rewrite E1 in WT. cbn [bind] in WT. assert (OI : forall x y : str, Ok x = Ok y -> x = y) by (intros p q Q; congruence). apply OI in WT. rewrite <- WT.
    rewrite !in_app_iff. intros [I|[I|[I|I]]].
    - destruct I as [I|[]]; discriminate.
    - revert I. apply mem_not_In. vm_compute. reflexivity.
    - destruct I as [I|[]]; discriminate.
    - apply in_concat in I as (l & IL & IC). exact (E3 l IL IC). }
  assert (SH : exists rest, txt = bom :: (join [comma] scopus_header ++ [nl]) ++ 34%N :: rest).
  { unfold write_sfile in WT. destruct rs as [|r rs]; [congruence|]. cbn [write_srecs] in WT. unfold write_srec in WT. destruct (sbad r); [discriminate|]. cbn [bind] in WT. destruct (write_srecs rs) as [y|]; [|discriminate]. cbn [bind] in WT.
    assert (OI : forall x y : str, Ok x = Ok y -> x = y) by (intros p q Q; congruence). apply OI in WT. unfold write_scopus in WT. change scopus_header with ($"Authors" :: $"Title" :: skipn 2 scopus_header) in WT at 2. cbn [map] in WT.
    eexists. rewrite <- WT. rewrite <- !app_assoc. reflexivity. }
  destruct SH as (rest & TX). set (hl := join [comma] scopus_header ++ [nl]) in *. assert (NB : ~ In cr (flat_map utf8_char txt)) by (intros I; apply NC; apply (In_encode cr txt eq_refl); exact I).
  assert (FH : forall pre : str, ~ In nl pre -> full_line (pre ++ hl)) by (intros pre N; exists (pre ++ join [comma] scopus_header); split; [unfold hl; rewrite app_assoc; reflexivity|]; rewrite in_app_iff; intros [I|I]; [exact (N I)|revert I; apply mem_not_In; vm_compute; reflexivity]).
  assert (LN : forall (pre : str) r, ~ In nl pre -> exists l2 L, lines (pre ++ hl ++ 34%N :: r) = (pre ++ hl) :: (34%N :: l2) :: L).
  { intros pre r N. assert (N' : ~ In nl (pre ++ join [comma] scopus_header)) by (rewrite in_app_iff; intros [I|I]; [exact (N I)|revert I; apply mem_not_In; vm_compute; reflexivity]).
    assert (E : pre ++ hl ++ 34%N :: r = (pre ++ join [comma] scopus_header) ++ nl :: 34%N :: r) by (unfold hl; rewrite <- !app_assoc; reflexivity). rewrite E, lines_full by exact N'.
    assert (E2 : (pre ++ join [comma] scopus_header) ++ [nl] = pre ++ hl) by (unfold hl; rewrite <- app_assoc; reflexivity). rewrite E2.
    pose proof (lines_concat (34%N :: r)) as LC. pose proof (lines_file_lines (34%N :: r)) as LF. destruct (lines (34%N :: r)) as [|l L]; [discriminate|]. apply file_lines_ne in LF. destruct l as [|x l]; [congruence|]. injection LC as -> _. eauto. }
  unfold read_path. assert (EX : ends_in ext (before ++ ext) = true) by (unfold ends_in; apply starts_with_spec; exists (rev before); apply rev_app_distr). rewrite EX. cbn [negb handlers try_handlers detector processor]. unfold in_utf8. rewrite decode_encode by exact SC.
  rewrite not_wos; [|exact NC|]. 2: { destruct (contains $"VR 1.0" txt) eqn:C; [|reflexivity]. exfalso. apply contains_encode in C; [|apply ascii_text; reflexivity]. apply contains_spec in C as (x & y & C). exact (NV x y C). }
  assert (ML : is_medline_file (latin_decode (flat_map utf8_char txt)) = false).
  { unfold is_medline_file, latin_decode. rewrite translate_id by exact NB. destruct (LN [239%N; 187%N; 191%N] (flat_map utf8_char rest)) as (l2 & L & Q); [apply mem_not_In; vm_compute; reflexivity|].
    assert (E3 : flat_map utf8_char txt = [239%N; 187%N; 191%N] ++ hl ++ 34%N :: flat_map utf8_char rest).
    { rewrite TX. change (bom :: hl ++ 34%N :: rest) with ([bom] ++ hl ++ [34%N] ++ rest). rewrite !flat_map_app. rewrite (encode_ascii hl) by (apply ascii_text; vm_compute; reflexivity). reflexivity. }
    assert (Q' := eq_trans (f_equal lines E3) Q). rewrite Q'. reflexivity. }
  rewrite ML. assert (PQ : is_proquest_file txt = false).
  { unfold is_proquest_file. rewrite translate_id by exact NC. rewrite TX. destruct (LN [bom] rest) as (l2 & L & Q); [apply mem_not_In; vm_compute; reflexivity|]. change (bom :: hl ++ 34%N :: rest) with ([bom] ++ hl ++ 34%N :: rest). rewrite Q. reflexivity. }
  rewrite PQ, IS, P. cbn [bind]. destruct name; [congruence|reflexivity].
Qed.
(** Otherwise they are lost: a Medline or Scopus file with this text in its first three lines is taken for a WOS file, that has no records. *)
Definition med_vr : mrec := mkMrec (Some $"PMID:12") [($"PMID", [$"12"]); ($"TI", [$"Revision of VR 1.0"])] false None.
Theorem C76_medline_refuted : exists rs b, Forall (writable ascii_letter) rs /\ NoDup (map mid rs) /\ length rs = 1 /\ write_medline_bytes rs = Ok b /\
  read_path ascii_letter $"dir/a.txt" [] $"txt" b = Ok (mkFcoll [] [$"WOSRecord"] $"a" true [$"dir/a.txt"]).
Proof.
  exists [med_vr]. eexists. split; [|split; [apply nodupb_NoDup; reflexivity|split; [reflexivity|split; [vm_compute; reflexivity|vm_compute; reflexivity]]]].
  constructor; [|constructor]. split; [reflexivity|]. split; [reflexivity|]. split; [|split; [|split]].
  - split; [apply nodupb_NoDup; reflexivity|]. intros t vs I1. cbn in I1.
    repeat (destruct I1 as [I1|I1]; [injection I1 as <- <-; split; [split; [discriminate|split; [cbn; lia|]]|discriminate]; intros c IC; cbn in IC; repeat (destruct IC as [<-|IC]; [reflexivity|]); destruct IC|]). destruct I1.
  - split; [apply nodupb_NoDup; reflexivity|]. exists (fun _ _ => []). intros t I1. cbn in I1. destruct I1 as [<-|[<-|[]]]; (split; [reflexivity|]); intros a [].
  - intros t vs v I1 I2. cbn in I1. repeat (destruct I1 as [I1|I1]; [injection I1 as <- <-; cbn in I2; repeat (destruct I2 as [<-|I2]; [apply mem_not_In; reflexivity|]); destruct I2|]). destruct I1.
  - do 3 eexists. split; reflexivity.
Qed.
Definition scp_vr : srec := mkSrec (Some $"EID:2-s2") [($"Title", $"Revision of VR 1.0"); ($"EID", $"2-s2")] false None.
Theorem C76_scopus_refuted : exists rs b, Forall swritable rs /\ Forall one_line rs /\ NoDup (map sid rs) /\ length rs = 1 /\ write_scopus_bytes rs = Ok b /\
  read_path ascii_letter $"dir/a.txt" [] $"txt" b = Ok (mkFcoll [] [$"WOSRecord"] $"a" true [$"dir/a.txt"]).
Proof.
  assert (C : forall k, column k (sdata scp_vr) = $"Revision of VR 1.0" \/ column k (sdata scp_vr) = $"2-s2" \/ column k (sdata scp_vr) = []).
  { intros k. unfold column, scp_vr, sdata. cbn [dget]. destruct (eqb k $"Title"); [auto|]. destruct (eqb k $"EID"); auto. }
  exists [scp_vr]. eexists. split; [|split; [|split; [apply nodupb_NoDup; reflexivity|split; [reflexivity|split; [vm_compute; reflexivity|vm_compute; reflexivity]]]]]; (constructor; [|constructor]).
  - split; [reflexivity|]. split; [reflexivity|]. split; [exists $"2-s2"; split; reflexivity|]. intros k _. destruct (C k) as [->|[->| ->]]; apply even_no_comma; try reflexivity; apply mem_not_In; reflexivity.
  - intros k _. destruct (C k) as [->|[->| ->]]; split; apply mem_not_In; reflexivity.
Qed.
(** ** Examples *)
Example C75_ex : utf8_encode [65%N; 233%N; 8482%N; 128512%N] = Ok [65%N; 195%N; 169%N; 226%N; 132%N; 162%N; 240%N; 159%N; 152%N; 128%N] /\ utf8_decode [65%N; 195%N] = None /\ utf8_encode [55296%N] = Raise ValueError.
Proof. repeat split; vm_compute; reflexivity. Qed.
Example C75_proquest_ex : detector ProQuestFile (rule ++ [nl] ++ report ++ $"rest") = true /\ detector ProQuestFile ([239; 187; 191; 10]%N ++ rule ++ [nl] ++ report) = true /\
  detector ProQuestFile (rule ++ rule ++ [nl] ++ report) = false.
Proof. repeat split; vm_compute; reflexivity. Qed.
Example C76_wos_ex : forall r, In r [rB; rA] -> read_from_bytes r.
Proof.
  intros r I. exists (flat_map utf8_char file1), file1, [rA; rB], None. split; [vm_compute; reflexivity|]. split; [exact file1_read|]. destruct I as [<-|[<-|[]]]; split; try reflexivity; cbn; auto.
Qed.
Definition nowhere (t b : str) : Prop := forall x y, b <> x ++ t ++ y.
Lemma nowhere_ok t b : contains t b = false -> nowhere t b.
Proof. intros C x y E. assert (T : contains t b = true) by (apply contains_spec; exists x, y; exact E). congruence. Qed.
Example C76_medline_ex : Forall (writable ascii_letter) [med_r1] /\ exists b, write_medline_bytes [med_r1] = Ok b /\ nowhere $"VR 1.0" b.
Proof. split; [constructor; [apply C24_file_example|constructor]|]. eexists. split; [vm_compute; reflexivity|apply nowhere_ok; vm_compute; reflexivity]. Qed.
Example C76_scopus_ex : Forall swritable [srec_ex] /\ Forall one_line [srec_ex] /\ NoDup (map sid [srec_ex]) /\ exists b, write_scopus_bytes [srec_ex] = Ok b /\ nowhere $"VR 1.0" b.
Proof. destruct C25_file_example as (A & B & C). split; [exact A|]. split; [exact B|]. split; [exact C|]. eexists. split; [vm_compute; reflexivity|apply nowhere_ok; vm_compute; reflexivity]. Qed.

Print Assumptions C75_utf8.
Print Assumptions C75_wos_file.
Print Assumptions C75_medline_file.
Print Assumptions C75_proquest_file.
Print Assumptions C75_scopus_file.
Print Assumptions C75_kind.
Print Assumptions C75_extension.
Print Assumptions C75_name.
Print Assumptions C76_wos.
Print Assumptions C76_interrupted.
Print Assumptions C76_medline_partial.
Print Assumptions C76_scopus_partial.
Print Assumptions C76_medline_refuted.
Print Assumptions C76_scopus_refuted.
