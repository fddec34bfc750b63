(** C97: what is on the disk after writeFile, however it ends. *)
From Coq Require Import List ZArith Lia Bool Arith.
From Coq Require Import String.
From Verif Require Import Base PyStr FileModel FileProofs WriteFileModel WriteFileSpec WriteFileProofs.
From Verif Require WosModel MedlineModel ProQuestModel ScopusModel PropertiesWos PropertiesMedline PropertiesScopus.
From Verif Require Import PropertiesFile.
Import ListNotations.
Local Open Scope list_scope.

(** the disk is as before but for one file *)
Definition now_holds (d d' : disk) (file : str) (content : bytes) : Prop := dget file d' = Some content /\ forall other, other <> file -> dget other d' = dget other d.
Lemma holds_dset d f b : now_holds d (dset f b d) f b.
Proof. split; [apply dget_dset_same|]. intros g N. apply dget_dset_other. exact N. Qed.

(** C97: the call returns if and only if the file can be opened, there is a record (or there are several types), all records can be written and their characters have codes; the
    file then holds the first lines of its kind, the records, and for WOS records the last line, and no other file is changed; ... *)
Lemma write_split can_open fname name types rs c : codec_for types rs c -> can_open (target fname name) = true ->
  exists bs x, write_disk can_open fname name types rs = (Open (target fname name) :: map (Put (target fname name)) bs, x) /\
  let '(ps, y) := file_writes types rs in encode_all c ps = (bs, match x with Raise e => match snd (encode_all c ps) with Some _ => Some e | None => None end | Ok _ => None end) /\
    (snd (encode_all c ps) = None -> x = match y with Some e => Raise e | None => Ok tt end).
Proof.
  intros C O. apply codec_spec in C. unfold write_disk. rewrite C, O. destruct (file_writes types rs) as [ps y]. destruct (encode_all c ps) as [bs z] eqn:E. eexists bs, _. split; [reflexivity|].
  cbn [snd]. destruct z, y; split; auto; discriminate.
Qed.
Theorem C97_written : forall can_open fname name types rs, let file := target fname name in let call := write_disk can_open fname name types rs in
  (snd call = Ok tt <-> can_open file = true /\ exists c ts b, codec_for types rs c /\ Forall2 has_text rs ts /\ encode c (first_lines types ++ body ts ++ last_line types) = Ok b) /\
  forall c ts b, can_open file = true -> codec_for types rs c -> Forall2 has_text rs ts -> encode c (first_lines types ++ body ts ++ last_line types) = Ok b ->
    forall d, now_holds d (run d (fst call)) file b.
Proof.
  intros can_open fname name types rs file call.
  assert (M : forall c ts b, can_open file = true -> codec_for types rs c -> Forall2 has_text rs ts -> encode c (first_lines types ++ body ts ++ last_line types) = Ok b ->
    snd call = Ok tt /\ forall d, now_holds d (run d (fst call)) file b).
  { intros c ts b O C F E. destruct (write_split can_open fname name types rs c C O) as (bs & x & W & H). subst call. rewrite W. cbn [fst snd].
    pose proof (file_writes_spec types rs) as S. destruct (file_writes types rs) as [ps [e|]].
    - exfalso. destruct S as (p & r & a & us & -> & _ & T & _). apply Forall2_app_inv_l in F as (u & v & _ & F & _). inversion F; subst. unfold has_text in *. congruence.
    - destruct S as (us & F' & CT). rewrite (texts_unique _ _ _ F' F) in CT. rewrite <- CT in E. pose proof (encode_all_spec c ps) as A. destruct (encode_all c ps) as [bs' [e|]].
      + destruct A as (_ & _ & _ & _ & _ & e' & R). congruence.
      + cbn [snd] in H. destruct H as [H1 H2]. injection H1 as -> _. split; [apply H2; reflexivity|]. intros d. rewrite run_write. rewrite A in E. injection E as <-. apply holds_dset. }
  split; [split|].
  - intros Q. subst call. destruct (if length types <? 2 then option_map rec_codec (hd_error rs) else Some Utf8) as [c|] eqn:C; [|unfold write_disk in Q; rewrite C in Q; discriminate].
    destruct (can_open file) eqn:O; [|unfold write_disk in Q; subst file; rewrite C, O in Q; discriminate]. split; [reflexivity|]. apply codec_spec in C. exists c.
    destruct (write_split can_open fname name types rs c C O) as (bs & x & W & H). rewrite W in Q. cbn [snd] in Q. subst x.
    pose proof (file_writes_spec types rs) as S. destruct (file_writes types rs) as [ps y]. destruct H as [H1 H2]. rewrite H1 in H2. specialize (H2 eq_refl). destruct y as [e|]; [discriminate|].
    destruct S as (ts & F & CT). exists ts, (concat bs). split; [exact C|]. split; [exact F|]. rewrite <- CT. pose proof (encode_all_spec c ps) as A. rewrite H1 in A. exact A.
  - intros (O & c & ts & b & C & F & E). exact (proj1 (M c ts b O C F E)).
  - intros c ts b O C F E. exact (proj2 (M c ts b O C F E)).
Qed.
(** ... if the call raises, nothing was done (there was no record to ask for the codec, or the file cannot be opened), or the file holds the records before one that cannot be
    written, or what comes before a character without code; no other file is changed; ... *)
Theorem C97_failed : forall can_open fname name types rs e, let file := target fname name in let call := write_disk can_open fname name types rs in
  snd call = Raise e ->
  (fst call = [] /\ (e = AttributeError /\ rs = [] /\ length types < 2 \/ e = OSError /\ can_open file = false)) \/
  exists c before after ts content, codec_for types rs c /\ rs = before ++ after /\ Forall2 has_text before ts /\ (forall d, now_holds d (run d (fst call)) file content) /\
    ((exists r after', after = r :: after' /\ text_of r = Raise e /\ encode c (first_lines types ++ body ts) = Ok content) \/
     (e = ValueError /\ encode c (first_lines types ++ body ts) = Raise ValueError /\ exists s1 s2, first_lines types ++ body ts = s1 ++ s2 /\ encode c s1 = Ok content)).
Proof.
  intros can_open fname name types rs e file call Q. subst call.
  destruct (if length types <? 2 then option_map rec_codec (hd_error rs) else Some Utf8) as [c|] eqn:C.
  2: { left. unfold write_disk in *. rewrite C in *. injection Q as <-. split; [reflexivity|]. left. destruct (length types <? 2) eqn:L; [|discriminate]. destruct rs; [|discriminate]. apply Nat.ltb_lt in L. auto. }
  destruct (can_open file) eqn:O.
  2: { left. unfold write_disk in *. subst file. rewrite C, O in *. injection Q as <-. split; [reflexivity|]. right. auto. }
  right. exists c. apply codec_spec in C. destruct (write_split can_open fname name types rs c C O) as (bs & x & W & H). rewrite W in *. cbn [fst snd] in *. subst x.
  assert (RW : forall d, now_holds d (run d (Open (target fname name) :: map (Put (target fname name)) bs)) file (concat bs)) by (intros d; rewrite run_write; apply holds_dset).
  pose proof (file_writes_spec types rs) as S. destruct (file_writes types rs) as [ps y]. destruct H as [H1 H2]. pose proof (encode_all_spec c ps) as A.
  destruct (encode_all c ps) as [bs' z]. cbn [snd] in *. injection H1 as -> Z. destruct z as [e'|].
  - injection Z as ->. destruct A as (-> & q1 & q2 & -> & E1 & e2 & E2). pose proof (encode_raise _ _ _ E2) as ->. destruct y as [e3|].
    + destruct S as (b & r & a & ts & -> & F & T & CT). exists b, (r :: a), ts, (concat bs). split; [exact C|]. split; [reflexivity|]. split; [exact F|]. split; [exact RW|]. right. split; [reflexivity|].
      rewrite <- CT. split; [exact E2|]. exists (concat q1), (concat q2). split; [apply concat_app|exact E1].
    + destruct S as (ts & F & CT). exists rs, [], ts, (concat bs). split; [exact C|]. split; [now rewrite app_nil_r|]. split; [exact F|]. split; [exact RW|]. right. split; [reflexivity|].
      rewrite CT, app_assoc in E2. rewrite concat_app, app_assoc in CT. assert (LL : encode c (last_line types) = Ok (last_line types)) by (unfold last_line; destruct (eqb types _); destruct c; reflexivity).
      rewrite encode_app, LL in E2. destruct (encode c (first_lines types ++ body ts)) as [w|e4] eqn:E4; [discriminate|]. rewrite (encode_raise _ _ _ E4). split; [reflexivity|].
      apply app_eq_app in CT as (l & [[CT _]|[CT _]]).
      * exfalso. rewrite CT, encode_app, E4 in E1. discriminate.
      * exists (concat q1), l. auto.
  - specialize (H2 eq_refl). destruct y as [e3|]; [|discriminate]. injection H2 as ->. destruct S as (b & r & a & ts & -> & F & T & CT). exists b, (r :: a), ts, (concat bs). split; [exact C|]. split; [reflexivity|].
    split; [exact F|]. split; [exact RW|]. left. exists r, a. split; [reflexivity|]. split; [exact T|]. rewrite <- CT. exact A.
Qed.
(** ... wherever the program is stopped, the disk is as before, or the file holds the first bytes of what it would have held and no other file is changed; ... *)
Theorem C97_stopped : forall can_open fname name types rs d d', let file := target fname name in let call := write_disk can_open fname name types rs in
  seen d (fst call) d' -> d' = d \/ exists some rest, dget file (run d (fst call)) = Some (some ++ rest) /\ now_holds d d' file some.
Proof.
  intros can_open fname name types rs d d' file call. subst call. unfold write_disk. cbv zeta.
  assert (NIL : seen d [] d' -> d' = d). { intros (x & y & E & H). symmetry in E. apply app_eq_nil in E as [-> ->]. destruct H as [->|(f & b1 & b2 & z & Q & _)]; [reflexivity|discriminate]. }
  destruct (if length types <? 2 then _ else _) as [c|]; [|auto]. fold file. destruct (can_open file); [|auto]. destruct (file_writes types rs) as [ps y]. destruct (encode_all c ps) as [bs z].
  cbn [fst]. intros S. apply seen_write in S as [->|(b1 & b2 & E & ->)]; [left; reflexivity|]. right. exists b1, b2. rewrite run_write, E, dget_dset_same. split; [reflexivity|apply holds_dset].
Qed.
(** ... this file is the one that was named, or that after the first 200 characters of the name of the collection; ... *)
Lemma target_named fname name : file_named fname name (target fname name).
Proof.
  assert (D : exists stem rest, name = stem ++ rest /\ firstn 200 name ++ $".txt" = stem ++ $".txt" /\ length stem <= 200 /\ (rest = [] \/ length stem = 200)).
  { exists (firstn 200 name), (skipn 200 name). split; [symmetry; apply firstn_skipn|]. split; [reflexivity|]. rewrite firstn_length. split; [lia|]. destruct (le_lt_dec (length name) 200) as [L|L]; [left; apply skipn_all2, L|right; lia]. }
  unfold target. destruct fname as [[|c f]|]; [right; auto|left; split; [reflexivity|discriminate]|right; auto].
Qed.
Theorem C97_target : forall can_open fname name types rs, exists file,
  file_named fname name file /\ (forall file', file_named fname name file' -> file' = file) /\
  let call := write_disk can_open fname name types rs in
  (forall d d' other, seen d (fst call) d' -> other <> file -> dget other d' = dget other d) /\
  (snd call = Ok tt -> forall d, exists b, dget file (run d (fst call)) = Some b).
Proof.
  intros can_open fname name types rs. exists (target fname name). split; [apply target_named|]. split; [|split].
  - intros f F. unfold target. destruct F as [(-> & N)|(O & stem & rest & -> & -> & L & R)].
    + destruct f; [congruence|reflexivity].
    + assert (E : firstn 200 (stem ++ rest) = stem). { destruct R as [->|R]; [rewrite app_nil_r; apply firstn_all2, L|]. rewrite <- R, firstn_app, firstn_all, Nat.sub_diag. cbn [firstn]. apply app_nil_r. }
      destruct O as [->| ->]; rewrite E; reflexivity.
  - intros d d' other S N. destruct (C97_stopped can_open fname name types rs d d' S) as [->|(a & b & _ & _ & H)]; [reflexivity|apply H, N].
  - intros Q d. destruct (C97_written can_open fname name types rs) as [A B]. destruct (proj1 A Q) as (O & c & ts & b & C & F & E). exists b. apply (B c ts b O C F E d).
Qed.
(** ... the files of collections of one kind are those of C76, so they can be read again; ... *)
Lemma wos_all ws : forall x, WosModel.write_all ws = Ok x <-> exists ts, Forall2 has_text (map WosRec ws) ts /\ x = body ts.
Proof.
  induction ws as [|w ws IH]; intros x; cbn [WosModel.write_all map].
  - split; [intros Q; injection Q as <-; exists []; split; [constructor|reflexivity]|intros (ts & F & ->); inversion F; reflexivity].
  - split.
    + destruct (WosModel.write_record w) as [a|] eqn:A; [|discriminate]. cbn [bind]. destruct (WosModel.write_all ws) as [b|]; [|discriminate]. intros Q. injection Q as <-. destruct (proj1 (IH b) eq_refl) as (ts & F & ->).
      exists (a :: ts). split; [constructor; assumption|]. unfold body. cbn [map concat]. rewrite <- app_assoc. reflexivity.
    + intros (ts & F & ->). inversion F as [|r t rs us H G]; subst. unfold has_text in H. cbn [text_of] in H. rewrite H. cbn [bind]. rewrite (proj2 (IH (body us))) by (exists us; auto). unfold body. cbn [map concat bind]. rewrite <- app_assoc. reflexivity.
Qed.
Lemma medline_all ws : forall x, MedlineModel.write_mrecs ws = Ok x <-> exists ts, Forall2 has_text (map MedlineRec ws) ts /\ x = body ts.
Proof.
  induction ws as [|w ws IH]; intros x; cbn [MedlineModel.write_mrecs map].
  - split; [intros Q; injection Q as <-; exists []; split; [constructor|reflexivity]|intros (ts & F & ->); inversion F; reflexivity].
  - split.
    + destruct (MedlineModel.write_mrec w) as [a|] eqn:A; [|discriminate]. cbn [bind]. destruct (MedlineModel.write_mrecs ws) as [b|]; [|discriminate]. intros Q. injection Q as <-. destruct (proj1 (IH b) eq_refl) as (ts & F & ->).
      exists (a :: ts). split; [constructor; assumption|]. unfold body. cbn [map concat]. rewrite <- app_assoc. reflexivity.
    + intros (ts & F & ->). inversion F as [|r t rs us H G]; subst. unfold has_text in H. cbn [text_of] in H. rewrite H. cbn [bind]. rewrite (proj2 (IH (body us))) by (exists us; auto). unfold body. cbn [map concat bind]. rewrite <- app_assoc. reflexivity.
Qed.
Lemma scopus_all ws : forall x, ScopusModel.write_srecs ws = Ok x <-> exists ts, Forall2 has_text (map ScopusRec ws) ts /\ x = body ts.
Proof.
  induction ws as [|w ws IH]; intros x; cbn [ScopusModel.write_srecs map].
  - split; [intros Q; injection Q as <-; exists []; split; [constructor|reflexivity]|intros (ts & F & ->); inversion F; reflexivity].
  - split.
    + destruct (ScopusModel.write_srec w) as [a|] eqn:A; [|discriminate]. cbn [bind]. destruct (ScopusModel.write_srecs ws) as [b|]; [|discriminate]. intros Q. injection Q as <-. destruct (proj1 (IH b) eq_refl) as (ts & F & ->).
      exists (a :: ts). split; [constructor; assumption|]. unfold body. cbn [map concat]. rewrite <- app_assoc. reflexivity.
    + intros (ts & F & ->). inversion F as [|r t rs us H G]; subst. unfold has_text in H. cbn [text_of] in H. rewrite H. cbn [bind]. rewrite (proj2 (IH (body us))) by (exists us; auto). unfold body. cbn [map concat bind]. rewrite <- app_assoc. reflexivity.
Qed.
Lemma wos_content ws b : write_wos_bytes ws = Ok b -> ws <> [] /\ exists ts, Forall2 has_text (map WosRec ws) ts /\ encode Utf8 (first_lines [$"WOSRecord"] ++ body ts ++ last_line [$"WOSRecord"]) = Ok b.
Proof.
  unfold write_wos_bytes, WosModel.write_file. destruct ws as [|w ws]; [discriminate|]. replace ((length [$"WOSRecord"] <? 2) && false) with false by reflexivity. cbv iota. rewrite eqb_refl. cbv zeta.
  destruct (WosModel.write_all (w :: ws)) as [x|] eqn:X; [|discriminate]. cbn [bind]. intros E. split; [discriminate|]. apply wos_all in X as (ts & F & ->). exists ts. split; [exact F|exact E].
Qed.
Theorem C97_kinds : forall can_open fname name d b, let file := target fname name in can_open file = true ->
  (forall ws, write_wos_bytes ws = Ok b -> let call := write_disk can_open fname name [$"WOSRecord"] (map WosRec ws) in snd call = Ok tt /\ now_holds d (run d (fst call)) file b) /\
  (forall ms, write_medline_bytes ms = Ok b -> let call := write_disk can_open fname name [$"MedlineRecord"] (map MedlineRec ms) in snd call = Ok tt /\ now_holds d (run d (fst call)) file b) /\
  (forall ss, write_scopus_bytes ss = Ok b -> let call := write_disk can_open fname name [$"ScopusRecord"] (map ScopusRec ss) in snd call = Ok tt /\ now_holds d (run d (fst call)) file b).
Proof.
  intros can_open fname name d b file O.
  assert (G : forall types rs c ts, codec_for types rs c -> Forall2 has_text rs ts -> encode c (first_lines types ++ body ts ++ last_line types) = Ok b ->
    snd (write_disk can_open fname name types rs) = Ok tt /\ now_holds d (run d (fst (write_disk can_open fname name types rs))) file b).
  { intros types rs c ts C F E. destruct (C97_written can_open fname name types rs) as [A B]. split; [apply A; split; [exact O|]; exists c, ts, b; auto|eapply B; eauto]. }
  split; [|split].
  - intros ws W call. apply wos_content in W as (NE & ts & F & E). apply (G _ _ Utf8 ts); auto. right. split; [cbn; lia|]. destruct ws as [|w ws]; [congruence|]. exists (WosRec w), (map WosRec ws). auto.
  - intros ms W call. unfold write_medline_bytes, MedlineModel.write_mfile in W. destruct ms as [|m ms]; [discriminate|]. destruct (MedlineModel.write_mrecs (m :: ms)) as [x|] eqn:X; [|discriminate]. cbn [bind] in W.
    apply medline_all in X as (ts & F & ->). apply (G _ _ Latin1 ts); [right; split; [cbn; lia|exists (MedlineRec m), (map MedlineRec ms); auto]|exact F|]. replace (last_line [$"MedlineRecord"]) with (@nil char) by reflexivity. rewrite app_nil_r. exact W.
  - intros ss W call. unfold write_scopus_bytes, ScopusModel.write_sfile in W. destruct ss as [|m ss]; [discriminate|]. destruct (ScopusModel.write_srecs (m :: ss)) as [x|] eqn:X; [|discriminate]. cbn [bind] in W.
    apply scopus_all in X as (ts & F & ->). apply (G _ _ Utf8 ts); [right; split; [cbn; lia|exists (ScopusRec m), (map ScopusRec ss); auto]|exact F|]. replace (last_line [$"ScopusRecord"]) with (@nil char) by reflexivity. rewrite app_nil_r.
    replace (first_lines [$"ScopusRecord"]) with ([bom] ++ join [ScopusModel.comma] ScopusModel.scopus_header ++ [nl]) by (vm_compute; reflexivity). rewrite <- !app_assoc. exact W.
Qed.
(** ... if writing a collection of WOS records read from files, or bad, stops at any time, for whatever reason, the disk is as before, or the file is complete, or the file is
    reported as malformed when it is read. *)
Lemma some_prefix gs ts p q : (forall r, In r gs -> read_from_bytes r) -> Forall2 has_text (map WosRec gs) ts -> encode Utf8 (WosModel.wos_header ++ body ts) = Ok (p ++ q) ->
  exists gs' b m, gs' <> [] /\ (forall r, In r gs' -> read_from_bytes r) /\ write_wos_bytes gs' = Ok b /\ b = p ++ m /\ m <> [].
Proof.
  intros R F E. destruct gs as [|g gs].
  - inversion F; subst. cbn [body map concat] in E. rewrite app_nil_r in E. exists [PropertiesWos.rA]. assert (RA : forall r, In r [PropertiesWos.rA] -> read_from_bytes r) by (intros r [<-|[]]; apply C76_wos_ex; right; left; reflexivity).
    assert (NE : [PropertiesWos.rA] <> []) by discriminate. destruct (wos_bytes [PropertiesWos.rA] NE RA) as (txt & _ & _ & B). destruct (wos_content _ _ B) as (_ & us & FU & EU).
    rewrite encode_app in EU. replace (first_lines [$"WOSRecord"]) with WosModel.wos_header in EU by (vm_compute; reflexivity). rewrite E in EU. cbn [bind] in EU. destruct (encode Utf8 (body us ++ last_line [$"WOSRecord"])) as [y|] eqn:Y; [|discriminate]. injection EU as EU.
    exists (flat_map utf8_char txt), (q ++ y). split; [exact NE|]. split; [exact RA|]. split; [exact B|]. split; [rewrite <- EU, <- app_assoc; reflexivity|]. rewrite encode_app in Y. destruct (encode Utf8 (body us)) as [z|]; [|discriminate]. cbn [bind] in Y.
    replace (encode Utf8 (last_line [$"WOSRecord"])) with (Ok $"EF") in Y by (vm_compute; reflexivity). cbn [bind] in Y. injection Y as <-. intros Q. apply app_eq_nil in Q as [_ Q]. apply app_eq_nil in Q as [_ Q]. discriminate.
  - exists (g :: gs). assert (NE : g :: gs <> []) by discriminate. destruct (wos_bytes _ NE R) as (txt & _ & _ & B). destruct (wos_content _ _ B) as (_ & us & FU & EU). rewrite (texts_unique _ _ _ FU F) in EU.
    replace (first_lines [$"WOSRecord"]) with WosModel.wos_header in EU by (vm_compute; reflexivity). rewrite app_assoc, encode_app, E in EU. replace (encode Utf8 (last_line [$"WOSRecord"])) with (Ok $"EF") in EU by (vm_compute; reflexivity). cbn [bind] in EU. injection EU as EU.
    exists (flat_map utf8_char txt), (q ++ $"EF"). split; [exact NE|]. split; [exact R|]. split; [exact B|]. split; [rewrite <- EU, <- app_assoc; reflexivity|]. intros Q. apply app_eq_nil in Q as [_ Q]. discriminate.
Qed.
Definition is_reported (alpha : char -> bool) (path name ext : str) (content : bytes) : Prop :=
  match read_path alpha path name ext content with Ok c => f_bad c = true /\ f_errors c = [path] | Raise e => e = BadInputFile end.
Theorem C97_reported : forall alpha can_open fname name ws before ext name' d d', let file := target fname name in let call := write_disk can_open fname name [$"WOSRecord"] (map WosRec ws) in
  (forall w, In w ws -> WosModel.wbad w = true \/ read_from_bytes w) -> file = before ++ ext -> seen d (fst call) d' ->
  d' = d \/ exists content, now_holds d d' file content /\ ((snd call = Ok tt /\ dget file (run d (fst call)) = Some content) \/ is_reported alpha file name' ext content).
Proof.
  intros alpha can_open fname name ws before ext name' d d' file call R EF S.
  assert (NN : d' = d \/ fst call <> []).
  { destruct (fst call) eqn:NIL; [left|right; discriminate]. destruct S as (x & y & EX & S). symmetry in EX. apply app_eq_nil in EX as [-> ->]. destruct S as [->|(f & b1 & b2 & z & Z & _)]; [reflexivity|discriminate]. }
  destruct NN as [->|NN]; [left; reflexivity|]. destruct (C97_stopped can_open fname name _ _ d d' S) as [->|(c1 & c2 & H & N)]; [left; reflexivity|]. right. exists c1. split; [exact N|].
  fold call in H. fold file in H. destruct (snd call) as [[]|e] eqn:Q.
  - destruct (C97_written can_open fname name [$"WOSRecord"] (map WosRec ws)) as [A B]. fold call in A, B. fold file in A, B. destruct (proj1 A Q) as (O & c & ts & b & C & F & E). pose proof (B c ts b O C F E d) as [HB _]. rewrite HB in H. injection H as ->.
    destruct c2 as [|x c2]; [left; split; [reflexivity|rewrite app_nil_r in HB; exact HB]|]. right.
    assert (NE : ws <> []). { destruct C as [[C _]|(_ & r & rs & C & _)]; [cbn in C; lia|]. intros ->. discriminate. }
    assert (c = Utf8) as ->. { destruct C as [[_ C]|(_ & r & rs & C & ->)]; [exact C|]. destruct ws; [discriminate|]. injection C as <- _. reflexivity. }
    assert (G : forall w, In w ws -> read_from_bytes w).
    { intros w I. destruct (R w I) as [BAD|]; [|assumption]. exfalso. apply in_split in I as (l1 & l2 & ->). rewrite map_app in F. apply Forall2_app_inv_l in F as (u & v & _ & F & _). cbn [map] in F. inversion F as [|? ? ? ? T]; subst. unfold has_text in T. cbn [text_of] in T. unfold WosModel.write_record in T. rewrite BAD in T. discriminate. }
    destruct (wos_bytes ws NE G) as (txt & _ & _ & W). destruct (wos_content _ _ W) as (_ & us & FU & EU). rewrite (texts_unique _ _ _ FU F) in EU. rewrite E in EU. injection EU as EU.
    unfold is_reported. eapply C76_interrupted; [exact NE|exact G|exact EF|exact W|symmetry; exact EU|discriminate].
  - right. destruct (C97_failed can_open fname name [$"WOSRecord"] (map WosRec ws) e Q) as [[NIL _]|(c & b & a & ts & content & C & E & F & HD & WHY)].
    + exfalso. apply NN. exact NIL.
    + destruct (HD d) as [HB _]. fold call in HB. fold file in HB. rewrite HB in H. injection H as ->.
      assert (c = Utf8) as ->. { destruct C as [[_ C]|(_ & r & rs & C & ->)]; [exact C|]. destruct ws; [discriminate|]. injection C as <- _. reflexivity. }
      destruct (split_map _ _ _ _ _ _ E) as (gs & rest & -> & -> & ->).
      assert (G : forall w, In w gs -> read_from_bytes w).
      { intros w I. destruct (R w) as [BAD|]; [apply in_or_app; left; exact I| |assumption]. exfalso. apply in_split in I as (l1 & l2 & ->). rewrite map_app in F. apply Forall2_app_inv_l in F as (u & v & _ & F & _). cbn [map] in F. inversion F as [|? ? ? ? T]; subst. unfold has_text in T. cbn [text_of] in T. unfold WosModel.write_record in T. rewrite BAD in T. discriminate. }
      assert (SC : exists z, encode Utf8 (WosModel.wos_header ++ body ts) = Ok z).
      { destruct gs as [|g gs].
        - inversion F; subst. cbn [body map concat]. rewrite app_nil_r. eexists. vm_compute. reflexivity.
        - assert (NE : g :: gs <> []) by discriminate. destruct (wos_bytes _ NE G) as (txt & _ & _ & B). destruct (wos_content _ _ B) as (_ & us & FU & EU). rewrite (texts_unique _ _ _ FU F) in EU.
          replace (first_lines [$"WOSRecord"]) with WosModel.wos_header in EU by (vm_compute; reflexivity). rewrite app_assoc, encode_app in EU. destruct (encode Utf8 (WosModel.wos_header ++ body ts)) as [z|]; [|discriminate]. exists z. reflexivity. }
      destruct SC as (z & SC). destruct WHY as [(r & a' & EA & T & EN)|(-> & EN & _)].
      * replace (first_lines [$"WOSRecord"]) with WosModel.wos_header in EN by (vm_compute; reflexivity). destruct (some_prefix gs ts c1 c2 G F EN) as (gs' & b & m & NE & G' & B & EB & NM).
        unfold is_reported. eapply C76_interrupted; [exact NE|exact G'|exact EF|exact B|exact EB|exact NM].
      * replace (first_lines [$"WOSRecord"]) with WosModel.wos_header in EN by (vm_compute; reflexivity). congruence.
Qed.
(** A bad record or a ProQuest record makes the call fail, and what was in the file before is lost. *)
Theorem C97_unwritable : forall can_open fname name types rs r e, In r rs -> text_of r = Raise e -> snd (write_disk can_open fname name types rs) <> Ok tt.
Proof.
  intros can_open fname name types rs r e I T Q. apply C97_written in Q as (_ & c & ts & b & _ & F & _). apply in_split in I as (l1 & l2 & ->). apply Forall2_app_inv_l in F as (u & v & _ & F & _). inversion F as [|? ? ? ? H]; subst. unfold has_text in H. congruence.
Qed.
Definition wC : WosModel.wrec := WosModel.mkWrec $"WOS:1" [] true (Some BadWOSRecord).
Definition old_disk : disk := [($"mine.txt", $"records")].
Theorem C97_lost_refuted : ~ (forall can_open fname name types rs d e, snd (write_disk can_open fname name types rs) = Raise e ->
  dget (target fname name) (run d (fst (write_disk can_open fname name types rs))) = dget (target fname name) d).
Proof. intros H. specialize (H (fun _ => true) (Some $"mine.txt") [] [$"WOSRecord"] [WosRec wC] old_disk BadWOSRecord eq_refl). vm_compute in H. discriminate. Qed.
(** A collection of two kinds of records is written, but the file is not recognized when it is read. *)
Theorem C97_mixed_refuted : exists rs types b, let call := write_disk (fun _ => true) None $"mine" types rs in
  snd call = Ok tt /\ now_holds [] (run [] (fst call)) $"mine.txt" b /\ forall alpha, read_path alpha $"mine.txt" $"mine" $".txt" b = Raise BadInputFile.
Proof.
  exists [ScopusRec PropertiesScopus.srec_ex; WosRec PropertiesWos.rA], [$"ScopusRecord"; $"WOSRecord"].
  destruct (C97_written (fun _ => true) None $"mine" [$"ScopusRecord"; $"WOSRecord"] [ScopusRec PropertiesScopus.srec_ex; WosRec PropertiesWos.rA]) as [A B].
  assert (Q : snd (write_disk (fun _ => true) None $"mine" [$"ScopusRecord"; $"WOSRecord"] [ScopusRec PropertiesScopus.srec_ex; WosRec PropertiesWos.rA]) = Ok tt) by (vm_compute; reflexivity).
  pose proof (proj1 A Q) as (O & c & ts & b & C & F & E). pose proof (B c ts b O C F E []) as N. clear A B C F E. exists b. split; [exact Q|]. split; [exact N|]. destruct N as [N _]. vm_compute in N. injection N as <-.
  intros alpha. vm_compute. reflexivity.
Qed.
(** ** Examples *)
Definition long_name : str := repeat 97%N 300.
Example C97_target_ex : target None long_name = repeat 97%N 200 ++ $".txt" /\ target (Some []) $"mine" = $"mine.txt" /\ target (Some $"x") $"mine" = $"x".
Proof. repeat split; vm_compute; reflexivity. Qed.
Example C97_written_ex : exists c ts b, codec_for [$"MedlineRecord"] [MedlineRec PropertiesMedline.med_r1] c /\ Forall2 has_text [MedlineRec PropertiesMedline.med_r1] ts /\
  encode c (first_lines [$"MedlineRecord"] ++ body ts ++ last_line [$"MedlineRecord"]) = Ok b /\ b <> [].
Proof.
  exists Latin1. eexists [_], _. split; [right; split; [cbn; lia|]; exists (MedlineRec PropertiesMedline.med_r1), []; auto|]. split; [constructor; [vm_compute; reflexivity|constructor]|]. split; [vm_compute; reflexivity|discriminate].
Qed.
(** the second record is bad: the first is in the file, the others are not, and the file is reported when read *)
Example C97_reported_ex : let ws := [PropertiesWos.rB; wC; PropertiesWos.rA] in let call := write_disk (fun _ => true) (Some $"mine.txt") [] [$"WOSRecord"] (map WosRec ws) in
  (forall w, In w ws -> WosModel.wbad w = true \/ read_from_bytes w) /\ snd call = Raise BadWOSRecord /\ length (fst call) = 5 + 2 * length (concat (map snd (WosModel.wfields PropertiesWos.rB))) /\
  forall alpha, match dget $"mine.txt" (run old_disk (fst call)) with Some b => is_reported alpha $"mine.txt" [] $".txt" b | None => False end.
Proof.
  split; [|split; [vm_compute; reflexivity|split; [vm_compute; reflexivity|intros alpha; vm_compute; auto]]].
  intros w [<-|[<-|[<-|[]]]]; [right; apply C76_wos_ex; left; reflexivity|left; reflexivity|right; apply C76_wos_ex; right; left; reflexivity].
Qed.
Print Assumptions C97_written.
Print Assumptions C97_failed.
Print Assumptions C97_stopped.
Print Assumptions C97_target.
Print Assumptions C97_kinds.
Print Assumptions C97_reported.
Print Assumptions C97_unwritable.
Print Assumptions C97_lost_refuted.
Print Assumptions C97_mixed_refuted.
