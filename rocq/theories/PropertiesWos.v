(** Property theorems about reading and writing Web of Science files (C21, C22, C23). *)
From Coq Require Import String.
From Verif Require Import Base PyStr WosModel WosProofs.

(** [r] is a record some file was read into, and is not marked bad *)
Definition read_from_a_file (r : wrec) : Prop :=
  exists content recs err, wos_parse content = (recs, err) /\ In r recs /\ wbad r = false.

Lemma read_good r : read_from_a_file r -> good_rec r.
Proof. intros (c & recs & err & H & I & B). eapply wos_parse_good; eassumption. Qed.
Lemma read_all_good rs : (forall r, In r rs -> read_from_a_file r) -> Forall good_rec rs.
Proof. intros H; apply Forall_forall; intros r I; apply read_good, H, I. Qed.
Lemma keys_of_ids rs : (forall r, In r rs -> read_from_a_file r) -> NoDup (map wid rs) -> NoDup (map rkey rs).
Proof.
  intros H N. assert (E : map rkey rs = map KGood (map wid rs)).
  { rewrite map_map. apply map_ext_in. intros r I. destruct (H r I) as (c & recs & err & _ & _ & B). unfold rkey; rewrite B; reflexivity. }
  rewrite E. clear - N. induction N as [|i l NI N IH]; cbn; constructor; [|assumption].
  intros I; apply in_map_iff in I as (j & Q & J). inversion Q; subst; auto.
Qed.

(** C21: what writeRecord writes for a record read from a file is, character for character, the text of the
    record in that file (as decoded; the end of record line is written as ER without anything that follows). *)
Theorem C21_written_text_is_the_source_text :
  forall content recs err r,
    wos_parse content = (recs, err) -> In r recs -> wbad r = false ->
    exists before body er after,
      translate (strip_bom content) = before ++ body ++ er ++ after /\
      starts_with $"ER" er = true /\
      write_record r = Ok (body ++ $"ER" ++ [nl]).
Proof.
  intros content recs err r H I B. destruct (wos_parse_good _ _ _ H r I B) as [G (pre & er & post & Q & E)].
  exists (concat pre), (concat (concat (map field_lines (wfields r)))), er, (concat post). split; [|split; [assumption|]].
  - unfold read_lines in Q. rewrite <- (lines_concat (translate (strip_bom content))), Q.
    rewrite !concat_app; cbn [concat]. reflexivity.
  - unfold write_record. rewrite B. f_equal. rewrite <- concat_rec_lines. unfold rec_lines. rewrite concat_app; cbn [concat]. rewrite app_nil_r. reflexivity.
Qed.
Print Assumptions C21_written_text_is_the_source_text.

Lemma split_full ls : Forall full_line ls ->
  map (fun l => l ++ [nl]) (split_char nl (concat ls)) = ls ++ [[nl]].
Proof.
  assert (A : forall b s, ~ In nl b -> split_char nl (b ++ nl :: s) = b :: split_char nl s).
  { clear. induction b as [|c b IH]; intros s N; cbn [app split_char]; [rewrite eqb_refl; reflexivity|].
    rewrite neq_eqb by (intros ->; apply N; left; reflexivity). rewrite IH; [reflexivity|]. intros I; apply N; right; exact I. }
  induction 1 as [|l ls (b & -> & N) F IH]; [reflexivity|]. cbn [concat]. rewrite <- app_assoc; cbn [app].
  rewrite A by assumption. cbn [map app]. rewrite IH. reflexivity.
Qed.
(** C21: a record made from the written text is the same record, field for field. *)
Theorem C21_rereading_gives_the_record :
  forall r txt, read_from_a_file r -> write_record r = Ok txt -> record_of_text txt = Ok r.
Proof.
  intros r txt R W. assert (G := read_good r R). unfold write_record in W.
  assert (B : wbad r = false) by apply G. rewrite B in W. inversion W; subst. unfold record_of_text.
  rewrite <- concat_rec_lines, split_full by (apply full_rec; apply G).
  rewrite wos_record_written by assumption. reflexivity.
Qed.
Print Assumptions C21_rereading_gives_the_record.

(** C21: the same for any fields at all, as long as each tag is two characters other than ER and two spaces,
    each field has a value, no tag occurs twice and nothing contains a line ending. *)
Theorem C21_fields_roundtrip :
  forall d : fields, NoDup (dkeys d) ->
    (forall t vs, In (t, vs) d ->
       length t = 2 /\ t <> $"ER" /\ t <> $"  " /\ vs <> [] /\
       (forall v, v = t \/ In v vs -> ~ In nl v /\ ~ In cr v)) ->
    rparse (lines (write_fields d)) [] = (Ok d, []).
Proof.
  intros d N H. apply fields_roundtrip. split; [|exact N]. apply Forall_forall. intros [t vs] I.
  destruct (H t vs I) as (A & B & C & D & E). split; [|split; [assumption|]].
  - split; [assumption|]. split; [exact C|]. split; [assumption|]. apply E; left; reflexivity.
  - apply Forall_forall. intros v J. apply E; right; exact J.
Qed.
Print Assumptions C21_fields_roundtrip.
(** C22: any non-empty set of records read from any files (whose recorded type names are those of WOS
    records), written in any order, is read back exactly, without error, and recognised as a WOS file. *)
Theorem C22_file_roundtrip :
  forall rs, rs <> [] -> NoDup (map wid rs) -> (forall r, In r rs -> read_from_a_file r) ->
    exists txt, write_file [$"WOSRecord"] rs = Ok txt /\ is_wos_file txt = true /\ wos_parse txt = (rs, None).
Proof.
  intros rs NE N H. apply roundtrip; [assumption | apply read_all_good; assumption | apply keys_of_ids; assumption].
Qed.
Print Assumptions C22_file_roundtrip.

(** C23: a file whose writing stopped at any point before its end is reported. *)
Theorem C23_interrupted_file_is_reported :
  forall rs txt written missing, rs <> [] -> (forall r, In r rs -> read_from_a_file r) ->
    write_file [$"WOSRecord"] rs = Ok txt -> txt = written ++ missing -> missing <> [] ->
    snd (wos_parse written) <> None.
Proof. intros rs txt p x NE H W Q NX. eapply cut_file; try eassumption. apply read_all_good; assumption. Qed.
Print Assumptions C23_interrupted_file_is_reported.
(** C23: anything at all after the EF line is reported. *)
Theorem C23_text_after_EF_is_reported :
  forall rs txt extra, rs <> [] -> NoDup (map wid rs) -> (forall r, In r rs -> read_from_a_file r) ->
    write_file [$"WOSRecord"] rs = Ok txt -> extra <> [] ->
    wos_parse (txt ++ nl :: extra) = (rs, Some EFNotAtEnd).
Proof.
  intros rs txt extra NE N H W NX.
  apply after_EF; try assumption; [apply read_all_good | apply keys_of_ids]; assumption.
Qed.
Print Assumptions C23_text_after_EF_is_reported.
(** C23: the reader always ends with a verdict of its own. *)
Theorem C23_reader_terminates : forall content, snd (wos_parse content) <> Some OutOfFuel.
Proof. exact wos_fuel. Qed.
Print Assumptions C23_reader_terminates.
(** C23: records with the same id are kept once. *)
Theorem C23_ids_distinct :
  forall content recs err, wos_parse content = (recs, err) -> NoDup (map rkey recs).
Proof. exact wos_parse_NoDup. Qed.
Print Assumptions C23_ids_distinct.

(** examples and counterexamples *)
Definition L (s : string) : str := lit s ++ [nl].
Definition hd : str := L "FN Thomson Reuters Web of Science" ++ L "VR 1.0".
Definition recA : str := L "PT J" ++ L "AU BREVIK, I" ++ L "   ANICIN, B" ++ L "UT WOS:A1" ++ L "ER".
Definition recB : str := L "PT J" ++ L "AU Smith, A" ++ L "PY 1990" ++ L "UT WOS:A2" ++ L "ER".
Definition recC : str := L "PT B" ++ L "TI Third" ++ L "UT WOS:A3" ++ L "ER".
Definition file1 : str := bom :: hd ++ recA ++ [nl] ++ recB ++ [nl] ++ L "EF".
Definition rA := mkWrec $"WOS:A1" [($"PT", [$"J"]); ($"AU", [$"BREVIK, I"; $"ANICIN, B"]); ($"UT", [$"WOS:A1"])] false None.
Definition rB := mkWrec $"WOS:A2" [($"PT", [$"J"]); ($"AU", [$"Smith, A"]); ($"PY", [$"1990"]); ($"UT", [$"WOS:A2"])] false None.
Definition rC := mkWrec $"WOS:A3" [($"PT", [$"B"]); ($"TI", [$"Third"]); ($"UT", [$"WOS:A3"])] false None.
Example file1_read : wos_parse file1 = ([rA; rB], None).
Proof. vm_compute; reflexivity. Qed.
Example C22_example : [rB; rA] <> [] /\ NoDup (map wid [rB; rA]) /\ (forall r, In r [rB; rA] -> read_from_a_file r).
Proof.
  split; [discriminate|]. split; [apply nodupb_NoDup; vm_compute; reflexivity|].
  intros r [<-|[<-|[]]]; exists file1, [rA; rB], None; (split; [exact file1_read|]); split; try reflexivity; cbn; auto.
Qed.

Example C21_example : read_from_a_file rA /\ write_record rA = Ok recA /\ NoDup (dkeys (wfields rA)) /\ wfields rA <> [].
Proof.
  split; [apply C22_example; cbn; auto|]. split; [vm_compute; reflexivity|].
  split; [apply nodupb_NoDup; vm_compute; reflexivity | discriminate].
Qed.
Example C23_example : exists txt a b, write_file [$"WOSRecord"] [rB; rA] = Ok txt /\ txt = a ++ b /\ b <> [] /\
  exists bad, wos_parse a = ([rB; bad], Some EndsBeforeEF) /\ wbad bad = true.
Proof.
  eexists. exists (firstn 110 (match write_file [$"WOSRecord"] [rB; rA] with Ok t => t | _ => [] end)),
                  (skipn 110 (match write_file [$"WOSRecord"] [rB; rA] with Ok t => t | _ => [] end)).
  split; [vm_compute; reflexivity|]. split; [vm_compute; reflexivity|]. split; [vm_compute; discriminate|].
  eexists; split; vm_compute; reflexivity.
Qed.

(** C22 fails when the collection's recorded type names are not exactly those of its records, e.g. for every
    collection made with | or & or from a list of records (recorded type names are then empty, C02): the file
    has no header and is not recognised. *)
Theorem C22_any_collection_refuted :
  exists rs txt, rs <> [] /\ NoDup (map wid rs) /\ (forall r, In r rs -> read_from_a_file r) /\
    write_file [] rs = Ok txt /\ is_wos_file txt = false /\ wos_parse txt = ([], Some EndsBeforeEF).
Proof.
  exists [rB; rA]. eexists. destruct C22_example as (A & B & C). split; [exact A|]. split; [exact B|]. split; [exact C|].
  split; [vm_compute; reflexivity|]. split; vm_compute; reflexivity.
Qed.
Print Assumptions C22_any_collection_refuted.

(** C23, what holds instead: a record with a line whose third character is not a space is dropped, and nothing
    else: the reader goes on after that record's ER line with the records it has, and sets no error.
    Missing from the full property: that this is reported. *)
Theorem C23_malformed_record_is_dropped_alone_partial :
  forall (before : fields) (l : str) (ls : list str) (er : str) (following : list str) (f : nat) (got : list wrec),
    Forall field_ok before -> 3 <= length l -> starts_with $"ER" l = false -> nth 2 l nl <> sp ->
    (forall h m, concat (map field_lines before) ++ [l] = h :: m -> isspace h = false /\ starts_with $"EF" h = false) ->
    Forall (fun s => firstn 2 s <> $"ER") ls -> firstn 2 er = $"ER" ->
    wos_loop (S f) (concat (map field_lines before) ++ l :: ls ++ er :: following) got = wos_loop f following got.
Proof. exact malformed_dropped. Qed.
Print Assumptions C23_malformed_record_is_dropped_alone_partial.
(** C23 fails for damage inside a file: one character of a tag is missing (U WOS:A2) and the whole record
    is dropped without an error; *)
Definition damaged1 : str :=
  hd ++ recA ++ [nl] ++ L "PT J" ++ L "AU Smith, A" ++ L "U WOS:A2" ++ L "ER" ++ [nl] ++ recC ++ [nl] ++ L "EF".
Theorem C23_dropped_record_is_reported_refuted :
  is_wos_file damaged1 = true /\ wos_parse damaged1 = ([rA; rC], None).
Proof. split; vm_compute; reflexivity. Qed.
Print Assumptions C23_dropped_record_is_reported_refuted.
(** a blank line inside a field ends the reading of the whole file without an error, leaving one bad record; *)
Definition damaged2 : str :=
  hd ++ recA ++ [nl] ++ L "PT J" ++ L "AU Smith, A" ++ [nl] ++ L "   Jones, B" ++ L "UT WOS:A2" ++ L "ER" ++ [nl] ++ recC ++ [nl] ++ L "EF".
Theorem C23_stopped_reading_is_reported_refuted :
  exists bad, wos_parse damaged2 = ([rA; bad], None) /\ wbad bad = true /\ wfields bad = [].
Proof. eexists; split; [vm_compute; reflexivity | split; reflexivity]. Qed.
Print Assumptions C23_stopped_reading_is_reported_refuted.
(** and two different damaged records are kept as one, because every damaged record is equal to every other. *)
Definition damaged3 : str :=
  hd ++ L "PT J" ++ L "AU One" ++ L "AU Two" ++ L "UT WOS:A2" ++ L "ER" ++ [nl]
     ++ L "PT J" ++ L "TI Title" ++ L "TI Title 2" ++ L "UT WOS:A4" ++ L "ER" ++ [nl] ++ recC ++ [nl] ++ L "EF".
Theorem C23_each_damaged_record_is_kept_refuted :
  exists bad, wos_parse damaged3 = ([bad; rC], None) /\ wbad bad = true /\ werr bad = Some BadWOSRecord.
Proof. eexists; split; [vm_compute; reflexivity | split; reflexivity]. Qed.
Print Assumptions C23_each_damaged_record_is_kept_refuted.
