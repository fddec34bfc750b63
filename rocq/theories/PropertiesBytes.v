(** C86: the bytes of records and collections. *)
From Coq Require Import List ZArith Lia Bool Arith.
From Coq Require Import String.
From Verif Require Import Base PyStr WosModel WosProofs PropertiesWos PropertiesMedline FileModel FileProofs PropertiesFile BytesModel.
From Verif Require MedlineModel ProQuestModel ScopusModel CollectionProofs.
Import ListNotations.
Local Open Scope list_scope.

Lemma lined_text d : flat_map (fun e => field_text (fst e) (snd e)) (lined d) ++ $"ER" ++ [nl] = write_fields d.
Proof.
  unfold write_fields. f_equal. unfold lined. rewrite flat_map_concat_map, map_map. f_equal. apply map_ext. intros [t vs]. cbn [fst snd].
  unfold field_text, write_field. cbn [elements fst snd]. destruct vs as [|v vs]; [reflexivity|]. rewrite flat_map_concat_map. reflexivity.
Qed.
Lemma wos_record_bytes r t : write_record r = Ok t -> Forall scalar t -> record_bytes (WosRec r) = Ok (flat_map utf8_char t).
Proof.
  intros W F. unfold write_record in W. destruct (wbad r) eqn:B; [discriminate|]. injection W as W. cbn [record_bytes]. unfold fields_bytes. rewrite B, lined_text, W. apply encode_ok. split; [exact F|reflexivity].
Qed.
(** The bytes of a WOS record read from a file are those of its text in the file, up to what follows ER, and a record made of that text is the same. *)
Theorem C86_wos : forall b s recs err r, utf8_decode b = Some s -> wos_parse s = (recs, err) -> In r recs -> wbad r = false ->
  exists before body er after b', translate (strip_bom s) = before ++ body ++ er ++ after /\ starts_with $"ER" er = true /\
    record_bytes (WosRec r) = Ok b' /\ utf8_decode b' = Some (body ++ $"ER" ++ [nl]) /\ record_of_text (body ++ $"ER" ++ [nl]) = Ok r.
Proof.
  intros b s recs err r D P I1 B. destruct (C21_written_text_is_the_source_text s recs err r P I1 B) as (before & body & er & after & E & S1 & W).
  assert (RB : read_from_bytes r) by (exists b, s, recs, err; auto). pose proof (written_scalar _ _ RB W) as F.
  exists before, body, er, after. eexists. split; [exact E|]. split; [exact S1|]. split; [apply wos_record_bytes; [exact W|exact F]|]. split; [apply decode_encode; exact F|].
  apply C21_rereading_gives_the_record; [apply bytes_file; exact RB|exact W].
Qed.
Lemma encode_app a b : flat_map utf8_char (a ++ b) = flat_map utf8_char a ++ flat_map utf8_char b.
Proof. apply flat_map_app. Qed.
Lemma join_more sep (x : str) l : l <> [] -> join sep (x :: l) = x ++ sep ++ join sep l.
Proof. destruct l; [congruence|reflexivity]. Qed.
Lemma nl_scalar : scalar nl.
Proof. apply no_code_spec. reflexivity. Qed.
Lemma wos_all_bytes rs : rs <> [] -> (forall r, In r rs -> read_from_bytes r) -> exists t bs, write_all rs = Ok (t ++ [nl]) /\ all_bytes (map WosRec rs) = Ok bs /\ join [10%N] bs = flat_map utf8_char t /\ Forall scalar t.
Proof.
  induction rs as [|r rs IH]; intros NE H; [congruence|]. destruct (H r (or_introl eq_refl)) as (b & s & recs & err & D & P & I1 & B).
  assert (RB : read_from_bytes r) by (apply H; left; reflexivity).
  assert (W : write_record r = Ok (write_fields (wfields r))) by (unfold write_record; rewrite B; reflexivity). pose proof (written_scalar _ _ RB W) as F. pose proof (wos_record_bytes _ _ W F) as RW.
  cbn [map all_bytes write_all]. rewrite W, RW. cbn [bind]. destruct rs as [|q rs].
  - cbn [map all_bytes write_all bind]. eexists _, _. split; [reflexivity|]. split; [reflexivity|]. split; [reflexivity|exact F].
  - destruct IH as (t & bs & EW & EB & EJ & FT); [discriminate|intros x I2; apply H; right; exact I2|]. rewrite EW, EB. cbn [bind]. exists (write_fields (wfields r) ++ [nl] ++ t). eexists. split; [rewrite <- !app_assoc; reflexivity|]. split; [reflexivity|]. split.
    + assert (NB : bs <> []) by (intros ->; cbn [map all_bytes] in EB; destruct (record_bytes (WosRec q)); [cbn [bind] in EB; destruct (all_bytes (map WosRec rs)); discriminate|discriminate]).
      rewrite (join_more [10%N] _ bs NB), EJ, !encode_app. reflexivity.
    + apply Forall_app. split; [exact F|]. constructor; [exact nl_scalar|exact FT].
Qed.
(** The bytes of a collection of WOS records are the file that would be written, without its beginning and its end, which are the same for every collection. *)
Theorem C86_wos_collection : exists head tail, forall rs, rs <> [] -> (forall r, In r rs -> read_from_bytes r) ->
  exists b, collection_bytes (map WosRec rs) = Ok b /\ write_wos_bytes rs = Ok (head ++ b ++ tail).
Proof.
  exists (flat_map utf8_char wos_header), (flat_map utf8_char ([nl] ++ $"EF")). intros rs NE H. destruct (wos_all_bytes rs NE H) as (t & bs & EW & EB & EJ & FT). exists (join [10%N] bs). split.
  - unfold collection_bytes. destruct rs as [|r rs]; [congruence|]. cbn [map]. cbn [map] in EB. rewrite EB. reflexivity.
  - destruct (wos_bytes rs NE H) as (txt & WF & FS & ->). f_equal. unfold write_file in WF. destruct rs as [|r rs]; [congruence|]. rewrite andb_false_r, eqb_refl, EW in WF. cbn [bind] in WF.
    assert (X : txt = wos_header ++ (t ++ [nl]) ++ $"EF") by congruence. rewrite X, !encode_app, EJ, <- !app_assoc. reflexivity.
Qed.
(** so that they are read back with these around them *)
Theorem C86_wos_read_back : exists head tail, forall alpha rs b path before ext name, rs <> [] -> NoDup (map wid rs) -> (forall r, In r rs -> read_from_bytes r) -> path = before ++ ext -> name <> [] ->
  collection_bytes (map WosRec rs) = Ok b -> read_path alpha path name ext (head ++ b ++ tail) = Ok (mkFcoll (map WosRec rs) [$"WOSRecord"] name false []).
Proof.
  destruct C86_wos_collection as (head & tail & C). exists head, tail. intros alpha rs b path before ext name NE ND H EP NN EB.
  destruct (C rs NE H) as (b' & EB' & EW). rewrite EB in EB'. injection EB' as <-. destruct (C76_wos alpha rs path before ext name NE ND H EP NN) as (w & EW' & R). rewrite EW in EW'. injection EW' as <-. exact R.
Qed.
(** A bad record has no bytes, and a collection with one raises, as an empty one does. *)
Definition is_bad (r : record) : bool :=
  match r with WosRec r => wbad r | MedlineRec r => MedlineModel.mbad r | ProQuestRec r => ProQuestModel.pbad r | ScopusRec r => ScopusModel.sbad r end.
Theorem C86_bad : forall r, is_bad r = true -> record_bytes r = Raise BadRecord.
Proof. intros [r|r|r|r] B; cbn in *; unfold fields_bytes; rewrite B; reflexivity. Qed.
Theorem C86_bad_collection : forall rs r, In r rs -> is_bad r = true -> (forall q, In q rs -> is_bad q = false -> exists b, record_bytes q = Ok b) -> collection_bytes rs = Raise BadRecord.
Proof.
  intros rs r I1 B H. assert (A : all_bytes rs = Raise BadRecord).
  { induction rs as [|q rs IH]; [destruct I1|]. cbn [all_bytes]. destruct (is_bad q) eqn:BQ; [rewrite C86_bad by exact BQ; reflexivity|]. destruct (H q (or_introl eq_refl) BQ) as (b & ->). cbn [bind].
    destruct I1 as [->|I1]; [congruence|]. rewrite IH; [reflexivity|exact I1|]. intros x I2. apply H. right. exact I2. }
  unfold collection_bytes. destruct rs; [destruct I1|]. rewrite A. reflexivity.
Qed.
Theorem C86_empty : collection_bytes [] = Raise AttributeError.
Proof. reflexivity. Qed.
(** The bytes of a Medline or Scopus record are not in its file: the tags are written otherwise, and a Scopus record has one character in a line. *)
Definition med_file : bytes := $"PMID- 12" ++ [nl] ++ $"TI  - On examples" ++ [nl] ++ [nl].
Theorem C86_medline_refuted : exists r b, read_path ascii_letter $"a.txt" $"n" [] med_file = Ok (mkFcoll [r] [$"MedlineRecord"] $"n" false []) /\ record_bytes r = Ok b /\
  b = $"PMID 12" ++ [nl] ++ $"TI On examples" ++ [nl] ++ $"ER" ++ [nl] /\ forall x y, med_file <> x ++ $"PMID 12" ++ y.
Proof. eexists _, _. split; [vm_compute; reflexivity|]. split; [vm_compute; reflexivity|]. split; [vm_compute; reflexivity|]. apply nowhere_ok. vm_compute. reflexivity. Qed.
Theorem C86_scopus_refuted : exists file b, write_scopus_bytes [scp_vr] = Ok file /\ (exists x y, file = x ++ $"Revision" ++ y) /\ record_bytes (ScopusRec scp_vr) = Ok b /\ (forall x y, b <> x ++ $"Re" ++ y) /\
  firstn 17 b = $"Title R" ++ [nl] ++ $"   e" ++ [nl] ++ $"   v".
Proof. eexists _, _. split; [vm_compute; reflexivity|]. split; [apply contains_spec; vm_compute; reflexivity|]. split; [vm_compute; reflexivity|]. split; [apply nowhere_ok; vm_compute; reflexivity|vm_compute; reflexivity]. Qed.
Example C86_ex : exists b, collection_bytes [WosRec rB; WosRec rA] = Ok b /\ (forall r, In r [rB; rA] -> read_from_bytes r) /\ 20 < length b.
Proof. eexists. split; [vm_compute; reflexivity|]. split; [exact C76_wos_ex|]. apply Nat.ltb_lt. vm_compute. reflexivity. Qed.
Example C86_bad_ex : collection_bytes [WosRec rB; WosRec (mkWrec $"WOS:Missing" [] true (Some BadWOSRecord))] = Raise BadRecord.
Proof. vm_compute. reflexivity. Qed.
Print Assumptions C86_wos.
Print Assumptions C86_wos_collection.
Print Assumptions C86_wos_read_back.
Print Assumptions C86_bad.
Print Assumptions C86_bad_collection.
Print Assumptions C86_empty.
Print Assumptions C86_medline_refuted.
Print Assumptions C86_scopus_refuted.
