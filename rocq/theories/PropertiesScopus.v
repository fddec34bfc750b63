(** C25: Scopus records. *)
From Coq Require Import List ZArith Lia Bool Arith.
From Coq Require Import String.
From Verif Require Import Base PyStr ScopusModel ScopusSpec ScopusSpec2 ScopusProofs ScopusProofs2.
Import ListNotations.
Local Open Scope list_scope.

(** A line of cells gives each column its cell's value. Cells before the last ones, as many as there are columns, are not read. *)
Theorem C25_reading : forall hs extra cs, NoDup hs -> length cs = length hs -> Forall cell_ok cs ->
  exists d, scopus_parse (Some hs) (line_of (extra ++ map cell_text cs)) = Ok d /\ has_cells hs cs d.
Proof. intros. apply parse_cells; assumption. Qed.
(** With too few cells there is a bad record without fields. *)
Theorem C25_short : forall hs cs, cs <> [] -> length cs < length hs -> Forall cell_ok cs ->
  scopus_parse (Some hs) (line_of (map cell_text cs)) = Raise IndexError /\ sbad (scopus_record (Some hs) (line_of (map cell_text cs))) = true /\ sdata (scopus_record (Some hs) (line_of (map cell_text cs))) = [].
Proof.
  intros hs cs NE L F. pose proof (parse_short hs cs NE L F) as P. change (scopus_parse (Some hs) (line_of (map cell_text cs)) = Raise IndexError) in P. split; [exact P|]. unfold scopus_record. rewrite P. split; reflexivity.
Qed.
(** Values with doubled quotes are read as they are, if they have no comma or open well. *)
Theorem C25_doubled : forall v, doubled v -> opens_well v -> value_ok v.
Proof. intros v D O. split; [apply doubled_parts, D|exact O]. Qed.
(** Otherwise never: the value of the column is longer, or there is no record. *)
Theorem C25_corrupted : forall before k after texts v cs, NoDup (before ++ k :: after) -> length cs = length after -> Forall cell_ok cs -> doubled v -> ~ opens_well v ->
  forall d, scopus_parse (Some (before ++ k :: after)) (line_of (texts ++ ($"""" ++ v ++ $"""") :: map cell_text cs)) = Ok d ->
  exists x, dget k d = Some (x ++ $",""" ++ v).
Proof. intros before k after texts v cs ND L F D OW d P. eapply parse_bad; [exact ND|exact L|exact F|apply doubled_parts, D|exact OW|exact P]. Qed.
(** A record written and read again has the same id and the same values; missing: columns without a value come back empty, and fields that
    are not columns of Scopus are lost. *)
Theorem C25_record_partial : forall r, swritable r -> exists txt r', write_srec r = Ok txt /\ scopus_record None (txt ++ [nl]) = r' /\ same_srec r' r.
Proof. apply round_record. Qed.
(** The same for files. *)
Theorem C25_file_partial : forall rs, rs <> [] -> Forall swritable rs -> Forall one_line rs -> NoDup (map sid rs) ->
  exists txt rs', write_sfile rs = Ok txt /\ is_scopus_file txt = true /\ scopus_file txt = rs' /\ Forall2 same_srec rs' rs.
Proof. apply sfile_back. Qed.

(** ** Examples *)
Lemma even_no_comma (v : str) : ~ In 44%N v -> Nat.even (lead v) = true -> value_ok v.
Proof. intros N E. split; [split; [exact E|]|intros I1; contradiction]. intros a b ->. exfalso. apply N. apply in_or_app. right. left. reflexivity. Qed.
Definition abs : str := $"Doubled """"quotes"""", and commas, in here".
Lemma abs_doubled : doubled abs.
Proof.
  unfold abs. cbn. repeat first [apply doubled_nil | apply (doubled_pair) | apply doubled_char; [discriminate|]].
Qed.
Lemma abs_ok : value_ok abs.
Proof. apply C25_doubled; [exact abs_doubled|]. intros _. exists 68%N. split; [reflexivity|]. intros [E|[E|[E|[]]]]; discriminate. Qed.
Example C25_reading_example : Forall cell_ok [Plain $"2001"; Quoted abs; Plain []; Quoted $"2-s2"] /\ length [Plain $"2001"; Quoted abs; Plain []; Quoted $"2-s2"] = length [$"Year"; $"Abstract"; $"DOI"; $"EID"].
Proof.
  split; [|reflexivity]. constructor; [split; [apply mem_not_In; reflexivity|]|constructor; [exact abs_ok|constructor; [split; [intros []|]|constructor; [|constructor]]]].
  - intros t E. apply (f_equal (fun s => last s 0%N)) in E. cbv beta in E. change $"""" with [34%N] in E. rewrite last_last in E. discriminate.
  - intros [|] E; discriminate.
  - apply even_no_comma; [apply mem_not_In; reflexivity|reflexivity].
Qed.
Definition srec_ex : srec := mkSrec (Some $"EID:2-s2") [($"Title", abs); ($"Year", $"2001"); ($"EID", $"2-s2")] false None.
Example C25_file_example : Forall swritable [srec_ex] /\ Forall one_line [srec_ex] /\ NoDup (map sid [srec_ex]).
Proof.
  assert (C : forall k, column k (sdata srec_ex) = abs \/ column k (sdata srec_ex) = $"2001" \/ column k (sdata srec_ex) = $"2-s2" \/ column k (sdata srec_ex) = []).
  { intros k. unfold column, srec_ex, sdata. cbn [dget]. destruct (eqb k $"Title"); [auto|]. destruct (eqb k $"Year"); [auto|]. destruct (eqb k $"EID"); auto. }
  split; [constructor; [|constructor]|split; [constructor; [|constructor]|apply nodupb_NoDup; reflexivity]].
  - split; [reflexivity|]. split; [reflexivity|]. split; [exists $"2-s2"; split; reflexivity|]. intros k _. destruct (C k) as [->|[->|[->| ->]]]; [exact abs_ok| | |]; apply even_no_comma; try reflexivity; apply mem_not_In; reflexivity.
  - intros k _. destruct (C k) as [->|[->|[->| ->]]]; split; apply mem_not_In; reflexivity.
Qed.
Example C25_corrupted_example : doubled $",a" /\ ~ opens_well $",a".
Proof.
  split; [repeat first [apply doubled_nil|apply doubled_char; [discriminate|]]|]. intros O. destruct O as (c & E & N); [left; reflexivity|]. injection E as <-. apply N. left. reflexivity.
Qed.

(** ** Refutations *)
(** A missing value comes back as an empty one. *)
Theorem C25_absent_refuted : exists r d', swritable r /\ dget $"DOI" (sdata r) = None /\ scopus_parse None (write_scopus (sdata r) ++ [nl]) = Ok d' /\ dget $"DOI" d' = Some [].
Proof. exists srec_ex. eexists. split; [apply (proj1 (Forall_forall _ _) (proj1 C25_file_example)); left; reflexivity|]. split; [reflexivity|]. split; vm_compute; reflexivity. Qed.
(** A value that begins with a comma, or with a bar or a dollar sign and has a comma: here the column before it is read into it, and the
    columns before move by one. *)
Definition three : list str := [$"Title"; $"Abstract"; $"EID"].
Theorem C25_dollar_refuted : exists d, scopus_parse (Some ($"Year" :: three)) (line_of [$"""2001"""; $"""A title"""; $"""$5, or so"""; $"""2-s2"""]) = Raise IndexError /\
  scopus_parse (Some three) (line_of [$"""2001"""; $"""A title"""; $"""$5, or so"""; $"""2-s2"""]) = Ok d /\ dget $"Abstract" d = Some $"A title"",""$5, or so" /\ dget $"Title" d = Some $"2001".
Proof. eexists. split; [vm_compute; reflexivity|]. split; [vm_compute; reflexivity|]. split; reflexivity. Qed.
(** A file with the columns of Scopus in another order is read as if they were in the usual order: here the authors are the id. *)
Definition swapped : list str := $"EID" :: tl (removelast scopus_header) ++ [$"Authors"].
Definition swapped_file : str := [bom] ++ join $"," swapped ++ [nl] ++ join $"," ($"the id" :: repeat $"x" 40 ++ [$"the authors"]) ++ [nl].
Theorem C25_order_refuted : is_scopus_file swapped_file = true /\ exists r, scopus_file swapped_file = [r] /\ sid r = Some $"EID:the authors" /\ dget $"Authors" (sdata r) = Some $"the id".
Proof. split; [vm_compute; reflexivity|]. eexists. split; [vm_compute; reflexivity|]. split; reflexivity. Qed.
(** A file without newline at the end: the last character is lost. *)
Theorem C25_no_newline_refuted : exists r, scopus_file ([bom] ++ $"Title,EID" ++ [nl] ++ $"A,2-s2") = [r] /\ sid r = Some $"EID:2-s".
Proof. eexists. split; vm_compute; reflexivity. Qed.
(** Fields that are not columns of Scopus are lost. *)
Theorem C25_extra_refuted : exists d d', dget $"Notes" d = Some $"kept" /\ scopus_parse None (write_scopus d ++ [nl]) = Ok d' /\ dget $"Notes" d' = None.
Proof. exists [($"EID", $"2-s2"); ($"Notes", $"kept")]. eexists. split; [reflexivity|]. split; vm_compute; reflexivity. Qed.

Print Assumptions C25_reading.
Print Assumptions C25_short.
Print Assumptions C25_doubled.
Print Assumptions C25_corrupted.
Print Assumptions C25_record_partial.
Print Assumptions C25_file_partial.
Print Assumptions C25_absent_refuted.
Print Assumptions C25_dollar_refuted.
Print Assumptions C25_order_refuted.
Print Assumptions C25_no_newline_refuted.
Print Assumptions C25_extra_refuted.
