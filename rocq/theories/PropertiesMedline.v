(** C24: Medline records. [alpha] is the test of str.isalpha for one character; the theorems hold for any test that no white space passes. *)
From Coq Require Import List ZArith Lia Bool Arith.
From Coq Require Import String.
From Verif Require Import Base PyStr MedlineModel MedlineSpec MedlineProofs MedlineProofs2.
Import ListNotations.
Local Open Scope list_scope.

Definition ascii_letter (c : char) : bool := ((65 <=? c) && (c <=? 90) || (97 <=? c) && (c <=? 122))%N.
Lemma ascii_letters : letters ascii_letter.
Proof.
  intros c A. destruct (ws_char c) eqn:W; [exfalso|reflexivity]. unfold ascii_letter in A. unfold ws_char in W.
  repeat rewrite ?orb_true_iff, ?andb_true_iff, ?N.leb_le, ?N.eqb_eq in A; repeat rewrite ?orb_true_iff, ?andb_true_iff, ?N.leb_le, ?N.eqb_eq in W. lia.
Qed.

(** Every field of the text is in the record under its tag, with the lines that continue it, and there are no others. *)
Theorem C24_reading : forall alpha is rest, letters alpha -> Forall (item_ok alpha) is ->
  exists d, medline_parse alpha (flat_map item_lines is ++ [nl] :: rest) = (Ok d, rest) /\ medline_parse alpha (flat_map item_lines is) = (Ok d, []) /\
    forall t, dget t d = match said t None is with [] => None | vs => Some vs end.
Proof. intros. apply reads; assumption. Qed.

(** Written and parsed again a record has the same fields; missing: the condition on the fields about authors. *)
Theorem C24_fields_partial : forall alpha d, letters alpha -> fields_good alpha d -> by_author d ->
  exists d', medline_parse alpha (lines (write_medline d)) = (Ok d', []) /\ same_fields d' d /\
    forall rest, medline_parse alpha (lines (write_medline d) ++ [nl] :: rest) = (Ok d', rest).
Proof.
  intros alpha d AL FG BA. destruct (written_lines alpha d AL FG BA) as (ls & W & FL & _ & d' & SF & tag & au & P).
  assert (EL : lines (write_medline d) = ls) by (rewrite W; pose proof (@lines_app_full ls [] FL) as LA; rewrite app_nil_r in LA; rewrite LA; apply app_nil_r).
  exists d'. rewrite EL. split; [|split; [exact SF|]].
  - specialize (P []). rewrite app_nil_r in P. rewrite P. reflexivity.
  - intros rest. rewrite P. reflexivity.
Qed.
(** The same for the fields that a parser gave for a text, whatever the text: here the condition is that the authors have different names on
    one line, without the mark in them, and that nothing about an author is before the first author. *)
Theorem C24_reparse_partial : forall alpha ls d rest, letters alpha -> medline_parse alpha ls = (Ok d, rest) ->
  NoDup (authors d) -> (forall a, In a (authors d) -> ~ In nl a /\ contains $" : " (a ++ $" :") = false) ->
  (forall t v, In t [$"AD"; $"AUID"] -> In v (values t d) -> starts_with $"None : " v = false) ->
  exists d', medline_parse alpha (lines (write_medline d)) = (Ok d', []) /\ same_fields d' d.
Proof.
  intros alpha ls d rest AL E ND NA NN. destruct (C24_fields_partial alpha d AL) as (d' & P & SF & _); [eapply parse_fields_good; exact E| |eauto]. eapply parse_by_author; eassumption.
Qed.
(** A collection written to a file and read again has the same records in the same order, and no error. *)
Theorem C24_file_partial : forall alpha rs, letters alpha -> rs <> [] -> Forall (writable alpha) rs -> NoDup (map mid rs) ->
  exists txt rs', write_mfile rs = Ok txt /\ is_medline_file txt = true /\ medline_file alpha txt = Ok (rs', false) /\ Forall2 same_record rs' rs.
Proof. intros. apply file_back; assumption. Qed.

(** A record with two authors, a field of two lines and a tag of two letters. *)
Definition med_ex : mfields :=
  [($"PMID", [$"12"]); ($"OWN", [$"NLM"]); ($"TI", [$"A title" ++ [nl] ++ $"on two lines: yes"]);
   ($"AU", [$"Doe J"; $"Roe A"]); ($"AD", [$"Doe J : Here"; $"Doe J : There : too"; $"Roe A : Far" ++ [nl] ++ $"away"]); ($"AUID", [$"Roe A : 5"])].
Definition med_ex2 : mfields := [($"PMID", [$"13"]); ($"AU", [$"Poe E"])].
Lemma med_ex_good : fields_good ascii_letter med_ex /\ by_author med_ex /\ no_returns med_ex.
Proof.
  split; [|split].
  - split; [apply nodupb_NoDup; reflexivity|]. intros t vs I1. cbn in I1.
    repeat (destruct I1 as [I1|I1]; [injection I1 as <- <-; split; [split; [discriminate|split; [cbn; lia|]]|discriminate]; intros c IC; cbn in IC; repeat (destruct IC as [<-|IC]; [reflexivity|]); destruct IC|]). destruct I1.
  - split; [apply nodupb_NoDup; reflexivity|]. exists (fun t a => if eqb t $"AD" then (if eqb a $"Doe J" then [$"Here"; $"There : too"] else [$"Far" ++ [nl] ++ $"away"]) else if eqb a $"Roe A" then [$"5"] else []).
    intros t I1. cbn in I1. destruct I1 as [<-|[<-|[]]]; (split; [reflexivity|]); intros a I1 _; cbn in I1; destruct I1 as [<-|[<-|[]]]; (split; [|reflexivity]); apply mem_not_In; reflexivity.
  - intros t vs v I1 I2. cbn in I1. repeat (destruct I1 as [I1|I1]; [injection I1 as <- <-; cbn in I2; repeat (destruct I2 as [<-|I2]; [apply mem_not_In; reflexivity|]); destruct I2|]). destruct I1.
Qed.
Example C24_fields_example : letters ascii_letter /\ fields_good ascii_letter med_ex /\ by_author med_ex /\ fst (medline_parse ascii_letter (lines (write_medline med_ex))) = Ok med_ex.
Proof. split; [exact ascii_letters|]. split; [apply med_ex_good|]. split; [apply med_ex_good|]. vm_compute. reflexivity. Qed.
Definition med_r1 : mrec := mkMrec (Some $"PMID:12") med_ex false None.
Example C24_file_example : writable ascii_letter med_r1 /\ NoDup (map mid [med_r1; mkMrec (Some $"PMID:13") med_ex2 false None]).
Proof.
  split; [|apply nodupb_NoDup; reflexivity]. destruct med_ex_good as (A & B & C). split; [reflexivity|]. split; [reflexivity|]. split; [exact A|]. split; [exact B|]. split; [exact C|]. do 3 eexists. split; reflexivity.
Qed.
Example C24_reading_example :
  let is := [($"AU", ($"Doe J", [])); ($"AD", ($"Here", [$"and there"])); ($"AU", ($"Roe A", [])); ($"AD", ($"Far", []))] in
  Forall (item_ok ascii_letter) is /\ said $"AD" None is = [$"Doe J : Here" ++ [nl] ++ $"and there"; $"Roe A : Far"].
Proof.
  split; [|vm_compute; reflexivity]. repeat (constructor; [split; [split; [discriminate|split; [cbn; lia|]]; intros c IC; cbn in IC; repeat (destruct IC as [<-|IC]; [reflexivity|]); destruct IC|intros w IW; cbn in IW; repeat (destruct IW as [<-|IW]; [apply mem_not_In; reflexivity|]); destruct IW]|]). constructor.
Qed.

(** Without the conditions the fields about authors are lost or doubled. First, an author on two lines: the address is put after the first
    line when read, and looked for after both when written. *)
Definition lost (ls : list str) (t : str) : Prop := exists d d', medline_parse ascii_letter ls = (Ok d, []) /\ medline_parse ascii_letter (lines (write_medline d)) = (Ok d', []) /\ dget t d <> None /\ dget t d' = None.
Theorem C24_long_author_refuted : lost [$"PMID- 1" ++ [nl]; $"AU  - A very" ++ [nl]; $"      long name" ++ [nl]; $"AD  - Here" ++ [nl]] $"AD".
Proof. do 2 eexists. repeat split; try (vm_compute; reflexivity). vm_compute. discriminate. Qed.
(** An author with the mark in the name. *)
Theorem C24_mark_refuted : lost [$"PMID- 1" ++ [nl]; $"AU  - A : B" ++ [nl]; $"AD  - Here" ++ [nl]] $"AD".
Proof. do 2 eexists. repeat split; try (vm_compute; reflexivity). vm_compute. discriminate. Qed.
(** An address before the first author. *)
Theorem C24_no_author_refuted : lost [$"PMID- 1" ++ [nl]; $"AD  - Here" ++ [nl]; $"AU  - Doe J" ++ [nl]] $"AD".
Proof. do 2 eexists. repeat split; try (vm_compute; reflexivity). vm_compute. discriminate. Qed.
(** Two authors of the same name: each gets the addresses of both. *)
Theorem C24_same_name_refuted : exists d d', 
  medline_parse ascii_letter [$"PMID- 1" ++ [nl]; $"AU  - Li W" ++ [nl]; $"AD  - Here" ++ [nl]; $"AU  - Li W" ++ [nl]; $"AD  - There" ++ [nl]] = (Ok d, []) /\
  medline_parse ascii_letter (lines (write_medline d)) = (Ok d', []) /\ length (values $"AD" d) = 2 /\ length (values $"AD" d') = 4.
Proof. do 2 eexists. repeat split; vm_compute; reflexivity. Qed.
(** A line of less than five characters that begins with letters is an IndexError that leaves the reading of the whole file. *)
Theorem C24_short_line_refuted : medline_file ascii_letter ($"PMID- 1" ++ [nl] ++ $"AB" ++ [nl]) = Raise IndexError.
Proof. vm_compute. reflexivity. Qed.
(** A file without the newline at the end loses the last character. *)
Theorem C24_no_newline_refuted : exists r, medline_file ascii_letter $"PMID- 12" = Ok ([r], false) /\ mid r = Some $"PMID:1".
Proof. eexists. split; vm_compute; reflexivity. Qed.
(** A bad line in a record: all the fields before it are lost, the lines after it are not read and the file is an error. *)
Theorem C24_bad_line_refuted : exists r, medline_file ascii_letter ($"PMID- 1" ++ [nl] ++ $"TI  - T" ++ [nl] ++ $"1234 bad" ++ [nl] ++ $"AU  - Doe J" ++ [nl]) = Ok ([r], true) /\ mbad r = true /\ mdata r = [] /\ mid r = None.
Proof. eexists. repeat split; vm_compute; reflexivity. Qed.

Print Assumptions C24_reading.
Print Assumptions C24_fields_partial.
Print Assumptions C24_reparse_partial.
Print Assumptions C24_file_partial.
Print Assumptions C24_long_author_refuted.
Print Assumptions C24_mark_refuted.
Print Assumptions C24_no_author_refuted.
Print Assumptions C24_same_name_refuted.
Print Assumptions C24_short_line_refuted.
Print Assumptions C24_no_newline_refuted.
Print Assumptions C24_bad_line_refuted.
