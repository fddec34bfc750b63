(** C24, C83: Medline records made from texts, the status of the command line program. *)
From Coq Require Import List ZArith Lia Bool Arith.
From Coq Require Import String.
From Verif Require Import Base PyStr MedlineModel MedlineSpec MedlineProofs MedlineProofs2 PropertiesMedline.
From Verif Require GrantFileProofs CliModel.
Import ListNotations.
Local Open Scope list_scope.

Lemma of_lines alpha (s : str) : medline_of_text alpha s = fst (medline_record alpha (lines (s ++ [nl]))).
Proof. unfold medline_of_text. f_equal. f_equal. symmetry. exact (GrantFileProofs.lines_split s). Qed.
(** C24: MedlineRecord(text), the text of the fields with or without the newline at its end: the record has the first number said for PMID as its identifier,
    under every tag what the text says, and is not bad. Without a PMID it is bad, and has the fields. *)
Theorem C24_text : forall alpha is s, letters alpha -> Forall (item_ok alpha) is -> (s ++ [nl] = concat (flat_map item_lines is) \/ s = concat (flat_map item_lines is)) ->
  exists r, medline_of_text alpha s = Ok r /\ (forall t, dget t (mdata r) = match said t None is with [] => None | vs => Some vs end) /\
    match said $"PMID" None is with [] => mid r = None /\ mbad r = true | n :: _ => mid r = Some ($"PMID:" ++ n) /\ mbad r = false end.
Proof.
  intros alpha is s AL F H. destruct (C24_reading alpha is [] AL F) as (d & P1 & P2 & D).
  assert (FL : Forall full_line (flat_map item_lines is)).
  { apply Forall_forall. intros l I1. apply in_flat_map in I1 as ([t [f ws]] & I2 & I3). rewrite Forall_forall in F. destruct (F _ I2) as (G & N). cbn [fst snd] in *.
    destruct G as (_ & _ & AT). cbn [item_lines] in I3. destruct I3 as [<-|I3].
    - exists (t ++ repeat sp (4 - length t) ++ $"- " ++ f). split; [rewrite <- !app_assoc; reflexivity|]. rewrite !in_app_iff. intros [I|[I|[I|I]]].
      + apply AT, AL in I. discriminate I.
      + apply repeat_spec in I. discriminate I.
      + cbn in I. intuition discriminate.
      + apply (N f); [left; reflexivity|exact I].
    - apply in_map_iff in I3 as (w & <- & I3). exists ($"      " ++ w). split; [rewrite <- app_assoc; reflexivity|]. rewrite in_app_iff. intros [I|I]; [cbn in I; intuition discriminate|]. apply (N w); [right; exact I3|exact I]. }
  assert (Q : exists rest, medline_parse alpha (lines (s ++ [nl])) = (Ok d, rest)).
  { destruct H as [-> | ->].
    - pose proof (@lines_app_full (flat_map item_lines is) [] FL) as LA. rewrite app_nil_r in LA. rewrite LA. change (lines []) with (@nil str). rewrite app_nil_r. eauto.
    - rewrite (@lines_app_full (flat_map item_lines is) [nl] FL). change (lines [nl]) with [[nl]]. eauto. }
  destruct Q as (rest & Q). rewrite of_lines. unfold medline_record. rewrite Q. cbn [fst]. unfold mrec_of. pose proof (D $"PMID") as DP.
  destruct (said $"PMID" None is) as [|n ns]; rewrite DP; eexists; (split; [reflexivity|]); split; auto.
Qed.
(** C24: what writeRecord writes of a record gives the record again when it is given to MedlineRecord as a text; missing: the condition on the fields about authors.
    No condition on carriage returns is needed here. *)
Theorem C24_written_text_partial : forall alpha r number others fs, letters alpha -> mbad r = false -> merr r = None -> fields_good alpha (mdata r) -> by_author (mdata r) ->
  mdata r = ($"PMID", number :: others) :: fs -> mid r = Some ($"PMID:" ++ number) ->
  exists s r', write_mrec r = Ok s /\ medline_of_text alpha s = Ok r' /\ same_record r' r.
Proof.
  intros alpha r number others fs AL B ER FG BA ED EI. destruct (C24_fields_partial alpha (mdata r) AL FG BA) as (d' & _ & SF & P). destruct (written_lines alpha (mdata r) AL FG BA) as (ls & W & FL & _).
  exists (write_medline (mdata r)), (mkMrec (mid r) d' false None). split; [unfold write_mrec; rewrite B; reflexivity|]. split; [|unfold same_record; cbn [mid mbad merr mdata]; auto].
  rewrite of_lines. assert (L : lines (write_medline (mdata r) ++ [nl]) = lines (write_medline (mdata r)) ++ [nl] :: []).
  { rewrite W. rewrite (@lines_app_full ls [nl] FL). pose proof (@lines_app_full ls [] FL) as LA. rewrite app_nil_r in LA. rewrite LA. change (lines []) with (@nil str). rewrite app_nil_r. reflexivity. }
  rewrite L. unfold medline_record. rewrite (P []). cbn [fst]. unfold mrec_of. rewrite (SF $"PMID"), ED. cbn [dget]. rewrite eqb_refl, EI. reflexivity.
Qed.
Example C24_text_ex : exists r, medline_of_text ascii_letter ($"PMID- 12" ++ [nl] ++ $"TI  - A title" ++ [nl] ++ $"      of two lines") = Ok r /\ mid r = Some $"PMID:12" /\
  dget $"TI" (mdata r) = Some [$"A title" ++ [nl] ++ $"of two lines"] /\
  ($"PMID- 12" ++ [nl] ++ $"TI  - A title" ++ [nl] ++ $"      of two lines") ++ [nl] = concat (flat_map item_lines [($"PMID", ($"12", [])); ($"TI", ($"A title", [$"of two lines"]))]) /\
  Forall (item_ok ascii_letter) [($"PMID", ($"12", [])); ($"TI", ($"A title", [$"of two lines"]))] /\ fields_good ascii_letter med_ex /\ by_author med_ex.
Proof.
  eexists. split; [vm_compute; reflexivity|]. split; [reflexivity|]. split; [vm_compute; reflexivity|]. split; [vm_compute; reflexivity|]. split; [|split; apply med_ex_good].
  repeat constructor; try discriminate; cbn; try lia; try (intros c I1; repeat (destruct I1 as [<-|I1]; [reflexivity|]); destruct I1); intuition (subst; cbn in *; intuition discriminate).
Qed.
Print Assumptions C24_text.
Print Assumptions C24_written_text_partial.

(** C83: the status is 0 exactly when the user ended the session themselves. *)
Theorem C83_status : forall o, (CliModel.exit_status o = 0%Z <-> o = CliModel.Quit) /\ (o <> CliModel.Quit -> CliModel.exit_status o = 1%Z).
Proof. intros [u| |e]; split; try (split; intros H; try discriminate; reflexivity); intros H; try reflexivity. congruence. Qed.
Example C83_status_ex : exists u, CliModel.exit_status (CliModel.Ret u) = 1%Z /\ CliModel.exit_status CliModel.Quit = 0%Z.
Proof. exists tt. auto. Qed.
Print Assumptions C83_status.
