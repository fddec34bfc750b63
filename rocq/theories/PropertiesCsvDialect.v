(** C98: writeCSV with any delimiter and quote character, all characters in the texts. *)
From Coq Require Import List ZArith Lia Bool Arith.
From Coq Require Import String.
From Verif Require Import Base PyStr Nx SeriesSpec CsvModel CsvProofs WriteCsvModel WriteCsvSpec WriteCsvProofs WriteCsvProofs2 PropertiesWriteCsv CsvDialectModel CsvDialectProofs.
Import ListNotations.
Local Open Scope list_scope.

(** C98: whatever the two signs are, if they are different and no line ends, a csv reader that is told the signs gets back one row for each record with exactly the texts of its cells,
    also those with delimiters, quotes, line ends and carriage returns; only null characters and texts that are longer than the limit of the csv module (131072) are excluded. *)
Theorem C98_file : forall {R} delim quo to_tag to_full (keys : R -> list str) get genders o rs n g fields,
  two_signs delim quo -> first_different to_tag o -> (forall r, In r rs -> NoDup (keys r)) -> counts_of get genders o rs n g ->
  named to_full o (fields_shown to_tag keys o rs) fields -> let columns := fields ++ extra_columns o in
  columns <> [] -> NoDup columns -> Forall fits columns -> (forall r k, In r rs -> In k columns -> fits (cell_is get o r (n r) (g r) k)) ->
  exists text p, write_csv_with delim quo to_tag to_full keys get genders o rs = Ok (text, p) /\
    d_reader delim quo text = Ok (map (fun r => map (fun k => (k, VStr (cell_is get o r (n r) (g r) k))) columns) rs).
Proof.
  intros R delim quo to_tag to_full keys get genders o rs n g fields SG FD KD C NM columns NE ND FH FC. destruct (plan_ok to_tag to_full keys o rs FD KD fields NM) as (p & E & H & RT).
  unfold write_csv_with. rewrite E. cbn [bind]. rewrite RT, H. destruct (rec_dicts_ok keys get genders o fields n g rs (counts_right _ _ _ _ _ _ C)) as (ds & D & F). rewrite D. cbn [bind].
  assert (EX : forall d, In d ds -> exists r, In r rs /\ shown get o fields r (n r) (g r) d).
  { clear -F. intros d I. induction F as [|r e l ds SH F IH]; [destruct I|]. destruct I as [->|I]; [exists r; split; [left; reflexivity|exact SH]|]. destruct (IH I) as (q & A & B). exists q. split; [right; exact A|exact B]. }
  assert (CL : forall r d k, shown get o fields r (n r) (g r) d -> In k columns -> cell d k = cell_is get o r (n r) (g r) k).
  { intros r d k [_ G] I. unfold cell. rewrite G. destruct (in_dec (list_eq_dec N.eq_dec) k (fields ++ extra_columns o)); [reflexivity|contradiction]. }
  destruct (dialect_roundtrip delim quo SG columns ds NE ND FH) as (text & T & B).
  - intros d I k J. destruct (EX d I) as (r & _ & SH). exact (shown_keys get o fields r (n r) (g r) d k SH J).
  - intros d k I J. destruct (EX d I) as (r & IR & SH). rewrite (CL r d k SH J). apply FC; assumption.
  - subst columns. rewrite T. cbn [bind]. exists text, p. split; [reflexivity|]. rewrite B. f_equal. clear - F CL. induction F as [|r d l ds SH F IH]; [reflexivity|]. cbn [map]. rewrite IH. f_equal. apply map_ext_in. intros k I. rewrite (CL r d k SH I). reflexivity.
Qed.
(** With the comma and the double quote the file is that of C68. *)
Lemma dset_texts (k s : str) (d : dict str val) : (forall j v, In (j, v) d -> exists t, v = VStr t) -> forall j v, In (j, v) (dset k (VStr s) d) -> exists t, v = VStr t.
Proof.
  induction d as [|[a b] d IH]; intros T j v I; cbn [dset] in I.
  - destruct I as [I|[]]. injection I as _ <-. eauto.
  - destruct (eqb k a); destruct I as [I|I].
    + injection I as _ <-. eauto.
    + apply (T j v). right. exact I.
    + apply (T j v). left. exact I.
    + apply (IH (fun j v J => T j v (or_intror J)) j v I).
Qed.
Lemma rec_dict_texts {R} (get : R -> str -> option wval) genders o fields r d : rec_dict get genders o fields r = Ok d -> forall k v, In (k, v) d -> exists t, v = VStr t.
Proof.
  unfold rec_dict. assert (A : forall l (e : dict str val), (forall j v, In (j, v) e -> exists t, v = VStr t) -> forall j v, In (j, v) (fold_left (fun d t => dset t (VStr (cell_text (w_bar o) (get r t))) d) l e) -> exists t, v = VStr t).
  { induction l as [|t l IH]; intros e T; [exact T|]. cbn [fold_left]. apply IH. apply dset_texts, T. }
  specialize (A fields [] (fun j v I => False_ind _ I)). revert A. generalize (fold_left (fun d t => dset t (VStr (cell_text (w_bar o) (get r t))) d) fields []). intros d0 A.
  assert (B : forall d1, (if w_num o then let* n := num_authors get r in Ok (dset num_column (VStr (dec_nat n)) d0) else Ok d0) = Ok d1 -> forall j v, In (j, v) d1 -> exists t, v = VStr t).
  { intros d1. destruct (w_num o); [|intros Q; injection Q as <-; exact A]. destruct (num_authors get r) as [m|]; [|discriminate]. cbn [bind]. intros Q. injection Q as <-. apply dset_texts, A. }
  destruct (if w_num o then _ else _) as [d1|]; [|discriminate]. specialize (B d1 eq_refl). cbn [bind]. destruct (w_gender o); [|intros Q; injection Q as <-; exact B].
  destruct (genders r) as [[[m f] u]|]; [|discriminate]. cbn [bind]. intros Q. injection Q as <-. apply dset_texts, dset_texts, dset_texts, B.
Qed.
Theorem C98_default : forall {R} to_tag to_full (keys : R -> list str) get genders o rs,
  write_csv_with 44%N 34%N to_tag to_full keys get genders o rs = write_csv to_tag to_full keys get genders o rs.
Proof.
  intros R to_tag to_full keys get genders o rs. unfold write_csv_with, write_csv. destruct (write_plan to_tag to_full keys o rs) as [p|]; [|reflexivity]. cbn [bind].
  destruct (rec_dicts get genders o (p_retrieved p) rs) as [ds|] eqn:D; [|reflexivity]. cbn [bind]. rewrite default_file; [reflexivity|].
  revert ds D. induction rs as [|r rs IH]; intros ds D d I; cbn [rec_dicts] in D; [injection D as <-; destruct I|]. destruct (rec_dict get genders o (p_retrieved p) r) as [d0|] eqn:E; [|discriminate]. cbn [bind] in D.
  destruct (rec_dicts get genders o (p_retrieved p) rs) as [ds0|]; [|discriminate]. cbn [bind] in D. injection D as <-. destruct I as [<-|I]; [exact (rec_dict_texts get genders o _ r d0 E)|]. exact (IH ds0 eq_refl d I).
Qed.
(** If the same sign is used for both, the file is written but other rows are got back. *)
Definition one_get (r : unit) (k : str) : option wval := if eqb k $"TI" then Some (WText $"a") else if eqb k $"UT" then Some (WText $"b") else None.
Definition one_o : wopts := {| w_only := [$"TI"; $"UT"]; w_num := false; w_gender := false; w_long := false; w_first := Some []; w_bar := $"|" |}.
Theorem C98_same_refuted : ~ forall {R} sign to_tag to_full (keys : R -> list str) get genders o rs text p, write_csv_with sign sign to_tag to_full keys get genders o rs = Ok (text, p) ->
  exists rows, d_reader sign sign text = Ok rows /\ forall row k, In row rows -> In k (p_header p) -> In k (dkeys row).
Proof.
  intros H. destruct (H unit 39%N [] [] (fun _ => [$"TI"; $"UT"]) one_get (fun _ => Ok (0, 0, 0)) one_o [tt] _ _ eq_refl) as (rows & E & L). vm_compute in E. injection E as <-.
  specialize (L _ $"TI" (or_introl eq_refl) (or_introl eq_refl)). vm_compute in L. destruct L as [L|[L|[]]]; discriminate.
Qed.
(** ** Examples: semicolons and single quotes; a text with both, a line end and a carriage return *)
Definition odd_get (r : unit) (k : str) : option wval := if eqb k $"TI" then Some (WText ($"it's; so" ++ [cr; 65%N; nl; cr; nl])) else if eqb k $"UT" then Some (WMany [$"b"; $"c"]) else None.
Example C98_ex : two_signs 59%N 39%N /\ first_different [] one_o /\ named [] one_o (fields_shown [] (fun _ : unit => []) one_o [tt]) [$"TI"; $"UT"] /\
  Forall fits ([$"TI"; $"UT"] ++ extra_columns one_o) /\ (forall r k, In r [tt] -> In k ([$"TI"; $"UT"] ++ extra_columns one_o) -> fits (cell_is odd_get one_o r 0 (0, 0, 0) k)) /\
  exists text p, write_csv_with 59%N 39%N [] [] (fun _ : unit => []) odd_get (fun _ => Ok (0, 0, 0)) one_o [tt] = Ok (text, p) /\
    d_reader 59%N 39%N text = Ok [[($"TI", VStr ($"it's; so" ++ [cr; 65%N; nl; cr; nl])); ($"UT", VStr $"b|c")]].
Proof.
  split; [repeat split; discriminate|]. split; [discriminate|]. split; [reflexivity|].
  assert (Z : forall s, mem 0%N s = false -> (N.of_nat (length s) <=? field_limit)%N = true -> fits s) by (intros s A B; split; [apply mem_not_In, A|apply N.leb_le, B]).
  split; [repeat constructor; apply Z; vm_compute; reflexivity|]. split.
  - intros r k _ I. cbn in I. repeat destruct I as [<-|I]; try destruct I; apply Z; vm_compute; reflexivity.
  - eexists. eexists. split; vm_compute; reflexivity.
Qed.
Print Assumptions C98_file.
Print Assumptions C98_default.
Print Assumptions C98_same_refuted.
