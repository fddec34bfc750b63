(** Proofs for C98: a file written with any delimiter and quote is read back. *)
From Coq Require Import List ZArith Lia Bool Arith.
From Coq Require Import String.
From Verif Require Import Base PyStr Nx CsvModel CsvProofs WriteCsvModel WriteCsvSpec WriteCsvProofs WriteCsvProofs2 CsvDialectModel.
Import ListNotations.
Local Open Scope list_scope.

(** text that survives being written and read *)
Definition fits (s : str) : Prop := ~ In 0%N s /\ (N.of_nat (length s) <= field_limit)%N.

Lemma raw_lines_concat s : concat (raw_lines s) = s.
Proof.
  induction s as [|c s IH]; [reflexivity|]. cbn [raw_lines]. destruct (ends_line c s); [cbn [concat app]; rewrite IH; reflexivity|].
  destruct (raw_lines s) as [|l ls]; cbn in *; [rewrite <- IH; reflexivity|]. rewrite IH. reflexivity.
Qed.
Section Dialect.
Variables delim quo : char.
Definition two_signs : Prop := delim <> quo /\ delim <> nl /\ delim <> cr /\ delim <> 0%N /\ quo <> nl /\ quo <> cr /\ quo <> 0%N.
Hypothesis signs : two_signs.
Notation step := (d_step delim quo).
Definition dl (p : ps) (s : str) := d_loop delim quo p (raw_lines s).

Lemma dl_char p p1 (c : char) s : ends_line c s = false -> c <> 0%N -> s <> [] -> step p (Some c) = Ok p1 -> dl p (c :: s) = dl p1 s.
Proof.
  intros N Z NE S. unfold dl. cbn [raw_lines]. rewrite N. destruct (raw_lines s) as [|l ls] eqn:E.
  { pose proof (raw_lines_concat s) as C. rewrite E in C. cbn in C. congruence. }
  cbn [d_loop d_steps]. change (mem 0%N (c :: l)) with (eqb 0%N c || mem 0%N l). rewrite (@neq_eqb _ _ 0%N c) by congruence. cbn [orb]. rewrite S. reflexivity.
Qed.
Lemma dl_end p p1 p2 (c : char) s : ends_line c s = true -> c <> 0%N -> step p (Some c) = Ok p1 -> step p1 None = Ok p2 ->
  dl p (c :: s) = if eqb (pst p2) StartRecord then let* r := dl ps0 s in Ok (pfields p2 :: r) else dl p2 s.
Proof.
  intros N Z S1 S2. unfold dl. cbn [raw_lines]. rewrite N. cbn [d_loop d_steps]. change (mem 0%N [c]) with (eqb 0%N c || false). rewrite (@neq_eqb _ _ 0%N c) by congruence. cbn [orb].
  rewrite S1. cbn [bind]. rewrite S2. reflexivity.
Qed.
Lemma no_end c s : c <> nl -> c <> cr -> ends_line c s = false.
Proof. intros A B. unfold ends_line. rewrite !neq_eqb by assumption. reflexivity. Qed.
(** a character in quotes, whether it ends a line or not *)
Lemma dl_inside p (c : char) s : pst p = InQuoted -> c <> quo -> c <> 0%N -> s <> [] -> (N.of_nat (length (pfield p)) < field_limit)%N ->
  dl p (c :: s) = dl (mkPs InQuoted (pfield p ++ [c]) (pfields p)) s.
Proof.
  intros Q NQ Z NE L. assert (S : step p (Some c) = Ok (mkPs InQuoted (pfield p ++ [c]) (pfields p))).
  { unfold d_step. rewrite Q. rewrite (@neq_eqb char _ c quo) by exact NQ. apply put_ok; exact L. }
  destruct (ends_line c s) eqn:E; [|apply dl_char; assumption]. rewrite dl_end with (1 := E) (2 := Z) (3 := S) (4 := eq_refl). reflexivity.
Qed.
Notation doubled s := (flat_map (fun c : char => if eqb c quo then [quo; quo] else [c]) s).
Lemma dl_body s t : t <> [] -> forall acc fs, ~ In 0%N s -> (N.of_nat (length (acc ++ s)) <= field_limit)%N ->
  dl (mkPs InQuoted acc fs) (doubled s ++ quo :: t) = dl (mkPs QuoteInQuoted (acc ++ s) fs) t.
Proof.
  destruct signs as (DQ & DN & DC & DZ & QN & QC & QZ). intros NE. induction s as [|c s IH]; intros acc fs Z L; cbn [flat_map app].
  - rewrite app_nil_r. apply dl_char; [apply no_end; assumption|exact QZ|exact NE|]. unfold d_step. cbn [pst]. rewrite (@eqb_refl char). reflexivity.
  - assert (L' : (N.of_nat (length acc) < field_limit)%N) by (rewrite app_length in L; cbn [length] in L; lia).
    assert (R : dl (mkPs InQuoted (acc ++ [c]) fs) (doubled s ++ quo :: t) = dl (mkPs QuoteInQuoted (acc ++ c :: s) fs) t).
    { rewrite IH, <- app_assoc; [reflexivity|intros I; apply Z; right; exact I|rewrite <- app_assoc; exact L]. }
    assert (NT : doubled s ++ quo :: t <> []) by (destruct (doubled s); discriminate).
    destruct (@eqb_spec char _ c quo) as [->|NQ]; cbn [app].
    + rewrite dl_char with (p1 := mkPs QuoteInQuoted acc fs); [|apply no_end; assumption|exact QZ|discriminate|unfold d_step; cbn [pst]; rewrite (@eqb_refl char); reflexivity].
      rewrite dl_char with (p1 := mkPs InQuoted (acc ++ [quo]) fs); [exact R|apply no_end; assumption|exact QZ|exact NT|]. unfold d_step. cbn [pst]. rewrite (@eqb_refl char). apply put_ok; exact L'.
    + rewrite dl_inside; [exact R|reflexivity|exact NQ|intros ->; apply Z; left; reflexivity|exact NT|exact L'].
Qed.
Lemma dl_quoted st fs s t : at_field st -> t <> [] -> fits s -> dl (mkPs st [] fs) (d_quoted quo s ++ t) = dl (mkPs QuoteInQuoted s fs) t.
Proof.
  destruct signs as (DQ & DN & DC & DZ & QN & QC & QZ). intros A NE [Z L]. unfold d_quoted. cbn [app]. rewrite <- app_assoc. cbn [app].
  rewrite dl_char with (p1 := mkPs InQuoted [] fs).
  - apply (dl_body s t NE [] fs Z). exact L.
  - apply no_end; assumption.
  - exact QZ.
  - destruct (doubled s); discriminate.
  - destruct A as [-> | ->]; unfold d_step; cbn [pst]; unfold d_start, is_eol; rewrite (@neq_eqb char _ quo nl), (@neq_eqb char _ quo cr) by assumption; cbn [orb]; rewrite (@eqb_refl char); reflexivity.
Qed.
Lemma dl_row t : forall r x st fs, at_field st -> Forall fits (x :: r) ->
  dl (mkPs st [] fs) (d_row delim quo (x :: r) ++ t) = let* rs := dl ps0 t in Ok ((fs ++ x :: r) :: rs).
Proof.
  destruct signs as (DQ & DN & DC & DZ & QN & QC & QZ). induction r as [|y r IH]; intros x st fs A F; inversion F as [|? ? F1 F2]; subst.
  - unfold d_row. cbn [map join]. rewrite <- app_assoc. cbn [app]. rewrite dl_quoted by (auto; discriminate).
    rewrite dl_char with (p1 := mkPs EatCrnl [] (fs ++ [x])); [|reflexivity|discriminate|discriminate|].
    + rewrite dl_end with (p1 := mkPs EatCrnl [] (fs ++ [x])) (p2 := mkPs StartRecord [] (fs ++ [x])); reflexivity || discriminate.
    + unfold d_step. cbn [pst]. rewrite (@neq_eqb char _ cr quo), (@neq_eqb char _ cr delim) by congruence. reflexivity.
  - unfold d_row in *. change (join [delim] (map (d_quoted quo) (x :: y :: r))) with (d_quoted quo x ++ [delim] ++ join [delim] (map (d_quoted quo) (y :: r))). rewrite <- !app_assoc. rewrite dl_quoted; [|exact A|discriminate|exact F1].
    cbn [app]. rewrite dl_char with (p1 := mkPs StartField [] (fs ++ [x])).
    + match goal with |- dl _ (?J ++ cr :: nl :: t) = _ => replace (J ++ cr :: nl :: t) with ((J ++ [cr; nl]) ++ t) by (rewrite <- app_assoc; reflexivity) end.
      rewrite IH; [|right; reflexivity|exact F2]. rewrite <- app_assoc. reflexivity.
    + apply no_end; assumption.
    + exact DZ.
    + intros Q. apply app_eq_nil in Q as [_ Q]. discriminate.
    + unfold d_step. cbn [pst]. rewrite (@neq_eqb char _ delim quo) by assumption. rewrite (@eqb_refl char). reflexivity.
Qed.
Lemma d_rows_row r t : r <> [] -> Forall fits r -> d_rows delim quo (d_row delim quo r ++ t) = let* rs := d_rows delim quo t in Ok (r :: rs).
Proof. intros NE F. destruct r as [|x r]; [congruence|]. apply (dl_row t r x StartRecord []); [left; reflexivity|exact F]. Qed.
Lemma d_rows_rows rs : Forall (fun r => r <> [] /\ Forall fits r) rs -> d_rows delim quo (concat (map (d_row delim quo) rs)) = Ok rs.
Proof. induction 1 as [|r rs [NE F] _ IH]; [reflexivity|]. cbn [map concat]. rewrite d_rows_row by assumption. rewrite IH. reflexivity. Qed.
Lemma d_dict_rows_ok header ds : (forall d, In d ds -> forall k, In k (dkeys d) -> In k header) ->
  d_dict_rows delim quo header ds = Ok (concat (map (d_row delim quo) (map (fun d => map (cell d) header) ds))).
Proof.
  induction ds as [|d ds IH]; intros K; cbn [d_dict_rows map concat]; [reflexivity|]. unfold d_dict_row. assert (F : forallb (fun k => mem k header) (dkeys d) = true).
  { apply forallb_forall. intros k I. apply mem_In. apply (K d (or_introl eq_refl) k I). }
  rewrite F. cbn [bind]. rewrite IH; [reflexivity|]. intros d' I. apply K. right. exact I.
Qed.
Lemma dialect_roundtrip header ds : header <> [] -> NoDup header -> Forall fits header ->
  (forall d, In d ds -> forall k, In k (dkeys d) -> In k header) -> (forall d k, In d ds -> In k header -> fits (cell d k)) ->
  exists text, d_file delim quo header ds = Ok text /\ d_reader delim quo text = Ok (map (fun d => map (fun k => (k, VStr (cell d k))) header) ds).
Proof.
  intros NE ND CH K CD. unfold d_file. rewrite d_dict_rows_ok by exact K. cbn [bind]. eexists. split; [reflexivity|]. unfold d_reader. rewrite d_rows_row by assumption. rewrite d_rows_rows.
  - cbn [bind]. apply (@read_rows_texts header ds NE ND).
  - apply Forall_map, Forall_forall. intros d I. split; [intros Q; apply map_eq_nil in Q; contradiction|]. apply Forall_map, Forall_forall. intros k J. apply CD; assumption.
Qed.
End Dialect.
(** the default dialect *)
Lemma default_quoted s : d_quoted 34%N s = quoted s.
Proof. reflexivity. Qed.
Lemma default_row r : d_row 44%N 34%N r = csv_row (map VStr r).
Proof. unfold d_row, csv_row. rewrite map_map. reflexivity. Qed.
Lemma default_file header ds : (forall d, In d ds -> forall k v, In (k, v) d -> exists s, v = VStr s) -> d_file 44%N 34%N header ds = csv_file header ds.
Proof.
  intros T. unfold d_file, csv_file. rewrite default_row. f_equal. induction ds as [|d ds IH]; [reflexivity|]. cbn [d_dict_rows dict_rows]. rewrite IH by (intros e I; apply T; right; exact I).
  replace (d_dict_row 44%N 34%N header d) with (dict_row header d); [reflexivity|]. unfold d_dict_row, dict_row. destruct (forallb _ _); [|reflexivity]. f_equal. rewrite default_row, map_map. f_equal. apply map_ext. intros k.
  destruct (dget k d) as [v|] eqn:G; [|reflexivity]. apply dget_In in G. destruct (T d (or_introl eq_refl) k v G) as (s & ->). reflexivity.
Qed.
