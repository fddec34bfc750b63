(** A csv file written by DictWriter and read by DictReader gives the texts of the cells back. *)
From Coq Require Import String Lia.
From Verif Require Import Base PyStr Nx CsvModel.
Set Implicit Arguments.

(** text that survives being written and read *)
Definition clean (s : str) : Prop :=
  ~ In cr s /\ ~ In 0%N s /\ (N.of_nat (length s) <= field_limit)%N.
(** text that needs no quotes *)
Definition bare (s : str) : Prop :=
  s <> [] /\ forall c, In c s -> c <> nl /\ c <> cr /\ c <> quote /\ c <> comma /\ c <> 0%N.

Definition loop (p : ps) (s : str) := csv_loop p (lines s).

Lemma loop_char p p1 (c : char) s : c <> nl -> c <> 0%N -> s <> [] -> step p (Some c) = Ok p1 ->
  loop p (c :: s) = loop p1 s.
Proof.
  intros N Z NE S. unfold loop. cbn [lines]. rewrite neq_eqb by exact N.
  destruct (lines s) as [|l ls] eqn:E.
  { pose proof (lines_concat s) as C. rewrite E in C. cbn in C. congruence. }
  cbn [csv_loop steps]; unfold mem; cbn [existsb]. match goal with |- context [eqb ?a ?b] => rewrite (@neq_eqb _ _ a b) by congruence end. cbn [orb].
  rewrite S. reflexivity.
Qed.
Lemma loop_nl p p1 p2 s : step p (Some nl) = Ok p1 -> step p1 None = Ok p2 ->
  loop p (nl :: s) = if eqb (pst p2) StartRecord then let* r := loop ps0 s in Ok (pfields p2 :: r) else loop p2 s.
Proof.
  intros S1 S2. unfold loop. cbn [lines]. rewrite (@eqb_refl char _). cbn [csv_loop]; unfold mem; cbn [existsb].
  match goal with |- context [eqb ?a ?b] => rewrite (@neq_eqb _ _ a b) by discriminate end. cbn [orb steps]. rewrite S1. cbn [bind]. rewrite S2. reflexivity.
Qed.
Lemma put_ok p s c : (N.of_nat (length (pfield p)) < field_limit)%N ->
  put p s c = Ok (mkPs s (pfield p ++ [c]) (pfields p)).
Proof. intros L. unfold put. destruct (N.leb_spec field_limit (N.of_nat (length (pfield p)))); [lia|reflexivity]. Qed.

Lemma loop_quoted_body s t : t <> [] -> forall acc fs, ~ In 0%N s ->
  (N.of_nat (length (acc ++ s)) <= field_limit)%N ->
  loop (mkPs InQuoted acc fs) (double_quotes s ++ quote :: t) = loop (mkPs QuoteInQuoted (acc ++ s) fs) t.
Proof.
  intros NE. induction s as [|c s IH]; intros acc fs Z L; cbn [double_quotes flat_map app].
  - rewrite app_nil_r. apply loop_char; [discriminate|discriminate|assumption|]. reflexivity.
  - fold (double_quotes s).
    assert (L' : (N.of_nat (length acc) < field_limit)%N) by (rewrite app_length in L; cbn [length] in L; lia).
    assert (R : loop (mkPs InQuoted (acc ++ [c]) fs) (double_quotes s ++ quote :: t) = loop (mkPs QuoteInQuoted (acc ++ c :: s) fs) t).
    { rewrite IH, <- app_assoc; [reflexivity | intros I; apply Z; right; exact I | rewrite <- app_assoc; exact L]. }
    destruct (@eqb_spec char _ c quote) as [->|NQ]; cbn [app].
    + rewrite loop_char with (p1 := mkPs QuoteInQuoted acc fs); [| discriminate | discriminate | discriminate | reflexivity].
      rewrite loop_char with (p1 := mkPs InQuoted (acc ++ [quote]) fs).
      * exact R.
      * discriminate.
      * discriminate.
      * destruct (double_quotes s); discriminate.
      * cbn [step pst]. rewrite eqb_refl. apply put_ok; exact L'.
    + assert (S : step (mkPs InQuoted acc fs) (Some c) = Ok (mkPs InQuoted (acc ++ [c]) fs)).
      { cbn [step pst]. rewrite (@neq_eqb char _ c quote) by exact NQ. apply put_ok; exact L'. }
      destruct (@eqb_spec char _ c nl) as [->|NN].
      * rewrite loop_nl with (1 := S) (2 := eq_refl). cbn [pst]. exact R.
      * rewrite loop_char with (p1 := mkPs InQuoted (acc ++ [c]) fs); [exact R | exact NN | intros ->; apply Z; left; reflexivity | | exact S].
        destruct (double_quotes s); discriminate.
Qed.
Definition at_field (s : cst) : Prop := s = StartRecord \/ s = StartField.
Lemma loop_quoted st fs s t : at_field st -> t <> [] -> ~ In 0%N s -> (N.of_nat (length s) <= field_limit)%N ->
  loop (mkPs st [] fs) (quoted s ++ t) = loop (mkPs QuoteInQuoted s fs) t.
Proof.
  intros A NE Z L. unfold quoted. cbn [app]. rewrite <- app_assoc. cbn [app].
  rewrite loop_char with (p1 := mkPs InQuoted [] fs); [| discriminate | discriminate | |].
  - apply loop_quoted_body; assumption.
  - destruct (double_quotes s); discriminate.
  - destruct A as [-> | ->]; reflexivity.
Qed.
Lemma bare_char (c : char) : c <> nl /\ c <> cr /\ c <> quote /\ c <> comma /\ c <> 0%N ->
  is_eol (Some c) = false /\ eqb c quote = false /\ eqb c comma = false.
Proof.
  intros (A & B & C & D & _). cbn [is_eol]. rewrite !neq_eqb by assumption. auto.
Qed.
Lemma loop_bare_rest t : t <> [] -> forall s acc fs,
  (forall c, In c s -> c <> nl /\ c <> cr /\ c <> quote /\ c <> comma /\ c <> 0%N) ->
  (N.of_nat (length (acc ++ s)) <= field_limit)%N ->
  loop (mkPs InField acc fs) (s ++ t) = loop (mkPs InField (acc ++ s) fs) t.
Proof.
  intros NE. induction s as [|c s IH]; intros acc fs B L; cbn [app]; [rewrite app_nil_r; reflexivity|].
  pose proof (B c (or_introl eq_refl)) as Bc. destruct (bare_char Bc) as (E & _ & C).
  rewrite loop_char with (p1 := mkPs InField (acc ++ [c]) fs).
  - rewrite IH, <- app_assoc; [reflexivity | intros; apply B; right; assumption | rewrite <- app_assoc; exact L].
  - apply Bc.
  - apply Bc.
  - destruct s; [exact NE | discriminate].
  - cbn [step pst]. rewrite E, C. apply put_ok. cbn [pfield]. rewrite app_length in L; cbn [length] in L; lia.
Qed.
Lemma loop_bare st fs s t : at_field st -> t <> [] -> bare s -> (N.of_nat (length s) <= field_limit)%N ->
  loop (mkPs st [] fs) (s ++ t) = loop (mkPs InField s fs) t.
Proof.
  intros A NT [NE B] L. destruct s as [|c s]; [congruence|]. cbn [app].
  pose proof (B c (or_introl eq_refl)) as Bc. destruct (bare_char Bc) as (E & Q & C).
  rewrite loop_char with (p1 := mkPs InField [c] fs).
  - rewrite loop_bare_rest; [reflexivity | exact NT | intros; apply B; right; assumption | exact L].
  - apply Bc.
  - apply Bc.
  - destruct s; [exact NT | discriminate].
  - destruct A as [-> | ->]; cbn [step pst start_field]; rewrite ?E, Q, C; apply put_ok; cbn; unfold field_limit; lia.
Qed.

(** decimal numbers need no quotes *)
Lemma dec_fuel_chars f : forall n acc, Forall (fun c => (48 <= c <= 57)%N) acc -> Forall (fun c => (48 <= c <= 57)%N) (dec_fuel f n acc).
Proof.
  induction f as [|f IH]; intros n acc F; cbn [dec_fuel]; [exact F|].
  assert (D : (48 <= 48 + N.modulo n 10 <= 57)%N) by (pose proof (N.mod_upper_bound n 10 ltac:(discriminate)) as H; set (m := N.modulo n 10) in *; clearbody m; lia).
  destruct (N.eqb (n / 10) 0); [|apply IH]; constructor; assumption.
Qed.
Lemma dec_fuel_ne f : forall n acc, acc <> [] -> dec_fuel f n acc <> [].
Proof.
  induction f as [|f IH]; intros n acc F; cbn [dec_fuel]; [exact F|].
  destruct (N.eqb (n / 10) 0); [discriminate|]. apply IH. discriminate.
Qed.
Lemma dec_N_ne n : dec_N n <> [].
Proof. unfold dec_N. cbn [dec_fuel]. destruct (N.eqb (n / 10) 0); [discriminate|]. apply dec_fuel_ne. discriminate. Qed.
Lemma dec_N_chars n c : In c (dec_N n) -> (48 <= c <= 57)%N.
Proof. revert c. apply Forall_forall. apply dec_fuel_chars. constructor. Qed.
Lemma dec_Z_bare z : bare (dec_Z z).
Proof.
  unfold dec_Z, bare. destruct (z <? 0)%Z.
  - split; [discriminate|]. intros c [<-|I]; [repeat split; discriminate|]. apply dec_N_chars in I.
    unfold nl, cr, quote, comma. repeat split; intros E; rewrite E in I; lia.
  - split; [apply dec_N_ne|]. intros c I. apply dec_N_chars in I. unfold nl, cr, quote, comma. repeat split; intros E; rewrite E in I; lia.
Qed.
Lemma bool_bare (b : bool) : bare (val_text (VBool b)).
Proof.
  destruct b; (split; [discriminate|]); intros c I; cbn in I;
  repeat (destruct I as [<-|I]; [repeat split; discriminate|]); destruct I.
Qed.
Lemma loop_field st fs (v : val) t : at_field st -> t <> [] -> clean (val_text v) ->
  exists s1, (s1 = InField \/ s1 = QuoteInQuoted) /\
  loop (mkPs st [] fs) (field_text v ++ t) = loop (mkPs s1 (val_text v) fs) t.
Proof.
  intros A NE (_ & Z & L). destruct v as [z|s|b|]; cbn [field_text].
  - exists InField; split; [auto|]. apply loop_bare; auto. apply dec_Z_bare.
  - exists QuoteInQuoted; split; [auto|]. apply loop_quoted; auto.
  - exists InField; split; [auto|]. apply loop_bare; auto. apply bool_bare.
  - exists QuoteInQuoted; split; [auto|]. apply loop_quoted; auto.
Qed.
Lemma loop_row t : forall vs v st fs, at_field st -> Forall (fun v => clean (val_text v)) (v :: vs) ->
  loop (mkPs st [] fs) (join [comma] (map field_text (v :: vs)) ++ nl :: t)
  = let* r := loop ps0 t in Ok ((fs ++ map val_text (v :: vs)) :: r).
Proof.
  induction vs as [|w vs IH]; intros v st fs A F; inversion F as [|? ? Fv Fs]; subst.
  - cbn [map join]. destruct (@loop_field st fs v (nl :: t) A) as (s1 & S1 & ->); [discriminate | exact Fv |].
    destruct S1 as [-> | ->]; (erewrite loop_nl; [|reflexivity|reflexivity]); reflexivity.
  - change (join [comma] (map field_text (v :: w :: vs))) with (field_text v ++ [comma] ++ join [comma] (map field_text (w :: vs))).
    rewrite <- !app_assoc. destruct (@loop_field st fs v ([comma] ++ join [comma] (map field_text (w :: vs)) ++ nl :: t) A) as (s1 & S1 & ->);
      [discriminate | exact Fv |]. cbn [app].
    rewrite loop_char with (p1 := mkPs StartField [] (fs ++ [val_text v])).
    + rewrite IH; [|right; reflexivity | assumption]. rewrite <- app_assoc. reflexivity.
    + discriminate.
    + discriminate.
    + destruct (join _ _); discriminate.
    + destruct S1 as [-> | ->]; reflexivity.
Qed.

(** universal newlines *)
Lemma translate_app a b : ~ In cr a -> translate (a ++ b) = a ++ translate b.
Proof.
  induction a as [|c a IH]; intros N; cbn [app translate]; [reflexivity|].
  rewrite neq_eqb by (intros ->; apply N; left; reflexivity). rewrite IH; [reflexivity | intros I; apply N; right; exact I].
Qed.
Lemma field_no_cr (v : val) : clean (val_text v) -> ~ In cr (field_text v).
Proof.
  intros (C & _) I. assert (B : forall s, bare s -> ~ In cr s) by (intros s [_ Bs] J; apply Bs in J; tauto).
  assert (Q : forall s, ~ In cr s -> ~ In cr (quoted s)).
  { intros s N J. unfold quoted in J. destruct J as [J|J]; [discriminate|]. apply in_app_iff in J. destruct J as [J|[J|[]]]; [|discriminate].
    unfold double_quotes in J. apply in_flat_map in J. destruct J as (c & J1 & J2). destruct (@eqb_spec char _ c quote) as [->|NQ].
    - destruct J2 as [J2|[J2|[]]]; discriminate.
    - destruct J2 as [J2|[]]. subst c. contradiction. }
  destruct v as [z|s|b|]; cbn [field_text] in I; revert I; [apply B, dec_Z_bare | apply Q, C | apply B, bool_bare | apply Q, C].
Qed.
Lemma join_no_cr l : Forall (fun s => ~ In cr s) l -> ~ In cr (join [comma] l).
Proof.
  induction 1 as [|s l N F IH]; cbn [join]; [auto|]. destruct l as [|s' l]; [exact N|].
  intros I. apply in_app_iff in I. destruct I as [I|[I|I]]; [auto | discriminate | auto].
Qed.
Lemma translate_row r t : Forall (fun v => clean (val_text v)) r ->
  translate (csv_row r ++ t) = join [comma] (map field_text r) ++ nl :: translate t.
Proof.
  intros F. unfold csv_row. rewrite <- app_assoc. rewrite translate_app; [reflexivity|].
  apply join_no_cr. apply Forall_map. eapply Forall_impl; [|exact F]. intros v C. apply field_no_cr, C.
Qed.
Lemma csv_rows_row r t : r <> [] -> Forall (fun v => clean (val_text v)) r ->
  csv_rows (csv_row r ++ t) = let* rs := csv_rows t in Ok (map val_text r :: rs).
Proof.
  intros NE F. unfold csv_rows. rewrite translate_row by exact F. destruct r as [|v vs]; [congruence|].
  apply (@loop_row (translate t) vs v StartRecord []); [left; reflexivity | exact F].
Qed.
Lemma csv_rows_rows rs : Forall (fun r => r <> [] /\ Forall (fun v => clean (val_text v)) r) rs ->
  csv_rows (concat (map csv_row rs)) = Ok (map (map val_text) rs).
Proof.
  induction 1 as [|r rs [NE F] _ IH]; [reflexivity|]. cbn [map concat]. rewrite csv_rows_row by assumption. rewrite IH. reflexivity.
Qed.

(** ** dictionaries *)
Definition cell (d : dict str val) (k : str) : str :=
  match dget k d with Some v => val_text v | None => [] end.

Lemma dict_rows_ok header ds : (forall d, In d ds -> forall k, In k (dkeys d) -> In k header) ->
  dict_rows header ds = Ok (concat (map (fun d => csv_row (map (fun k => match dget k d with Some v => v | None => VStr [] end) header)) ds)).
Proof.
  induction ds as [|d ds IH]; intros K; cbn [dict_rows map concat]; [reflexivity|].
  unfold dict_row. assert (F : forallb (fun k => mem k header) (dkeys d) = true).
  { apply forallb_forall. intros k I. apply mem_In. apply (K d (or_introl eq_refl) k I). }
  rewrite F. cbn [bind]. rewrite IH; [reflexivity|]. intros d' I; apply K; right; exact I.
Qed.
Lemma zip_row_texts header (f : str -> str) : zip_row header (map f header) = map (fun k => (k, VStr (f k))) header.
Proof. induction header as [|k h IH]; cbn [zip_row map]; [reflexivity|]. rewrite IH; reflexivity. Qed.
Lemma dupdate_fresh {K V} `{EqDec K} (e : dict K V) : forall d, NoDup (dkeys e) -> (forall k, In k (dkeys e) -> ~ In k (dkeys d)) ->
  dupdate d e = d ++ e.
Proof.
  unfold dupdate. induction e as [|[k v] e IH]; intros d ND F; cbn [fold_left fst snd]; [rewrite app_nil_r; reflexivity|].
  inversion ND as [|? ? N1 N2]; subst.
  assert (S : dset k v d = d ++ [(k, v)]).
  { assert (NI : ~ In k (dkeys d)) by (apply F; left; reflexivity). clear -NI. induction d as [|[a b] d IH]; cbn [dset app]; [reflexivity|].
    rewrite neq_eqb by (intros ->; apply NI; left; reflexivity). rewrite IH; [reflexivity | intros I; apply NI; right; exact I]. }
  rewrite IH, S, <- app_assoc; [reflexivity | exact N2 |]. intros k' I J. rewrite S in J. unfold dkeys in J. rewrite map_app in J.
  apply in_app_iff in J. destruct J as [J|[<-|[]]]; [apply (F k'); [right; exact I | exact J] | contradiction].
Qed.
Lemma read_rows_texts header ds : header <> [] -> NoDup header ->
  read_rows header (map (fun d => map (cell d) header) ds) = Ok (map (fun d => map (fun k => (k, VStr (cell d k))) header) ds).
Proof.
  intros NE ND. induction ds as [|d ds IH]; [reflexivity|]. cbn [map].
  assert (R : read_row header (map (cell d) header) = Ok (map (fun k => (k, VStr (cell d k))) header)).
  { unfold read_row. rewrite map_length, Nat.ltb_irrefl, zip_row_texts, dupdate_fresh; [reflexivity | | intros k _ []].
    unfold dkeys. rewrite map_map. cbn. rewrite map_id. exact ND. }
  assert (NE' : map (cell d) header <> []) by (intros Q; apply map_eq_nil in Q; contradiction).
  unfold read_rows; fold read_rows. destruct (map (cell d) header) as [|x xs] eqn:E; [congruence|]. rewrite R. cbn [bind]. rewrite IH. reflexivity.
Qed.

Theorem csv_roundtrip header ds : header <> [] -> NoDup header ->
  Forall clean header ->
  (forall d, In d ds -> forall k v, In (k, v) d -> In k header /\ clean (val_text v)) ->
  exists text, csv_file header ds = Ok text /\
    dict_reader text = Ok (map (fun d => map (fun k => (k, VStr (cell d k))) header) ds).
Proof.
  intros NE ND CH CD. unfold csv_file. rewrite dict_rows_ok.
  2:{ intros d I k J. apply in_map_iff in J. destruct J as ([k' v] & <- & J). apply (CD d I k' v J). }
  cbn [bind]. eexists; split; [reflexivity|]. unfold dict_reader.
  rewrite csv_rows_row.
  2:{ intros Q; apply map_eq_nil in Q; contradiction. }
  2:{ apply Forall_map. exact CH. }
  set (row := fun d : dict str val => map (fun k => match dget k d with Some v => v | None => VStr [] end) header).
  change (fun d : dict str val => csv_row (map (fun k => match dget k d with Some v => v | None => VStr [] end) header)) with (fun d => csv_row (row d)).
  rewrite <- map_map with (f := row), csv_rows_rows.
  2:{ apply Forall_map, Forall_forall. intros d I. unfold row. split; [intros Q; apply map_eq_nil in Q; contradiction|].
      apply Forall_map, Forall_forall. intros k J. destruct (dget k d) as [v|] eqn:G.
      - apply dget_In in G. apply (CD d I k v G).
      - split; [intros [] | split; [intros [] | cbn; unfold field_limit; lia]]. }
  cbn [bind]. rewrite !map_map. cbn [val_text]. rewrite map_id.
  rewrite <- (@read_rows_texts header ds NE ND). f_equal. apply map_ext. intros d. unfold row. rewrite map_map. apply map_ext.
  intros k. unfold cell. destruct (dget k d); reflexivity.
Qed.
