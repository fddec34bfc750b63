(** Consequences: the fields of a citation, its ID, and strings of the expected form. *)
From Coq Require Import String.
From Verif Require Import Base PyStr PyInt Span Regex RegexFacts CsvProofs DecFacts CitationModel CitationSpec CitationProofs.
Set Implicit Arguments.

(** the citation with given parts *)
Definition opt {A} (v : option A) : list A := match v with Some a => [a] | None => [] end.
Section Made.
Variable upper title : str -> str.
Lemma citation_parts s : exists c, wos_citation upper title s = Ok c /\
  c_author c = option_map (fun a => title (filter (fun x => negb (x =? 46)%N) a)) (p_author (read (upper s))) /\
  c_year c = option_map number (p_year (read (upper s))) /\ c_journal c = p_journal (read (upper s)) /\
  c_V c = p_volume (read (upper s)) /\ c_P c = p_page (read (upper s)) /\
  (c_DOI c, c_misc c) = read_end (p_left (read (upper s))) /\
  c_original c = s /\
  (c_bad c = false -> c_misc c = None /\ exists a y j, c_author c = Some a /\ c_year c = Some y /\ c_journal c = Some j /\ c_id c = (a ++ $", " ++ dec_Z y ++ $", " ++ j)%list) /\
  (c_bad c = true -> (c_misc c <> None \/ c_author c = None \/ c_year c = None \/ c_journal c = None) /\ c_id c = part_id (c_author c) (c_year c) (c_journal c)).
Proof.
  unfold wos_citation. destruct (regex_reads (upper s)) as [g [-> [E1 [E3 [E5 [E7 [E9 [E12 E15]]]]]]]].
  pose proof (p_year_number (upper s)) as YN.
  destruct (read_end (p_left (read (upper s)))) as [d m] eqn:RE. cbn [fst snd] in *.
  rewrite E1, E3, E5, E7, E9, E12. destruct (p_year (read (upper s))) as [y|]; [rewrite (YN y eq_refl)|]; cbn [bind];
  destruct m as [m|]; destruct (p_author (read (upper s))) as [a|], (p_journal (read (upper s))) as [j|];
    (eexists; split; [reflexivity|]; cbn [c_author c_year c_journal c_V c_P c_DOI c_misc c_bad c_id c_original option_map];
     rewrite ?E15; repeat split; try reflexivity; try discriminate; try (left; congruence); try (right; left; reflexivity); try (do 2 right; left; reflexivity); try (do 3 right; reflexivity); try (repeat eexists; reflexivity)).
Qed.
End Made.

Lemma part_id_given (a : option str) (y : option Z) (j : option str) : a <> Some [] -> y <> Some 0%Z -> j <> Some [] ->
  part_id a y j = join $", " (opt a ++ opt (option_map dec_Z y) ++ opt j).
Proof.
  intros A Y J. unfold part_id. f_equal. f_equal; [|f_equal].
  - destruct a as [[|x a]|]; [exfalso; apply A; reflexivity|reflexivity|reflexivity].
  - destruct y as [z|]; [|reflexivity]. cbn. destruct (Z.eqb_spec z 0); [congruence|reflexivity].
  - destruct j as [[|x j]|]; [exfalso; apply J; reflexivity|reflexivity|reflexivity].
Qed.
Lemma read_journal_ne s : p_journal (read s) <> Some [].
Proof.
  unfold read. destruct (read_author s) as [a s1]. destruct (read_year _) as [y s2].
  destruct (read_journal (skip_separator s2)) as [j s3] eqn:J. destruct (read_marked 86%N s3) as [v s4]. destruct (read_marked 80%N s4) as [p s5]. cbn [p_journal].
  intros ->. unfold read_journal in J. destruct (up_to_comma (skip_separator s2)); congruence.
Qed.

(** commas *)
Lemma up_to_comma_no s x : In x (up_to_comma s) -> x <> 44%N.
Proof.
  unfold up_to_comma. pose proof (tw_all (fun x => negb (is_comma x)) s) as F. rewrite Forall_forall in F. intros I ->. specialize (F _ I). discriminate.
Qed.
Lemma author_no_comma s a : p_author (read s) = Some a -> ~ In 44%N a.
Proof.
  unfold read. destruct (read_author s) as [b s1] eqn:R. destruct (read_year _) as [y s2].
  destruct (read_journal (skip_separator s2)) as [j s3] eqn:J. destruct (read_marked 86%N s3) as [v s4]. destruct (read_marked 80%N s4) as [p s5]. cbn [p_author].
  intros ->. unfold read_author in R. destruct s as [|x [|z s]]; try congruence. destruct (is_09 x || is_comma x || is_comma z); [congruence|].
  injection R as <- _. intros I. apply up_to_comma_no in I. congruence.
Qed.
Lemma split_at_comma a b (x y : str) : ~ In 44%N a -> ~ In 44%N b -> (a ++ 44%N :: x = b ++ 44%N :: y)%list -> a = b /\ x = y.
Proof.
  revert b. induction a as [|c a IH]; intros [|d b] A B E; cbn in *.
  - injection E as ->. auto.
  - injection E as E _. exfalso; apply B; left; congruence.
  - injection E as E _. exfalso; apply A; left; congruence.
  - injection E as -> E. destruct (IH b) as [-> ->]; auto.
Qed.
Lemma dec_Z_no_comma z : ~ In 44%N (dec_Z z).
Proof.
  unfold dec_Z. destruct (z <? 0)%Z; [intros [E|I]; [discriminate|]|intros I]; apply dec_N_chars in I; lia.
Qed.
Lemma id_injective (a b : str) (y z : Z) (j k : str) : ~ In 44%N a -> ~ In 44%N b ->
  (a ++ $", " ++ dec_Z y ++ $", " ++ j)%list = (b ++ $", " ++ dec_Z z ++ $", " ++ k)%list -> a = b /\ y = z /\ j = k.
Proof.
  intros A B E. change ($", ") with [44%N; 32%N] in E. cbn [app] in E. apply split_at_comma in E as [-> E]; [|assumption|assumption].
  injection E as E. apply split_at_comma in E as [E1 E2]; [|apply dec_Z_no_comma|apply dec_Z_no_comma].
  apply dec_Z_inj in E1 as ->. injection E2 as ->. auto.
Qed.

(** strings of the expected form *)
Lemma number_dec z : number (dec_Z z) = z.
Proof.
  unfold number, dec_Z. destruct (Z.ltb_spec z 0) as [L|L].
  - cbn [N.eqb Pos.eqb]. change (digits_value (dec_N (Z.to_N (- z)))) with (number_from 0 (dec_N (Z.to_N (- z)))). rewrite dec_N_value. lia.
  - pose proof (dec_N_value (Z.to_N z)) as V. pose proof (dec_N_digits (Z.to_N z)) as D. pose proof (dec_N_ne (Z.to_N z)) as NE.
    destruct (dec_N (Z.to_N z)) as [|x t]; [congruence|]. inversion D as [|? ? Dx _]; subst.
    destruct (N.eqb_spec x 45) as [->|]; [unfold is_digit in Dx; lia|].
    change (digits_value (x :: t)) with (number_from 0 (x :: t)). rewrite V. lia.
Qed.
Definition no_comma (s : str) : Prop := ~ In 44%N s.
Lemma no_comma_all s : no_comma s -> Forall (fun x => negb (is_comma x) = true) s.
Proof.
  intros N. apply Forall_forall. intros x I. unfold is_comma. destruct (N.eqb_spec x 44) as [->|]; [contradiction|reflexivity].
Qed.
Lemma up_to_comma_app (a b : str) : no_comma a -> at_comma b -> up_to_comma (a ++ b) = a /\ from_comma (a ++ b) = b.
Proof.
  intros A B. apply tw_app; [apply no_comma_all, A|]. destruct b as [|x b]; [exact Logic.I|]. cbn in B. subst x. reflexivity.
Qed.
Lemma digits_09 s : Forall is_digit s -> Forall (fun x => is_09 x = true) s.
Proof.
  intros F. eapply Forall_impl; [|exact F]. intros x [A B]. unfold is_09. apply N.leb_le in A. apply N.leb_le in B. rewrite A, B. reflexivity.
Qed.
Lemma read_author_text (x y : char) a t : is_09 x = false -> no_comma (x :: y :: a) -> at_comma t ->
  read_author ((x :: y :: a) ++ t) = (Some (x :: y :: a), t).
Proof.
  intros D C T. destruct (@up_to_comma_app _ _ C T) as [U F]. unfold read_author. rewrite U, F. cbn [app]. rewrite D.
  assert (is_comma x = false) as -> by (apply N.eqb_neq; intros ->; apply C; left; reflexivity).
  assert (is_comma y = false) as -> by (apply N.eqb_neq; intros ->; apply C; right; left; reflexivity). reflexivity.
Qed.
Lemma read_year_text z t : (-100000 < z < 100000)%Z -> at_comma t -> read_year (dec_Z z ++ t) = (Some (dec_Z z), t).
Proof.
  intros B T. assert (HT : match t with [] => True | x :: _ => is_09 x = false end) by (destruct t as [|x t]; [exact Logic.I|cbn in T; subst x; reflexivity]).
  assert (L : forall n, (n < 100000)%N -> length (dec_N n) <= 5) by (intros n Hn; apply (@dec_N_length 4 n); exact Hn).
  unfold dec_Z. destruct (Z.ltb_spec z 0) as [N|N].
  - cbn [app]. unfold read_year. cbn [N.eqb Pos.eqb].
    destruct (@twn_app char is_09 (dec_N (Z.to_N (- z))) t 5) as [E1 E2]; [apply digits_09, dec_N_digits|apply L; lia|exact HT|].
    rewrite E1, E2. pose proof (dec_N_ne (Z.to_N (- z))). destruct (dec_N (Z.to_N (- z))); [congruence|reflexivity].
  - destruct (@twn_app char is_09 (dec_N (Z.to_N z)) t 5) as [E1 E2]; [apply digits_09, dec_N_digits|apply L; lia|exact HT|].
    pose proof (dec_N_ne (Z.to_N z)) as NE. pose proof (dec_N_digits (Z.to_N z)) as D.
    destruct (dec_N (Z.to_N z)) as [|x s]; [congruence|]. inversion D as [|? ? Dx _]; subst.
    unfold read_year. cbn [app] in *. destruct (N.eqb_spec x 45) as [->|]; [unfold is_digit in Dx; lia|]. rewrite E1, E2. reflexivity.
Qed.
Lemma read_marked_text m v t : v <> [] -> no_comma v -> at_comma t -> read_marked m (($", " ++ m :: v) ++ t) = (Some (m :: v), t).
Proof.
  intros NE C T. unfold read_marked.
  replace (starts_with ($", " ++ [m]) (($", " ++ m :: v) ++ t)) with true by (symmetry; apply starts_with_spec; exists (v ++ t); rewrite <- !app_assoc; reflexivity).
  change (skipn 3 (($", " ++ m :: v) ++ t)) with (v ++ t)%list. destruct (@up_to_comma_app _ _ C T) as [-> ->]. destruct v; [congruence|reflexivity].
Qed.
Lemma read_marked_other m s : starts_with ($", " ++ [m]) s = false -> read_marked m s = (None, s).
Proof. intros E. unfold read_marked. rewrite E. reflexivity. Qed.
Definition tail_text (v p d : option str) : str :=
  ((match v with Some v => $", V" ++ v | None => [] end) ++ (match p with Some p => $", P" ++ p | None => [] end) ++ (match d with Some d => $", DOI " ++ d | None => [] end))%list.
Lemma tail_end d : d <> Some [] -> (forall t, d = Some t -> ~ In 10%N t) ->
  read_end (match d with Some d => $", DOI " ++ d | None => [] end) = (d, None).
Proof.
  intros NE NL. destruct d as [d|]; [|reflexivity].
  assert (RD : read_doi ($", DOI " ++ d) = Some d).
  { unfold read_doi. replace (starts_with $", DOI " ($", DOI " ++ d)) with true by (symmetry; apply starts_with_spec; eauto).
    change (skipn 6 ($", DOI " ++ d)) with d.
    destruct (@tw_app char (fun x => negb (x =? 10)%N) d []) as [E _]; [|exact Logic.I|].
    - apply Forall_forall. intros x I. apply negb_true_iff, N.eqb_neq. intros ->. apply (NL d eq_refl I).
    - rewrite app_nil_r in E. replace (tw (fun x : N => negb (x =? 10)%N) d) with d by (symmetry; exact E). destruct d; [congruence|reflexivity]. }
  change (match Some d with Some d => ($", DOI " ++ d)%list | None => [] end) with ($", DOI " ++ d)%list.
  assert (S : ($", DOI " ++ d)%list <> []) by discriminate. set (s := ($", DOI " ++ d)%list) in *. clearbody s.
  unfold read_end. destruct s; [congruence|]. rewrite RD. reflexivity.
Qed.
Lemma at_comma_doi d : at_comma (match d with Some d => $", DOI " ++ d | None => [] end).
Proof. destruct d; [reflexivity|exact Logic.I]. Qed.
Lemma doi_not_marked m d : m <> 68%N -> starts_with ($", " ++ [m]) (match d with Some d => $", DOI " ++ d | None => [] end) = false.
Proof.
  intros N. destruct d as [d|]; [|reflexivity]. destruct (starts_with _ _) eqn:E; [|reflexivity]. apply starts_with_spec in E as [t E].
  change ($", DOI " ++ d) with (44%N :: 32%N :: 68%N :: ($"OI " ++ d))%list in E. cbn in E. injection E as E _. congruence.
Qed.
Theorem read_text (x1 x2 : char) a z j v p d :
  is_09 x1 = false -> no_comma (x1 :: x2 :: a) -> (-100000 < z < 100000)%Z -> j <> [] -> no_comma j ->
  (forall t, v = Some t -> t <> [] /\ no_comma t) -> (forall t, p = Some t -> t <> [] /\ no_comma t) -> (forall t, d = Some t -> t <> [] /\ ~ In 10%N t) ->
  let s := ((x1 :: x2 :: a) ++ $", " ++ dec_Z z ++ $", " ++ j ++ tail_text v p d)%list in
  p_author (read s) = Some (x1 :: x2 :: a) /\ p_year (read s) = Some (dec_Z z) /\ p_journal (read s) = Some j /\
  p_volume (read s) = option_map (cons 86%N) v /\ p_page (read s) = option_map (cons 80%N) p /\ read_end (p_left (read s)) = (d, None).
Proof.
  intros D C B NJ CJ HV HP HD s.
  set (td := match d with Some d => ($", DOI " ++ d)%list | None => [] end).
  set (tp := ((match p with Some p => $", P" ++ p | None => [] end) ++ td)%list).
  assert (AD : at_comma td) by apply at_comma_doi.
  assert (AP : at_comma tp) by (unfold tp; destruct p; [reflexivity|exact AD]).
  assert (AV : at_comma (tail_text v p d)) by (unfold tail_text; destruct v; [reflexivity|exact AP]).
  unfold s, read. rewrite read_author_text; [|exact D|exact C|reflexivity].
  change (skip_separator ($", " ++ dec_Z z ++ $", " ++ j ++ tail_text v p d)) with (dec_Z z ++ $", " ++ j ++ tail_text v p d)%list.
  rewrite read_year_text; [|exact B|reflexivity].
  change (skip_separator ($", " ++ j ++ tail_text v p d)) with (j ++ tail_text v p d)%list.
  assert (RJ : read_journal (j ++ tail_text v p d) = (Some j, tail_text v p d)).
  { unfold read_journal. destruct (@up_to_comma_app _ _ CJ AV) as [-> ->]. destruct j; [congruence|reflexivity]. }
  rewrite RJ.
  assert (RV : read_marked 86%N (tail_text v p d) = (option_map (cons 86%N) v, tp)).
  { unfold tail_text. fold td. fold tp. destruct v as [v|].
    - destruct (HV v eq_refl) as [NE CV]. exact (@read_marked_text 86%N v tp NE CV AP).
    - cbn [app option_map]. apply read_marked_other. unfold tp. destruct p as [p|].
      + destruct (starts_with _ _) eqn:E; [|reflexivity]. apply starts_with_spec in E as [t E]. cbn in E. discriminate.
      + cbn [app]. apply doi_not_marked. discriminate. }
  rewrite RV.
  assert (RP : read_marked 80%N tp = (option_map (cons 80%N) p, td)).
  { unfold tp. destruct p as [p|].
    - destruct (HP p eq_refl) as [NE CP]. exact (@read_marked_text 80%N p td NE CP AD).
    - cbn [app option_map]. apply read_marked_other. apply doi_not_marked. discriminate. }
  rewrite RP. cbn [p_author p_year p_journal p_volume p_page p_left]. repeat split.
  apply tail_end.
  - intros E. destruct (HD [] E) as [NE _]. congruence.
  - intros t E. apply HD, E.
Qed.
