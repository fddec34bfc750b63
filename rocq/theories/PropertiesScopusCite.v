(** * C84, C72: the references of Scopus records. *)
From Coq Require Import String.
From Verif Require Import Base PyStr Span TagNames Regex RegexSem CitationModel ValuesModel ScopusCiteSpec ScopusCiteProofs.
Set Implicit Arguments.

Section C84.
Variables (word num : char -> bool) (int_of : str -> Z) (upper : str -> str).
Hypothesis PC : plain_classes word num.
Notation cited := (scopus_citation word num int_of upper).

(** C84: a reference AUTHOR, ...(YEAR) SOURCE becomes a citation with this author and year, and with the journal, volume, issue and pages that the
    source says (see ScopusCiteSpec.v), in capitals; ... *)
Theorem C84_fields s a T y J : reference word num (upper s) a T y J -> let c := cited s in let q := read_source word J in
  s_author c = Some a /\ s_year c = Some (int_of y) /\ s_journal c = Some (q_journal q) /\
  dget $"V" (s_attributes c) = Some (q_volume q) /\ dget $"issue" (s_attributes c) = Some (q_issue q) /\ dget $"P" (s_attributes c) = Some (q_page q) /\
  dget $"misc" (s_attributes c) = Some (Some (q_misc q)) /\
  (s_bad c = true <-> int_of y = 0%Z) /\ (int_of y <> 0%Z -> s_id c = a ++ $", " ++ dec_Z (int_of y) ++ $", " ++ q_journal q).
Proof.
  intros R c q. destruct (match_reference PC R) as (g & E & G1 & G5 & G6 & G8 & G10 & G12 & G13). fold q in G6, G8, G10, G12, G13.
  destruct R as (_ & (u & sep & v & -> & UN & _) & _ & _ & x & r & -> & NX). set (A := u ++ sep ++ $" " ++ v ++ $".") in *.
  assert (AN : given (g 1) = [A]) by (rewrite G1; unfold given, A; destruct u; [congruence|reflexivity]).
  assert (JN : given (g 6) = [q_journal q]).
  { rewrite G6. unfold given. assert (H : q_journal q <> []); [|destruct (q_journal q); [congruence|reflexivity]]. unfold q, read_source. destruct (read_volume word _) as [v0 s1]. destruct (match v0 with Some _ => read_issue word s1 | None => (None, s1) end) as [i s2]. destruct (read_page word s2) as [p s3].
    cbn [q_journal]. unfold up_to_comma. cbn [tw]. destruct (N.eqb_spec x 44); [contradiction|discriminate]. }
  unfold c, scopus_citation. rewrite E, AN, JN, G1, G5, G6, G8, G10, G12, G13. destruct (Z.eqb_spec (int_of y) 0) as [Z|Z].
  - repeat split; auto; intros; contradiction.
  - repeat split; auto; intros H; (discriminate H || contradiction).
Qed.
(** ... nothing else does: the citation is usable exactly if the text is such a reference and the year is not 0; ... *)
Theorem C84_bad s : s_bad (cited s) = false <-> exists a T y J, reference word num (upper s) a T y J /\ int_of y <> 0%Z.
Proof.
  split.
  - intros B. destruct (re_match (scopus_cite_regex word num) (upper s)) as [g|] eqn:E.
    + destruct (match_only PC _ E) as (a & T & y & J & R). exists a, T, y, J. split; [exact R|]. destruct (@C84_fields s _ _ _ _ R) as (_ & _ & _ & _ & _ & _ & _ & H & _). intros Z. apply H in Z. congruence.
    + unfold scopus_citation in B. rewrite E in B. discriminate.
  - intros (a & T & y & J & R & NZ). destruct (@C84_fields s _ _ _ _ R) as (_ & _ & _ & _ & _ & _ & _ & H & _). destruct (s_bad (cited s)) eqn:B; [|reflexivity]. exfalso. apply NZ, H. reflexivity.
Qed.
(** ... the authors after the first one and the title are told apart: the title begins where no further author does; ... *)
Theorem C84_names s a l t y J : reference word num (upper s) a (listed l ++ t) y J -> Forall (person word) l -> middle t -> ~ goes_on word t ->
  dget $"extraAuthors" (s_attributes (cited s)) = Some (match l with [] => None | _ => Some (listed l) end) /\
  dget $"name" (s_attributes (cited s)) = Some (match t with [] => None | _ => Some t end).
Proof.
  intros R F MT C. destruct (match_reference PC R) as (g & E & G1 & G5 & G6 & _). destruct R as (S0 & PA & _ & Y & x & r & -> & NX).
  assert (S1 : upper s = a ++ $", " ++ listed l ++ t ++ $"(" ++ y ++ $") " ++ x :: r) by (rewrite S0, <- app_assoc; reflexivity).
  destruct (@match_names word num PC _ _ _ _ _ _ _ S1 PA F MT C Y NX) as (g' & E' & G2 & G4). assert (g' = g) by congruence. subst g'.
  assert (AT : s_attributes (cited s) = [($"author", g 1); ($"extraAuthors", g 2); ($"name", g 4); ($"journal", g 6); ($"V", g 8); ($"issue", g 10); ($"P", g 12); ($"misc", g 13)]).
  { unfold scopus_citation. rewrite E, G5. destruct (given (g 1)) as [|? [|? ?]], (Z.eqb (int_of y) 0), (given (g 6)) as [|? [|? ?]]; reflexivity. }
  rewrite AT. split; [exact (f_equal Some G2)|exact (f_equal Some G4)].
Qed.
(** ... what stands before the year can always be divided so, with one exception, a lone blank after the last further author; ... *)
Theorem C84_divided s a T y J : reference word num s a T y J -> exists l t, T = listed l ++ t /\ Forall (person word) l /\ ~ goes_on word t /\ (middle t \/ t = $" ").
Proof.
  intros (_ & _ & MT & _). destruct (@divided word _ T (le_n _)) as (l & t & -> & F & N). exists l, t. split; [reflexivity|]. split; [exact F|]. split; [exact N|]. exact (middle_suffix _ _ MT).
Qed.
(** ... so that a title without commas, and one with commas of which the first words are not those of an author, is not mistaken for authors; ... *)
Theorem C84_title s a l t y J : reference word num (upper s) a (listed l ++ t) y J -> Forall (person word) l -> middle t ->
  (forall u r, t = u ++ $", " ++ r -> ~ In 44%N u -> last u 0%N <> 46%N /\ (forallb (name_char word) u = true -> forall v r', r = v ++ $", " ++ r' -> ~ In 44%N v -> last v 0%N <> 46%N)) ->
  dget $"extraAuthors" (s_attributes (cited s)) = Some (match l with [] => None | _ => Some (listed l) end) /\
  dget $"name" (s_attributes (cited s)) = Some (match t with [] => None | _ => Some t end).
Proof.
  intros R F MT C. apply C84_names with (a := a) (y := y) (J := J); [exact R|exact F|exact MT|]. intros (p & r & (u & sep & v & -> & UN & UC & SC & VN & VC) & ->).
  assert (NW : forall x, word x = true -> x <> 44%N).
  { intros x W ->. destruct PC as [W0 _]. inversion W0 as [|? ? ? F1]; inversion F1 as [|? ? ? F2]; inversion F2 as [|? ? W' F3]. congruence. }
  assert (U44 : ~ In 44%N u).
  { intros I0. rewrite forallb_forall in UC. apply UC in I0. unfold name_char in I0. rewrite !orb_true_iff in I0. destruct I0 as [[I0|I0]|I0]; [exact (NW _ I0 eq_refl)|discriminate|discriminate]. }
  assert (V44 : ~ In 44%N v).
  { intros I0. rewrite forallb_forall in VC. apply VC in I0. unfold initial_char in I0. rewrite !orb_true_iff in I0. destruct I0 as [[I0|I0]|I0]; [exact (NW _ I0 eq_refl)|discriminate|discriminate]. }
  destruct SC as [->| ->].
  - destruct (C (u ++ $" " ++ v ++ $".") r) as [L _].
    + reflexivity.
    + rewrite !in_app_iff. cbn. intuition discriminate.
    + apply L. rewrite !app_assoc. apply last_last.
  - destruct (C u (v ++ $"." ++ $", " ++ r)) as [_ L].
    + rewrite <- !app_assoc. reflexivity.
    + exact U44.
    + apply (L UC (v ++ $".") r); [rewrite <- app_assoc; reflexivity|rewrite in_app_iff; cbn; intuition discriminate|apply last_last].
Qed.
(** ... a source as it is usually written says what is written; ... *)
Lemma tw_none {A} (p : A -> bool) l : match l with [] => True | x :: _ => p x = false end -> tw p l = [] /\ dw p l = l.
Proof. destruct l as [|x l]; cbn; [auto|]. intros ->. auto. Qed.
Lemma code44 : code_char word 44%N = false.
Proof. destruct PC as [F _]. unfold code_char. inversion F as [|? ? ? F1]; inversion F1 as [|? ? ? F2]; inversion F2 as [|? ? W F3]. rewrite W. reflexivity. Qed.
Lemma code32 : word 32%N = false -> code_char word 32%N = false.
Proof. intros W. unfold code_char. rewrite W. reflexivity. Qed.
Lemma all_code t : forallb (code_char word) t = true -> Forall (fun x => code_char word x = true) t.
Proof. rewrite forallb_forall, Forall_forall. auto. Qed.
Lemma not_start (t s : str) : (forall r, s <> t ++ r) -> starts_with t s = false.
Proof. intros H. destruct (starts_with t s) eqn:E; [|reflexivity]. apply starts_with_spec in E as (r & ->). destruct (H r eq_refl). Qed.
Theorem C84_written j v i p m : word 32%N = false -> j <> [] -> ~ In 44%N j ->
  (forall t, v = Some t -> t <> [] /\ forallb (code_char word) t = true) -> (forall t, i = Some t -> v <> None /\ forallb (code_char word) t = true) ->
  (forall t, p = Some t -> v <> None /\ forallb (code_char word) t = true) ->
  (match m with [] => True | x :: _ => x = 44%N end) -> (v = None -> forall x r, m = $", " ++ x :: r -> code_char word x = false) ->
  (p = None -> forall r, m <> $", PP. " ++ r /\ m <> $", P. " ++ r) ->
  read_source word (written_source j v i p m) = {| q_journal := j; q_volume := v; q_issue := i; q_page := p; q_misc := tw (fun x => negb (x =? 10)%N) m |}.
Proof.
  intros W32 JN JC HV HI HP HM HN HQ.
  set (pm := after $", PP. " p [] ++ m). set (ipm := after $" (" i $")" ++ pm).
  assert (PM : match pm with [] => True | x :: _ => x = 44%N end) by (unfold pm, after; destruct p; [reflexivity|exact HM]).
  assert (PMC : match pm with [] => True | x :: _ => code_char word x = false end) by (destruct pm; [exact I|rewrite PM; apply code44]).
  assert (JT : up_to_comma (written_source j v i p m) = j /\ from_comma (written_source j v i p m) = after $", " v [] ++ ipm).
  { unfold up_to_comma, from_comma, written_source. fold pm. fold ipm. apply tw_app.
    - apply Forall_forall. intros x Ix. destruct (N.eqb_spec x 44) as [->|]; [contradiction|reflexivity].
    - destruct v as [t|]; [reflexivity|]. destruct i as [t|]; [destruct (HI t eq_refl) as [[] _]; reflexivity|]. unfold ipm. cbn [after app]. destruct pm as [|x ?]; [exact I|]. rewrite PM. reflexivity. }
  destruct JT as [JT FT].
  assert (VT : read_volume word (after $", " v [] ++ ipm) = (v, ipm)).
  { unfold read_volume. destruct v as [t|].
    - cbn [after]. rewrite app_nil_r. rewrite (proj2 (starts_with_spec $", " (($", " ++ t) ++ ipm))) by (exists (t ++ ipm); rewrite app_assoc; reflexivity).
      destruct (HV t eq_refl) as [TN TC]. destruct (@tw_app _ (code_char word) t ipm (all_code _ TC)) as [T1 T2].
      + unfold ipm, after. destruct i; [apply code32, W32|exact PMC].
      + change (skipn 2 (($", " ++ t) ++ ipm)) with (t ++ ipm). rewrite T1, T2. destruct t; [congruence|reflexivity].
    - destruct i as [t|]; [destruct (HI t eq_refl) as [[] _]; reflexivity|]. destruct p as [t|]; [destruct (HP t eq_refl) as [[] _]; reflexivity|]. change (after $", " None [] ++ ipm) with m. change ipm with m.
      destruct (starts_with $", " m) eqn:S0; [|reflexivity]. apply starts_with_spec in S0 as (r & ->). change (skipn 2 ($", " ++ r)) with r. destruct r as [|x r]; [reflexivity|]. cbn [tw]. rewrite (HN eq_refl x r eq_refl). reflexivity. }
  assert (IT : (match v with Some _ => read_issue word ipm | None => (None, ipm) end) = (i, pm)).
  { destruct v as [tv|].
    - unfold read_issue, ipm. destruct i as [t|].
      + cbn [after]. destruct (HI t eq_refl) as [_ TC]. rewrite (proj2 (starts_with_spec $" (" (($" (" ++ t ++ $")") ++ pm))) by (exists ((t ++ $")") ++ pm); rewrite app_assoc; reflexivity).
        change (skipn 2 (($" (" ++ t ++ $")") ++ pm)) with ((t ++ $")") ++ pm). rewrite <- app_assoc. destruct (@tw_app _ (code_char word) t ($")" ++ pm) (all_code _ TC)) as [T1 T2]; [apply code41 with (num := num); exact PC|]. rewrite T1, T2. reflexivity.
      + cbn [after app]. rewrite not_start; [reflexivity|]. intros r E. rewrite E in PM. discriminate.
    - destruct i as [t|]; [destruct (HI t eq_refl) as [[] _]; reflexivity|reflexivity]. }
  assert (PT : read_page word pm = (p, m)).
  { unfold read_page, pm. destruct p as [t|].
    - cbn [after]. rewrite app_nil_r. destruct (HP t eq_refl) as [_ TC]. rewrite (proj2 (starts_with_spec $", PP. " (($", PP. " ++ t) ++ m))) by (exists (t ++ m); rewrite app_assoc; reflexivity).
      change (skipn 6 (($", PP. " ++ t) ++ m)) with (t ++ m). destruct (@tw_app _ (code_char word) t m (all_code _ TC)) as [T1 T2]; [destruct m; [exact I|rewrite HM; apply code44]|]. rewrite T1, T2. reflexivity.
    - cbn [after app]. rewrite !not_start; [reflexivity| |]; intros r; apply HQ; reflexivity. }
  unfold read_source. rewrite JT, FT, VT. cbv beta iota zeta. destruct v as [tv|]; [rewrite IT, PT; reflexivity|]. destruct i; [discriminate|]. change ipm with pm. cbv beta iota zeta. rewrite PT. reflexivity.
Qed.
(** ... but the pages of a reference without a volume are lost, and PP becomes its volume; ... *)
Theorem C84_pages_refuted s a T y J j p : word 80%N = true -> reference word num (upper s) a T y J -> J = j ++ $", PP. " ++ p -> ~ In 44%N j ->
  dget $"V" (s_attributes (cited s)) = Some (Some $"PP") /\ dget $"P" (s_attributes (cited s)) = Some None.
Proof.
  intros W R -> JC. destruct (@C84_fields s _ _ _ _ R) as (_ & _ & _ & V & _ & P & _). rewrite V, P. unfold read_source.
  destruct (@tw_app _ (fun x : char => negb (x =? 44)%N) j ($", PP. " ++ p)) as [T1 T2]; [apply Forall_forall; intros x Ix; destruct (N.eqb_spec x 44) as [->|]; [contradiction|reflexivity]|reflexivity|].
  assert (FC : from_comma (j ++ $", PP. " ++ p) = $", PP. " ++ p) by exact T2. rewrite FC.
  assert (VP : read_volume word ($", PP. " ++ p) = (Some $"PP", $". " ++ p)).
  { unfold read_volume. change (starts_with $", " ($", PP. " ++ p)) with true. cbv iota. change (skipn 2 ($", PP. " ++ p)) with ($"PP" ++ $". " ++ p).
    assert (W46 : code_char word 46%N = false). { destruct PC as [F _]. unfold code_char. inversion F as [|? ? ? F1]; inversion F1 as [|? ? ? F2]; inversion F2 as [|? ? ? F3]; inversion F3 as [|? ? W4 ?]. rewrite W4. reflexivity. }
    destruct (@tw_app _ (code_char word) $"PP" ($". " ++ p)) as [U1 U2]; [apply Forall_forall; intros z [<-|[<-|[]]]; change (code_char word 80%N = true); unfold code_char; rewrite W; reflexivity|exact W46|]. rewrite U1, U2. reflexivity. }
  rewrite VP. assert (IP : read_issue word ($". " ++ p) = (None, $". " ++ p)) by reflexivity. rewrite IP. assert (PP : read_page word ($". " ++ p) = (None, $". " ++ p)) by reflexivity. rewrite PP. split; reflexivity.
Qed.
(** ... and a reference whose first author has an apostrophe in the name is not understood. *)
Theorem C84_apostrophe_refuted s t : word 39%N = false -> upper s = $"O'BRIEN " ++ t -> s_bad (cited s) = true /\ s_author (cited s) = None.
Proof.
  intros W U. destruct (re_match (scopus_cite_regex word num) (upper s)) as [g|] eqn:E.
  - exfalso. destruct (match_only PC _ E) as (a & T & y & J & S0 & (u & sep & v & -> & UN & UC & SEP & _) & _). rewrite U in S0. destruct u as [|u1 [|u2 u]]; [congruence| |].
    + destruct SEP as [->| ->]; cbn in S0; discriminate.
    + cbn in S0. injection S0 as <- <- _. cbn [forallb] in UC. unfold name_char at 2 in UC. rewrite W in UC. rewrite andb_comm in UC. discriminate.
  - unfold scopus_citation. rewrite E. auto.
Qed.
End C84.
(** the hypotheses are met by the classes of the ASCII characters *)
Definition ascii_word (x : char) : bool := in_range 65 90 x || in_range 97 122 x || in_range 48 57 x || (x =? 95)%N.
Example C84_classes : plain_classes ascii_word (in_range 48 57).
Proof. split; [repeat constructor|reflexivity]. Qed.
Definition digits_int (s : str) : Z := fold_left (fun a x => 10 * a + (Z.of_N x - 48))%Z s 0%Z.
Example C84_ex : let c := scopus_citation ascii_word (in_range 48 57) digits_int ascii_upper $"Doe J., Roe-X R.A., Poe, E., On things (2001) Nature, 4 (2), pp. 12-15, X" in
  (s_author c, s_year c, s_journal c, s_bad c) = (Some $"DOE J.", Some 2001%Z, Some $"NATURE", false) /\
  s_attributes c = [($"author", Some $"DOE J."); ($"extraAuthors", Some $"ROE-X R.A., POE, E., "); ($"name", Some $"ON THINGS "); ($"journal", Some $"NATURE"); ($"V", Some $"4"); ($"issue", Some $"2"); ($"P", Some $"12-15"); ($"misc", Some $", X")] /\
  reference ascii_word (in_range 48 57) $"DOE J., ROE-X R.A., POE, E., ON THINGS (2001) NATURE, 4 (2), PP. 12-15, X" $"DOE J." ($"ROE-X R.A., " ++ $"POE, E., " ++ $"ON THINGS ") $"2001" (written_source $"NATURE" (Some $"4") (Some $"2") (Some $"12-15") $", X").
Proof.
  split; [vm_compute; reflexivity|]. split; [vm_compute; reflexivity|]. split; [vm_compute; reflexivity|]. split; [|split; [|split]].
  - exists $"DOE", [], $"J". repeat split; try (vm_compute; reflexivity); try discriminate. left. reflexivity.
  - right. exists ($"ROE-X R.A., " ++ $"POE, E., " ++ $"ON THINGS"). split; [vm_compute; reflexivity|]. split; [discriminate|]. intros Ix. apply (proj2 (@mem_In N _ _ _)) in Ix. vm_compute in Ix. discriminate.
  - split; [cbn; lia|vm_compute; reflexivity].
  - eexists _, _. split; [vm_compute; reflexivity|discriminate].
Qed.
Example C84_ex_names : Forall (person ascii_word) [$"ROE-X R.A."; $"POE, E."].
Proof.
  constructor; [|constructor; [|constructor]].
  - exists $"ROE-X", [], $"R.A". repeat split; try (vm_compute; reflexivity); try discriminate. left. reflexivity.
  - exists $"POE", $",", $"E". repeat split; try (vm_compute; reflexivity); try discriminate. right. reflexivity.
Qed.
(** a title with commas *)
Example C84_title_ex : let c := scopus_citation ascii_word (in_range 48 57) digits_int ascii_upper $"Doe J., Roe R., Birds, bees, and trees (2001) Nature" in
  s_attributes c = [($"author", Some $"DOE J."); ($"extraAuthors", Some $"ROE R., "); ($"name", Some $"BIRDS, BEES, AND TREES "); ($"journal", Some $"NATURE"); ($"V", None); ($"issue", None); ($"P", None); ($"misc", Some [])] /\
  (forall u r, $"BIRDS, BEES, AND TREES " = u ++ $", " ++ r -> ~ In 44%N u -> last u 0%N <> 46%N /\ (forallb (name_char ascii_word) u = true -> forall v r', r = v ++ $", " ++ r' -> ~ In 44%N v -> last v 0%N <> 46%N)).
Proof.
  split; [vm_compute; reflexivity|]. intros u r E N.
  apply (@first_split 44%N $"BIRDS" u $" BEES, AND TREES " (sp :: r)) in E as [<- D]; [|intros I0; cbn in I0; intuition discriminate|exact N].
  injection D as <-. split; [discriminate|]. intros _ v r' E' N'.
  apply (@first_split 44%N $"BEES" v $" AND TREES " (sp :: r')) in E' as [<- _]; [discriminate|intros I0; cbn in I0; intuition discriminate|exact N'].
Qed.
Print Assumptions C84_title.
Print Assumptions C84_divided.
Print Assumptions C84_fields.
Print Assumptions C84_bad.
Print Assumptions C84_names.
Print Assumptions C84_written.
Print Assumptions C84_pages_refuted.
Print Assumptions C84_apostrophe_refuted.

(** ** C72: the citation that stands for a Scopus record *)
Definition without (l : str) (s : str) : str := filter (fun x => negb (existsb (N.eqb x) l)) s.
Theorem C72_scopus : forall (word num : char -> bool) int_of (up : char -> str) r a l y j, plain_classes word num -> word 32%N = false -> (forall c, In c $", ()P." -> up c = [c]) ->
  let upper := flat_map up in let A := upper (without $"," a) in
  r_authors r = Some (NList (a :: l)) -> r_year r = Some y -> r_journal r = Some j -> person word A -> year_text num (upper y) -> upper j <> [] -> ~ In 44%N (upper j) ->
  (forall t, r_title r = Some t -> upper (without $"()" t) <> [] /\ ~ In 40%N (upper (without $"()" t))) ->
  (forall t, r_volume r = Some t -> upper t <> [] /\ forallb (code_char word) (upper t) = true) ->
  (forall t, r_page r = Some t -> r_volume r <> None /\ forallb (code_char word) (upper t) = true) ->
  let c := scopus_citation word num int_of upper (scopus_self r) in
  s_author c = Some A /\ s_year c = Some (int_of (upper y)) /\ s_journal c = Some (upper j) /\
  dget $"V" (s_attributes c) = Some (option_map upper (r_volume r)) /\ dget $"P" (s_attributes c) = Some (option_map upper (r_page r)) /\
  (s_bad c = true <-> int_of (upper y) = 0%Z) /\ (int_of (upper y) <> 0%Z -> s_id c = A ++ $", " ++ dec_Z (int_of (upper y)) ++ $", " ++ upper j).
Proof.
  intros word num int_of up r a l y j PC W32 K upper A RA RY RJ PA Y JN JC HT HV HP c.
  assert (UA : forall s t, upper (s ++ t) = upper s ++ upper t) by (intros; apply flat_map_app).
  assert (KEEP : forall s, (forall x, In x s -> In x $", ()P.") -> upper s = s).
  { induction s as [|x s IH]; intros H; [reflexivity|]. cbn [upper flat_map]. unfold upper in *. cbn [flat_map]. rewrite K by (apply H; left; reflexivity). rewrite IH by (intros z Iz; apply H; right; exact Iz). reflexivity. }
  assert (U1 : upper $", " = $", ") by (apply KEEP; intros x Ix; cbn in *; intuition). assert (U2 : upper $"(" = $"(") by (apply KEEP; intros x Ix; cbn in *; intuition). assert (U3 : upper $") " = $") ") by (apply KEEP; intros x Ix; cbn in *; intuition).
  assert (U4 : upper $"PP. " = $"PP. ") by (apply KEEP; intros x Ix; cbn in *; intuition). assert (U5 : upper $" " = $" ") by (apply KEEP; intros x Ix; cbn in *; intuition).
  assert (NC : no_commas a = without $"," a). { unfold no_commas, without. apply filter_ext. intros x. cbn. rewrite orb_false_r. destruct (N.eqb_spec x 44) as [->|N]; [reflexivity|]. rewrite neq_eqb by exact N. reflexivity. }
  assert (NB : forall t, filter (fun c => negb (eqb c 40%N || eqb c 41%N)) t = without $"()" t).
  { intros t. unfold without. apply filter_ext. intros x. cbn. rewrite orb_false_r. destruct (N.eqb_spec x 40) as [->|N]; [reflexivity|]. rewrite (neq_eqb N). destruct (N.eqb_spec x 41) as [->|N']; [reflexivity|]. rewrite (neq_eqb N'). reflexivity. }
  set (T := match r_title r with Some t => upper (without $"()" t) ++ $" " | None => [] end).
  set (m := match r_page r with Some _ => [] | None => $", " end).
  set (J := written_source (upper j) (option_map upper (r_volume r)) None (option_map upper (r_page r)) m).
  assert (TX : upper (scopus_self r) = A ++ $", " ++ T ++ $"(" ++ upper y ++ $") " ++ J).
  { unfold scopus_self, scopus_rest, authors_of. rewrite RA, RY, RJ. cbn [name_list map]. rewrite NC. unfold J, written_source, T, A, m. rewrite !UA, U1.
    destruct (r_title r) as [t|]; rewrite ?UA, ?NB, ?U5, U2, U3; destruct (r_volume r) as [v|] eqn:RV; destruct (r_page r) as [p|] eqn:RP; try (destruct (HP p eq_refl) as [[] _]; reflexivity);
      cbn [option_map after]; rewrite ?UA, ?U4, ?U1, ?app_nil_r, <- ?app_assoc; reflexivity. }
  assert (MT : middle T).
  { unfold T. destruct (r_title r) as [t|]; [|left; reflexivity]. destruct (HT t eq_refl) as [TN TC]. right. eexists. split; [reflexivity|]. split; [exact TN|]. rewrite in_app_iff. intros [Ix|Ix]; [contradiction|]. cbn in Ix. intuition discriminate. }
  assert (R : reference word num (upper (scopus_self r)) A T (upper y) J).
  { split; [exact TX|]. split; [exact PA|]. split; [exact MT|]. split; [exact Y|]. unfold J, written_source. destruct (upper j) as [|x jr]; [congruence|]. eexists x, _. split; [reflexivity|]. intros ->. apply JC. cbn. auto. }
  assert (WR : read_source word J = {| q_journal := upper j; q_volume := option_map upper (r_volume r); q_issue := None; q_page := option_map upper (r_page r); q_misc := tw (fun x => negb (x =? 10)%N) m |}).
  { unfold J. apply (C84_written PC); [exact W32|exact JN|exact JC| |discriminate| | | |].
    - intros t E. destruct (r_volume r) as [v|]; [|discriminate]. injection E as <-. apply HV. reflexivity.
    - intros t E. destruct (r_page r) as [p|]; [|discriminate]. injection E as <-. destruct (HP p eq_refl) as [NV C]. split; [|exact C]. destruct (r_volume r); [discriminate|contradiction].
    - unfold m. destruct (r_page r); [exact I|reflexivity].
    - intros _ x rr E. unfold m in E. destruct (r_page r); discriminate.
    - intros _ rr. unfold m. destruct (r_page r); split; discriminate. }
  destruct (@C84_fields word num int_of upper PC (scopus_self r) _ _ _ _ R) as (F1 & F2 & F3 & F4 & _ & F6 & _ & F8 & F9). rewrite WR in *. cbn [q_journal q_volume q_page] in *. repeat (split; [assumption|]). exact F9.
Qed.
Example C72_scopus_ex : let r := {| r_authors := Some (NList [$"Doe, J."; $"Roe K."]); r_year := Some $"1999"; r_j9 := None; r_title := Some $"On (some) things"; r_journal := Some $"Nature"; r_volume := Some $"4"; r_page := Some $"12"; r_doi := None |} in
  let c := scopus_citation ascii_word (in_range 48 57) digits_int ascii_upper (scopus_self r) in
  s_id c = $"DOE J., 1999, NATURE" /\ dget $"V" (s_attributes c) = Some (Some $"4") /\ dget $"P" (s_attributes c) = Some (Some $"12").
Proof. vm_compute. auto. Qed.
Print Assumptions C72_scopus.
