(** C71: the values of the fields of a WOS record; C72: the citation of a record itself; C73: the values of a Medline record; C74: those of Scopus
    and ProQuest records. *)
From Coq Require Import List ZArith Lia Bool Arith.
From Coq Require Import String.
From Verif Require Import Base PyStr PyInt DecFacts JournalProofs TextModel Regex CitationModel CitationSpec RecordModel GrantModel ValuesModel ValuesProofs PropertiesCitation TagNames.
Import ListNotations.
Local Open Scope list_scope.

Ltac each I := repeat (destruct I as [<-|I]; [|]); [..|destruct I].
Ltac notin := let I := fresh in intros I; vm_compute in I; intuition discriminate.
Definition has_part (t s : str) : Prop := exists a b, s = a ++ t ++ b.

Section Wos.
Variables upper lower title : str -> str.
Variable all_digits : str -> bool.
Notation value := (wos_value upper lower title all_digits).
(** C71: fields of one line are that line; ... *)
Theorem C71_first : forall tag v vs, In tag [$"PT"; $"GP"; $"CA"; $"DT"; $"CY"; $"RP"; $"SN"; $"EI"; $"J9"; $"IS"; $"SI"; $"AR"; $"DI"; $"D2"; $"GA"; $"UT"; $"PM"; $"PN"; $"MA"] ->
  value tag (v :: vs) = Ok (FText v).
Proof. intros tag v vs I. each I; reflexivity. Qed.
(** ... numbers of volumes and pages lose the white space around them; ... *)
Theorem C71_stripped : forall tag v vs, In tag [$"VL"; $"BP"; $"EP"] -> value tag (v :: vs) = Ok (FText (strip v)).
Proof. intros tag v vs I. each I; reflexivity. Qed.
(** ... names are listed as they are, one to a line; ... *)
Theorem C71_lines : forall tag vs, In tag [$"AF"; $"AU"; $"BA"; $"BF"; $"BE"; $"ED"] -> value tag vs = Ok (FTexts vs).
Proof. intros tag vs I. each I; reflexivity. Qed.
(** ... texts that were divided into lines at spaces are put together again, some in capitals; ... *)
Theorem C71_text : forall tag vs, In tag [$"TI"; $"SE"; $"BS"; $"CT"; $"HO"; $"CL"; $"FX"; $"PA"; $"SU"] -> value tag vs = Ok (FText (join $" " vs)).
Proof. intros tag vs I. each I; reflexivity. Qed.
Theorem C71_capitals : forall tag vs, In tag [$"SO"; $"JI"; $"PU"; $"PI"] -> value tag vs = Ok (FText (upper (join $" " vs))).
Proof. intros tag vs I. each I; reflexivity. Qed.
Theorem C71_abstract : forall vs, value $"AB" vs = Ok (FText (join [nl] vs)) /\ value $"LA" vs = Ok (FText (join $", " vs)).
Proof. intros vs. split; reflexivity. Qed.
(** ... lists are got back from their items however they were divided into lines at spaces, ... *)
Theorem C71_list : forall tag items vs, In tag [$"EM"; $"RI"; $"OI"; $"FU"; $"SC"; $"BN"; $"WC"] -> items <> [] -> (forall s, In s items -> ~ has_part $"; " s) ->
  join $" " vs = join $"; " items -> value tag vs = Ok (FTexts items).
Proof.
  intros tag items vs I NE NP E.
  assert (X : split_at $"; " (join $" " vs) = items). { rewrite E. apply split_pair; [discriminate|exact NE|]. intros p J a b Q. apply (NP p J). exists a, b. exact Q. }
  assert (Y : f_items vs = Ok (FTexts items)) by (unfold f_items; rewrite X; reflexivity). each I; exact Y.
Qed.
(** ... keywords after a change of case; ... *)
Theorem C71_keywords : forall items vs, items <> [] ->
  ((forall s, In s items -> ~ has_part $"; " s) -> lower (join $" " vs) = join $"; " items -> value $"DE" vs = Ok (FTexts items)) /\
  ((forall s, In s items -> ~ has_part $"; " s) -> upper (join $" " vs) = join $"; " items -> value $"ID" vs = Ok (FTexts items)).
Proof.
  intros items vs NE. split; intros NP E; unfold wos_value; cbn [dget wos_funcs].
  - transitivity (Ok (FTexts (split_at $"; " (lower (join $" " vs))))); [reflexivity|]. rewrite E. do 2 f_equal. apply split_pair; [discriminate|exact NE|]. intros p J a b Q. apply (NP p J). exists a, b. exact Q.
  - transitivity (Ok (FTexts (split_at $"; " (upper (join $" " vs))))); [reflexivity|]. rewrite E. do 2 f_equal. apply split_pair; [discriminate|exact NE|]. intros p J a b Q. apply (NP p J). exists a, b. exact Q.
Qed.
Theorem C71_sponsors : forall items, items <> [] -> (forall s, In s items -> ~ has_part $", " s) -> value $"SP" items = Ok (FTexts items) /\ forall vs, join $", " vs = join $", " items -> value $"SP" vs = Ok (FTexts items).
Proof.
  intros items NE NP. assert (G : forall vs, join $", " vs = join $", " items -> value $"SP" vs = Ok (FTexts items)); [|split; [apply G; reflexivity|exact G]].
  intros vs E. transitivity (Ok (FTexts (split_at $", " (join $", " vs)))); [reflexivity|]. rewrite E. do 2 f_equal. apply split_pair; [discriminate|exact NE|]. intros p J a b Q. apply (NP p J). exists a, b. exact Q.
Qed.
(** ... numbers are read as such; ... *)
Theorem C71_number : forall tag z vs, In tag [$"NR"; $"TC"; $"Z9"; $"PG"] -> value tag (dec_Z z :: vs) = Ok (FInt z).
Proof. intros tag z vs I. assert (E : to_int (dec_Z z) = Ok (FInt z)) by (unfold to_int; rewrite int_of_str; reflexivity). each I; exact E. Qed.
Theorem C71_year : forall y v vs, ((1000 <= y <= 9999)%Z -> value $"PY" (dec_Z y :: vs) = Ok (FInt y)) /\ (length v <> 4 -> value $"PY" (v :: vs) = Raise ValueError).
Proof.
  intros y v vs. split; intros H.
  - transitivity (if length (dec_Z y) =? 4 then to_int (dec_Z y) else Raise ValueError); [reflexivity|]. rewrite four_digits by exact H. unfold to_int. rewrite int_of_str. reflexivity.
  - transitivity (if length v =? 4 then to_int v else Raise ValueError); [reflexivity|]. destruct (Nat.eqb_spec (length v) 4); [contradiction|reflexivity].
Qed.
(** ... the month, a season being its first one, is the number of what stands before the first space and the first dash; ... *)
Definition months : list (str * Z) := [($"JAN", 1); ($"FEB", 2); ($"MAR", 3); ($"APR", 4); ($"MAY", 5); ($"JUN", 6); ($"JUL", 7); ($"AUG", 8); ($"SEP", 9); ($"OCT", 10); ($"NOV", 11); ($"DEC", 12);
  ($"SPR", 3); ($"SUM", 6); ($"FAL", 9); ($"WIN", 12)]%Z.
Lemma month_found m n : In (upper m, n) months -> ~ In 45%N m -> forall rest, rest = [] \/ (exists r, rest = 45%N :: r) -> get_month upper all_digits (m ++ rest) = Ok (inl n).
Proof.
  intros I ND rest R. unfold get_month. rewrite split_char_hd by assumption. assert (D : dget (upper m) month_dict = Some n).
  { repeat (destruct I as [I|I]; [injection I as <- <-; reflexivity|]). destruct I. }
  rewrite D. reflexivity.
Qed.
Theorem C71_month : forall m n more rest vs, In (upper m, n) months -> ~ In 45%N m -> ~ In sp m -> ~ In sp more ->
  more = [] \/ (exists r, more = 45%N :: r) -> rest = [] \/ (exists r, rest = sp :: r) -> value $"PD" ((m ++ more ++ rest) :: vs) = Ok (FInt n).
Proof.
  intros m n more rest vs I ND NS NM M R. transitivity (month_value (get_month upper all_digits (hd [] (split_char sp (m ++ more ++ rest))))); [reflexivity|].
  rewrite app_assoc, split_char_hd; [|rewrite in_app_iff; tauto|exact R]. rewrite (month_found m n) by assumption. reflexivity.
Qed.
(** ... the names before an address are dropped; ... *)
Theorem C71_address_partial : forall vs addrs, Forall2 (fun v addr =>
    (exists names, ~ has_part $"] " names /\ v = $"[" ++ names ++ $"] " ++ addr) \/ (v = addr /\ exists c t, v = c :: t /\ c <> 91%N)) vs addrs ->
  value $"C1" vs = Ok (FTexts addrs).
Proof.
  intros vs addrs F. transitivity (let* l := f_address_list vs in Ok (FTexts l)); [reflexivity|]. assert (E : f_address_list vs = Ok addrs).
  { induction F as [|v addr vs addrs H F IH]; [reflexivity|]. cbn [f_address_list]. destruct H as [(names & NP & ->)|(-> & c & t & -> & NC)].
    - transitivity (let* l := f_address_list vs in Ok (join $"] " (tl (split_at $"] " ($"[" ++ names ++ $"] " ++ addr))) :: l)); [reflexivity|]. rewrite IH. cbn [bind]. do 2 f_equal. apply (address_one _ names addr eq_refl). intros x y Q. apply NP. exists x, y. exact Q.
    - rewrite IH. cbn [bind]. rewrite neq_eqb by exact NC. reflexivity. }
  rewrite E. reflexivity.
Qed.
(** (without the closing bracket all of it is lost, and an empty line makes the function raise;) ... *)
Theorem C71_address_refuted : value $"C1" [$"[Main Street 1"] = Ok (FTexts [[]]) /\ value $"C1" [[]] = Raise IndexError.
Proof. split; reflexivity. Qed.
(** ... each line of the references is a citation. *)
Theorem C71_citations : forall vs, exists cs, value $"CR" vs = Ok (FCites cs) /\ Forall2 (fun v c => wos_citation upper title v = Ok c) vs cs.
Proof.
  intros vs. assert (E : exists cs, f_cites upper title vs = Ok cs /\ Forall2 (fun v c => wos_citation upper title v = Ok c) vs cs).
  { induction vs as [|v vs (cs & E & F)]; [exists []; split; [reflexivity|constructor]|]. destruct (C28_parse upper title v) as (c & C & _). exists (c :: cs). split; [|constructor; assumption]. cbn [f_cites]. rewrite C. cbn [bind]. rewrite E. reflexivity. }
  destruct E as (cs & E & F). exists cs. split; [|exact F]. transitivity (let* l := f_cites upper title vs in Ok (FCites l)); [reflexivity|]. rewrite E. reflexivity.
Qed.
(** The lines of a field with any other tag are left as they are. *)
Theorem C71_other : forall tag vs, ~ In tag ([$"PT"; $"GP"; $"CA"; $"DT"; $"CY"; $"RP"; $"SN"; $"EI"; $"J9"; $"IS"; $"SI"; $"AR"; $"DI"; $"D2"; $"GA"; $"UT"; $"PM"; $"PN"; $"MA"]
    ++ [$"VL"; $"BP"; $"EP"] ++ [$"AF"; $"AU"; $"BA"; $"BF"; $"BE"; $"ED"] ++ [$"TI"; $"SE"; $"BS"; $"CT"; $"HO"; $"CL"; $"FX"; $"PA"; $"SU"] ++ [$"SO"; $"JI"; $"PU"; $"PI"]
    ++ [$"AB"; $"LA"; $"EM"; $"RI"; $"OI"; $"FU"; $"SC"; $"BN"; $"WC"; $"DE"; $"ID"; $"SP"] ++ [$"NR"; $"TC"; $"Z9"; $"PG"; $"PY"; $"PD"; $"C1"; $"CR"]) -> value tag vs = Ok (FTexts vs).
Proof.
  intros tag vs NI. unfold wos_value. destruct (dget tag (wos_funcs upper lower title all_digits)) as [f|] eqn:D; [|reflexivity]. exfalso. apply NI. apply dget_Some_key in D.
  cbn [app]. clear NI. unfold dkeys, wos_funcs in D. cbn [map fst] in D. cbn [In] in D |- *. tauto.
Qed.
(** The documentation says that the part number is a number and that the ID of a meeting abstract starts with EPA-. *)
Theorem C71_documented_refuted : (~ forall v, exists z, value $"PN" [v] = Ok (FInt z)) /\ (~ forall v, exists t, value $"MA" [v] = Ok (FText ($"EPA-" ++ t))).
Proof.
  split; intros H.
  - destruct (H $"2") as [z E]. discriminate.
  - destruct (H $"7") as [z E]. discriminate.
Qed.
End Wos.
(** The month can also be a text. *)
Theorem C71_month_refuted : ~ forall v r, wos_value (fun s => s) (fun s => s) (fun s => s) (forallb digit09) $"PD" [v] = Ok r -> exists z, r = FInt z.
Proof. intros H. destruct (H $"2001-05" _ eq_refl) as [z E]. discriminate. Qed.
Example C71_ex : let value := wos_value ascii_upper (fun s => s) (fun s => s) (forallb digit09) in
  value $"FU" [$"NSF [12,"; $"13]; Big Bank;"; $"ERC"] = Ok (FTexts [$"NSF [12, 13]"; $"Big Bank"; $"ERC"]) /\ value $"PD" [$"NOV-DEC 12"] = Ok (FInt 11)
  /\ value $"C1" [$"[A, B; C, D] X Univ, Y"; $"Z Univ"] = Ok (FTexts [$"X Univ, Y"; $"Z Univ"]).
Proof. vm_compute. auto. Qed.

(** ** C72 *)
Definition given_part (t : str) (o : option str) : str := match o with Some s => $", " ++ t ++ s | None => [] end.
Definition ascii_kept (up : char -> str) : Prop := forall c, In c ($", -0123456789" ++ $"VPDOI") -> up c = [c].
Definition without_commas (s : str) : str := filter (fun x => negb (x =? 44)%N) s.
Lemma no_commas_eq s : no_commas s = without_commas s.
Proof. unfold no_commas, without_commas. apply filter_ext. intros c. destruct (N.eqb_spec c 44) as [->|N]; [reflexivity|]. rewrite neq_eqb by exact N. reflexivity. Qed.
Section Upper.
Variable up : char -> str.
Hypothesis K : ascii_kept up.
Notation upper := (flat_map up).
Lemma up_app a b : upper (a ++ b) = upper a ++ upper b.
Proof. apply flat_map_app. Qed.
Lemma up_kept s : (forall c, In c s -> In c ($", -0123456789" ++ $"VPDOI")) -> upper s = s.
Proof. induction s as [|c s IH]; intros H; [reflexivity|]. cbn [flat_map]. rewrite K by (apply H; left; reflexivity). rewrite IH by (intros x I; apply H; right; exact I). reflexivity. Qed.
Lemma up_sep : upper $", " = $", ".
Proof. apply up_kept. intros c I. each I; cbn; tauto. Qed.
Lemma up_V : upper $"V" = $"V".
Proof. apply up_kept. intros c I. each I; cbn; tauto. Qed.
Lemma up_P : upper $"P" = $"P".
Proof. apply up_kept. intros c I. each I; cbn; tauto. Qed.
Lemma up_DOI : upper $"DOI " = $"DOI ".
Proof. apply up_kept. intros c I. each I; cbn; tauto. Qed.
Lemma up_number z : upper (dec_Z z) = dec_Z z.
Proof.
  apply up_kept. assert (D : forall c, is_digit c -> In c ($", -0123456789" ++ $"VPDOI")).
  { intros c H. unfold is_digit in H. assert (X : (c = 48 \/ c = 49 \/ c = 50 \/ c = 51 \/ c = 52 \/ c = 53 \/ c = 54 \/ c = 55 \/ c = 56 \/ c = 57)%N) by lia. cbn. intuition. }
  intros c I. unfold dec_Z in I. destruct (z <? 0)%Z; [destruct I as [<-|I]; [cbn; tauto|]|]; apply D; exact (proj1 (Forall_forall _ _) (dec_N_digits _) c I).
Qed.
Lemma join_parts x y z (l : list str) : join $", " (x :: y :: z :: l) = x ++ $", " ++ y ++ $", " ++ z ++ concat (map (fun t => $", " ++ t) l).
Proof.
  change (join $", " (x :: y :: z :: l)) with (x ++ $", " ++ y ++ $", " ++ join $", " (z :: l)). do 4 f_equal. revert z. induction l as [|t l IH]; intros z; [cbn [join concat map]; symmetry; apply app_nil_r|].
  change (join $", " (z :: t :: l)) with (z ++ $", " ++ join $", " (t :: l)). rewrite IH. reflexivity.
Qed.
Lemma self_text a y j v p d : upper (join $", " ([a] ++ [dec_Z y] ++ [j] ++ opt_part (fun s => $"V" ++ s) v ++ opt_part (fun s => $"P" ++ s) p ++ opt_part (fun s => $"DOI " ++ s) d)) =
  upper a ++ $", " ++ dec_Z y ++ $", " ++ upper j ++ match option_map upper v with Some v => $", V" ++ v | None => [] end ++ match option_map upper p with Some p => $", P" ++ p | None => [] end
    ++ match option_map upper d with Some d => $", DOI " ++ d | None => [] end.
Proof.
  cbn [app]. rewrite join_parts. rewrite !up_app, up_sep, up_number. do 5 f_equal.
  destruct v, p, d; cbn [opt_part app map concat option_map]; rewrite ?app_nil_r, ?up_app, ?up_sep, ?up_V, ?up_P, ?up_DOI, ?app_nil_r, <- ?app_assoc; reflexivity.
Qed.
End Upper.
(** C72: the citation of a record with an author, a year and an abbreviated journal is complete and has these, and the volume, page and DOI of the
    record, where [upper] changes every character by itself and leaves the characters of ascii_kept; ... *)
Theorem C72_self : forall up title r a l y j, ascii_kept up -> let upper := flat_map up in let A := upper (without_commas a) in
  r_authors r = Some (NList (a :: l)) -> r_year r = Some (dec_Z y) -> r_j9 r = Some j -> (-100000 < y < 100000)%Z ->
  (exists x1 x2 t, A = x1 :: x2 :: t /\ is_09 x1 = false) -> ~ In 44%N A -> upper j <> [] -> ~ In 44%N (upper j) ->
  (forall t, r_volume r = Some t -> upper t <> [] /\ ~ In 44%N (upper t)) -> (forall t, r_page r = Some t -> upper t <> [] /\ ~ In 44%N (upper t)) ->
  (forall t, r_doi r = Some t -> upper t <> [] /\ ~ In 10%N (upper t)) ->
  exists c, self_cite upper title r = Ok c /\ c_author c = Some (title (without_dots A)) /\ c_year c = Some y /\ c_journal c = Some (upper j) /\
    c_V c = option_map (fun t => 86%N :: upper t) (r_volume r) /\ c_P c = option_map (fun t => 80%N :: upper t) (r_page r) /\ c_DOI c = option_map upper (r_doi r) /\ c_bad c = false /\
    c_id c = title (without_dots A) ++ $", " ++ dec_Z y ++ $", " ++ upper j.
Proof.
  intros up title r a l y j K upper A RA RY RJ Y HA CA HJ CJ HV HP HD. eexists. split.
  - unfold self_cite, authors_of, cite_parts. rewrite RA, RY, RJ. cbn [name_list map opt_part]. rewrite no_commas_eq.
    apply (@C28_documented_form upper title _ A y (upper j) (option_map upper (r_volume r)) (option_map upper (r_page r)) (option_map upper (r_doi r)) HA CA Y HJ CJ).
    + intros t E. destruct (r_volume r) as [v|]; [injection E as <-; apply HV; reflexivity|discriminate].
    + intros t E. destruct (r_page r) as [v|]; [injection E as <-; apply HP; reflexivity|discriminate].
    + intros t E. destruct (r_doi r) as [v|]; [injection E as <-; apply HD; reflexivity|discriminate].
    + apply (self_text up K).
  - cbn [c_author c_year c_journal c_V c_P c_DOI c_bad c_id]. destruct (r_volume r), (r_page r); cbn [option_map]; repeat split; reflexivity.
Qed.
(** ... so it is equal to what a reference of another record with the same author, year and journal becomes, whatever volume, page and DOI are there; ... *)
Theorem C72_reference : forall up title hash r a l y j s v p d, ascii_kept up -> let upper := flat_map up in let A := upper (without_commas a) in
  r_authors r = Some (NList (a :: l)) -> r_year r = Some (dec_Z y) -> r_j9 r = Some j -> (-100000 < y < 100000)%Z ->
  (exists x1 x2 t, A = x1 :: x2 :: t /\ is_09 x1 = false) -> ~ In 44%N A -> upper j <> [] -> ~ In 44%N (upper j) ->
  (forall t, r_volume r = Some t -> upper t <> [] /\ ~ In 44%N (upper t)) -> (forall t, r_page r = Some t -> upper t <> [] /\ ~ In 44%N (upper t)) ->
  (forall t, r_doi r = Some t -> upper t <> [] /\ ~ In 10%N (upper t)) ->
  (forall t, v = Some t -> t <> [] /\ ~ In 44%N t) -> (forall t, p = Some t -> t <> [] /\ ~ In 44%N t) -> (forall t, d = Some t -> t <> [] /\ ~ In 10%N t) ->
  upper s = (A ++ $", " ++ dec_Z y ++ $", " ++ upper j ++ (match v with Some v => $", V" ++ v | None => [] end) ++ (match p with Some p => $", P" ++ p | None => [] end)
    ++ (match d with Some d => $", DOI " ++ d | None => [] end))%list ->
  exists c c', self_cite upper title r = Ok c /\ wos_citation upper title s = Ok c' /\ cite_eq hash c c' = true.
Proof.
  intros up title hash r a l y j s v p d K upper A RA RY RJ Y HA CA HJ CJ HV HP HD Hv Hp Hd E.
  destruct (C72_self up title r a l y j K RA RY RJ Y HA CA HJ CJ HV HP HD) as (c & C & _ & _ & _ & _ & _ & _ & _ & CI).
  pose proof (C28_documented_form upper title s HA CA Y HJ CJ Hv Hp Hd E) as C'. eexists c, _. split; [exact C|]. split; [exact C'|].
  destruct (C28_equality hash c {| c_author := Some (title (without_dots A)); c_year := Some y; c_journal := Some (upper j);
    c_V := option_map (cons 86%N) v; c_P := option_map (cons 80%N) p; c_DOI := d; c_misc := None; c_bad := false;
    c_id := (title (without_dots A) ++ $", " ++ dec_Z y ++ $", " ++ upper j)%list; c_original := s |} c) as (_ & _ & _ & _ & G & _). apply G. rewrite CI. reflexivity.
Qed.
(** ... with multiCite there is a citation for each author, which is what the record would be cited as if this were its only author. *)
Definition only_author (r : selfrec) (a : str) : selfrec :=
  {| r_authors := Some (NList [a]); r_year := r_year r; r_j9 := r_j9 r; r_title := r_title r; r_journal := r_journal r; r_volume := r_volume r; r_page := r_page r; r_doi := r_doi r |}.
Theorem C72_multi : forall upper title r l, r_authors r = Some (NList l) -> l <> [] -> exists cs, self_cites upper title r = Ok cs /\
  Forall2 (fun a c => self_cite upper title (only_author r a) = Ok c) l cs.
Proof.
  intros upper title r l RA NE. assert (G : forall l, exists cs, cite_each upper title (map (fun a => join $", " (a :: cite_parts r)) (map no_commas l)) = Ok cs /\ Forall2 (fun a c => self_cite upper title (only_author r a) = Ok c) l cs).
  { clear. induction l as [|a l (cs & E & F)]; [exists []; split; [reflexivity|constructor]|]. destruct (C28_parse upper title (join $", " (no_commas a :: cite_parts r))) as (c & C & _).
    exists (c :: cs). cbn [map cite_each]. rewrite C. cbn [bind]. rewrite E. split; [reflexivity|]. constructor; [exact C|exact F]. }
  destruct (G l) as (cs & E & F). exists cs. split; [|exact F]. unfold self_cites, authors_of. rewrite RA. cbn [name_list]. destruct l as [|a l]; [congruence|]. exact E.
Qed.
Theorem C72_nobody : forall upper title r, r_authors r = None -> exists c, self_cite upper title r = Ok c /\ self_cites upper title r = Ok [c].
Proof.
  intros upper title r RA. unfold self_cites, self_cite, authors_of. rewrite RA. cbn [app cite_each]. destruct (C28_parse upper title (join $", " (cite_parts r))) as (c & C & _). exists c. split; [exact C|]. rewrite C. reflexivity.
Qed.
Example C72_ex : let up := ascii_upper in
  let r := {| r_authors := Some (NList [$"Doe, J"; $"Roe, K"]); r_year := Some $"1999"; r_j9 := Some $"nature"; r_title := Some $"On"; r_journal := None; r_volume := Some $"4"; r_page := None; r_doi := Some $"10.1/x" |} in
  (exists c, self_cite up (fun s => s) r = Ok c /\ c_id c = $"DOE J, 1999, NATURE" /\ c_DOI c = Some $"10.1/X") /\
  (exists c d, self_cites up (fun s => s) r = Ok [c; d] /\ c_author d = Some $"ROE K").
Proof.
  split.
  - destruct (self_cite _ _ _) as [c|] eqn:E; vm_compute in E; [|discriminate]. injection E as <-. eexists. repeat split.
  - destruct (self_cites _ _ _) as [l|] eqn:E; vm_compute in E; [|discriminate]. injection E as <-. eexists _, _. repeat split.
Qed.
Example C72_kept : ascii_kept (fun c => if ((97 <=? c) && (c <=? 122))%N then [(c - 32)%N] else [c]).
Proof. intros c I. each I; reflexivity. Qed.
(** ProQuest records give a text for the short names of the authors: the citation has no author; ... *)
Theorem C72_proquest_refuted : exists r s c, r_authors r = Some (NText s) /\ s = $"Smith, John" /\ r_year r = Some $"1999" /\ r_j9 r = Some $"NATURE" /\
  self_cite ascii_upper (fun s => s) r = Ok c /\ c_author c = None /\ c_bad c = true.
Proof.
  exists {| r_authors := Some (NText $"Smith, John"); r_year := Some $"1999"; r_j9 := Some $"NATURE"; r_title := None; r_journal := None; r_volume := None; r_page := None; r_doi := None |}, $"Smith, John".
  destruct (self_cite ascii_upper (fun s => s) {| r_authors := Some (NText $"Smith, John"); r_year := Some $"1999"; r_j9 := Some $"NATURE"; r_title := None; r_journal := None; r_volume := None; r_page := None; r_doi := None |}) as [c|] eqn:E;
    vm_compute in E; [|discriminate]. injection E as <-. eexists. repeat split.
Qed.
(** ... the citations that Scopus records give for their authors run the author into the title. *)
Theorem C72_scopus_refuted : ~ forall r a, r_authors r = Some (NList [a]) -> scopus_selves r = [scopus_self r].
Proof.
  intros H. specialize (H {| r_authors := Some (NList [$"Doe J."]); r_year := Some $"1999"; r_j9 := None; r_title := Some $"On"; r_journal := None; r_volume := None; r_page := None; r_doi := None |} $"Doe J." eq_refl).
  vm_compute in H. discriminate.
Qed.

(** ** C73 *)
Lemma hd_split (c : char) a t : ~ In c a -> hd [] (split_char c (a ++ t)) = a ++ hd [] (split_char c t).
Proof.
  intros N. assert (Z : forall s : str, ~ In c s \/ exists u v, s = u ++ c :: v /\ ~ In c u).
  { induction s as [|x s IH]; [left; intros []|]. destruct (N.eq_dec x c) as [->|NX]; [right; exists [], s; split; [reflexivity|intros []]|].
    destruct IH as [IH|(u & v & -> & NU)]; [left; intros [E|I]; [congruence|contradiction]|right; exists (x :: u), v; split; [reflexivity|intros [E|I]; [congruence|contradiction]]]. }
  destruct (Z t) as [NI|(u & v & -> & NU)].
  - rewrite !split_char_last by (rewrite ?in_app_iff; tauto). reflexivity.
  - rewrite app_assoc, !split_char_line by (rewrite ?in_app_iff; tauto). reflexivity.
Qed.
(** C73: the year is the number that the date of publication starts with; ... *)
Theorem C73_year_partial : forall (d : fields) y rest vs, (0 <= y <= 9999)%Z -> dget $"DP" d = Some ((dec_Z y ++ rest) :: vs) ->
  rest = [] \/ (exists r, rest = sp :: r) \/ (exists r, rest = 45%N :: r) -> m_year d = Ok y.
Proof.
  intros d y rest vs Y D R. unfold m_year, one_text, raw_field. rewrite D. cbn [bind first]. destruct (dec_digits y ltac:(lia)) as [DY NY].
  assert (NS : ~ In sp (dec_Z y)) by (apply no_space_digits; [exact DY|unfold is_digit, sp; lia]). destruct R as [R|[R|[r ->]]].
  - rewrite split_char_hd by auto. rewrite int_of_str. reflexivity.
  - rewrite split_char_hd by auto. rewrite int_of_str. reflexivity.
  - rewrite hd_split by exact NS. change (45%N :: r) with ([45%N] ++ r). rewrite hd_split by (intros [E|[]]; discriminate). cbn [app]. rewrite py_int_dash by assumption.
    rewrite search_digits; [|exact DY|exact NY|apply dec_length, Y|reflexivity]. rewrite int_of_str. reflexivity.
Qed.
(** (and 0 if it starts with a word, although the year is there;) ... *)
Theorem C73_year_refuted : m_year [($"DP", [$"Spring 1998"])] = Ok 0%Z.
Proof. reflexivity. Qed.
(** ... the month is that of the second word; ... *)
Theorem C73_month : forall upper all_digits (d : fields) y m n more rest vs, In (upper m, n) months -> ~ In sp y -> ~ In 45%N m -> ~ In sp m -> ~ In sp more ->
  more = [] \/ (exists r, more = 45%N :: r) -> rest = [] \/ (exists r, rest = sp :: r) -> dget $"DP" d = Some ((y ++ $" " ++ m ++ more ++ rest) :: vs) ->
  m_month upper all_digits d = Ok (inl n).
Proof.
  intros upper all_digits d y m n more rest vs I NY ND NS NM M R D. unfold m_month, one_text, raw_field. rewrite D. cbn [bind first]. change ($" " ++ m ++ more ++ rest) with (sp :: m ++ more ++ rest).
  rewrite split_char_line by exact NY. pose proof (split_char_hd sp (m ++ more) rest ltac:(rewrite in_app_iff; tauto) R) as E. rewrite <- app_assoc in E. 
  assert (G : forall l : list str, hd [] l = m ++ more -> l <> [] -> match y :: l with _ :: m0 :: _ => get_month upper all_digits m0 | _ => Raise KeyError end = Ok (inl n)).
  { intros [|w ws] H NE; [congruence|]. cbn [hd] in H. rewrite H. apply month_found; assumption. }
  apply G; [exact E|]. destruct R as [->|[r ->]]; rewrite ?app_assoc, ?app_nil_r; [rewrite split_char_last by (rewrite in_app_iff; tauto)|rewrite split_char_line by (rewrite in_app_iff; tauto)]; discriminate.
Qed.
(** ... the volume is the first word of its field; the page is what stands before a dash, a semicolon or a space, after suppl; ... *)
Theorem C73_volume : forall (d : fields) v rest vs, ~ In sp v -> rest = [] \/ (exists r, rest = sp :: r) -> dget $"VI" d = Some ((v ++ rest) :: vs) -> m_volume d = Ok v.
Proof. intros d v rest vs N R D. unfold m_volume, one_text, raw_field. rewrite D. cbn [bind first]. rewrite split_char_hd by assumption. reflexivity. Qed.
Lemma filter_none p : ~ In 59%N p -> filter (fun c => negb (eqb c 59%N)) p = p.
Proof. induction p as [|c p IH]; intros N; [reflexivity|]. cbn [filter]. rewrite neq_eqb by (intros ->; apply N; left; reflexivity). cbn [negb]. rewrite IH; [reflexivity|]. intros I. apply N. right. exact I. Qed.
Theorem C73_page_partial : forall (d : fields) before p rest vs, dget $"PG" d = Some ((before ++ p ++ rest) :: vs) -> ~ In sp p -> ~ In 45%N p -> ~ In 59%N p ->
  before = $"suppl " \/ (before = [] /\ p <> $"suppl") -> rest = [] \/ (exists r, rest = $" " ++ r) \/ (exists r, rest = $"-" ++ r) \/ (exists r, rest = $"; " ++ r) -> m_page d = Ok p.
Proof.
  intros d before p rest vs D NS ND NC B R. unfold m_page, one_text, raw_field. rewrite D. cbn [bind first].
  assert (E : (if starts_with $"suppl " (before ++ p ++ rest) then skipn 6 (before ++ p ++ rest) else before ++ p ++ rest) = p ++ rest).
  { destruct B as [->|[-> NP]]; [destruct (p ++ rest); reflexivity|]. cbn [app]. destruct (starts_with $"suppl " (p ++ rest)) eqn:W; [|reflexivity]. exfalso. apply starts_with_spec in W as [t W].
    change $"suppl " with ($"suppl" ++ [sp]) in W. rewrite <- app_assoc in W. pose proof (f_equal (fun l => hd [] (split_char sp l)) W) as H. cbv beta in H. cbn [app] in H.
    change (115%N :: 117%N :: 112%N :: 112%N :: 108%N :: sp :: t) with ($"suppl" ++ sp :: t) in H.
    rewrite (split_char_hd sp $"suppl" (sp :: t)) in H; [|notin|right; eexists; reflexivity]. rewrite hd_split in H by exact NS.
    destruct R as [->|[[r ->]|[[r ->]|[r ->]]]].
    - cbn in H. rewrite app_nil_r in H. apply NP. exact H.
    - cbn in H. rewrite app_nil_r in H. apply NP. exact H.
    - rewrite (hd_split sp $"-") in H by (notin). assert (I : In 45%N $"suppl") by (rewrite <- H; apply in_or_app; right; left; reflexivity). revert I. notin.
    - change ($"; " ++ r) with ($";" ++ sp :: r) in H. rewrite (hd_split sp $";" (sp :: r)) in H by (notin). assert (I : In 59%N $"suppl") by (rewrite <- H; apply in_or_app; right; left; reflexivity). revert I. notin. }
  rewrite E. rewrite hd_split by exact NS. rewrite hd_split by exact ND. rewrite filter_app, filter_none by exact NC.
  assert (Z : filter (fun c : char => negb (eqb c 59%N)) (hd [] (split_char 45%N (hd [] (split_char sp rest)))) = []).
  { destruct R as [->|[[r ->]|[[r ->]|[r ->]]]]; [reflexivity|reflexivity| |reflexivity]. rewrite (hd_split sp $"-") by (notin). reflexivity. }
  exact (eq_ind_r (fun t => Ok (p ++ t) = Ok p) (f_equal Ok (app_nil_r p)) Z).
Qed.
(** (without a space after the semicolon two pages become one number;) ... *)
Theorem C73_page_refuted : m_page [($"PG", [$"12;15"])] = Ok $"1215".
Proof. reflexivity. Qed.
(** ... the DOI is the first identifier that is marked as one, and there is none otherwise; ... *)
Lemma ends_spec t s : ends_with t s = true <-> exists a, s = a ++ t.
Proof.
  unfold ends_with. split.
  - intros H. apply starts_with_spec in H as [a E]. exists (rev a). rewrite <- (rev_involutive s), E, rev_app_distr, rev_involutive. reflexivity.
  - intros [a ->]. apply starts_with_spec. exists (rev a). apply rev_app_distr.
Qed.
Theorem C73_doi : forall (d : fields) ids, dget $"AID" d = Some ids ->
  (forall before x after, ids = before ++ (x ++ $" [doi]") :: after -> (forall s a, In s before -> s <> a ++ $" [doi]") -> m_doi d = Ok x) /\
  ((forall s a, In s ids -> s <> a ++ $" [doi]") -> m_doi d = Raise KeyError).
Proof.
  intros d ids D. unfold m_doi, raw_field. rewrite D. cbn [bind]. assert (N : forall s, (forall a, s <> a ++ $" [doi]") -> ends_with $" [doi]" s = false).
  { intros s H. destruct (ends_with $" [doi]" s) eqn:E; [|reflexivity]. apply ends_spec in E as [a E]. destruct (H a E). }
  clear D. split.
  - intros before x after -> H. induction before as [|b before IH]; cbn [app find_doi].
    + assert (E : ends_with $" [doi]" (x ++ $" [doi]") = true) by (apply ends_spec; exists x; reflexivity). rewrite E. rewrite app_length. cbn [length]. rewrite Nat.add_sub. rewrite firstn_app, Nat.sub_diag, firstn_all, firstn_O, app_nil_r. reflexivity.
    + rewrite N by (intros a; apply H; left; reflexivity). apply IH. intros s a I. apply H. right. exact I.
  - intros H. induction ids as [|b ids IH]; [reflexivity|]. cbn [find_doi]. rewrite N by (intros a; apply H; left; reflexivity). apply IH. intros s a I. apply H. right. exact I.
Qed.
(** ... the addresses of an author are those of the last entry that has the name of the author; ... *)
Definition one_line (s : str) : Prop := s <> [] /\ ~ In 59%N s /\ ~ In nl s.
Lemma keep_all {A} (f : A -> bool) (l : list A) : (forall x, In x l -> f x = true) -> filter f l = l.
Proof. induction l as [|x l IH]; intros H; [reflexivity|]. cbn [filter]. rewrite (H x (or_introl eq_refl)), IH; [reflexivity|]. intros y I. apply H. right. exact I. Qed.
Lemma address_entry (a : str) parts : ~ In 58%N a -> parts <> [] -> (forall s, In s parts -> one_line s) ->
  let t := split_at $" : " (a ++ $" : " ++ join $";" parts) in
  hd [] t = a /\ filter (fun s => negb (eqb s [])) (split_char 59%N (filter (fun c => negb (eqb c nl)) (join $" : " (tl t)))) = parts.
Proof.
  intros NA NE F t. destruct (colon_parts a (join $";" parts) NA) as [H T]. split; [exact H|]. assert (T' : join $" : " (tl t) = join $";" parts) by exact T. rewrite T'. clear T'. rewrite (keep_all (fun c => negb (eqb c nl))).
  - assert (NC : forall s, In s parts -> ~ In 59%N s) by (intros s I; apply (F s I)).
    transitivity (filter (fun s : str => negb (eqb s [])) parts); [f_equal; exact (@split_join 59%N parts NE NC)|].
    apply keep_all. intros s I. destruct (F s I) as (N & _). rewrite neq_eqb by exact N. reflexivity.
  - intros c I. rewrite neq_eqb; [reflexivity|]. intros ->. clear t H T. revert I. induction parts as [|p [|q parts] IH]; [congruence| |].
    + cbn [join]. apply (F p (or_introl eq_refl)).
    + change (join $";" (p :: q :: parts)) with (p ++ $";" ++ join $";" (q :: parts)). rewrite !in_app_iff. intros [I|[[I|[]]|I]]; [exact (proj2 (proj2 (F p (or_introl eq_refl))) I)|discriminate|].
      apply IH; [discriminate|intros s J; apply F; right; exact J|exact I].
Qed.
Lemma last_entry {E V} (key : E -> str) (value : E -> V) k e before after : key e = k -> (forall x, In x after -> key x <> k) ->
  dget k (fold_left (fun d e => dset (key e) (value e) d) (before ++ e :: after) []) = Some (value e).
Proof.
  intros K N. rewrite fold_dset_last. rewrite rev_app_distr. cbn [rev]. rewrite !filter_app. replace (filter (fun e => eqb (key e) k) (rev after)) with (@nil E).
  - cbn [app filter]. rewrite K, eqb_refl. reflexivity.
  - symmetry. assert (G : forall l, (forall x, In x l -> key x <> k) -> filter (fun e => eqb (key e) k) l = []); [|apply G; intros x I; apply N, in_rev, I].
    induction l as [|x l IH]; intros H; [reflexivity|]. cbn [filter]. rewrite neq_eqb by (apply H; left; reflexivity). apply IH. intros y I. apply H. right. exact I.
Qed.
Lemma address_last : forall (entries : list (str * list str)) before a parts after, entries = before ++ (a, parts) :: after ->
  (forall b l, In (b, l) entries -> ~ In 58%N b /\ l <> [] /\ forall s, In s l -> one_line s) -> (forall l, ~ In (a, l) after) ->
  dget a (m_address (map (fun e => fst e ++ $" : " ++ join $";" (snd e)) entries)) = Some parts.
Proof.
  intros entries before a parts after -> F N. unfold m_address. rewrite map_app. cbn [map fst snd].
  rewrite (last_entry (fun v => hd [] (split_at $" : " v)) (fun v => filter (fun s => negb (eqb s [])) (split_char 59%N (filter (fun c => negb (eqb c nl)) (join $" : " (tl (split_at $" : " v)))))) a).
  - f_equal. destruct (F a parts) as (Fa & Fl & Fp); [apply in_or_app; right; left; reflexivity|]. apply (address_entry a parts Fa Fl Fp).
  - destruct (F a parts) as (Fa & Fl & Fp); [apply in_or_app; right; left; reflexivity|]. apply (address_entry a parts Fa Fl Fp).
  - intros x I E. apply in_map_iff in I as ((b & l) & <- & I). cbn [fst snd] in E. destruct (F b l) as (Fb & Fl & Fp); [apply in_or_app; right; right; exact I|].
    rewrite (proj1 (address_entry b l Fb Fl Fp)) in E. subst b. exact (N l I).
Qed.
Theorem C73_addresses_partial : forall (entries : list (str * list str)) before a parts after, entries = before ++ (a, parts) :: after ->
  (forall b l, In (b, l) entries -> ~ In 58%N b /\ l <> [] /\ forall s, In s l -> one_line s) -> (forall l, ~ In (a, l) after) ->
  exists d, medline_value $"AD" (map (fun e => fst e ++ $" : " ++ join $";" (snd e)) entries) = Ok (FLists d) /\ dget a d = Some parts.
Proof. intros entries before a parts after E F N. eexists. split; [reflexivity|]. exact (address_last entries before a parts after E F N). Qed.
(** (earlier entries of an author are lost, and so are the spaces at the ends of lines;) ... *)
Theorem C73_addresses_refuted : m_address [$"Doe J : A Univ"; $"Doe J : B" ++ [nl] ++ $"Univ"] = [($"Doe J", [$"BUniv"])].
Proof. reflexivity. Qed.
(** ... likewise the identifiers of authors; ... *)
Theorem C73_ids : forall (entries : list (str * str)) before a i after, entries = before ++ (a, i) :: after -> (forall b j, In (b, j) entries -> ~ In 58%N b) -> (forall j, ~ In (a, j) after) ->
  exists d, medline_value $"AUID" (map (fun e => fst e ++ $" : " ++ snd e) entries) = Ok (FNames d) /\ dget a d = Some i.
Proof.
  intros entries before a i after -> F N. eexists. split; [reflexivity|]. unfold m_ids. rewrite map_app. cbn [map fst snd].
  rewrite (last_entry (fun v => hd [] (split_at $" : " v)) (fun v => join $" : " (tl (split_at $" : " v))) a).
  - f_equal. apply colon_parts. apply (F a i). apply in_or_app; right; left; reflexivity.
  - apply colon_parts. apply (F a i). apply in_or_app; right; left; reflexivity.
  - intros x I E. apply in_map_iff in I as ((b & l) & <- & I). cbn [fst snd] in E. assert (B : b = a); [|subst b; exact (N l I)]. rewrite <- E. symmetry. exact (proj1 (colon_parts b l (F b l ltac:(apply in_or_app; right; right; exact I)))).
Qed.
(** ... the main address is the first one of the first author; ... *)
Theorem C73_main : forall (d : fields) (entries : list (str * list str)) before a p parts after names, entries = before ++ (a, p :: parts) :: after ->
  (forall b l, In (b, l) entries -> ~ In 58%N b /\ l <> [] /\ forall s, In s l -> one_line s) -> (forall l, ~ In (a, l) after) ->
  dget $"AD" d = Some (map (fun e => fst e ++ $" : " ++ join $";" (snd e)) entries) -> dget $"AU" d = Some (a :: names) -> m_main_address d = Ok p.
Proof.
  intros d entries before a p parts after names E F N DA DU. unfold m_main_address, raw_field. rewrite DA, DU. cbn [bind first].
  rewrite (address_last entries before a (p :: parts) after E F N). reflexivity.
Qed.
(** ... the number of the record is marked; titles, abstracts, dates and the like are one line, and what is not known is left as it is. *)
Theorem C73_others : forall tag v vs,
  (In tag [$"PG"; $"VI"; $"DP"; $"TI"; $"OTO"; $"AB"; $"TA"; $"JT"] -> medline_value tag (v :: vs) = Ok (FText v)) /\
  medline_value $"PMID" (v :: vs) = Ok (FText ($"PMID:" ++ v)) /\
  (~ In tag [$"PG"; $"VI"; $"DP"; $"TI"; $"OTO"; $"AB"; $"TA"; $"JT"; $"PMID"; $"AD"; $"AUID"; $"GR"] -> medline_value tag vs = Ok (FTexts vs)).
Proof.
  intros tag v vs. split; [intros I; each I; reflexivity|]. split; [reflexivity|]. intros N. unfold medline_value.
  rewrite (proj2 (mem_not_In tag medline_first)) by (intros I; apply N; cbn in I |- *; tauto). rewrite !neq_eqb by (intros ->; apply N; cbn; tauto). reflexivity.
Qed.
Example C73_ex : let d := [($"DP", [$"2001-2002 Nov-Dec"]); ($"PG", [$"suppl 12-5; discussion 16"]); ($"AID", [$"S0 [pii]"; $"10.1/x [doi]"]); ($"AU", [$"Doe J"]); ($"AD", [$"Doe J : A;B"; $"Roe K : C"])] in
  m_year d = Ok 2001%Z /\ m_month ascii_upper (forallb digit09) d = Ok (inl 11%Z) /\ m_page d = Ok $"12" /\ m_doi d = Ok $"10.1/x" /\ m_main_address d = Ok $"A".
Proof. vm_compute. auto. Qed.

(** ** C74 *)
Section Scopus.
Variable upper : str -> str.
Variables word num : char -> bool.
Variable int_of : str -> Z.
Notation value := (scopus_value upper word num int_of).
(** C74: lists are got back from their items, ... *)
Theorem C74_lists : forall tag items, items <> [] ->
  ((forall s, In s items -> ~ has_part $", " s) -> value $"Authors" (join $", " items) = Ok (FTexts items)) /\
  ((forall s, In s items -> ~ In 59%N s) -> value $"Sponsors" (join $";" items) = Ok (FTexts items)) /\
  (In tag [$"Authors with affiliations"; $"Author Keywords"; $"Index Keywords"; $"Tradenames"; $"Manufacturers"; $"Correspondence Address"; $"ISBN"; $"Language of Original Document"] ->
   (forall s, In s items -> ~ has_part $"; " s) -> value tag (join $"; " items) = Ok (FTexts items)) /\
  ((forall s, In s items -> ~ has_part $"; " s) ->
   value $"Funding Details" (join $"; " items) = Ok (FGrants (map scopus_grant items)) /\
   value $"References" (join $"; " items) = Ok (FScopusCites (map (CitationModel.scopus_citation word num int_of upper) items))).
Proof.
  intros tag items NE. assert (P : forall x y, x <> y -> (forall s, In s items -> ~ has_part [x; y] s) -> split_at [x; y] (join [x; y] items) = items).
  { intros x y XY H. apply split_pair; [exact XY|exact NE|]. intros s I a b E. apply (H s I). exists a, b. exact E. }
  split; [|split; [|split]].
  - intros H. transitivity (Ok (FTexts (split_at $", " (join $", " items)))); [reflexivity|]. do 2 f_equal. apply P; [discriminate|exact H].
  - intros H. transitivity (Ok (FTexts (split_at $";" (join $";" items)))); [reflexivity|]. do 2 f_equal. apply split_single; assumption.
  - intros I H. transitivity (Ok (FTexts (split_at $"; " (join $"; " items)))); [each I; reflexivity|]. do 2 f_equal. apply P; [discriminate|exact H].
  - intros H. split.
    + transitivity (Ok (FGrants (map scopus_grant (split_at $"; " (join $"; " items))))); [reflexivity|]. do 3 f_equal. apply P; [discriminate|exact H].
    + transitivity (Ok (FScopusCites (map (CitationModel.scopus_citation word num int_of upper) (split_at $"; " (join $"; " items))))); [reflexivity|]. do 3 f_equal. apply P; [discriminate|exact H].
Qed.
(** ... numbers are read as such, the rest are the texts of the file, and other columns raise. *)
Definition scopus_texts : list str :=
  [$"Title"; $"Source title"; $"Volume"; $"Issue"; $"Art. No."; $"Page start"; $"Page end"; $"DOI"; $"Link"; $"Affiliations"; $"Abstract"; $"Molecular Sequence Numbers"; $"Chemicals/CAS"; $"Editors"; $"Publisher";
   $"Conference name"; $"Conference date"; $"Conference location"; $"ISSN"; $"CODEN"; $"PubMed ID"; $"Abbreviated Source Title"; $"Document Type"; $"Source"; $"EID"].
Definition scopus_lists : list str := [$"Authors"; $"Sponsors"; $"Authors with affiliations"; $"Author Keywords"; $"Index Keywords"; $"Tradenames"; $"Manufacturers"; $"Correspondence Address"; $"ISBN"; $"Language of Original Document";
  $"Funding Details"; $"References"].
Definition scopus_numbers : list str := [$"Year"; $"Page count"; $"Cited by"; $"Conference code"].
Theorem C74_others : forall tag v z,
  (In tag scopus_texts -> value tag v = Ok (FText v)) /\ (In tag scopus_numbers -> value tag (dec_Z z) = Ok (FInt z)) /\ (In tag scopus_numbers -> py_int v = None -> value tag v = Raise ValueError) /\
  (~ In tag (scopus_texts ++ scopus_lists ++ scopus_numbers) -> value tag v = Raise KeyError).
Proof.
  intros tag v z. split; [intros I; each I; reflexivity|]. split; [|split].
  - intros I. assert (E : to_int (dec_Z z) = Ok (FInt z)) by (unfold to_int; rewrite int_of_str; reflexivity). each I; exact E.
  - intros I N. assert (E : to_int v = Raise ValueError) by (unfold to_int; rewrite N; reflexivity). each I; exact E.
  - intros N. unfold scopus_value. destruct (dget tag _) as [f|] eqn:E; [|reflexivity]. exfalso. apply N. apply dget_In in E. apply (in_map fst) in E. cbn [fst scopus_funcs map] in E. rewrite !in_app_iff. clear N.
    repeat (destruct E as [<-|E]; [cbn; tauto|]). destruct E.
Qed.
End Scopus.
(** ProQuest fields of one line are that line, lists are got back from their items, the classes being pairs of a code and a name; others are left as they are. *)
Theorem C74_proquest : forall tag v vs items pairs,
  (In tag [$"Author"; $"Title"; $"Advisor"; $"Name"; $"Committee member"; $"Copyright"; $"Country of publication"; $"Database"; $"Degree"; $"Degree date"; $"Department";
     $"Dissertation/thesis number"; $"Document type"; $"Language"; $"Number of pages"; $"Place of publication"; $"ProQuest document ID"; $"Publication year";
     $"School code"; $"Source"; $"Source type"; $"University location"; $"University/institution"; $"ISBN"; $"Publication subject"] -> proquest_value tag (v :: vs) = Ok (FText v)) /\
  (items <> [] -> (forall s, In s items -> ~ has_part $", " s) -> proquest_value $"Identifier / keyword" (join $", " items :: vs) = Ok (FTexts items)) /\
  (items <> [] -> (forall s, In s items -> ~ has_part $"; " s) -> proquest_value $"Subject" (join $"; " items :: vs) = Ok (FTexts items)) /\
  (pairs <> [] -> (forall code name, In (code, name) pairs -> ~ has_part $"; " (code ++ $": " ++ name) /\ ~ has_part $": " code /\ ~ has_part $": " name) ->
   proquest_value $"Classification" (join $"; " (map (fun p => fst p ++ $": " ++ snd p) pairs) :: vs) = Ok (FTuples (map (fun p => [fst p; snd p]) pairs))).
Proof.
  intros tag v vs items pairs. assert (P : forall x y items, x <> y -> items <> [] -> (forall s, In s items -> ~ has_part [x; y] s) -> split_at [x; y] (join [x; y] items) = items).
  { intros x y l XY NE H. apply split_pair; [exact XY|exact NE|]. intros s I a b E. apply (H s I). exists a, b. exact E. }
  split; [intros I; each I; reflexivity|]. split; [|split].
  - intros NE H. transitivity (Ok (FTexts (split_at $", " (join $", " items)))); [reflexivity|]. do 2 f_equal. apply P; [discriminate|exact NE|exact H].
  - intros NE H. transitivity (Ok (FTexts (split_at $"; " (join $"; " items)))); [reflexivity|]. do 2 f_equal. apply P; [discriminate|exact NE|exact H].
  - intros NE H. transitivity (Ok (FTuples (map (split_at $": ") (split_at $"; " (join $"; " (map (fun p => fst p ++ $": " ++ snd p) pairs)))))); [reflexivity|].
    transitivity (Ok (FTuples (map (split_at $": ") (map (fun p => fst p ++ $": " ++ snd p) pairs)))); [do 3 f_equal; apply P; [discriminate| |]|].
    + destruct pairs; [congruence|discriminate].
    + intros s I. apply in_map_iff in I as ((code & name) & <- & I). apply (H code name I).
    + do 2 f_equal. rewrite map_map. apply map_ext_in. intros (code & name) I. cbn [fst snd]. change (code ++ $": " ++ name) with (join $": " [code; name]). apply P; [discriminate|discriminate|].
      destruct (H code name I) as (_ & A & B). intros s [<-|[<-|[]]]; assumption.
Qed.
Example C74_ex : scopus_value (fun s => s) (fun _ => true) digit09 (fun _ => 0%Z) $"Index Keywords" $"a; b, c; d" = Ok (FTexts [$"a"; $"b, c"; $"d"]) /\
  proquest_value $"Classification" [$"0323: American studies; 0515: Higher education"] = Ok (FTuples [[$"0323"; $"American studies"]; [$"0515"; $"Higher education"]]).
Proof. vm_compute. auto. Qed.

Print Assumptions C71_first.
Print Assumptions C71_stripped.
Print Assumptions C71_lines.
Print Assumptions C71_text.
Print Assumptions C71_capitals.
Print Assumptions C71_abstract.
Print Assumptions C71_list.
Print Assumptions C71_keywords.
Print Assumptions C71_sponsors.
Print Assumptions C71_number.
Print Assumptions C71_year.
Print Assumptions C71_month.
Print Assumptions C71_address_partial.
Print Assumptions C71_address_refuted.
Print Assumptions C71_citations.
Print Assumptions C71_documented_refuted.
Print Assumptions C71_month_refuted.
Print Assumptions C72_self.
Print Assumptions C72_reference.
Print Assumptions C72_multi.
Print Assumptions C72_nobody.
Print Assumptions C72_proquest_refuted.
Print Assumptions C72_scopus_refuted.
Print Assumptions C73_year_partial.
Print Assumptions C73_year_refuted.
Print Assumptions C73_month.
Print Assumptions C73_volume.
Print Assumptions C73_page_partial.
Print Assumptions C73_page_refuted.
Print Assumptions C73_doi.
Print Assumptions C73_addresses_partial.
Print Assumptions C73_addresses_refuted.
Print Assumptions C73_ids.
Print Assumptions C73_main.
Print Assumptions C73_others.
Print Assumptions C74_lists.
Print Assumptions C74_others.
Print Assumptions C74_proquest.
