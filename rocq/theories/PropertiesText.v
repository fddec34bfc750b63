(** C44, C49, C52, C60: layouts of text. *)
From Coq Require Import List ZArith Lia Bool Arith.
From Coq Require Import String.
From Verif Require Import Base PyStr PyInt Regex JournalModel JournalProofs TextModel TextSpec TextProofs.
Import ListNotations.
Local Open Scope list_scope.

(** ** C44 *)
(** The two strings given, one after the other, are the abstract up to white space at its end. *)
Theorem C44_split : forall num s a b, find_copyright num s = (a, b) -> exists w, s = a ++ b ++ w /\ blank_text w.
Proof. intros num s a b E. pose proof (copyright_split num s) as P. rewrite E in P. exact P. Qed.
(** what is done with the mark that was found *)
Lemma mark_used num s t : splitter num s = Some t -> t <> [] ->
  exists before after, s = before ++ t ++ after /\ contains t after = false /\
    find_copyright num s = (if starts_with $"." t then (before ++ $".", tl t ++ rstrip after) else (before, t ++ rstrip after)).
Proof.
  intros SP NT. pose proof (splitter_inside _ _ _ SP) as CT. destruct t as [|x t']; [congruence|].
  assert (NL : exists n, length s = S n) by (destruct s; [cbn in CT; discriminate|eexists; reflexivity]). destruct NL as [n NL].
  exists (join (x :: t') (removelast (split_on (length s) (x :: t') s))), (last (split_on (length s) (x :: t') s) []). split; [|split].
  - rewrite <- join_last by (rewrite NL; apply split_on_two, CT). symmetry. apply split_on_join.
  - apply split_on_last; [discriminate|lia].
  - unfold find_copyright. rewrite SP. replace (starts_with $"." (x :: t')) with (eqb x 46%N); [reflexivity|]. cbn [starts_with]. change $"." with [46%N]. cbn [starts_with]. rewrite andb_true_r. apply (@eqb_sym char _).
Qed.
(** The first of the phrases found decides: the second string begins at its last occurrence, without the full stop the phrase begins with,
    which stays at the end of the first string. *)
Theorem C44_phrase : forall num s l1 t l2, phrases = l1 ++ t :: l2 -> contains t s = true -> (forall u, In u l1 -> contains u s = false) ->
  exists before after, s = before ++ t ++ after /\ contains t after = false /\
    find_copyright num s = (if starts_with $"." t then (before ++ $".", tl t ++ rstrip after) else (before, t ++ rstrip after)).
Proof.
  intros num s l1 t l2 PH CT L1. apply mark_used.
  - unfold splitter. change copyright_hits with phrases. rewrite PH. clear PH. replace (find (fun t => contains t s) (l1 ++ t :: l2)) with (Some t); [reflexivity|].
    induction l1 as [|u l1 IH]; cbn; [rewrite CT; reflexivity|]. rewrite (L1 u (or_introl eq_refl)). apply IH. intros v I1. apply L1. right. exact I1.
  - assert (IT : In t phrases) by (rewrite PH; apply in_or_app; right; left; reflexivity). intros ->. cbn in IT. repeat destruct IT as [IT|IT]; try discriminate. destruct IT.
Qed.
(** With none of the phrases, one of the dated forms in the text decides in the same way. *)
Theorem C44_dated : forall num s, (forall u, In u phrases -> contains u s = false) -> (exists t, dated num t /\ contains t s = true) ->
  exists t before after, dated num t /\ s = before ++ t ++ after /\ contains t after = false /\ find_copyright num s = (before ++ $".", tl t ++ rstrip after).
Proof.
  intros num s NP (t & D & C). destruct (splitter num s) as [m|] eqn:E.
  - pose proof (splitter_dated num s m NP E) as DM. assert (SD : exists m', m = 46%N :: m') by (destruct DM as (y & _ & [(o & c & e & _ & _ & _ & ->)| ->]); eexists; reflexivity). destruct SD as [m' ->].
    destruct (mark_used num s _ E ltac:(discriminate)) as (b & a & S1 & N1 & F). exists (46%N :: m'), b, a. auto.
  - apply (splitter_none num s NP) with (t := t) in E; [congruence|exact D].
Qed.
(** With none of the phrases and none of the dated forms in it the abstract stays whole. *)
Theorem C44_none : forall num s, (forall u, In u phrases -> contains u s = false) -> (forall t, dated num t -> contains t s = false) -> find_copyright num s = (s, []).
Proof. intros num s NP ND. unfold find_copyright. apply (splitter_none num s NP) in ND. rewrite ND. reflexivity. Qed.
Definition ascii_digit (c : char) : bool := ((48 <=? c) && (c <=? 57))%N.
Example C44_ex : find_copyright ascii_digit $"We study it. Copyright 2001 X. Copyright 2002 Y. " = ($"We study it. Copyright 2001 X.", $" Copyright 2002 Y.")
  /\ find_copyright ascii_digit $"We study it. 2014 Elsevier Ltd" = ($"We study it.", $" 2014 Elsevier Ltd")
  /\ find_copyright ascii_digit $"We study it. (c) in 2014" = ($"We study it.", $" (c) in 2014")
  /\ find_copyright ascii_digit $"We study it in 2014" = ($"We study it in 2014", []).
Proof. vm_compute. auto. Qed.
Print Assumptions C44_split.
Print Assumptions C44_phrase.
Print Assumptions C44_dated.
Print Assumptions C44_none.

(** ** C52 *)
(** A value that is not too long and has no quotation marks is given in quotation marks; several values are joined by and. *)
Theorem C52_short : forall v max (t : str), t = match v with BOne s => s | BList l => join $" and " l end -> length t <= max -> ~ In 34%N t -> bib_format v max = Ok ([34%N] ++ t ++ [34%N]).
Proof.
  intros v max t E L NQ. unfold bib_format. change (bib_text v) with (match v with BList l => join $" and " l | BOne s => s end). replace (match v with BList l => join $" and " l | BOne s => s end) with t by (destruct v; exact E).
  destruct (Nat.ltb_spec max (length t)); [lia|]. assert (M : @mem char _ quote t = false) by (apply mem_not_In; exact NQ). rewrite M. reflexivity.
Qed.
(** One with quotation marks is given in braces, from which dropping the backslash before every brace gives it back. *)
Theorem C52_braces : forall (s : str) max, length s <= max -> In 34%N s -> exists t, bib_format (BOne s) max = Ok ($"{" ++ t ++ $"}") /\ unbrace t = s.
Proof.
  intros s max L Q. exists (escape s). split.
  - unfold bib_format. cbn [bib_text]. destruct (Nat.ltb_spec max (length s)); [lia|]. assert (M : @mem char _ quote s = true) by (apply mem_In; exact Q). rewrite M. reflexivity.
  - clear. assert (B : forall s : str, match escape s with x :: _ => (x =? 123)%N || (x =? 125)%N = false | [] => True end).
    { clear s; intros [|x s]; [exact Logic.I|]. unfold escape; cbn [flat_map]. destruct (@eqb_spec N _ x 123%N) as [->|N1]; [reflexivity|]. destruct (@eqb_spec N _ x 125%N) as [->|N2]; [reflexivity|]. cbn [app orb]. apply N.eqb_neq in N1, N2. rewrite N1, N2. reflexivity. }
    induction s as [|x s IH]; [reflexivity|]. change (escape (x :: s)) with ((if eqb x 123%N || eqb x 125%N then [92%N; x] else [x]) ++ escape s). destruct (eqb x 123%N || eqb x 125%N) eqn:E.
    + assert (E' : ((x =? 123) || (x =? 125))%N = true) by (apply orb_true_iff in E as [E|E]; apply eqb_eq in E; subst; reflexivity). cbn [app unbrace]. rewrite E', IH. reflexivity.
    + specialize (B s). cbn [app]. destruct (escape s) as [|y t] eqn:ES; [cbn in *; rewrite <- IH; reflexivity|]. change (unbrace (x :: y :: t)) with (if (y =? 123)%N || (y =? 125)%N then y :: unbrace t else x :: unbrace (y :: t)). rewrite B, IH. reflexivity.
Qed.
(** A longer one loses its quotation marks and is given in pieces of the maximal length: as many as fit in what is left. So together they are
    the whole only when the maximum divides the length (missing: the rest of the text otherwise). *)
Theorem C52_pieces_partial : forall (s : str) max (t : str), 0 < max -> max < length s -> no_quotes s t ->
  exists ps, bib_format (BOne s) max = Ok (quoted ps) /\ concat ps = firstn (length t / max * max) t /\ (forall p, In p ps -> length p = max) /\ (length t mod max = 0 -> concat ps = t).
Proof.
  intros s max t MP L NQ. exists (bib_pieces t max). assert (T : t = remove quote s).
  { unfold remove. rewrite NQ. apply filter_ext. intros c. unfold quote. destruct (@eqb_spec char _ c 34%N) as [->|N]; [reflexivity|]. apply N.eqb_neq in N. rewrite N. reflexivity. }
  split; [|split; [apply bib_pieces_concat|split]].
  - unfold bib_format. cbn [bib_text]. apply Nat.ltb_lt in L. rewrite L. destruct (Nat.eqb_spec max 0); [lia|]. rewrite <- T. f_equal. generalize (bib_pieces t max). intros ps. change [quote] with [34%N].
    induction ps as [|p ps IH]; [reflexivity|]. destruct ps as [|q ps]; [reflexivity|]. rewrite join_cons by discriminate. change (quoted (p :: q :: ps)) with ([34%N] ++ p ++ $""" # " ++ quoted (q :: ps)). rewrite <- IH. rewrite <- !app_assoc. reflexivity.
  - intros p I1. unfold bib_pieces in I1. apply in_map_iff in I1 as (i & <- & I1). apply in_seq in I1. apply piece_length; lia.
  - intros M. rewrite bib_pieces_concat. pose proof (Nat.div_mod (length t) max ltac:(lia)). replace (length t / max * max) with (length t) by lia. apply firstn_all.
Qed.
(** With a maximum of zero every text that is not empty raises. *)
Theorem C52_zero : forall s, s <> [] -> bib_format (BOne s) 0 = Raise ZeroDivisionError.
Proof. intros [|x s] N; [congruence|]. reflexivity. Qed.
(** The end of a text that is too long is lost; and all of it when it is shorter than the maximum without its quotation marks. *)
Theorem C52_lost_refuted : bib_format (BOne $"abcdefgh") 5 = Ok $"""abcde""" /\ bib_format (BOne $"""abcd""") 5 = Ok $"""""".
Proof. vm_compute. auto. Qed.
Example C52_ex : bib_format (BOne $"abcd""efgh") 4 = Ok $"""abcd"" # ""efgh""" /\ bib_format (BList [$"A, B"; $"C"]) 20 = Ok $"""A, B and C""" /\ bib_format (BOne $"a""{b}") 9 = Ok $"{a""\{b\}}".
Proof. vm_compute. auto. Qed.
Print Assumptions C52_short.
Print Assumptions C52_braces.
Print Assumptions C52_pieces_partial.
Print Assumptions C52_zero.
Print Assumptions C52_lost_refuted.

(** ** C49 *)
(** Every line of a compact glimpse is as wide as the terminal, and there are no more of them than the terminal has rows, if the headings fit the
    columns, the ranks have at most two digits and the two lines of the header fit (missing: other headings, ranks and headers). *)
Theorem C49_compact_partial : forall first second values cols rows,
  (55 <= cols)%Z -> (7 <= rows)%Z -> values <> [] -> (5 <= cols / Z.of_nat (length values))%Z ->
  (forall title entries, In (title, entries) values -> (Z.of_nat (length title) <= cols / Z.of_nat (length values) - 2)%Z /\ forall v r, In (v, r) entries -> (-1 <= r <= 99)%Z) ->
  (Z.of_nat (length first) <= cols - 1)%Z -> (Z.of_nat (length second) <= cols - 2)%Z ->
  exists ls, glimpse first second values cols rows true = Ok ls /\ (forall l, In l ls -> wide cols l) /\ (Z.of_nat (length ls) < rows)%Z.
Proof.
  intros first second values cols rows C R NE W5 V L1 L2. unfold glimpse. destruct (Z.ltb_spec cols 55); [lia|]. destruct (Z.ltb_spec rows 6); [lia|]. change (Z.of_nat (length description)) with 76%Z.
  destruct (table_wide values (if (cols <? 76)%Z then rows - 7 else rows - 6)%Z cols NE) as (ls & -> & LL & LW); [destruct (cols <? 76)%Z; lia|exact W5| |].
  { intros t e I1. destruct (V t e I1) as [A B]. split; [exact A|]. intros v r I2. apply dec_short. specialize (B v r I2). lia. }
  destruct (header_wide first second cols C L1 L2) as [HW HL]. cbn [bind]. eexists. split; [reflexivity|]. split.
  - intros l I1. apply in_app_or in I1 as [I1|I1]; auto.
  - rewrite app_length, Nat2Z.inj_add, LL, HL. destruct (Z.ltb_spec cols 76), (Z.ltb_spec cols 78); cbn [Z.of_nat]; lia.
Qed.
(** A smaller terminal is taken for one of 80 columns, or 24 rows. *)
Theorem C49_default : forall first second values cols rows compact,
  glimpse first second values cols rows compact = glimpse first second values (if (cols <? 55)%Z then 80 else cols)%Z (if (rows <? 6)%Z then 24 else rows)%Z compact.
Proof.
  intros. unfold glimpse. destruct (cols <? 55)%Z eqn:A, (rows <? 6)%Z eqn:B; cbv iota; rewrite ?A, ?B; reflexivity.
Qed.
(** In a glimpse that is not compact every line under the titles is at most as wide as the terminal. *)
Theorem C49_long : forall first second values cols rows ls, (55 <= cols)%Z -> glimpse first second values cols rows false = Ok ls ->
  (forall title entries v r, In (title, entries) values -> In (v, r) entries -> (Z.of_nat (length (dec_Z r)) < cols)%Z) ->
  forall l, In l ls -> l = [] \/ l = first \/ l = second \/ In l (map fst values) \/ (Z.of_nat (length l) <= cols)%Z.
Proof.
  intros first second values cols rows ls C G V l I1. unfold glimpse in G. destruct (Z.ltb_spec cols 55); [lia|]. injection G as <-. destruct I1 as [<-|[<-|I1]]; auto.
  unfold table_long in I1. apply in_flat_map in I1 as ([t e] & I1 & I2). destruct I2 as [<-|[<-|I2]]; [auto|right; right; right; left; apply (in_map fst) in I1; exact I1|].
  apply in_map_iff in I2 as ([s c] & <- & I2). do 4 right. assert (I3 : In (s, c) e).
  { revert I2. unfold rows_upto. match goal with |- In _ (firstn ?n _) -> _ => generalize n end. clear. induction e as [|x e IH]; intros [|n]; cbn; try tauto. intros [->|I1]; [auto|right; apply (IH _ I1)]. }
  specialize (V t e s c I1 I3). unfold upto. rewrite !app_length, firstn_length. change (length $" ") with 1. destruct (Z.ltb_spec (cols - Z.of_nat (length (dec_Z c)) - 1) 0); lia.
Qed.
(** Lines are longer than the terminal with a long title, or with ranks over 99. *)
Theorem C49_title_refuted : exists values ls l, glimpse [] [] values 55 24 true = Ok ls /\ In l ls /\ length l = 57.
Proof.
  exists [(repeat 65%N 28, [($"x", 1%Z)]); ($"B", [])]. destruct (glimpse [] [] [(repeat 65%N 28, [($"x", 1%Z)]); ($"B", [])] 55 24 true) as [ls|] eqn:E; [|vm_compute in E; discriminate].
  exists ls, (nth 5 ls []). split; [reflexivity|]. injection E as <-. split; [vm_compute; tauto|vm_compute; reflexivity].
Qed.
Theorem C49_rank_refuted : exists ls l, glimpse [] [] [($"A", map (fun i => ($"x", Z.of_nat i)) (seq 1 120))] 80 140 true = Ok ls /\ In l ls /\ length l = 81.
Proof.
  eexists _, _. split; [reflexivity|]. split; [|instantiate (1 := nth 110 _ [])]; [apply nth_In|]; vm_compute; [|reflexivity]. repeat constructor.
Qed.
(** In a narrow terminal with six rows there is no glimpse. *)
Theorem C49_six_rows_refuted : forall first second title entries, (Z.of_nat (length title) <= 50)%Z -> glimpse first second [(title, entries)] 60 6 true = Raise IndexError.
Proof. intros. reflexivity. Qed.
Example C49_ex : exists ls, glimpse $"RecordCollection glimpse" $"2 Records from x" [($"Top Authors", [($"Smith", 1%Z); ($"Doe", 1%Z)]); ($"Top Journals", [($"SCIENCE", 1%Z)])] 60 10 true = Ok ls
  /\ nth 4 ls [] = $"|--------Top Authors---------+--------Top Journals---------|" /\ nth 5 ls [] = $"|1                      Smith|1                     SCIENCE|" /\ nth 6 ls [] = $"|1                        Doe|-1                         NA|".
Proof. eexists. split; [reflexivity|]. vm_compute. auto. Qed.
Print Assumptions C49_compact_partial.
Print Assumptions C49_default.
Print Assumptions C49_long.
Print Assumptions C49_title_refuted.
Print Assumptions C49_rank_refuted.
Print Assumptions C49_six_rows_refuted.

(** ** C60 *)
(** The text of a progress bar is exactly as wide as asked for, at least six characters. *)
Theorem C60_width : forall s m, (6 <= m)%Z -> wide m (prep_string s m).
Proof. exact prep_wide. Qed.
(** A text that fits is kept, with spaces after it. *)
Theorem C60_fits : forall (s : str) m, (Z.of_nat (length s) < m)%Z -> exists n, prep_string s m = s ++ repeat sp (S n).
Proof.
  intros s m L. unfold prep_string. destruct (Z.leb_spec (Z.of_nat (length s)) (m - 1)); [|lia]. unfold pad_right. rewrite <- app_assoc. eexists. f_equal. change $" " with [sp]. change (repeat sp (S ?n)) with (sp :: repeat sp n). rewrite repeat_cons. reflexivity.
Qed.
(** Of one that does not fit the beginning and the end are kept, around three dots. *)
Theorem C60_cut : forall (s : str) m, (6 <= m)%Z -> (m <= Z.of_nat (length s))%Z -> exists a b, prep_string s m = a ++ $"..." ++ b ++ $" " /\ begins a s /\ ends b s.
Proof.
  intros s m L6 L. unfold prep_string. destruct (Z.leb_spec (Z.of_nat (length s)) (m - 1)); [lia|]. eexists _, _. split; [reflexivity|]. split.
  - unfold upto. eexists. symmetry. apply firstn_skipn.
  - unfold from. eexists. symmetry. apply firstn_skipn.
Qed.
(** With less room the text is too wide. *)
Theorem C60_narrow_refuted : length (prep_string $"reading the files" 5) = 22.
Proof. vm_compute. reflexivity. Qed.
Example C60_ex : prep_string $"reading the files" 12 = $"rea...files " /\ prep_string $"read" 8 = $"read    ".
Proof. vm_compute. auto. Qed.
Print Assumptions C60_width.
Print Assumptions C60_fits.
Print Assumptions C60_cut.
Print Assumptions C60_narrow_refuted.
