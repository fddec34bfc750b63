(** C49: what the tables of a glimpse show, and the glimpse of a collection. *)
From Coq Require Import List ZArith Lia Bool Arith.
From Coq Require Import String.
From Verif Require Import Base DecFacts PyStr RecordView SeriesModel SeriesSpec PropertiesSeries TextModel TextSpec TextProofs PropertiesText GlimpseModel GlimpseSpec GlimpseProofs.
Import ListNotations.
Local Open Scope list_scope.

(** A compact glimpse shows the two lines of the header, the description, the titles centred in columns of even width, and in every line below the entries of the
    columns with their ranks, cut where they do not fit. *)
Theorem C49_cells_partial : forall first second values cols rows,
  (55 <= cols)%Z -> (7 <= rows)%Z -> values <> [] -> (5 <= cols / Z.of_nat (length values))%Z ->
  (forall title entries, In (title, entries) values -> (Z.of_nat (length title) <= cols / Z.of_nat (length values) - 2)%Z /\
     forall i v r, (Z.of_nat i < table_height cols rows)%Z -> nth_error entries i = Some (v, r) -> (-1 <= r <= 99)%Z) ->
  exists head table, glimpse first second values cols rows true = Ok (head ++ table) /\ header_shows first second cols head /\
    table_shows values cols (Z.to_nat (table_height cols rows)) table.
Proof.
  intros first second values cols rows C R NE W5 V. unfold glimpse. destruct (Z.ltb_spec cols 55); [lia|]. destruct (Z.ltb_spec rows 6); [lia|]. change (Z.of_nat (length description)) with 76%Z.
  fold (table_height cols rows). assert (HP : (0 <= table_height cols rows)%Z) by (unfold table_height; destruct (cols <? 76)%Z; lia).
  destruct (table_shown values (table_height cols rows) cols NE HP W5) as (ls & E & T).
  { intros t e I1. destruct (V t e I1) as [A B]. split; [exact A|]. intros v r I2. apply dec_short. apply In_firstn_at in I2 as (i & L & I2). specialize (B i v r ltac:(lia) I2). lia. }
  eexists _, ls. rewrite E. cbn [bind]. split; [reflexivity|]. split; [apply header_shown|exact T].
Qed.
(** A plain glimpse has the two lines of the header, and for every column an empty line, the title and half as many entries as there are lines, in their order. *)
Theorem C49_plain : forall first second values cols rows,
  (55 <= cols)%Z -> (6 <= rows)%Z -> (0 <= table_height cols rows)%Z ->
  (forall title entries v r, In (title, entries) values -> In (v, r) entries -> (Z.of_nat (length (dec_Z r)) < cols)%Z) ->
  exists table, glimpse first second values cols rows false = Ok (first :: second :: table) /\ plain_table cols (firstn (Z.to_nat (table_height cols rows / 2))) values table.
Proof.
  intros first second values cols rows C R HP V. unfold glimpse. destruct (Z.ltb_spec cols 55); [lia|]. destruct (Z.ltb_spec rows 6); [lia|]. change (Z.of_nat (length description)) with 76%Z. fold (table_height cols rows).
  eexists. split; [reflexivity|]. pose proof (plain_shown cols (table_height cols rows) values V) as P. pose proof (Z.div_pos (table_height cols rows) 2 HP ltac:(lia)).
  assert (X : forall l : list (str * Z), rows_upto (table_height cols rows / 2) l = firstn (Z.to_nat (table_height cols rows / 2)) l).
  { intros l. unfold rows_upto. destruct (Z.ltb_spec (table_height cols rows / 2) 0); [lia|reflexivity]. }
  revert P. generalize (table_long values (table_height cols rows) cols). clear V. revert X. generalize (rows_upto (A := str * Z) (table_height cols rows / 2)). intros f X ls P. induction P; constructor; [|assumption]. rewrite <- X. assumption.
Qed.
(** In a narrow terminal with six rows a plain glimpse shows every entry of each column except the last. *)
Theorem C49_six_plain_refuted : forall first second values cols,
  (55 <= cols <= 75)%Z ->
  (forall title entries v r, In (title, entries) values -> In (v, r) entries -> (Z.of_nat (length (dec_Z r)) < cols)%Z) ->
  exists table, glimpse first second values cols 6 false = Ok (first :: second :: table) /\ plain_table cols (fun l => removelast l) values table.
Proof.
  intros first second values cols C V. unfold glimpse. destruct (Z.ltb_spec cols 55); [lia|]. change (Z.of_nat (length description)) with 76%Z. change (6 <? 6)%Z with false. cbv iota. destruct (Z.ltb_spec cols 76); [|lia].
  eexists. split; [reflexivity|]. pose proof (plain_shown cols (6 - 7) values V) as P. change ((6 - 7) / 2)%Z with (-1)%Z in P.
  assert (X : forall l : list (str * Z), rows_upto (-1) l = removelast l).
  { intros l. unfold rows_upto. cbn [Z.ltb Z.compare]. rewrite removelast_firstn_len. f_equal. destruct l; cbn [length]; lia. }
  revert P. generalize (table_long values (6 - 7) cols). clear V. revert X. generalize (rows_upto (A := str * Z) (-1)). intros f X ls P. induction P; constructor; [|assumption]. rewrite <- X. assumption.
Qed.
Example C49_six_plain_ex : glimpse $"a" $"b" [($"T", [($"x", 1%Z); ($"y", 2%Z); ($"z", 3%Z)])] 60 6 false = Ok [$"a"; $"b"; []; $"T"; $"1 x"; $"2 y"].
Proof. vm_compute. reflexivity. Qed.

Lemma values_of_columns {R V : Type} `{EqDec V} (lookup : R -> str -> res (fval V)) show rs : forall cols,
  (forall name tag, In (name, tag) cols -> readable lookup tag rs) ->
  exists vs, glimpse_values lookup show rs cols = Ok vs /\
    Forall2 (fun c v => fst v = fst c /\ exists l, ranking lookup (snd c) rs l /\ snd v = map (fun x => (show (fst x), Z.of_nat (snd x))) l) cols vs.
Proof.
  induction cols as [|[name tag] cols IH]; intros RD; [exists []; split; [reflexivity|constructor]|].
  destruct IH as (vs & E & F); [intros n t I1; apply (RD n t); right; exact I1|].
  destruct (C11_ranks R V _ lookup tag true [] rs (RD name tag (or_introl eq_refl))) as (l & E1 & ND & IN & SO).
  cbn [glimpse_values]. rewrite E1. cbn [bind]. rewrite E. cbn [bind]. eexists. split; [reflexivity|]. constructor; [|exact F].
  split; [reflexivity|]. exists l. split; [|reflexivity]. split; [exact ND|]. split; [|exact SO].
  intros v k. rewrite IN. unfold permitted. tauto.
Qed.
(** The compact glimpse of a collection: for every readable tag there is a column with the values of the records from the most frequent one, each with its dense
    rank, in a table as wide as the terminal and under a header that tells the number of records and the name.  The terminal has at most 105 rows, so that no rank
    has three digits; the titles fit their columns. *)
Theorem C49_collection_partial : forall (R V : Type) (E : EqDec V) (lookup : R -> str -> res (fval V)) (show : V -> str) cls now name (rs : list R) tags cols rows,
  (55 <= cols)%Z -> (7 <= rows)%Z -> (table_height cols rows <= 99)%Z -> (5 <= cols / Z.of_nat (length (asked tags)))%Z ->
  (forall title tag, In (title, tag) (asked tags) -> readable lookup tag rs /\ (Z.of_nat (length title) <= cols / Z.of_nat (length (asked tags)) - 2)%Z) ->
  exists ls head table columns,
    glimpse_of lookup show cls now name rs tags cols rows true = Ok ls /\ ls = head ++ table /\
    header_shows (cls ++ $" glimpse made at: " ++ now) (dec_nat (length rs) ++ $" Records from " ++ firstn 30 name) cols head /\
    Forall2 (fun c v => fst v = fst c /\ exists l, ranking lookup (snd c) rs l /\ snd v = map (fun x => (show (fst x), Z.of_nat (snd x))) l) (asked tags) columns /\
    table_shows columns cols (Z.to_nat (table_height cols rows)) table /\
    ((Z.of_nat (length cls) + Z.of_nat (length now) <= cols - 19)%Z -> (Z.of_nat (length rs) < 1000000000)%Z -> forall l, In l ls -> wide cols l) /\
    (Z.of_nat (length ls) < rows)%Z.
Proof.
  intros R V E lookup show cls now name rs tags cols rows C RW HH W5 T. unfold glimpse_of. rewrite columns_asked.
  destruct (values_of_columns lookup show rs (asked tags)) as (vs & -> & F); [intros n t I1; apply (T n t I1)|]. cbn [bind].
  assert (LV : length vs = length (asked tags)) by (symmetry; eapply Forall2_len; exact F).
  assert (NE : vs <> []) by (intros ->; destruct tags as [|t tags]; [discriminate LV|cbn in LV; discriminate LV]).
  assert (TT : forall title entries, In (title, entries) vs -> (Z.of_nat (length title) <= cols / Z.of_nat (length vs) - 2)%Z /\
     forall i v r, (Z.of_nat i < table_height cols rows)%Z -> nth_error entries i = Some (v, r) -> (-1 <= r <= 99)%Z).
  { intros title entries I1. rewrite LV. apply in_split in I1 as (a & b & EV). rewrite EV in F. apply Forall2_app_inv_r in F as (ca & cb & _ & F & EA). inversion F as [|[n t] y ca' cb' [E1 (l & RK & E2)] F' E3 E4]. subst. cbn [fst snd] in *. rewrite E1, E2.
    split; [apply (T n t)|]. { rewrite EA. apply in_elt. }
    intros i v r LI I2. rewrite nth_error_map in I2. destruct (nth_error l i) as [[w k]|] eqn:EN; [|discriminate]. cbn in I2. injection I2 as _ <-. pose proof (rank_place _ _ _ _ _ _ _ RK EN). lia. }
  assert (W6 : (5 <= cols / Z.of_nat (length vs))%Z) by (rewrite LV; exact W5).
  destruct (C49_cells_partial (first_line cls now) (second_line rs name) vs cols rows C RW NE W6 TT) as (head & table & EG & HS & TS).
  exists (head ++ table), head, table, vs. split; [exact EG|]. split; [reflexivity|]. split; [exact HS|]. split; [exact F|]. split; [exact TS|].
  assert (LH : length head = if (cols <? 78)%Z then 4 else 3).
  { destruct HS as (a & b & ds & -> & _ & _ & D). destruct (cols <? 78)%Z; apply Forall2_len in D; cbn in *; lia. }
  split.
  - intros LC LR.
    assert (V2 : forall (w : Z) (vs : list (str * list (str * Z))) ls, glimpse (first_line cls now) (second_line rs name) vs cols rows true = Ok ls -> forall vs', vs' = map (fun x => (fst x, firstn (Z.to_nat (table_height cols rows)) (snd x))) vs -> glimpse (first_line cls now) (second_line rs name) vs' cols rows true = Ok ls).
    { intros _ vs0 ls <- vs' ->. unfold glimpse. destruct (Z.ltb_spec cols 55); [lia|]. destruct (Z.ltb_spec rows 6); [lia|]. change (Z.of_nat (length description)) with 76%Z. fold (table_height cols rows). rewrite table_cut. reflexivity. }
    specialize (V2 0%Z vs _ EG _ eq_refl). set (vs' := map _ vs) in V2.
    destruct (C49_compact_partial (first_line cls now) (second_line rs name) vs' cols rows C RW) as (ls & EL & WD & _).
    + unfold vs'. destruct vs; [congruence|discriminate].
    + unfold vs'. rewrite map_length, LV. exact W5.
    + intros title entries I1. unfold vs' in I1. apply in_map_iff in I1 as ([t e] & EQ & I1). injection EQ as <- <-. unfold vs'. rewrite map_length. destruct (TT t e I1) as [A B]. split; [exact A|].
      intros v r I2. apply In_firstn_at in I2 as (i & L & I2). apply (B i v r); [|exact I2]. lia.
    + unfold first_line. rewrite !app_length. change (length $" glimpse made at: ") with 18. lia.
    + unfold second_line. rewrite !app_length. change (length $" Records from ") with 14. pose proof (firstn_le_length 30 name).
      assert (length (dec_nat (length rs)) <= 9); [|lia].
      unfold dec_nat. apply (@dec_N_length 8). change (10 ^ N.of_nat 9)%N with 1000000000%N. lia.
    + rewrite V2 in EL. injection EL as <-. exact WD.
  - rewrite app_length, LH. destruct TS as (ws & _ & _ & -> & _). unfold table_height in *. destruct (Z.ltb_spec cols 76), (Z.ltb_spec cols 78); lia.
Qed.

Definition ex_lookup (r : str * list str) (t : str) : res (fval str) := if eqb t $"journal" then Ok (One (fst r)) else if eqb t $"authorsFull" then Ok (Many (snd r)) else Raise KeyError.
Definition ex_rs : list (str * list str) := [($"SCIENCE", [$"Doe, J"; $"Roe, R"]); ($"JOURNAL OF EXAMPLES AND COUNTEREXAMPLES", [$"Roe, R"]); ($"SCIENCE", [])].
Example C49_collection_ex : match glimpse_of ex_lookup (fun s => s) $"RecordCollection" $"2026-01-02 03:04:05" $"x" ex_rs [] 80 9 true with
  | Ok ls => ls = [$"+RecordCollection glimpse made at: 2026-01-02 03:04:05++++++++++++++++++++++++++";
                   $"|3 Records from x++++++++++++++++++++++++++++++++++++++++++++++++++++++++++++++|";
                   $"|Columns are ranked by num. of occurrences and are independent of one another++|";
                   $"|-------Top Authors--------+------Top Journals-------+--------Top Cited--------|";
                   $"|1                   Roe, R|1                 SCIENCE|-1                     NA|";
                   $"|2                   Doe, J|2 JOURNAL OF EXAMPLES AN.|-1                     NA|";
                   $"|-1                      NA|-1                     NA|-1                     NA|"]
  | Raise _ => False end.
Proof. vm_compute. reflexivity. Qed.
Example C49_collection_met : (5 <= 80 / Z.of_nat (length (asked [])))%Z /\ forall title tag, In (title, tag) (asked []) -> readable ex_lookup tag ex_rs /\ (Z.of_nat (length title) <= 80 / Z.of_nat (length (asked [])) - 2)%Z.
Proof.
  split; [vm_compute; discriminate|]. intros title tag [E|[E|[E|[]]]]; injection E as <- <-; (split; [|vm_compute; discriminate]); intros r e _; vm_compute; congruence.
Qed.
(** A tag that some record cannot read otherwise than by missing it: the glimpse raises. *)
Theorem C49_unreadable : forall (R V : Type) (E : EqDec V) (lookup : R -> str -> res (fval V)) (show : V -> str) cls now name (rs : list R) tag cols rows compact r e,
  In r rs -> lookup r tag = Raise e -> e <> KeyError -> exists e', glimpse_of lookup show cls now name rs [tag] cols rows compact = Raise e'.
Proof.
  intros R V E lookup show cls now name rs tag cols rows compact r e I1 L NK. unfold glimpse_of. cbn [glimpse_columns fold_left dset glimpse_values].
  assert (X : exists e', count_values lookup tag [] rs [] = Raise e').
  { generalize (@nil (V * nat)) at 1. revert I1. induction rs as [|x rs IH]; intros I1 d; [destruct I1|]. cbn [count_values]. destruct (lookup x tag) as [f|e0] eqn:EL.
    - destruct I1 as [->|I1]; [congruence|]. apply IH. exact I1.
    - destruct I1 as [->|I1]; [|destruct e0; eauto]. rewrite L in EL. injection EL as <-. destruct e; try (eexists; reflexivity). congruence. }
  destruct X as (e' & X). exists e'. unfold ranked_series. cbn [andb]. rewrite X. reflexivity.
Qed.
Print Assumptions C49_cells_partial.
Print Assumptions C49_plain.
Print Assumptions C49_six_plain_refuted.
Print Assumptions C49_collection_partial.
Print Assumptions C49_unreadable.
