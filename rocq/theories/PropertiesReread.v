(** C104: collections of Scopus records that were written to a file and read from it again. *)
From Coq Require Import List ZArith Lia Bool Arith.
From Coq Require Import String.
From Verif Require Import Base PyStr CitationModel RecordModel RecordView GrantModel ValuesModel WosNetModel WosTagsModel Nx SeriesModel MixedModel MixedNetModel ScopusModel ScopusSpec ScopusSpec2 PropertiesScopus
  RereadSpec RereadProofs.
From Verif Require CiteNetModel NetModel.
Import ListNotations.
Local Open Scope list_scope.

(** a collection that can be written and read: no bad records, no two with the same id, no line ends in the values, no other fields than
    the columns of Scopus *)
Definition storable (rs : list srec) : Prop := rs <> [] /\ Forall swritable rs /\ Forall one_line rs /\ NoDup (map sid rs) /\ Forall only_columns rs.
(** writeFile makes a file that is known as one of Scopus, and reading it gives [rs'] *)
Definition reread (rs rs' : list srec) : Prop := exists txt, write_sfile rs = Ok txt /\ is_scopus_file txt = true /\ scopus_file txt = rs'.
Lemma reread_same rs rs' : storable rs -> reread rs rs' -> Forall2 (fun r' r => same_srec r' r /\ only_columns r) rs' rs.
Proof.
  intros (NE & W & L & ND & O) (txt & E & _ & R). destruct (C25_file_partial rs NE W L ND) as (t & rs0 & E0 & _ & R0 & F). rewrite E in E0. injection E0 as <-. rewrite R in R0. subst rs0. clear - F O.
  induction F as [|r' r rs' rs S F IH]; [constructor|]. inversion O; subst. constructor; auto.
Qed.
Lemma F2_impl {A B} (P Q : A -> B -> Prop) l m : (forall a b, In a l -> In b m -> P a b -> Q a b) -> Forall2 P l m -> Forall2 Q l m.
Proof. intros I F. induction F as [|a b l m H F IH]; constructor; [apply I; [left|left|]; auto|]. apply IH. intros x y J K. apply I; right; assumption. Qed.
Lemma F2_map {A B A' B'} (f : A -> A') (g : B -> B') (P : A' -> B' -> Prop) l m : Forall2 (fun a b => P (f a) (g b)) l m -> Forall2 P (map f l) (map g m).
Proof. intros F. induction F; constructor; auto. Qed.

Theorem C104_reads : forall rs, storable rs -> exists rs', reread rs rs'.
Proof. intros rs (NE & W & L & ND & _). destruct (C25_file_partial rs NE W L ND) as (t & rs0 & E & I & R & _). exists rs0, t. auto. Qed.

Section Reread.
Variables upper lower title : str -> str.
Variable all_digits : str -> bool.
Variables word num : char -> bool.
Variable int_of : str -> Z.

Section Values.
Variable own : list str -> res fvalue.
Variable spoilt : fvalue -> bool.
Variable mend : fvalue -> option fvalue -> option fvalue -> option fvalue -> res fvalue.
Notation item r := (any_item upper lower title all_digits word num int_of own spoilt mend (AnyScopus r)).
Notation ranked := (any_ranked upper lower title all_digits word num int_of own spoilt mend).
Notation series := (any_times upper lower title all_digits word num int_of own spoilt mend).
Notation table := (any_cooccurrence upper lower title all_digits word num int_of own spoilt mend).
Notation levels := (any_levels upper lower title all_digits word num int_of own spoilt mend).
Notation two_mode := (any_two_mode upper lower title all_digits word num int_of own spoilt mend).
(** The records come back in order, with their ids, and what is looked up is what it was if the record has the column asked for or there
    is no such column. *)
Theorem C104_values_partial : forall rs rs', storable rs -> reread rs rs' ->
  Forall2 (fun r' r => sid r' = sid r /\ forall key, key <> $"selfCitation" -> has_all r key -> item r' key = item r key) rs' rs.
Proof.
  intros rs rs' S R. eapply F2_impl; [|exact (reread_same rs rs' S R)]. cbv beta. intros r' r _ _ (E & O). split; [apply E|]. intros key N H. apply item_kept; assumption.
Qed.
(** What was missing is there afterwards, as the value of an empty cell; for numbers there is a ValueError. *)
Theorem C104_empty_refuted : forall rs rs', storable rs -> reread rs rs' ->
  Forall2 (fun r' r => forall key col, asks_for key col -> ~ has_column r col -> item r key = Raise KeyError /\ of_empty upper word num int_of col (item r' key)) rs' rs.
Proof.
  intros rs rs' S R. eapply F2_impl; [|exact (reread_same rs rs' S R)]. cbv beta. intros r' r _ _ (E & O) key col A N. eapply item_emptied; eassumption.
Qed.
Lemma kept_keys keys rs rs' : storable rs -> reread rs rs' -> (forall key, In key keys -> key <> $"selfCitation" /\ forall r, In r rs -> has_all r key) ->
  Forall2 (fun r' r => forall k, In k keys -> item r' k = item r k) rs' rs.
Proof.
  intros S R H. eapply F2_impl; [|exact (reread_same rs rs' S R)]. cbv beta. intros r' r _ I (E & O) k J. destruct (H k J) as (N & A). apply item_kept; auto.
Qed.
(** Series, tables and networks of what all records have are the same. *)
Theorem C104_counts_partial : forall key keys rs rs', storable rs -> reread rs rs' -> (forall k, In k (key :: keys) -> k <> $"selfCitation" /\ forall r, In r rs -> has_all r k) ->
  (forall counts ranks greatest pandas limit, ranked key counts ranks greatest pandas limit (map AnyScopus rs') = ranked key counts ranks greatest pandas limit (map AnyScopus rs)) /\
  table key keys (map AnyScopus rs') = table key keys (map AnyScopus rs) /\
  (forall nodes weights, levels (key :: keys) nodes weights (map AnyScopus rs') = levels (key :: keys) nodes weights (map AnyScopus rs)) /\
  (forall key2 directed types nodes weights, In key2 keys -> two_mode key key2 directed types nodes weights (map AnyScopus rs') = two_mode key key2 directed types nodes weights (map AnyScopus rs)) /\
  (In $"year" (key :: keys) -> forall years greatest pandas limit, series key years greatest pandas limit (map AnyScopus rs') = series key years greatest pandas limit (map AnyScopus rs)).
Proof.
  intros key keys rs rs' S R H. pose proof (kept_keys (key :: keys) rs rs' S R H) as F.
  assert (L : Forall2 (alike_in (any_lookup upper lower title all_digits word num int_of own spoilt mend) (key :: keys)) (map AnyScopus rs') (map AnyScopus rs)).
  { apply F2_map. eapply F2_impl; [|exact F]. intros r' r _ _ E k J. unfold any_lookup. rewrite (E k J). reflexivity. }
  assert (L1 : Forall2 (alike_in (any_lookup upper lower title all_digits word num int_of own spoilt mend) [key]) (map AnyScopus rs') (map AnyScopus rs)).
  { eapply F2_impl; [|exact L]. intros r' r _ _ E k [<-|[]]. apply E. left. reflexivity. }
  assert (V : forall ks, (forall k, In k ks -> In k (key :: keys)) -> any_every upper lower title all_digits word num int_of own spoilt mend ks (map AnyScopus rs') = any_every upper lower title all_digits word num int_of own spoilt mend ks (map AnyScopus rs)).
  { intros ks I. clear - F I. induction F as [|r' r rs' rs E F IH]; cbn [map any_every]; [reflexivity|]. rewrite IH.
    assert (Q : any_shown upper lower title all_digits word num int_of own spoilt mend ks (AnyScopus r') = any_shown upper lower title all_digits word num int_of own spoilt mend ks (AnyScopus r)).
    { clear IH. induction ks as [|k ks IH]; cbn [any_shown]; [reflexivity|]. unfold any_get. rewrite (E k) by (apply I; left; reflexivity). rewrite IH by (intros x J; apply I; right; exact J). reflexivity. }
    rewrite Q. reflexivity. }
  split; [|split; [|split; [|split]]].
  - intros counts ranks greatest pandas limit. unfold any_ranked, ranked_series. rewrite (count_same _ _ _ _ _ L1). reflexivity.
  - unfold any_cooccurrence, cooccurrence_counts. apply table_same, L.
  - intros nodes weights. unfold any_levels. rewrite V by auto. reflexivity.
  - intros key2 directed types nodes weights I. unfold any_two_mode. rewrite V; [reflexivity|]. intros k [<-|[<-|[]]]; [left; reflexivity|right; exact I].
  - intros Y years greatest pandas limit. unfold any_times, time_series. rewrite (years_same _ _ key limit (map AnyScopus rs') (map AnyScopus rs)); [reflexivity|].
    apply F2_map. eapply F2_impl; [|exact F]. intros r' r _ _ E. split; [intros k [<-|[]]; unfold any_lookup; rewrite (E key) by (left; reflexivity); reflexivity|]. unfold any_year. rewrite (E _ Y). reflexivity.
Qed.
(** Without a year in one of the records, no series over time can be made any more. *)
Theorem C104_series_refuted : forall key col years greatest pandas limit rs rs', storable rs -> reread rs rs' -> asks_for key col -> (exists r, In r rs /\ ~ has_column r $"Year") ->
  series key years greatest pandas limit (map AnyScopus rs') = Raise ValueError.
Proof.
  intros key col years greatest pandas limit rs rs' S R A (x & I & N). pose proof (reread_same rs rs' S R) as F. unfold any_times, time_series.
  assert (Q : forall d, count_years (any_lookup upper lower title all_digits word num int_of own spoilt mend) (any_year upper lower title all_digits word num int_of own spoilt mend) key limit (map AnyScopus rs') d = Raise ValueError); [|rewrite Q; reflexivity].
  clear S R. assert (YC : asks_for $"year" $"Year") by (left; apply dget_In; vm_compute; reflexivity). induction F as [|r' r rs' rs (E & O) F IH]; [destruct I|]. intros d. cbn [map count_years]. unfold any_year.
  pose proof E as (_ & _ & _ & FI). pose proof (filled_only _ _ FI) as O'. rewrite (item_asks upper lower title all_digits word num int_of own spoilt mend r' $"year" $"Year" O' YC), (filled_column _ _ _ FI (asks_column _ _ YC)).
  change (cell_value_of upper word num int_of $"Year" (column $"Year" (sdata r))) with (to_int (column $"Year" (sdata r))). unfold to_int.
  assert (D : x = r -> PyInt.py_int (column $"Year" (sdata r)) = None).
  { intros ->. unfold has_column in N. unfold column. destruct (dget $"Year" (sdata r)); [exfalso; apply N; discriminate|reflexivity]. }
  destruct (PyInt.py_int (column $"Year" (sdata r))) as [z|]; [|reflexivity]. cbn [bind]. destruct I as [I|I]; [discriminate (D (eq_sym I))|].
  unfold any_lookup. rewrite (item_asks upper lower title all_digits word num int_of own spoilt mend r' key col O' A), (filled_column _ _ _ FI (asks_column _ _ A)).
  destruct (cell_value_of upper word num int_of col (column col (sdata r))) as [v|e] eqn:C; cbn [bind]; [apply IH, I|]. destruct (cell_ends upper word num int_of col _ e C) as [-> | ->]; [apply IH, I|reflexivity].
Qed.
End Values.

Notation self r := (any_self upper lower title all_digits word num int_of (AnyScopus r)).
Notation cites r := (any_cites upper lower title all_digits word num int_of (AnyScopus r)).
Variable journal : option str -> option str.
Notation citation := (any_citation upper lower title all_digits word num int_of journal).
Notation co_citation := (any_co_citation upper lower title all_digits word num int_of journal).
Notation rapi := (any_rapi upper lower title all_digits word num int_of).
(** The networks of citations are the same if all records have authors, title, year, journal, references and the columns that the nodes
    tell of. *)
Theorem C104_networks_partial : forall o rs rs', storable rs -> reread rs rs' ->
  (forall r col, In r rs -> In col [$"Authors"; $"Title"; $"Year"; $"Source title"; $"References"] -> has_column r col) ->
  (forall key, In key (CiteNetModel.o_values o) -> key <> $"selfCitation" /\ forall r, In r rs -> has_all r key) ->
  (forall directed toCite, citation o directed toCite (map AnyScopus rs') = citation o directed toCite (map AnyScopus rs)) /\ co_citation o (map AnyScopus rs') = co_citation o (map AnyScopus rs).
Proof.
  intros o rs rs' S R H V. pose proof (reread_same rs rs' S R) as F.
  assert (Q : match see_any upper lower title all_digits word num int_of (map AnyScopus rs'), see_any upper lower title all_digits word num int_of (map AnyScopus rs) with
              | Ok ss', Ok ss => Forall2 (reads_same rapi o) ss' ss
              | Raise e', Raise e => e' = e
              | _, _ => False end).
  { clear S R. induction F as [|r' r rs' rs (E & O) F IH]; cbn [map see_any]; [constructor|].
    rewrite (self_kept upper lower title all_digits word num int_of r r' E O) by (intros col J; apply H; [left; reflexivity|cbn in J; cbn; tauto]).
    rewrite (cites_kept upper lower title all_digits word num int_of r r' E O) by (apply H; [left; reflexivity|cbn; tauto]).
    destruct (self r) as [c|e]; [|reflexivity]. cbn [bind]. destruct (cites r) as [l|e]; [|reflexivity]. cbn [bind].
    assert (P : match see_any upper lower title all_digits word num int_of (map AnyScopus rs'), see_any upper lower title all_digits word num int_of (map AnyScopus rs) with
              | Ok ss', Ok ss => Forall2 (reads_same rapi o) ss' ss
              | Raise e', Raise e => e' = e
              | _, _ => False end).
    { apply IH; [intros x col J; apply H; right; exact J|]. intros key J. destruct (V key J) as (A & B). split; [exact A|]. intros x K. apply B. right. exact K. }
    destruct (see_any _ _ _ _ _ _ _ (map AnyScopus rs')) as [ss'|e'], (see_any _ _ _ _ _ _ _ (map AnyScopus rs)) as [ss|e]; try contradiction P; cbn [bind]; [|exact P].
    constructor; [|exact P]. split; [reflexivity|]. split; [reflexivity|]. split; [cbn [CiteNetModel.rid any_rapi fst any_id]; rewrite (proj1 E); reflexivity|].
    intros t J. destruct (V t J) as (A & B). cbn [CiteNetModel.rget any_rapi fst]. rewrite (look_kept upper lower title all_digits word num int_of r r' t E O A) by (apply B; left; reflexivity). reflexivity. }
  unfold any_citation, any_co_citation. destruct (see_any _ _ _ _ _ _ _ (map AnyScopus rs')) as [ss'|e'], (see_any _ _ _ _ _ _ _ (map AnyScopus rs)) as [ss|e]; try contradiction Q; cbn [bind].
  - split; [intros directed toCite; apply citation_same, Q|apply co_citation_same, Q].
  - subst e'. split; reflexivity.
Qed.
(** Without a year in one of the records there are none. *)
Theorem C104_year_refuted : forall o rs rs', storable rs -> reread rs rs' -> (exists r, In r rs /\ ~ has_column r $"Year") ->
  (forall directed toCite, citation o directed toCite (map AnyScopus rs') = Raise ValueError) /\ co_citation o (map AnyScopus rs') = Raise ValueError.
Proof.
  intros o rs rs' S R (r & I & N). pose proof (reread_same rs rs' S R) as F.
  assert (Q : see_any upper lower title all_digits word num int_of (map AnyScopus rs') = Raise ValueError).
  { apply see_no_year.
    - clear - F. induction F as [|a b l m (E & _) F IH]; intros x J; [destruct J|]. destruct J as [<-|J]; [|apply IH, J]. destruct E as (_ & _ & _ & FI). exact (filled_only _ _ FI).
    - clear - F I N. induction F as [|a b l m (E & _) F IH]; [destruct I|]. destruct I as [->|I]; [|destruct (IH I) as (x & J & D); exists x; split; [right; exact J|exact D]].
      exists a. split; [left; reflexivity|]. destruct E as (_ & _ & _ & FI). rewrite (filled_column _ _ $"Year" FI) by (apply mem_In; vm_compute; reflexivity). unfold column. unfold has_column in N.
      destruct (dget $"Year" (sdata r)); [exfalso; apply N; discriminate|reflexivity]. }
  unfold any_citation, any_co_citation. rewrite Q. split; reflexivity.
Qed.
(** A record without references cites, when it is read again, the work with the empty name. *)
Theorem C104_references_refuted : forall rs rs', storable rs -> reread rs rs' ->
  Forall2 (fun r' r => ~ has_column r $"References" -> cites r = Ok [] /\ cites r' = Ok [scopus_of upper word num int_of []]) rs' rs.
Proof.
  intros rs rs' S R. eapply F2_impl; [|exact (reread_same rs rs' S R)]. cbv beta. intros r' r _ _ (E & O) N. pose proof E as (_ & _ & _ & FI).
  assert (A : asks_for $"citations" $"References") by (left; apply dget_In; vm_compute; reflexivity).
  assert (D : dget $"References" (sdata r) = None) by (unfold has_column in N; destruct (dget $"References" (sdata r)); [exfalso; apply N; discriminate|reflexivity]).
  unfold any_cites, MixedNetModel.look, any_get. rewrite (item_asks upper lower title all_digits word num int_of text_of not_spoilt no_mend r _ _ O A), (item_asks upper lower title all_digits word num int_of text_of not_spoilt no_mend r' _ _ (filled_only _ _ FI) A).
  rewrite (filled_column _ _ $"References" FI (asks_column _ _ A)). unfold column. rewrite D. split; reflexivity.
Qed.
End Reread.

(** ** Examples *)
Definition auths : str := $"Doe J., Roe R.".
Definition refs : str := $"Poe E., The raven (1845) Mirror, 3, pp. 1-2; Doe J., A note (1990) Notes, 1".
Definition ex_full : srec := mkSrec (Some $"EID:2-s1") [($"Authors", auths); ($"Title", $"A work"); ($"Year", $"2001"); ($"Source title", $"Nature"); ($"References", refs); ($"EID", $"2-s1")] false None.
Definition ex_bare : srec := mkSrec (Some $"EID:2-s2") [($"Title", $"Untold"); ($"EID", $"2-s2")] false None.
Lemma auths_ok : value_ok auths.
Proof.
  apply C25_doubled; [unfold auths; cbn; repeat first [apply doubled_nil|apply doubled_char; [discriminate|]]|]. intros _. exists 68%N. split; [reflexivity|]. intros [E|[E|[E|[]]]]; discriminate.
Qed.
Lemma refs_ok : value_ok refs.
Proof.
  apply C25_doubled; [unfold refs; cbn; repeat first [apply doubled_nil|apply doubled_char; [discriminate|]]|]. intros _. exists 80%N. split; [reflexivity|]. intros [E|[E|[E|[]]]]; discriminate.
Qed.
Ltac plain := first [exact auths_ok|exact refs_ok|apply even_no_comma; [apply mem_not_In; reflexivity|reflexivity]].
Lemma ex_storable : storable [ex_full; ex_bare] /\ storable [ex_full].
Proof.
  assert (C : forall k v, dget k (sdata ex_full) = Some v \/ dget k (sdata ex_bare) = Some v \/ v = [] -> In v [auths; $"A work"; $"2001"; $"Nature"; refs; $"2-s1"; $"Untold"; $"2-s2"; []]).
  { intros k v [E|[E| ->]]; [| |apply mem_In; reflexivity]; apply dget_In in E; cbn [ex_full ex_bare sdata In] in E; repeat (destruct E as [E|E]; [injection E as <- <-; apply mem_In; reflexivity|]); destruct E. }
  assert (W : forall v, In v [auths; $"A work"; $"2001"; $"Nature"; refs; $"2-s1"; $"Untold"; $"2-s2"; []] -> value_ok v /\ ~ In nl v /\ ~ In cr v).
  { intros v I. repeat (destruct I as [<-|I]; [split; [plain|split; apply mem_not_In; reflexivity]|]). destruct I. }
  assert (L : forall k r, r = ex_full \/ r = ex_bare -> In (column k (sdata r)) [auths; $"A work"; $"2001"; $"Nature"; refs; $"2-s1"; $"Untold"; $"2-s2"; []]).
  { intros k r [-> | ->]; apply (C k); unfold column; [destruct (dget k (sdata ex_full))|destruct (dget k (sdata ex_bare))]; auto. }
  assert (K : forall r, r = ex_full \/ r = ex_bare -> swritable r /\ one_line r /\ only_columns r).
  { intros r R. split; [|split].
    - split; [destruct R as [-> | ->]; reflexivity|]. split; [destruct R as [-> | ->]; reflexivity|]. split; [destruct R as [-> | ->]; eexists; split; reflexivity|]. intros k _. apply W, L, R.
    - intros k _. apply W, L, R.
    - intros k H. unfold has_column in H. destruct (dget k (sdata r)) eqn:D; [|contradiction]. apply dget_In in D. destruct R as [-> | ->]; cbn [ex_full ex_bare sdata In] in D; repeat (destruct D as [D|D]; [injection D as <- <-; apply mem_In; reflexivity|]); destruct D. }
  destruct (K ex_full (or_introl eq_refl)) as (K1 & K2 & K3), (K ex_bare (or_intror eq_refl)) as (K4 & K5 & K6).
  split; (split; [discriminate|]; split; [repeat (constructor; try assumption)|]; split; [repeat (constructor; try assumption)|]; split; [apply nodupb_NoDup; reflexivity|repeat (constructor; try assumption)]).
Qed.
(** the record that has all columns meets the hypotheses of the theorems that say that nothing changes, the other one those of the others *)
Example C104_ex : storable [ex_full; ex_bare] /\ storable [ex_full] /\
  (forall r col, In r [ex_full] -> In col [$"Authors"; $"Title"; $"Year"; $"Source title"; $"References"] -> has_column r col) /\
  (forall key, In key [$"id"; $"authorsFull"; $"year"; $"title"; $"journal"] -> key <> $"selfCitation" /\ forall r, In r [ex_full] -> has_all r key) /\
  (exists r, In r [ex_full; ex_bare] /\ ~ has_column r $"Year") /\ asks_for $"keywords" $"Index Keywords" /\ ~ has_column ex_bare $"References".
Proof.
  split; [apply ex_storable|]. split; [apply ex_storable|]. split; [|split; [|split; [|split]]].
  - intros r col [<-|[]] J. cbn in J. repeat (destruct J as [<-|J]; [discriminate|]). destruct J.
  - intros key J. split; [intros ->; cbn in J; repeat (destruct J as [J|J]; [discriminate J|]); destruct J|]. intros r [<-|[]] col A.
    assert (Q : forall key c, In (key, c) column_named -> has_column ex_full c -> asks_for key col -> has_column ex_full col) by (intros k c I X B; rewrite (one_column k c I col B); exact X).
    cbn in J. destruct J as [<-|[<-|[<-|[<-|[<-|[]]]]]]; (refine (Q _ _ _ _ A); [apply dget_In; vm_compute; reflexivity|intros Z; discriminate Z]).
  - exists ex_bare. split; [right; left; reflexivity|]. intros H. apply H. reflexivity.
  - left. apply dget_In. vm_compute. reflexivity.
  - intros H. apply H. reflexivity.
Qed.

Print Assumptions C104_reads.
Print Assumptions C104_values_partial.
Print Assumptions C104_empty_refuted.
Print Assumptions C104_counts_partial.
Print Assumptions C104_series_refuted.
Print Assumptions C104_networks_partial.
Print Assumptions C104_year_refuted.
Print Assumptions C104_references_refuted.
