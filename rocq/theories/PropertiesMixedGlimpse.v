(** C49: the glimpse of a collection with records of several databases. *)
From Coq Require Import List ZArith Lia Bool Arith Permutation.
From Coq Require Import String.
From Verif Require Import Base PyStr CitationModel CitationSpec TagNames RecordModel RecordView GrantModel ValuesModel WosModel WosNetModel WosNetSpec WosNetProofs PropertiesWosNet WosTagsModel WosTagsSpec SeriesModel SeriesSpec MixedModel MixedSpec PropertiesMixed
  TextModel TextSpec GlimpseModel GlimpseSpec MixedGlimpseModel.
From Verif Require PropertiesGlimpse MedlineModel ScopusModel ProQuestModel.
Import ListNotations.
Local Open Scope list_scope.

(** ** What the claim speaks of *)
(** how a thing is shown in the table; references by the text that is kept for their ID *)
Definition shown_in_table (upper title : str -> str) (cite_text : str -> str) (t : thing) : str :=
  match t with Words s => s | Number z => dec_Z z | Reference l => cite_text (id_of upper title l) end.

Section Glimpse.
Variables upper lower title : str -> str.
Variable all_digits : str -> bool.
Variables word num : char -> bool.
Variable int_of : str -> Z.
Variable own : list str -> res fvalue.
Variable spoilt : fvalue -> bool.
Variable mend : fvalue -> option fvalue -> option fvalue -> option fvalue -> res fvalue.
Notation look := (any_glimpse upper lower title all_digits word num int_of own spoilt mend).
Notation counted := (counted_as upper title).
(** the column of a key: each thing told by the records once, as shown in the table, from the most frequent one, with its dense rank *)
Definition column_tells (cite_text : str -> str) (vals : anyrec -> list thing) (rs : list anyrec) (column : list (str * Z)) : Prop :=
  exists l : list (thing * nat), column = map (fun x => (shown_in_table upper title cite_text (fst x), Z.of_nat (snd x))) l /\ NoDup (map (fun x => counted (fst x)) l) /\
    (forall t, (exists r, In r rs /\ In t (vals r)) -> In (counted t) (map (fun x => counted (fst x)) l)) /\
    (forall t k, In (t, k) l -> (exists r, In r rs /\ In t (vals r)) /\ k = dense_rank (map (fun x => times upper title vals rs (counted (fst x))) l) (times upper title vals rs (counted t))) /\
    (forall x y, before l x y -> times upper title vals rs (counted (fst y)) <= times upper title vals rs (counted (fst x))).

Lemma times_in vals rs a : 0 < times upper title vals rs a <-> exists r t, In r rs /\ In t (vals r) /\ counted t = a.
Proof.
  unfold times. induction rs as [|r rs IH]; [cbn; split; [lia|intros (r & t & [] & _)]|]. unfold total in *. cbn [fold_right]. split.
  - intros P. destruct (Nat.eq_dec (count a (map counted (vals r))) 0) as [Z|Z].
    + destruct (proj1 IH) as (q & t & I & J); [lia|]. exists q, t. split; [right; exact I|exact J].
    + assert (J : In a (map counted (vals r))) by (apply count_In; lia). apply in_map_iff in J. destruct J as (t & Q & J). exists r, t. split; [left; reflexivity|auto].
  - intros (q & t & [->|I] & J & Q).
    + assert (X : 0 < count a (map counted (vals q))) by (apply count_In; rewrite <- Q; apply in_map, J). lia.
    + assert (X : 0 < fold_right (fun x n => count a (map counted (vals x)) + n) 0 rs) by (apply IH; eauto). lia.
Qed.
Lemma lift_list vals rs (l : list (atom * nat)) : (forall x, In x l -> 0 < times upper title vals rs (fst x)) ->
  exists m : list (thing * nat), map (fun x => (counted (fst x), snd x)) m = l /\ forall x, In x m -> exists r, In r rs /\ In (fst x) (vals r).
Proof.
  induction l as [|[a k] l IH]; intros H; [exists []; split; [reflexivity|intros x []]|]. destruct IH as (m & E & O); [intros; apply H; right; assumption|].
  destruct (proj1 (times_in vals rs a) (H _ (or_introl eq_refl))) as (r & t & I & J & Q). exists ((t, k) :: m). cbn [map fst snd]. rewrite E, Q. split; [reflexivity|]. intros x [<-|X]; [eauto|apply O, X].
Qed.
(** C49: the compact glimpse of a collection with records of several databases shows, under the header, a column for each key, with what the fields of the records tell in their own database. *)
Theorem C49_mixed_partial : forall cite_text cls now name rs tags (vals : str -> anyrec -> list thing) cols rows,
  (55 <= cols)%Z -> (7 <= rows)%Z -> (table_height cols rows <= 99)%Z -> (5 <= cols / Z.of_nat (length (asked tags)))%Z ->
  (forall title_ key, In (title_, key) (asked tags) -> told upper lower key rs (vals key) /\ (Z.of_nat (length title_) <= cols / Z.of_nat (length (asked tags)) - 2)%Z) ->
  exists ls head table columns,
    look cite_text cls now name rs tags cols rows true = Ok ls /\ ls = head ++ table /\
    header_shows (cls ++ $" glimpse made at: " ++ now) (dec_nat (length rs) ++ $" Records from " ++ firstn 30 name) cols head /\
    Forall2 (fun c v => fst v = fst c /\ column_tells cite_text (vals (snd c)) rs (snd v)) (asked tags) columns /\
    table_shows columns cols (Z.to_nat (table_height cols rows)) table /\ (Z.of_nat (length ls) < rows)%Z.
Proof.
  intros ct cls now name rs tags vals cols rows C R H W T. unfold any_glimpse.
  destruct (PropertiesGlimpse.C49_collection_partial _ _ _ (any_lookup upper lower title all_digits word num int_of own spoilt mend) (show_atom ct) cls now name rs tags cols rows C R H W) as (ls & head & table & columns & E & L & HD & F & TB & _ & SZ).
  { intros t k I. destruct (T t k I) as (TO & LE). split; [apply (told_lookup upper lower title all_digits word num int_of own spoilt mend k rs (vals k) TO)|exact LE]. }
  exists ls, head, table, columns. split; [exact E|]. split; [exact L|]. split; [exact HD|]. split; [|split; [exact TB|exact SZ]].
  assert (TT : forall c, In c (asked tags) -> told upper lower (snd c) rs (vals (snd c))) by (intros [t k] I; apply (T t k I)). clear - F TT.
  induction F as [|c v cs vs (N & l & (ND & IN & SO) & Q) F IH]; [constructor|]. constructor; [|apply IH; intros c' I; apply TT; right; exact I]. split; [exact N|].
  pose proof (TT c (or_introl eq_refl)) as TO. assert (M : forall a, occurrences (any_lookup upper lower title all_digits word num int_of own spoilt mend) (snd c) rs a = times upper title (vals (snd c)) rs a) by (intros a; apply told_times, TO).
  destruct (lift_list (vals (snd c)) rs l) as (m & EM & OM); [intros [a k] I; apply IN in I; rewrite M in I; apply I|].
  assert (F1 : map fst l = map (fun x => counted (fst x)) m) by (rewrite <- EM, map_map; reflexivity).
  exists m. split; [|split; [|split; [|split]]].
  - rewrite Q, <- EM, map_map. apply map_ext. intros [t k]. cbn [fst snd]. destruct t; reflexivity.
  - rewrite <- F1. exact ND.
  - intros t (r & I & J). rewrite <- F1. apply in_map_iff. exists (counted t, dense_rank (map (occurrences (any_lookup upper lower title all_digits word num int_of own spoilt mend) (snd c) rs) (map fst l)) (occurrences (any_lookup upper lower title all_digits word num int_of own spoilt mend) (snd c) rs (counted t))).
    split; [reflexivity|]. apply IN. split; [|reflexivity]. rewrite M. apply times_in. eauto.
  - intros t k I. split; [apply (OM _ I)|]. assert (J : In (counted t, k) l) by (rewrite <- EM; apply in_map_iff; exists (t, k); auto). apply IN in J. destruct J as (_ & ->). rewrite F1, map_map, M. f_equal. apply map_ext. intros x. apply M.
  - intros x y B. rewrite <- !M. apply (SO (counted (fst x), snd x) (counted (fst y), snd y)). rewrite <- EM. revert B. unfold before. clear. intros (a & b & c & ->). rewrite !map_app. cbn [map]. rewrite !map_app. cbn [map]. eauto.
Qed.
End Glimpse.
(** the records of C101_ex *)
Definition glimpse_vals (k : str) : anyrec -> list thing := if eqb k $"title" then mix_titles else mix_authors.
Example C49_mixed_ex : exists w m, wos_parse mix_wos = ([w], None) /\ MedlineModel.medline_file mix_alpha mix_medline = Ok ([m], false) /\
  let rs := [AnyWos w; AnyMedline m; AnyScopus mix_scopus; AnyProQuest mix_proquest] in
  (forall title_ key, In (title_, key) (asked [$"authorsShort"; $"title"]) -> told mix_up mix_id key rs (glimpse_vals key) /\ (Z.of_nat (length title_) <= 60 / Z.of_nat (length (asked [$"authorsShort"; $"title"])) - 2)%Z) /\
  exists ls, mixed any_glimpse mix_id $"RecordCollection" $"now" $"All" rs [$"authorsShort"; $"title"] 60 12 true = Ok ls /\
    nth 5 ls [] = $"|1                     Doe, J|1                   On things|".
Proof.
  destruct C101_ex as (w & m & E & M & A & T & _). exists w, m. split; [exact E|]. split; [exact M|]. cbv zeta. split.
  - intros t k I. vm_compute in I. destruct I as [I|[I|[]]]; injection I as <- <-; (split; [assumption|vm_compute; discriminate]).
  - clear A T. destruct (wos_parse mix_wos) as [l e] eqn:E'. vm_compute in E'. injection E' as <- <-. injection E as <-.
    destruct (MedlineModel.medline_file mix_alpha mix_medline) as [[l' e']|] eqn:M'; vm_compute in M'; [|discriminate M']. injection M' as <- <-. injection M as <-.
    eexists. split; [vm_compute; reflexivity|]. cbv [nth]. vm_compute. reflexivity.
Qed.
Print Assumptions C49_mixed_partial.
