(** C91: the csv files of rankedSeries, timeSeries, forBurst and forNLP, as csv.reader gives them back. *)
From Coq Require Import List ZArith Lia Bool Arith.
From Coq Require Import String.
From Verif Require Import Base PyStr RecordView RecordViewFacts CsvModel CsvProofs JournalModel SeriesModel SeriesSpec SeriesProofs PropertiesSeries NlpModel NlpProofs2 PropertiesNlp TableFileModel TableFileProofs.
From Verif Require JournalProofs.
Import ListNotations.
Local Open Scope list_scope.

(** a text short enough for csv.reader *)
Definition short (s : str) : Prop := (N.of_nat (length s) <= 131072)%N.
Lemma lit_clean (s : str) : existsb (fun c => eqb c cr || eqb c 0%N) s = false -> short s -> clean s.
Proof.
  intros E S. assert (A : forall c, In c s -> c <> cr /\ c <> 0%N).
  { intros c I. split; intros ->; assert (T : existsb (fun c => eqb c cr || eqb c 0%N) s = true) by (apply existsb_exists; eexists; split; [exact I | reflexivity]); congruence. }
  split; [intros I; apply A in I; tauto|]. split; [intros I; apply A in I; tauto | exact S].
Qed.
Lemma nat_clean n : short (dec_nat n) -> clean (dec_nat n).
Proof.
  intros S. assert (A : forall c, In c (dec_nat n) -> (48 <= c <= 57)%N) by (intros c I; apply (dec_N_chars (N.of_nat n)); exact I).
  split; [intros I; apply A in I; unfold cr in I; lia|]. split; [intros I; apply A in I; lia | exact S].
Qed.
Lemma in_join c sep l : In c (join sep l) -> In c sep \/ exists s, In s l /\ In c s.
Proof.
  induction l as [|s l IH]; [intros []|]. destruct l as [|s' l]; [intros I; right; exists s; split; [left; reflexivity | exact I]|].
  change (join sep (s :: s' :: l)) with (s ++ sep ++ join sep (s' :: l)). intros I. apply in_app_iff in I. destruct I as [I|I]; [right; exists s; split; [left; reflexivity | exact I]|].
  apply in_app_iff in I. destruct I as [I|I]; [left; exact I|]. destruct (IH I) as [J|(x & J1 & J2)]; [left; exact J|]. right. exists x. split; [right; exact J1 | exact J2].
Qed.
Lemma years_clean (ys : list Z) : short (join $"|" (map dec_Z ys)) -> clean (join $"|" (map dec_Z ys)).
Proof.
  intros S. assert (A : forall c, In c (join $"|" (map dec_Z ys)) -> c <> cr /\ c <> 0%N).
  { intros c I. apply in_join in I. destruct I as [[<-|[]]|(s & J1 & J2)]; [split; discriminate|]. apply in_map_iff in J1. destruct J1 as (z & <- & _).
    destruct (dec_Z_bare z) as [_ B]. apply B in J2. tauto. }
  split; [intros I; apply A in I; tauto|]. split; [intros I; apply A in I; tauto | exact S].
Qed.

(** ** rankedSeries *)
(** Whatever else is asked for, the file has the name of the tag and the word count in its first row, and then one row for each
    permitted value that occurs: its text and the number of its occurrences, sorted as C11 says. *)
Theorem C91_ranked : forall (R V : Type) (E : EqDec V) (lookup : R -> str -> res (fval V)) (show : V -> str) tag (give_counts give_ranks greatest : bool) (limit : list V) (rs : list R),
  readable lookup tag rs -> give_counts && give_ranks = false -> clean tag ->
  (forall v, permitted limit v -> 0 < occurrences lookup tag rs v -> clean (show v) /\ short (dec_nat (occurrences lookup tag rs v))) ->
  exists l text, ranked_file lookup show tag give_counts give_ranks greatest limit rs = Some text /\
    csv_rows text = Ok ([tag; $"count"] :: map (fun vn => [show (fst vn); dec_nat (snd vn)]) l) /\
    NoDup (map fst l) /\
    (forall v n, In (v, n) l <-> permitted limit v /\ n = occurrences lookup tag rs v /\ 0 < n) /\
    (forall x y, before l x y -> if greatest then snd y <= snd x else snd x <= snd y) /\
    (forall v w n, before l (v, n) (w, n) -> before (first_seen (stream lookup tag rs)) v w).
Proof.
  intros R V E lookup show tag gc gr greatest limit rs RD FL CT CV. unfold ranked_file. rewrite andb_comm, FL. rewrite count_values_ok by exact RD. rewrite counts_dict.
  destruct (by_count_good lookup tag limit rs greatest) as [A B C D]. eexists. eexists. split; [reflexivity|]. split; [|exact (conj A (conj B (conj C D)))].
  apply excel_roundtrip. constructor.
  - split; [cbn; lia|]. constructor; [exact CT|]. constructor; [|constructor]. apply lit_clean; [reflexivity | vm_compute; discriminate].
  - apply Forall_map, Forall_forall. intros [v n] I. split; [cbn; lia|]. cbn [fst snd]. apply B in I. destruct I as (P & -> & Q). destruct (CV v P Q) as [S1 S2].
    constructor; [exact S1|]. constructor; [|constructor]. apply nat_clean, S2.
Qed.
(** No file is made, nor an old one touched, if the call fails. *)
Theorem C91_ranked_none : forall (R V : Type) (E : EqDec V) (lookup : R -> str -> res (fval V)) (show : V -> str) tag (give_counts give_ranks greatest pandas : bool) (limit : list V) (rs : list R),
  ranked_file lookup show tag give_counts give_ranks greatest limit rs = None <-> exists e, ranked_series lookup tag give_counts give_ranks greatest pandas limit rs = Raise e.
Proof.
  intros R V E lookup show tag gc gr greatest pandas limit rs. unfold ranked_file, ranked_series. destruct (gr && gc); [split; eauto|].
  destruct (count_values lookup tag limit rs []) as [d|e]; cbn [bind]; [|split; eauto]. split; [discriminate|]. intros [e Q]. destruct (gc && negb pandas); [discriminate|]. destruct (gr || pandas); [|discriminate].
  destruct pandas; discriminate.
Qed.
Example C91_ranked_ex : ranked_file look (fun s => s) $"K" false true true [] [r1; r2] = Some ($"K,count" ++ [cr; nl] ++ $"x,2" ++ [cr; nl] ++ $"y,2" ++ [cr; nl] ++ $"z,1" ++ [cr; nl])
  /\ (forall v, permitted [] v -> 0 < occurrences look $"K" [r1; r2] v -> In v [$"x"; $"y"; $"z"]).
Proof.
  split; [vm_compute; reflexivity|]. intros v _ P. assert (I : In v (stream look $"K" [r1; r2])).
  { assert (Q : stream look $"K" [r1; r2] = flat_map (values_of look $"K") [r1; r2]) by reflexivity. rewrite Q. unfold occurrences in P. rewrite <- count_flat_map in P. revert P. generalize (flat_map (values_of look $"K") [r1; r2]). clear.
    induction l as [|w l IH]; [cbn; lia|]. cbn [count]. destruct (eqb_spec v w) as [->|N]; [left; reflexivity|]. intros P. right. apply IH. exact P. }
  vm_compute in I. vm_compute. tauto.
Qed.
Example C91_ranked_quoted : csv_rows (excel_file [[$"AU"; $"count"]; [$"Doe, J. ""Jo"""; $"2"]; [[]; $"1"]]) = Ok [[$"AU"; $"count"]; [$"Doe, J. ""Jo"""; $"2"]; [[]; $"1"]].
Proof. vm_compute. reflexivity. Qed.

(** ** timeSeries *)
(** the years of the occurrences of a value, in order *)
Definition years_met {R V} `{EqDec V} (lookup : R -> str -> res (fval V)) (year_of : R -> res Z) (tag : str) (rs : list R) (v : V) : list Z :=
  flat_map (fun r => match year_of r with Ok y => map (fun _ => y) (filter (eqb v) (values_of lookup tag r)) | Raise _ => [] end) rs.
Lemma pairs_years {R V} `{EqDec V} (lookup : R -> str -> res (fval V)) year_of tag limit rs v : allowed limit v = true ->
  map snd (filter (fun p => eqb (fst p) v) (flat_map (pairs_of lookup year_of tag limit) rs)) = years_met lookup year_of tag rs v.
Proof.
  intros A. unfold years_met. induction rs as [|r rs IH]; [reflexivity|]. cbn [flat_map]. rewrite filter_app, map_app, IH. f_equal. clear IH. unfold pairs_of. destruct (year_of r) as [y|]; [|reflexivity].
  induction (values_of lookup tag r) as [|w l IH]; [reflexivity|]. cbn [filter]. destruct (eqb_spec v w) as [<-|N].
  - rewrite A. cbn [map filter fst]. rewrite eqb_refl. cbn [map snd]. f_equal. exact IH.
  - destruct (allowed limit w); [|exact IH]. cbn [map filter fst]. rewrite neq_eqb by congruence. exact IH.
Qed.
(** The file has one row for each permitted value of a member with a year, in the order they are met: its text and its years in the
    order they are met, each once, with bars between, which can be taken apart again. *)
Theorem C91_time : forall (R V : Type) (E : EqDec V) (lookup : R -> str -> res (fval V)) (show : V -> str) (year_of : R -> res Z) tag (limit : list V) (rs : list R),
  years_readable year_of rs -> readable lookup tag (filter (has_year year_of) rs) -> clean tag ->
  (forall v, permitted limit v -> years_met lookup year_of tag rs v <> [] -> clean (show v) /\ short (join $"|" (map dec_Z (first_seen (years_met lookup year_of tag rs v))))) ->
  exists vs text, time_file lookup show year_of tag limit rs = Some text /\
    csv_rows text = Ok ([tag; $"years"] :: map (fun v => [show v; join $"|" (map dec_Z (first_seen (years_met lookup year_of tag rs v)))]) vs) /\
    NoDup vs /\ (forall v, In v vs <-> permitted limit v /\ years_met lookup year_of tag rs v <> []) /\
    (forall v w, before vs v w -> before (first_seen (stream lookup tag (filter (has_year year_of) rs))) v w) /\
    (forall v, In v vs -> split_char 124%N (join $"|" (map dec_Z (first_seen (years_met lookup year_of tag rs v)))) = map dec_Z (first_seen (years_met lookup year_of tag rs v))).
Proof.
  intros R V E lookup show year_of tag limit rs YR RD CT CV. unfold time_file. rewrite count_years_ok by assumption.
  set (ps := flat_map (pairs_of lookup year_of tag limit) rs). destruct (nested_fold ps) as [K I G]. pose proof (fun v yd => years_in_order ps v yd) as Y. set (d := fold_left add_pair ps []) in *.
  assert (ND : NoDup (dkeys d)) by (rewrite K; apply NoDup_first_seen).
  assert (Q : map fst ps = filter (allowed limit) (stream lookup tag (filter (has_year year_of) rs))).
  { unfold ps, stream. clear. induction rs as [|r rs IH]; [reflexivity|]. cbn [flat_map filter]. rewrite map_app, IH. unfold pairs_of, has_year.
    destruct (year_of r); [|reflexivity]. cbn [flat_map]. rewrite filter_app, map_map. cbn. rewrite map_id. reflexivity. }
  assert (AL : forall v, In v (dkeys d) -> allowed limit v = true).
  { intros v J. rewrite K, In_first_seen, Q in J. apply filter_In in J. apply J. }
  assert (IV : forall v, In v (dkeys d) <-> permitted limit v /\ years_met lookup year_of tag rs v <> []).
  { intros v. split.
    - intros J. pose proof (AL v J) as A. split; [apply allowed_spec; exact A|]. rewrite <- (pairs_years lookup year_of tag limit rs v A). fold ps. rewrite K, In_first_seen in J. apply in_map_iff in J.
      destruct J as (p & <- & J). intros F. assert (X : In (snd p) (map snd (filter (fun q => eqb (fst q) (fst p)) ps))) by (apply in_map, filter_In; split; [exact J | apply eqb_refl]). rewrite F in X. destruct X.
    - intros [Pm NE]. apply allowed_spec in Pm. rewrite <- (pairs_years lookup year_of tag limit rs v Pm) in NE. fold ps in NE. rewrite K, In_first_seen.
      destruct (filter (fun p => eqb (fst p) v) ps) as [|p q] eqn:F; [destruct (NE eq_refl)|]. assert (X : In p (filter (fun p => eqb (fst p) v) ps)) by (rewrite F; left; reflexivity).
      apply filter_In in X. destruct X as [X1 X2]. apply eqb_eq in X2. apply in_map_iff. exists p. auto. }
  assert (YE : years_rows show d = map (fun v => [show v; join $"|" (map dec_Z (first_seen (years_met lookup year_of tag rs v)))]) (dkeys d)).
  { unfold years_rows, dkeys. rewrite map_map. apply map_ext_in. intros [v yd] J. cbn [fst snd]. do 3 f_equal. 
    assert (J' : dget v d = Some yd) by (apply In_dget; assumption). specialize (Y v yd J'). unfold dkeys in Y. rewrite Y. f_equal. f_equal.
    apply pairs_years. apply AL. unfold dkeys. apply in_map_iff. exists (v, yd). auto. }
  exists (dkeys d). eexists. split; [reflexivity|]. rewrite YE. split; [|split; [exact ND|split; [exact IV|split]]].
  - apply excel_roundtrip. constructor.
    + split; [cbn; lia|]. constructor; [exact CT|]. constructor; [|constructor]. apply lit_clean; [reflexivity | vm_compute; discriminate].
    + apply Forall_map, Forall_forall. intros v J. split; [cbn; lia|]. apply IV in J. destruct (CV v (proj1 J) (proj2 J)) as [S1 S2]. constructor; [exact S1|]. constructor; [|constructor]. apply years_clean, S2.
  - intros v w B. rewrite K, Q, first_seen_filter in B. apply before_filter in B. exact B.
  - intros v J. apply IV in J. destruct J as [_ J]. apply JournalProofs.split_join.
    + destruct (years_met lookup year_of tag rs v) as [|y ys]; [congruence|]. discriminate.
    + intros s L. apply in_map_iff in L. destruct L as (z & <- & _). unfold dec_Z. destruct (z <? 0)%Z; [intros [F|F]; [discriminate|]|intros F]; apply dec_N_chars in F; lia.
Qed.
(** Unlike what the call returns with pandasMode, the file says nothing of how often a value occurs in a year. *)
Theorem C91_time_counts_refuted : ~ forall rs rs', time_file look (fun s => s) yr $"K" [] rs = time_file look (fun s => s) yr $"K" [] rs' ->
  time_series look yr $"K" true true true [] rs = time_series look yr $"K" true true true [] rs'.
Proof. intros H. specialize (H [r1] [r1; r1] eq_refl). vm_compute in H. discriminate. Qed.
(** Without a tag: one row for each member with a year, under the name None. *)
Theorem C91_time_records : forall (R : Type) (E : EqDec R) (show : R -> str) (year_of : R -> res Z) (rs : list R),
  NoDup rs -> years_readable year_of rs -> (forall r y, In r rs -> year_of r = Ok y -> clean (show r) /\ short (dec_Z y)) ->
  exists text, time_file_records year_of show rs = Some text /\
    csv_rows text = Ok ([$"None"; $"years"] :: flat_map (fun r => match year_of r with Ok y => [[show r; dec_Z y]] | Raise _ => [] end) rs).
Proof.
  intros R E show year_of rs ND YR CV. unfold time_file_records.
  assert (RY : forall rs d, NoDup rs -> years_readable year_of rs -> (forall r, In r rs -> ~ In r (dkeys d)) ->
    record_years year_of rs d = Ok (d ++ flat_map (fun r => match year_of r with Ok y => [(r, [(y, 1)])] | Raise _ => [] end) rs)).
  { clear. induction rs as [|r rs IH]; intros d ND YR F; cbn [record_years flat_map]; [rewrite app_nil_r; reflexivity|].
    inversion ND as [|? ? N1 N2]; subst. assert (YR' : years_readable year_of rs) by (intros r' e I; apply YR; right; exact I).
    destruct (year_of r) as [y|e] eqn:Y.
    - assert (Sx : dset r [(y, 1)] d = d ++ [(r, [(y, 1)])]).
      { assert (NI : ~ In r (dkeys d)) by (apply F; left; reflexivity). clear -NI. induction d as [|[a b] d IH]; cbn [dset app]; [reflexivity|].
        rewrite neq_eqb by (intros ->; apply NI; left; reflexivity). rewrite IH; [reflexivity | intros I; apply NI; right; exact I]. }
      rewrite IH, Sx, <- app_assoc; [reflexivity|exact N2|exact YR'|]. intros r' I J. rewrite Sx in J. unfold dkeys in J. rewrite map_app in J. apply in_app_iff in J.
      destruct J as [J|[<-|[]]]; [apply (F r'); [right; exact I|exact J]|contradiction].
    - rewrite (YR r e (or_introl eq_refl) Y). apply IH; [exact N2|exact YR'|]. intros r' I; apply F; right; exact I. }
  rewrite RY by (auto; intros; intros []). cbn [app]. eexists. split; [reflexivity|].
  assert (YE : years_rows show (flat_map (fun r => match year_of r with Ok y => [(r, [(y, 1)])] | Raise _ => [] end) rs) = flat_map (fun r => match year_of r with Ok y => [[show r; dec_Z y]] | Raise _ => [] end) rs).
  { clear. unfold years_rows. induction rs as [|r rs IH]; [reflexivity|]. cbn [flat_map]. rewrite map_app. f_equal; [destruct (year_of r); reflexivity | exact IH]. }
  rewrite YE. apply excel_roundtrip. constructor.
  - split; [cbn; lia|]. repeat constructor; try (intros I; vm_compute in I; intuition discriminate); vm_compute; discriminate.
  - apply Forall_forall. intros row I. apply in_flat_map in I. destruct I as (r & I & J). destruct (year_of r) as [y|] eqn:Y; [|destruct J]. destruct J as [<-|[]]. split; [cbn; lia|].
    destruct (CV r y I Y) as [S1 S2]. constructor; [exact S1|]. constructor; [|constructor]. apply bare_small; [apply dec_Z_bare | exact S2].
Qed.
Example C91_time_ex : time_file look (fun s => s) yr $"K" [] [r1; r2; r3; r4; r1] = Some ($"K,years" ++ [cr; nl] ++ $"x,1990" ++ [cr; nl] ++ $"y,1990|2001" ++ [cr; nl] ++ $"z,2001" ++ [cr; nl]).
Proof. vm_compute. reflexivity. Qed.

(** ** forBurst *)
(** Without a header, one row for each year and word of the table, in order. *)
Theorem C91_burst : forall {R Y} iss isw isd lower (year : R -> option Y) value (show : Y -> str) o stemmer rs,
  let pairs := flat_map (fun r => match year r, value r with
                                  | Some y, Some v => map (fun w => (y, w)) (burst_words iss isw isd lower o stemmer match v with BTexts l => join [sp] l | BText s => s end)
                                  | _, _ => []
                                  end) rs in
  (forall y w, In (y, w) pairs -> clean (show y) /\ clean w) ->
  csv_rows (burst_file show (for_burst iss isw isd lower year value o stemmer rs [] [])) = Ok (map (fun yw => [show (fst yw); snd yw]) pairs).
Proof.
  intros R Y iss isw isd lower year value show o stemmer rs pairs C. rewrite C66_rows. fold pairs. cbv zeta. unfold burst_file. cbn [fst snd].
  assert (CO : combine (map fst pairs) (map snd pairs) = pairs) by (clear; induction pairs as [|[a b] l IH]; [reflexivity|]; cbn; rewrite IH; reflexivity).
  rewrite CO. apply excel_roundtrip. apply Forall_map, Forall_forall. intros [y w] I. destruct (C y w I) as [A B]. cbn [fst snd]. split; [cbn; lia|]. repeat constructor; auto; apply A || apply B.
Qed.
(** So a reader that takes the names of the columns from the first row, as this one for networks does, loses a word. *)
Theorem C91_burst_header_refuted : ~ forall (table : list nat * list str) ds,
  length (fst table) = length (snd table) -> dict_reader (burst_file dec_nat table) = Ok ds -> length ds = length (fst table).
Proof. intros H. specialize (H ([1990; 1990], [$"cat"; $"dog"]) _ eq_refl eq_refl). vm_compute in H. discriminate. Qed.
Example C91_burst_ex : csv_rows (burst_file dec_nat (for_burst ascii_space ascii_word ascii_digit ascii_lower (fun r : nat => if r =? 1 then None else Some r) (fun r => if r =? 2 then None else Some (if r =? 3 then BTexts [$"X y"; $"z"] else BText $"The cat")) (all_on None) None [0; 1; 2; 3] [] []))
  = Ok [[$"0"; $"the"]; [$"0"; $"cat"]; [$"3"; $"x"]; [$"3"; $"y"]; [$"3"; $"z"]].
Proof. vm_compute. reflexivity. Qed.

(** ** forNLP *)
(** If the extra columns are different, and none is called copyright when there is such a column, the file has the names of the columns
    in its first row and then one row for each record, in order: the texts of what C67 says stands in the columns. *)
Definition nlp_cell {R X} (ident : R -> @ncell X) (get : R -> str -> option (@nfield X)) (text : R -> str * str) (copyright : bool) (k : str) (r : R) : @nfield X :=
  if list_eq_dec N.eq_dec k $"id" then FOne (ident r)
  else if list_eq_dec N.eq_dec k $"year" then match get r $"year" with Some v => v | None => FOne (NText []) end
  else if list_eq_dec N.eq_dec k $"title" then match get r $"title" with Some v => v | None => FOne (NText []) end
  else if list_eq_dec N.eq_dec k $"keywords" then FOne (NText (join $"|" match get r $"keywords" with Some (FList l) => l | _ => [] end))
  else if list_eq_dec N.eq_dec k $"abstract" then FOne (NText (fst (text r)))
  else if copyright && (if list_eq_dec N.eq_dec k $"copyright" then true else false) then FOne (NText (snd (text r)))
  else extra_shown (get r k).
Theorem C91_nlp_partial : forall {R X} iss isw isd lower (show : X -> str) (show_list : list str -> str) (ident : R -> @ncell X) get o copyright stemmer extra rs,
  NoDup extra -> (copyright = true -> ~ In $"copyright" extra) ->
  let own := [$"id"; $"year"; $"title"; $"keywords"; $"abstract"] in
  let names := own ++ (if copyright then [$"copyright"] else []) ++ filter (fun k => if in_dec (list_eq_dec N.eq_dec) k own then false else true) extra in
  let text r := abstract_text iss isw isd lower o copyright stemmer (get_text get r $"AB") in
  let shown v := match v with FList l => show_list l | FOne (NText s) => s | FOne (NOther x) => show x end in
  (forall k, In k extra -> clean k) -> (forall k r, In k names -> In r rs -> clean (shown (nlp_cell ident get text copyright k r))) ->
  exists t left file, for_nlp iss isw isd lower ident get o copyright stemmer extra rs = (Ok t, left) /\ nlp_file show show_list t = Ok file /\
    csv_rows file = Ok (names :: map (fun r => map (fun k => shown (nlp_cell ident get text copyright k r)) names) rs).
Proof.
  intros R X iss isw isd lower show show_list ident get o copyright stemmer extra rs ND NC own names text shown CE CC.
  destruct (C67_table_partial iss isw isd lower ident get o copyright stemmer extra rs ND NC) as (t & left & A & _ & K & G1 & G2 & G3 & G4 & G5 & G6 & G7).
  change (dkeys t = names) in K. exists t, left.
  assert (NDK : NoDup names).
  { unfold names. rewrite app_assoc. assert (NM : NoDup (filter (fun k => if in_dec (list_eq_dec N.eq_dec) k own then false else true) extra)) by (apply NoDup_filter, ND).
    assert (DJ : forall k, In k (filter (fun k => if in_dec (list_eq_dec N.eq_dec) k own then false else true) extra) -> ~ In k (own ++ if copyright then [$"copyright"] else [])).
    { intros k I J. apply filter_In in I. destruct I as [I Q]. destruct (in_dec (list_eq_dec N.eq_dec) k own) as [|NO]; [discriminate|]. apply in_app_or in J. destruct J as [J|J]; [contradiction|].
      destruct copyright; [|destruct J]. destruct J as [<-|[]]. exact (NC eq_refl I). }
    assert (NB : NoDup (own ++ if copyright then [$"copyright"] else [])) by (destruct copyright; apply nodupb_NoDup; reflexivity).
    revert DJ NB NM. generalize (own ++ if copyright then [$"copyright"] else []). generalize (filter (fun k => if in_dec (list_eq_dec N.eq_dec) k own then false else true) extra). clear. intros m l DJ NB NM.
    induction l as [|x l IH]; [exact NM|]. inversion NB; subst. cbn. constructor.
    - intros I. apply in_app_or in I. destruct I as [I|I]; [contradiction|]. apply (DJ x I). left. reflexivity.
    - apply IH; [|assumption]. intros k I J. apply (DJ k I). right. exact J. }
  assert (G : forall k c, In (k, c) t -> c = map (nlp_cell ident get text copyright k) rs).
  { intros k c I. assert (D : dget k t = Some c) by (apply In_dget; [rewrite K; exact NDK | exact I]).
    assert (KI : In k names) by (rewrite <- K; apply in_map_iff; exists (k, c); auto).
    unfold nlp_cell. destruct (list_eq_dec N.eq_dec k $"id") as [->|N1]; [congruence|]. destruct (list_eq_dec N.eq_dec k $"year") as [->|N2]; [congruence|].
    destruct (list_eq_dec N.eq_dec k $"title") as [->|N3]; [congruence|]. destruct (list_eq_dec N.eq_dec k $"keywords") as [->|N4]; [congruence|].
    destruct (list_eq_dec N.eq_dec k $"abstract") as [->|N5]; [unfold text; congruence|].
    destruct copyright; cbn [andb].
    - destruct (list_eq_dec N.eq_dec k $"copyright") as [->|N6]; [specialize (G6 eq_refl); unfold text; congruence|].
      unfold names in KI. apply in_app_or in KI. destruct KI as [KI|KI]; [exfalso; repeat (destruct KI as [KI|KI]; [symmetry in KI; contradiction|]); destruct KI|]. apply in_app_or in KI. destruct KI as [KI|KI]; [exfalso; repeat (destruct KI as [KI|KI]; [symmetry in KI; contradiction|]); destruct KI|].
      specialize (G7 k KI). pose proof (eq_trans (eq_sym D) G7) as G8. injection G8 as ->. reflexivity.
    - unfold names in KI. apply in_app_or in KI. destruct KI as [KI|KI]; [exfalso; repeat (destruct KI as [KI|KI]; [symmetry in KI; contradiction|]); destruct KI|]. apply in_app_or in KI. destruct KI as [[]|KI].
      specialize (G7 k KI). pose proof (eq_trans (eq_sym D) G7) as G8. injection G8 as ->. reflexivity. }
  eexists. split; [exact A|]. split.
  - eapply (nlp_file_ok show show_list t (nlp_cell ident get text copyright) rs); [exact K | rewrite K; exact NDK | exact G].
  - rewrite K. apply (excel_roundtrip (names :: map (fun r => map (fun k => shown (nlp_cell ident get text copyright k r)) names) rs)). constructor.
    + split; [cbn; lia|]. apply Forall_forall. intros k I. unfold names in I. apply in_app_or in I. destruct I as [I|I].
      * revert k I. apply Forall_forall. repeat (constructor; [apply lit_clean; [reflexivity | vm_compute; discriminate]|]). constructor.
      * apply in_app_or in I. destruct I as [I|I]; [|apply filter_In in I; apply CE, I]. destruct copyright; [|destruct I]. destruct I as [<-|[]]. apply lit_clean; [reflexivity | vm_compute; discriminate].
    + apply Forall_map, Forall_forall. intros r I. split; [rewrite map_length; cbn; lia|]. apply Forall_map, Forall_forall. intros k J. apply CC; assumption.
Qed.
(** With a column given twice, the row of the second record holds a value of the first. *)
Definition two (r : nat) (k : str) : option (@nfield nat) := if eqb k $"DT" then Some (FOne (NOther r)) else None.
Theorem C91_nlp_rows_refuted : ~ forall extra t left file rows,
  for_nlp ascii_space ascii_word ascii_digit ascii_lower (fun r => NOther r) two plain false None extra [1; 2] = (Ok t, left) ->
  nlp_file dec_nat (join $"|") t = Ok file -> csv_rows file = Ok rows -> forall row, In row rows -> hd [] row = $"2" -> last row [] = $"2".
Proof.
  intros H. pose (t := [($"id", [FOne (NOther 1); FOne (NOther 2)]); ($"year", [FOne (NText []); FOne (NText [])]); ($"title", [FOne (NText []); FOne (NText [])]);
    ($"keywords", [FOne (NText []); FOne (NText [])]); ($"abstract", [FOne (NText []); FOne (NText [])]); ($"DT", [FOne (NOther 1); FOne (NOther 1); FOne (NOther 2); FOne (NOther 2)])] : dict str (list (@nfield nat))).
  assert (D : exists left file rows, for_nlp ascii_space ascii_word ascii_digit ascii_lower (fun r => NOther r) two plain false None [$"DT"; $"DT"] [1; 2] = (Ok t, left) /\
    nlp_file dec_nat (join $"|") t = Ok file /\ csv_rows file = Ok rows /\ In [$"2"; []; []; []; []; $"1"] rows).
  { eexists. eexists. eexists. split; [vm_compute; reflexivity|]. split; [vm_compute; reflexivity|]. split; [vm_compute; reflexivity|]. right. right. left. reflexivity. }
  destruct D as (left & file & rows & D1 & D2 & D3 & D4). specialize (H _ _ _ _ _ D1 D2 D3 _ D4 eq_refl). vm_compute in H. discriminate.
Qed.
Example C91_nlp_ex : exists t left file, for_nlp ascii_space ascii_word ascii_digit ascii_lower (fun r => NOther r) two (all_on None) true None [$"DT"; $"year"] [1; 2] = (Ok t, left) /\
  nlp_file dec_nat (join $"|") t = Ok file /\ csv_rows file = Ok [[$"id"; $"year"; $"title"; $"keywords"; $"abstract"; $"copyright"; $"DT"]; [$"1"; []; []; []; []; []; $"1"]; [$"2"; []; []; []; []; []; $"2"]].
Proof. eexists. eexists. eexists. split; [vm_compute; reflexivity|]. split; [vm_compute; reflexivity|]. vm_compute. reflexivity. Qed.
Print Assumptions C91_ranked.
Print Assumptions C91_ranked_none.
Print Assumptions C91_time.
Print Assumptions C91_time_counts_refuted.
Print Assumptions C91_time_records.
Print Assumptions C91_burst.
Print Assumptions C91_burst_header_refuted.
Print Assumptions C91_nlp_partial.
Print Assumptions C91_nlp_rows_refuted.
