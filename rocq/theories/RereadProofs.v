(** Proofs for C104. *)
From Coq Require Import List ZArith Lia Bool Arith.
From Coq Require Import String.
From Verif Require Import Base PyStr PyInt CitationModel TagNames RecordModel RecordProofs RecordView GrantModel ValuesModel PropertiesValues WosNetModel MixedModel MixedProofs MixedNetModel Nx SeriesModel
  ScopusModel ScopusSpec ScopusSpec2 RereadSpec.
From Verif Require CiteNetModel NetModel.
From Verif Require MixedNetProofs.
Import ListNotations.
Local Open Scope list_scope.

Lemma same_table : scopus_same = column_named.
Proof. reflexivity. Qed.
Lemma names_not_columns : forallb (fun p : str * str => negb (mem (fst p) scopus_header) && mem (snd p) scopus_header) column_named = true.
Proof. vm_compute. reflexivity. Qed.
Lemma columns_not_names : forallb (fun k => match dget k scopus_same with Some _ => false | None => negb (eqb k $"selfCitation") end) scopus_header = true.
Proof. vm_compute. reflexivity. Qed.
Lemma names_once : forallb (fun p : str * str => match dget (fst p) scopus_same with Some t => eqb t (snd p) | None => false end) column_named = true.
Proof. vm_compute. reflexivity. Qed.
Lemma asks_column key col : asks_for key col -> In col scopus_header.
Proof.
  intros [I|[_ I]]; [|exact I]. pose proof (proj1 (forallb_forall _ _) names_not_columns _ I) as B. cbn [fst snd] in B. apply andb_true_iff in B. apply mem_In, B.
Qed.

Section Items.
Variables upper lower title : str -> str.
Variable all_digits : str -> bool.
Variables word num : char -> bool.
Variable int_of : str -> Z.
Variable own : list str -> res fvalue.
Variable spoilt : fvalue -> bool.
Variable mend : fvalue -> option fvalue -> option fvalue -> option fvalue -> res fvalue.
Notation item r := (any_item upper lower title all_digits word num int_of own spoilt mend (AnyScopus r)).
Notation kind := (scopus_kind upper word num int_of own spoilt mend).
Definition cell_value_of (col raw : str) : res fvalue := if mem col scopus_known then scopus_value upper word num int_of col raw else Raise KeyError.

Lemma special_column col : In col scopus_header -> special kind col = None.
Proof.
  intros I. pose proof (proj1 (forallb_forall _ _) columns_not_names _ I) as B. cbv beta in B. unfold scopus_kind, scopus_class. cbn [special]. destruct (dget col scopus_same); [discriminate B|].
  apply negb_true_iff in B. rewrite B. reflexivity.
Qed.
Lemma special_name key col : In (key, col) column_named -> special kind key = Some (ask col (fun v => Ret (Ok v))).
Proof.
  intros I. pose proof (proj1 (forallb_forall _ _) names_once _ I) as B. cbn [fst snd] in B. unfold scopus_kind, scopus_class. cbn [special]. destruct (dget key scopus_same) as [t|]; [|discriminate B].
  apply eqb_eq in B. subst t. reflexivity.
Qed.
Lemma name_apart key col r : In (key, col) column_named -> only_columns r -> dget key (sdata r) = None.
Proof.
  intros I O. destruct (dget key (sdata r)) eqn:E; [|reflexivity]. exfalso. pose proof (proj1 (forallb_forall _ _) names_not_columns _ I) as B. cbn [fst snd] in B. apply andb_true_iff in B.
  destruct B as [B _]. apply negb_true_iff in B. assert (K : In key scopus_header) by (apply O; unfold has_column; congruence). apply mem_In in K. congruence.
Qed.
Lemma item_asks r key col : only_columns r -> asks_for key col ->
  item r key = match dget col (sdata r) with Some raw => cell_value_of col raw | None => Raise KeyError end.
Proof.
  intros O A. pose proof (asks_column key col A) as C. cbn [any_item]. destruct A as [I|[-> _]].
  - rewrite (item_stands kind (sdata r) key col); [reflexivity|eapply name_apart; eassumption|reflexivity|apply special_name, I|intros a B; discriminate B|apply special_column, C].
  - unfold item_in. cbn [getitem dget]. unfold resolve. destruct (dget col (sdata r)) as [raw|].
    + change (proc kind col raw) with (cell_value_of col raw). destruct (cell_value_of col raw); reflexivity.
    + change (alt kind col) with (@None str). cbv iota beta. rewrite (special_column col C). reflexivity.
Qed.
Lemma item_other r key : only_columns r -> key <> $"selfCitation" -> (forall col, ~ asks_for key col) -> item r key = Raise KeyError.
Proof.
  intros O S N. cbn [any_item]. unfold item_in. cbn [getitem dget]. unfold resolve. assert (D : dget key (sdata r) = None).
  { destruct (dget key (sdata r)) eqn:E; [|reflexivity]. exfalso. apply (N key). right. split; [reflexivity|]. apply O. unfold has_column. congruence. }
  rewrite D. change (alt kind key) with (@None str). cbv iota beta. assert (Q : special kind key = None).
  { unfold scopus_kind, scopus_class. cbn [special]. destruct (dget key scopus_same) as [t|] eqn:E; [exfalso; apply (N t); left; rewrite <- same_table; apply dget_In, E|]. rewrite neq_eqb by exact S. reflexivity. }
  rewrite Q. reflexivity.
Qed.
Lemma filled_only d r : filled d (sdata r) -> only_columns r.
Proof. intros F k H. unfold has_column in H. rewrite F in H. destruct (in_dec eq_dec k scopus_header); [assumption|contradiction]. Qed.
Lemma filled_column d r col : filled d (sdata r) -> In col scopus_header -> dget col (sdata r) = Some (column col d).
Proof. intros F I. rewrite F. destruct (in_dec eq_dec col scopus_header); [reflexivity|contradiction]. Qed.
Lemma item_kept r r' key : same_srec r' r -> only_columns r -> key <> $"selfCitation" -> has_all r key -> item r' key = item r key.
Proof.
  intros (_ & _ & _ & F) O S H. destruct (in_dec eq_dec key (map fst column_named ++ scopus_header)) as [I|NI].
  - assert (A : exists col, asks_for key col).
    { apply in_app_or in I. destruct I as [I|I]; [|exists key; right; split; [reflexivity|exact I]]. apply in_map_iff in I. destruct I as ((k & c) & <- & I). exists c. left. exact I. }
    destruct A as (col & A). rewrite (item_asks r' key col (filled_only _ _ F) A), (item_asks r key col O A), (filled_column _ _ _ F (asks_column _ _ A)). specialize (H col A). unfold has_column in H. unfold column.
    destruct (dget col (sdata r)); [reflexivity|contradiction].
  - assert (N : forall col, ~ asks_for key col).
    { intros col [I|[-> I]]; apply NI, in_or_app; [left|right; exact I]. apply in_map_iff. exists (key, col). split; [reflexivity|exact I]. }
    rewrite (item_other r' key (filled_only _ _ F) S N), (item_other r key O S N). reflexivity.
Qed.
Lemma of_empty_value col : In col scopus_header -> of_empty upper word num int_of col (cell_value_of col []).
Proof.
  intros I. unfold scopus_header in I.
  repeat (destruct I as [<-|I]; [first [exact (oe_cites upper word num int_of)|exact (oe_grant upper word num int_of)|exact (oe_none upper word num int_of)
    |refine (oe_number upper word num int_of _ _); apply mem_In; reflexivity|refine (oe_list upper word num int_of _ _); apply mem_In; reflexivity|refine (oe_text upper word num int_of _ _); apply mem_In; reflexivity]|]).
  destruct I.
Qed.
Lemma cell_ends col raw e : cell_value_of col raw = Raise e -> e = KeyError \/ e = ValueError.
Proof.
  unfold cell_value_of. destruct (mem col scopus_known); [|intros E; injection E as <-; auto]. unfold scopus_value. destruct (dget col (scopus_funcs upper word num int_of)) as [f|] eqn:D; [|intros E; injection E as <-; auto].
  apply dget_In in D. unfold scopus_funcs in D. repeat (destruct D as [D|D]; [injection D as <- <-; first [discriminate|unfold to_int; destruct (py_int raw); intros E; [discriminate E|injection E as <-; auto]]|]). destruct D.
Qed.
Lemma item_emptied r r' key col : same_srec r' r -> only_columns r -> asks_for key col -> ~ has_column r col ->
  item r key = Raise KeyError /\ of_empty upper word num int_of col (item r' key).
Proof.
  intros (_ & _ & _ & F) O A H. rewrite (item_asks r' key col (filled_only _ _ F) A), (item_asks r key col O A), (filled_column _ _ _ F (asks_column _ _ A)). unfold has_column in H. unfold column.
  destruct (dget col (sdata r)); [exfalso; apply H; discriminate|]. split; [reflexivity|]. apply of_empty_value, (asks_column _ _ A).
Qed.
End Items.

(** ** The own citation *)
Section Own.
Variables upper lower title : str -> str.
Variable all_digits : str -> bool.
Variables word num : char -> bool.
Variable int_of : str -> Z.
Notation item r := (any_item upper lower title all_digits word num int_of text_of not_spoilt no_mend (AnyScopus r)).
Notation kind := (scopus_kind upper word num int_of text_of not_spoilt no_mend).
Notation self r := (any_self upper lower title all_digits word num int_of (AnyScopus r)).
Notation cites r := (any_cites upper lower title all_digits word num int_of (AnyScopus r)).
Notation look r := (look upper lower title all_digits word num int_of (AnyScopus r)).
Notation cell := (cell_value_of upper word num int_of).
Definition six : list str := [$"authorsShort"; $"title"; $"year"; $"journal"; $"volume"; $"beginningPage"].

(** what is looked up is the same, or missing in the one and empty in the other *)
Definition alike (g g' : str -> option (res fvalue)) (k : str) : Prop := g' k = g k \/ (g k = Some (Raise KeyError) /\ exists v, g' k = Some (Ok v) /\ truthy v = false).
Lemma part_alike g g' k f acc : alike g g' k -> (forall acc, runp g' (f acc) = runp g (f acc)) -> runp g' (part truthy scopus_piece k f acc f) = runp g (part truthy scopus_piece k f acc f).
Proof.
  intros A F. unfold part, ask_get, ask. cbn [runp]. destruct A as [E|(E & v & E' & T)].
  - rewrite E. destruct (g k) as [[v|e]|] eqn:G; [| |reflexivity].
    + destruct (truthy v); [|apply F]. cbn [runp]. rewrite E, G. destruct (scopus_piece k v); [apply F|reflexivity].
    + destruct e; try reflexivity. apply F.
  - rewrite E, E', T. apply F.
Qed.
Lemma parts_alike g g' fin : (forall acc, runp g' (fin acc) = runp g (fin acc)) -> forall ks acc, (forall k, In k ks -> alike g g' k) -> runp g' (parts truthy scopus_piece ks fin acc) = runp g (parts truthy scopus_piece ks fin acc).
Proof. intros F. induction ks as [|k ks IH]; intros acc A; cbn [parts]; [apply F|]. apply part_alike; [apply A; left; reflexivity|]. intros acc'. apply IH. intros k' I. apply A. right. exact I. Qed.
Definition prog_of : prog fvalue := RecordModel.scopus_citation truthy scopus_piece text_of not_spoilt no_mend.
Lemma prog_alike g g' : (forall k, In k six -> alike g g' k) -> runp g' prog_of = runp g prog_of.
Proof. intros A. unfold prog_of, RecordModel.scopus_citation. apply parts_alike; [intros acc; reflexivity|exact A]. Qed.

Lemma value_six r key col : only_columns r -> In (key, col) column_named -> value kind (sdata r) 2 key = Some (match dget col (sdata r) with Some raw => cell col raw | None => Raise KeyError end).
Proof.
  intros O I. rewrite (MixedNetProofs.value_stands kind (sdata r) (fun v => Ok v) key col 0); [|eapply name_apart; eassumption|reflexivity|apply special_name, I|intros a B; discriminate B|apply special_column, (asks_column key col); left; exact I].
  destruct (dget col (sdata r)) as [raw|]; [|reflexivity]. change (proc kind col raw) with (cell col raw). destruct (cell col raw); reflexivity.
Qed.
Lemma six_named k : In k six -> exists col, In (k, col) column_named.
Proof. intros I. unfold six in I. repeat (destruct I as [<-|I]; [eexists; apply dget_In; vm_compute; reflexivity|]). destruct I. Qed.
Lemma run_prog r : only_columns r -> exists x c', run (getitem kind (sdata r) 2) prog_of [] = Some (x, c') /\ runp (value kind (sdata r) 2) prog_of = Some x.
Proof.
  intros O. destruct (runp (value kind (sdata r) 2) prog_of) as [x|] eqn:R.
  - destruct (@run_ok _ _ kind (sdata r) (getitem kind (sdata r) 2) _ _ (@getitem_ok _ _ kind (sdata r) (MixedNetProofs.scopus_back upper word num int_of r) (MixedNetProofs.scopus_alone upper word num int_of) 2) [] _ (valid_nil _ _) R) as (c' & Q & _). eauto.
  - exfalso. revert R. apply (@asks_runp _ (value kind (sdata r) 2) (fun k => In k six)); [apply asks_scopus; auto|]. intros k I. destruct (six_named k I) as (col & C). rewrite (value_six r k col O C). discriminate.
Qed.
Definition made_of (r : srec) (x : res fvalue) : res acite :=
  match x with
  | Ok (FText t) =>
    let c := CitationModel.scopus_citation word num int_of upper t in
    if s_bad c then let* y := look r $"year" in let* n := look r $"title" in let* j := look r $"journal" in Ok (CScopus t (mended upper c y n j)) else Ok (CScopus t c)
  | Ok _ => Raise EOther
  | Raise e => Raise e
  end.
Lemma self_runs r x c' : run (getitem kind (sdata r) 2) prog_of [] = Some (x, c') -> self r = made_of r x.
Proof. intros E. cbn [any_self]. unfold prog_of in E. rewrite E. destruct x as [v|e]; [|reflexivity]. destruct v; reflexivity. Qed.
Lemma look_kept r r' key : same_srec r' r -> only_columns r -> key <> $"selfCitation" -> has_all r key -> look r' key = look r key.
Proof. intros S O N H. unfold MixedNetModel.look, any_get. rewrite (item_kept upper lower title all_digits word num int_of text_of not_spoilt no_mend r r' key S O N H). reflexivity. Qed.
Lemma all_of key col r : (forall c, asks_for key c -> c = col) -> has_column r col -> has_all r key.
Proof. intros U H c A. rewrite (U c A). exact H. Qed.
Lemma one_column key col : In (key, col) column_named -> forall c, asks_for key c -> c = col.
Proof.
  intros I c [J|[-> J]].
  - pose proof (proj1 (forallb_forall _ _) names_once _ I) as B. pose proof (proj1 (forallb_forall _ _) names_once _ J) as C. cbn [fst snd] in B, C. destruct (dget key scopus_same); [|discriminate]. apply eqb_eq in B, C. congruence.
  - exfalso. pose proof (proj1 (forallb_forall _ _) names_not_columns _ I) as B. cbn [fst snd] in B. apply andb_true_iff in B. destruct B as [B _]. apply negb_true_iff in B. apply mem_In in J. congruence.
Qed.
Definition own_columns : list str := [$"Authors"; $"Title"; $"Year"; $"Source title"].
Lemma six_columns : forallb (fun k => match dget k scopus_same with Some t => mem t (own_columns ++ [$"Volume"; $"Page start"]) | None => false end) six = true.
Proof. vm_compute. reflexivity. Qed.
Lemma self_kept r r' : same_srec r' r -> only_columns r -> (forall col, In col own_columns -> has_column r col) -> self r' = self r.
Proof.
  intros S O H. pose proof S as (_ & _ & _ & F). pose proof (filled_only _ _ F) as O'. destruct (run_prog r O) as (x & c & Q & R). destruct (run_prog r' O') as (x' & c' & Q' & R').
  rewrite (self_runs r x c Q), (self_runs r' x' c' Q'). assert (E : runp (value kind (sdata r') 2) prog_of = runp (value kind (sdata r) 2) prog_of).
  { apply prog_alike. intros k I. destruct (six_named k I) as (col & C). unfold alike. rewrite (value_six r k col O C), (value_six r' k col O' C), (filled_column _ _ _ F (asks_column k col (or_introl C))). unfold column.
    destruct (dget col (sdata r)) as [raw|] eqn:D; [left; reflexivity|]. right. split; [reflexivity|].
    assert (N : ~ In col own_columns) by (intros J; apply (H col J); exact D).
    assert (T : col = $"Volume" \/ col = $"Page start").
    { pose proof (proj1 (forallb_forall _ _) six_columns _ I) as B. pose proof (proj1 (forallb_forall _ _) names_once _ C) as B'. cbn [fst snd] in B'. cbv beta in B. destruct (dget k scopus_same) as [t|]; [|discriminate B'].
      apply eqb_eq in B'. subst t. apply mem_In, in_app_or in B. destruct B as [B|B]; [contradiction|]. destruct B as [<-|[<-|[]]]; auto. }
    destruct T as [-> | ->]; exists (FText []); split; reflexivity. }
  rewrite R, R' in E. injection E as ->. destruct x as [v|e]; [|reflexivity]. destruct v; try reflexivity. cbn [made_of]. destruct (s_bad _); [|reflexivity].
  assert (L : forall key col, In (key, col) column_named -> In col own_columns -> key <> $"selfCitation" -> look r' key = look r key).
  { intros key col C I NS. apply look_kept; [exact S|exact O|exact NS|]. apply (all_of key col); [apply one_column, C|apply H, I]. }
  rewrite (L $"year" $"Year"), (L $"title" $"Title"), (L $"journal" $"Source title"); try reflexivity; first [apply dget_In; vm_compute; reflexivity|cbn; tauto|discriminate].
Qed.
Lemma cites_kept r r' : same_srec r' r -> only_columns r -> has_column r $"References" -> cites r' = cites r.
Proof.
  intros S O H. assert (I : In ($"citations", $"References") column_named) by (apply dget_In; vm_compute; reflexivity). unfold any_cites.
  rewrite (look_kept r r' $"citations" S O); [|discriminate|apply (all_of _ $"References"); [apply one_column, I|exact H]]. destruct S as (_ & _ & _ & F).
  rewrite (filled_column _ _ $"References" F) by (apply (asks_column $"citations"); left; exact I). unfold column. unfold has_column in H. destruct (dget $"References" (sdata r)); [reflexivity|contradiction].
Qed.
End Own.

(** ** Networks of records of which the same is read *)
Section Same.
Import CiteNetModel.
Context {I C R : Type} `{EqDec I}.
Variable api : cite_api C I.
Variable rapi : rec_api R C.
Variable upper : str -> str.
Variable o : opts.
Definition reads_same (s' s : R) : Prop := CiteNetModel.own rapi s' = CiteNetModel.own rapi s /\ cites rapi s' = cites rapi s /\ rid rapi s' = rid rapi s /\ forall t, In t (o_values o) -> rget rapi s' t = rget rapi s t.
Definition same_core (d' d : dict I R) : Prop := Forall2 (fun x y => fst x = fst y /\ reads_same (snd x) (snd y)) d' d.
Lemma core_set k r' r d' d : reads_same r' r -> same_core d' d -> same_core (dset k r' d') (dset k r d).
Proof.
  intros S D. induction D as [|(k1 & v1) (k2 & v2) d' d (E & F) D IH]; cbn [dset]; [constructor; [split; [reflexivity|exact S]|constructor]|]. cbn [fst snd] in E, F. subst k2.
  destruct (eqb k k1); constructor; auto.
Qed.
Lemma core_get k d' d : same_core d' d -> match dget k d', dget k d with Some r', Some r => reads_same r' r | None, None => True | _, _ => False end.
Proof. intros D. induction D as [|(k1 & v1) (k2 & v2) d' d (E & F) D IH]; cbn [dget]; [exact Logic.I|]. cbn [fst snd] in E, F. subst k2. destruct (eqb k k1); [exact F|exact IH]. Qed.
Lemma core_same rs' rs : Forall2 reads_same rs' rs -> same_core (core_dict api rapi rs') (core_dict api rapi rs).
Proof.
  unfold core_dict. assert (G : forall d' d, same_core d' d -> Forall2 reads_same rs' rs -> same_core (fold_left (fun d r => dset (cid api (CiteNetModel.own rapi r)) r d) rs' d') (fold_left (fun d r => dset (cid api (CiteNetModel.own rapi r)) r d) rs d)).
  { intros d' d D F. revert d' d D. induction F as [|r' r rs' rs S F IH]; intros d' d D; cbn [fold_left]; [exact D|]. apply IH. pose proof S as (E & _). rewrite E. apply core_set; assumption. }
  apply G. constructor.
Qed.
Lemma keep_same d' d c : same_core d' d -> keep api upper o d' c = keep api upper o d c.
Proof.
  intros D. unfold keep. assert (E : dhas (cid api c) d' = dhas (cid api c) d) by (rewrite !dhas_dget; pose proof (core_get (cid api c) d' d D); destruct (dget _ d'), (dget _ d); tauto). rewrite E. reflexivity.
Qed.
Lemma info_same s' s tags : (forall t, In t tags -> rget rapi s' t = rget rapi s t) -> info_vals rapi s' tags = info_vals rapi s tags.
Proof. intros E. induction tags as [|t ts IH]; cbn [info_vals]; [reflexivity|]. rewrite (E t (or_introl eq_refl)), IH by (intros x J; apply E; right; exact J). reflexivity. Qed.
Lemma node_same d' d c i : same_core d' d -> node_dat api rapi o d' c i = node_dat api rapi o d c i.
Proof.
  intros D. unfold node_dat, node_info. destruct (o_info o); [|reflexivity]. destruct (o_type o); try reflexivity. destruct (o_values o) as [|t ts] eqn:V; [reflexivity|].
  pose proof (core_get (cid api c) d' d D) as G. destruct (dget (cid api c) d') as [s'|], (dget (cid api c) d) as [s|]; try contradiction G; [|reflexivity].
  destruct G as (E1 & E2 & E3 & E4). rewrite V in E4. rewrite E2, E3. rewrite (info_same s' s (t :: ts) E4).
  assert (L : forall ts a, (forall x, In x ts -> rget rapi s' x = rget rapi s x) -> fold_left (fun d t => dset t (detail_val (rget rapi s' t)) d) ts a = fold_left (fun d t => dset t (detail_val (rget rapi s t)) d) ts a).
  { clear. intros ts. induction ts as [|t ts IH]; intros a E; cbn [fold_left]; [reflexivity|]. rewrite (E t (or_introl eq_refl)). apply IH. intros x J. apply E. right. exact J. }
  rewrite (L (t :: ts) _ E4). reflexivity.
Qed.
Lemma see_same d' d l : same_core d' d -> forall g, see_all api rapi o d' l g = see_all api rapi o d l g.
Proof.
  intros D. induction l as [|c l IH]; intros g; cbn [see_all]; [reflexivity|]. destruct (make_id api o c) as [i|e]; [|reflexivity]. cbn [bind]. unfold see_cite. rewrite (node_same d' d c i D).
  match goal with |- bind ?x _ = bind ?x _ => destruct x as [g1|e]; [|reflexivity] end. cbn [bind]. rewrite IH. reflexivity.
Qed.
Lemma add_same d' d tc h l g : same_core d' d -> add_to_network api rapi o d' tc h l g = add_to_network api rapi o d tc h l g.
Proof.
  intros D. unfold add_to_network. destruct h as [c|].
  - destruct (make_id api o c) as [i|e]; [|reflexivity]. cbn [bind]. match goal with |- bind (bind ?x _) _ = _ => destruct x as [y|e]; [|reflexivity] end. cbn [bind]. unfold see_head. rewrite (node_same d' d c i D).
    match goal with |- bind (bind ?x _) _ = _ => destruct x as [g0|e]; [|reflexivity] end. cbn [bind]. rewrite (see_same d' d l D). reflexivity.
  - cbn [bind]. rewrite (see_same d' d l D). reflexivity.
Qed.
Lemma filter_same d' d l : same_core d' d -> filter_cites api upper o d' l = filter_cites api upper o d l.
Proof. intros D. unfold filter_cites. apply filter_ext. intros c. apply keep_same, D. Qed.
Lemma citation_same directed tc rs' rs : Forall2 reads_same rs' rs -> citation api rapi upper o directed tc rs' = citation api rapi upper o directed tc rs.
Proof.
  intros F. pose proof (core_same rs' rs F) as D. unfold citation. set (c' := core_dict api rapi rs') in *. set (c := core_dict api rapi rs) in *. clearbody c' c. generalize (@empty_graph I directed).
  induction F as [|r' r rs' rs (E1 & E2 & _) F IH]; intros g; cbn [NetModel.iter]; [reflexivity|]. rewrite E1, E2, (filter_same c' c _ D).
  assert (Q : forall l, add_to_network api rapi o c' tc (Some (CiteNetModel.own rapi r)) (filter_cites api upper o c' l) g = add_to_network api rapi o c tc (Some (CiteNetModel.own rapi r)) (filter_cites api upper o c l) g) by (intros l; rewrite (filter_same c' c _ D); apply add_same, D).
  destruct (filter_cites api upper o c [CiteNetModel.own rapi r]) as [|kx kl]; [cbn [bind]; apply IH|]. destruct (cites rapi r) as [|x l]; [cbn [bind]; apply IH|]. rewrite Q. destruct (add_to_network _ _ _ _ _ _ _ _); [cbn [bind]; apply IH|reflexivity].
Qed.
Lemma co_citation_same rs' rs : Forall2 reads_same rs' rs -> co_citation api rapi upper o rs' = co_citation api rapi upper o rs.
Proof.
  intros F. pose proof (core_same rs' rs F) as D. unfold co_citation. set (c' := core_dict api rapi rs') in *. set (c := core_dict api rapi rs) in *. clearbody c' c. generalize (@empty_graph I false).
  induction F as [|r' r rs' rs (E1 & E2 & _) F IH]; intros g; cbn [NetModel.iter]; [reflexivity|]. rewrite E2.
  destruct (cites rapi r) as [|x l]; [cbn [bind]; apply IH|]. rewrite (filter_same c' c _ D), (add_same c' c _ _ _ _ D). destruct (add_to_network _ _ _ _ _ _ _ _); [cbn [bind]; apply IH|reflexivity].
Qed.
End Same.

(** ** Counts of records of which the same is read *)
Section Counts.
Context {R V : Type} `{EqDec V}.
Variable lookup : R -> str -> res (fval V).
Variable year_of : R -> res Z.
Variable none : V.
Definition alike_in (keys : list str) (r' r : R) : Prop := forall k, In k keys -> lookup r' k = lookup r k.
Lemma count_same tag limit rs' rs : Forall2 (alike_in [tag]) rs' rs -> forall d, count_values lookup tag limit rs' d = count_values lookup tag limit rs d.
Proof. intros F. induction F as [|r' r rs' rs E F IH]; intros d; cbn [count_values]; [reflexivity|]. rewrite (E tag (or_introl eq_refl)). destruct (lookup r tag) as [v|e]; [apply IH|]. destruct e; try reflexivity. apply IH. Qed.
Lemma years_same tag limit rs' rs : Forall2 (fun r' r => alike_in [tag] r' r /\ year_of r' = year_of r) rs' rs -> forall d, count_years lookup year_of tag limit rs' d = count_years lookup year_of tag limit rs d.
Proof.
  intros F. induction F as [|r' r rs' rs (E & Y) F IH]; intros d; cbn [count_years]; [reflexivity|]. rewrite Y, (E tag (or_introl eq_refl)).
  destruct (year_of r) as [y|e]; [|destruct e; try reflexivity; apply IH]. destruct (lookup r tag) as [v|e]; [apply IH|]. destruct e; try reflexivity. apply IH.
Qed.
Lemma tags_same keys r' r tags : alike_in tags r' r -> forall d, occ_tags lookup none keys r' tags d = occ_tags lookup none keys r tags d.
Proof.
  induction tags as [|t ts IH]; intros E d; cbn [occ_tags]; [reflexivity|]. unfold get_list. rewrite (E t (or_introl eq_refl)). assert (E' : alike_in ts r' r) by (intros k J; apply E; right; exact J).
  match goal with |- bind ?x _ = _ => destruct x as [[l|]|e]; [| |reflexivity] end; cbn [bind]; [|apply IH, E']. destruct (occ_vals keys l d); [cbn [bind]; apply IH, E'|reflexivity].
Qed.
Lemma table_same key tags rs' rs : Forall2 (alike_in (key :: tags)) rs' rs -> forall d, occ_records lookup none key tags rs' d = occ_records lookup none key tags rs d.
Proof.
  intros F. induction F as [|r' r rs' rs E F IH]; intros d; cbn [occ_records]; [reflexivity|]. unfold get_list. rewrite (E key (or_introl eq_refl)).
  match goal with |- bind ?x _ = _ => destruct x as [[l|]|e]; [| |reflexivity] end; cbn [bind]; [|apply IH]. rewrite (tags_same l r' r tags) by (intros k J; apply E; right; exact J).
  destruct (occ_tags _ _ _ _ _ _); [cbn [bind]; apply IH|reflexivity].
Qed.
End Counts.

(** ** Without a year *)
Section Years.
Variables upper lower title : str -> str.
Variable all_digits : str -> bool.
Variables word num : char -> bool.
Variable int_of : str -> Z.
Notation kind := (scopus_kind upper word num int_of text_of not_spoilt no_mend).
Notation self r := (any_self upper lower title all_digits word num int_of (AnyScopus r)).
Notation cites r := (any_cites upper lower title all_digits word num int_of (AnyScopus r)).
Notation look r := (look upper lower title all_digits word num int_of (AnyScopus r)).
Notation cell := (cell_value_of upper word num int_of).
Definition fine (g : str -> option (res fvalue)) (k : str) : Prop :=
  g k = Some (Raise KeyError) \/ g k = Some (Raise ValueError) \/ exists v, g k = Some (Ok v) /\ exists s, scopus_piece k v = Ok s.
Lemma parts_ends g fin : forall ks acc, (forall k, In k ks -> fine g k) ->
  ((exists acc', runp g (parts truthy scopus_piece ks fin acc) = runp g (fin acc')) /\ forall k, In k ks -> g k <> Some (Raise ValueError)) \/ runp g (parts truthy scopus_piece ks fin acc) = Some (Raise ValueError).
Proof.
  induction ks as [|k ks IH]; intros acc F; cbn [parts]; [left; split; [eauto|intros k []]|]. assert (F' : forall k, In k ks -> fine g k) by (intros x J; apply F; right; exact J).
  unfold part, ask_get, ask. cbn [runp]. destruct (F k (or_introl eq_refl)) as [E|[E|(v & E & s & P)]]; rewrite E.
  - destruct (IH acc F') as [(A & B)|A]; [left; split; [exact A|]|right; exact A]. intros x [<-|J]; [congruence|apply B, J].
  - right. reflexivity.
  - assert (G : forall acc, ((exists acc', runp g (parts truthy scopus_piece ks fin acc) = runp g (fin acc')) /\ forall x, In x (k :: ks) -> g x <> Some (Raise ValueError)) \/ runp g (parts truthy scopus_piece ks fin acc) = Some (Raise ValueError)).
    { intros acc'. destruct (IH acc' F') as [(A & B)|A]; [left; split; [exact A|]|right; exact A]. intros x [<-|J]; [congruence|apply B, J]. }
    destruct (truthy v); [|apply G]. cbn [runp]. rewrite E, P. apply G.
Qed.
Lemma six_fine r k : only_columns r -> In k six -> fine (value kind (sdata r) 2) k.
Proof.
  intros O I. unfold fine. destruct (six_named k I) as (col & C). rewrite (value_six upper word num int_of r k col O C). destruct (dget col (sdata r)) as [raw|]; [right|left; reflexivity].
  pose proof (proj1 (forallb_forall _ _) names_once _ C) as B. cbn [fst snd] in B. unfold six in I.
  assert (T : forall x, scopus_piece k (FText x) = Ok (match scopus_piece k (FText x) with Ok s => s | _ => [] end) -> cell col raw = Ok (FText x) -> exists v, Some (cell col raw) = Some (Ok v) /\ exists s, scopus_piece k v = Ok s) by (intros x P ->; eauto).
  destruct I as [<-|[<-|[<-|[<-|[<-|[<-|[]]]]]]]; apply eqb_eq in B; subst col.
  - right. exists (FTexts (split_at $", " raw)). split; [reflexivity|]. destruct (split_at $", " raw) as [|a l] eqn:S; [exfalso; exact (MixedNetProofs.split_at_some _ _ S)|]. eexists. reflexivity.
  - right. apply (T raw); reflexivity.
  - change (cell $"Year" raw) with (match py_int raw with Some z => Ok (FInt z) | None => @Raise fvalue ValueError end). destruct (py_int raw) as [z|]; [right; exists (FInt z); split; [reflexivity|]; eexists; reflexivity|left; reflexivity].
  - right. apply (T raw); reflexivity.
  - right. apply (T raw); reflexivity.
  - right. apply (T raw); reflexivity.
Qed.
Lemma look_ends r key col : only_columns r -> In (key, col) column_named -> In key six -> (exists x, look r key = Ok x) \/ look r key = Raise ValueError.
Proof.
  intros O C I. unfold MixedNetModel.look, any_get. rewrite (item_asks upper lower title all_digits word num int_of text_of not_spoilt no_mend r key col O (or_introl C)).
  pose proof (six_fine r key O I) as F. unfold fine in F. rewrite (value_six upper word num int_of r key col O C) in F.
  destruct F as [E|[E|(v & E & _)]]; injection E as ->; eauto.
Qed.
Lemma self_ends r : only_columns r -> (exists c, self r = Ok c) \/ self r = Raise ValueError.
Proof.
  intros O. destruct (run_prog upper word num int_of r O) as (x & c & Q & R). rewrite (self_runs upper lower title all_digits word num int_of r x c Q).
  destruct (parts_ends (value kind (sdata r) 2) (fun acc => match text_of acc with Ok c => Ret (Ok c) | Raise e => Ret (Raise e) end) six [] (fun k => six_fine r k O)) as [((acc & E) & _)|E].
  - assert (X : Some x = Some (Ok (FText (concat acc)))) by (rewrite <- R; exact E). injection X as ->. cbn [made_of].
    destruct (s_bad _); [|eauto]. assert (L : forall key, In key [$"year"; $"title"; $"journal"] -> (exists x, look r key = Ok x) \/ look r key = Raise ValueError).
    { intros key I. assert (J : In key six) by (clear - I; cbn in I; cbn; tauto). destruct (six_named key J) as (col & C). eapply look_ends; eassumption. }
    destruct (L $"year") as [(y & ->)| ->]; [cbn; tauto| |right; reflexivity]. destruct (L $"title") as [(t & ->)| ->]; [cbn; tauto| |right; reflexivity]. destruct (L $"journal") as [(j & ->)| ->]; [cbn; tauto| |right; reflexivity]. cbn [bind]. eauto.
  - assert (X : Some x = Some (Raise ValueError)) by (rewrite <- R; exact E). injection X as ->. right. reflexivity.
Qed.
Lemma self_no_year r : only_columns r -> dget $"Year" (sdata r) = Some [] -> self r = Raise ValueError.
Proof.
  intros O D. destruct (run_prog upper word num int_of r O) as (x & c & Q & R). rewrite (self_runs upper lower title all_digits word num int_of r x c Q).
  destruct (parts_ends (value kind (sdata r) 2) (fun acc => match text_of acc with Ok c => Ret (Ok c) | Raise e => Ret (Raise e) end) six [] (fun k => six_fine r k O)) as [(_ & N)|E].
  - exfalso. apply (N $"year"); [cbn; tauto|]. rewrite (value_six upper word num int_of r $"year" $"Year" O) by (apply dget_In; vm_compute; reflexivity). rewrite D. reflexivity.
  - assert (X : Some x = Some (Raise ValueError)) by (rewrite <- R; exact E). injection X as ->. reflexivity.
Qed.
Lemma cites_end r : only_columns r -> exists l, cites r = Ok l.
Proof.
  intros O. unfold any_cites, MixedNetModel.look, any_get. rewrite (item_asks upper lower title all_digits word num int_of text_of not_spoilt no_mend r $"citations" $"References" O) by (left; apply dget_In; vm_compute; reflexivity).
  destruct (dget $"References" (sdata r)) as [raw|]; [|eexists; reflexivity]. eexists. reflexivity.
Qed.
Lemma see_no_year rs : (forall r, In r rs -> only_columns r) -> (exists r, In r rs /\ dget $"Year" (sdata r) = Some []) -> see_any upper lower title all_digits word num int_of (map AnyScopus rs) = Raise ValueError.
Proof.
  induction rs as [|r rs IH]; intros O (x & I & D); [destruct I|]. cbn [map see_any]. destruct (self_ends r (O r (or_introl eq_refl))) as [(c & E)|E]; rewrite E; [|reflexivity]. cbn [bind].
  destruct (cites_end r (O r (or_introl eq_refl))) as (l & ->). cbn [bind]. rewrite IH; [reflexivity|intros y J; apply O; right; exact J|]. destruct I as [<-|I]; [|eauto].
  rewrite (self_no_year r (O r (or_introl eq_refl)) D) in E. discriminate.
Qed.
End Years.
