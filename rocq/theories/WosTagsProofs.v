(** Proofs for C100. *)
From Coq Require Import List ZArith Lia Bool Arith.
From Coq Require Import String.
From Verif Require Import Base PyStr CitationModel CitationSpec TagNames RecordModel RecordProofs RecordView GrantModel ValuesModel PropertiesCitation PropertiesValues WosModel WosNetModel WosNetSpec WosNetProofs
  WosTagsModel WosTagsSpec.
Import ListNotations.
Local Open Scope list_scope.

Lemma tags_two : forallb (fun p : str * str => (length (fst p) =? 2) && (negb (length (snd p) =? 2) || eqb (snd p) $"j9") && eqb (dget (fst p) wos_names) (Some (snd p)) && eqb (dget (snd p) wos_names) (Some (fst p))) wos_tags = true.
Proof. vm_compute. reflexivity. Qed.
Lemma tag_facts tag name : dget tag wos_tags = Some name -> length tag = 2 /\ (length name <> 2 \/ name = $"j9") /\ wos_alt tag = Some name /\ wos_alt name = Some tag.
Proof.
  intros D. apply dget_In in D. pose proof (proj1 (forallb_forall _ _) tags_two _ D) as Q. cbn [fst snd] in Q. rewrite !andb_true_iff in Q. destruct Q as (((A & B) & C) & E).
  apply Nat.eqb_eq in A. apply eqb_eq in C, E. split; [exact A|]. split; [|split; [exact C|exact E]]. apply orb_true_iff in B. destruct B as [B|B]; [left|right; apply eqb_eq, B].
  apply negb_true_iff in B. apply Nat.eqb_neq in B. exact B.
Qed.

Section Proofs.
Variables upper lower title : str -> str.
Variable all_digits : str -> bool.
Notation item := (wos_item upper lower title all_digits).
Notation val_of := (wos_value upper lower title all_digits).
Notation says := (says upper lower).
Notation counted := (counted_as upper title).
Lemma tag_special r k t : wos_alt k = Some t -> special (kind_of upper lower title all_digits r) k = None.
Proof. intros A. destruct (special (kind_of upper lower title all_digits r) k) eqn:E; [|reflexivity]. exfalso. assert (N : special (kind_of upper lower title all_digits r) k <> None) by congruence. apply special_alone in N. change (wos_alt k = None) in N. congruence. Qed.
(** a key is answered with the value of the lines under its tag *)
Lemma value_called r n tag key : plain r -> dhas tag wos_tags = true -> called_tag tag key ->
  value (kind_of upper lower title all_digits r) (wfields r) (S n) key = Some (match dget tag (wfields r) with Some raw => val_of tag raw | None => Raise KeyError end).
Proof.
  intros P T C. rewrite dhas_dget in T. destruct (dget tag wos_tags) as [name|] eqn:D; [|discriminate T]. destruct (tag_facts _ _ D) as (L & N & A & B). destruct C as [->|C].
  - cbn [value]. unfold resolve. destruct (dget tag (wfields r)) as [raw|] eqn:F.
    + change (proc (kind_of upper lower title all_digits r) tag raw) with (if dhas tag wos_tags then val_of tag raw else Ok (FTexts raw)). rewrite dhas_dget, D. reflexivity.
    + change (alt (kind_of upper lower title all_digits r) tag) with (wos_alt tag). rewrite A. destruct (dget name (wfields r)) as [raw|] eqn:G.
      * exfalso. destruct (field_two r P _ _ G) as (X & _ & Y). destruct N; contradiction.
      * rewrite (tag_special r _ _ A). reflexivity.
  - rewrite D in C. injection C as <-. apply value_named; [exact P|exact B|exact N|apply (tag_special r _ _ B)|rewrite dhas_dget, D; reflexivity].
Qed.
Lemma item_called r tag key : plain r -> dhas tag wos_tags = true -> called_tag tag key ->
  item r key = match dget tag (wfields r) with Some raw => val_of tag raw | None => Raise KeyError end.
Proof.
  intros P T C. pose proof (value_called r 1 tag key P T C) as V.
  destruct (@getitem_ok _ _ (kind_of upper lower title all_digits r) (wfields r) (fields_back upper lower title all_digits r P) (special_alone upper lower title all_digits r) 2 key [] _ (valid_nil _ _) V) as (c' & Q & _).
  unfold wos_item. rewrite Q. reflexivity.
Qed.
Lemma get_called r tag key : plain r -> dhas tag wos_tags = true -> called_tag tag key ->
  wos_get upper lower title all_digits r key = match item r key with Ok v => Ok (Some v) | Raise KeyError => Ok None | Raise e => Raise e end.
Proof.
  intros P T C. pose proof (value_called r 1 tag key P T C) as V.
  destruct (@getitem_ok _ _ (kind_of upper lower title all_digits r) (wfields r) (fields_back upper lower title all_digits r P) (special_alone upper lower title all_digits r) 2 key [] _ (valid_nil _ _) V) as (c' & Q & _).
  unfold wos_item, wos_get, get. rewrite Q. destruct (dget tag (wfields r)) as [raw|]; [|reflexivity]. destruct (val_of tag raw) as [v|e]; [reflexivity|]. destruct e; reflexivity.
Qed.
(** what the value of the lines consists of *)
Definition good_value (v : fvalue) (ts : list thing) : Prop :=
  entries (atoms_of v) = map counted ts /\ entries (names_of v) = map shown_as ts /\ match v with FText _ | FTexts _ | FInt _ | FCites _ => True | _ => False end.
Lemma words l : good_value (FTexts l) (map Words l).
Proof. unfold good_value. cbn [atoms_of names_of entries]. rewrite !map_map. cbn [counted_as shown_as]. rewrite map_id. auto. Qed.
Lemma word s : good_value (FText s) [Words s].
Proof. repeat split. Qed.
Lemma number z : good_value (FInt z) [Number z].
Proof. repeat split. Qed.
Lemma no_has t s : no_part t s -> ~ has_part t s.
Proof. intros N (a & b & E). exact (N a b E). Qed.
Lemma says_value tag ls ts : says tag ls ts -> dhas tag wos_tags = true /\ exists v, val_of tag ls = Ok v /\ good_value v ts.
Proof.
  intros S. destruct S.
  - split; [each H; reflexivity|]. exists (FTexts ls). split; [apply C71_lines, H|apply words].
  - split; [reflexivity|]. destruct (C71_citations upper lower title all_digits ls) as (cs & V & F). exists (FCites cs). split; [exact V|]. unfold good_value. cbn [atoms_of names_of entries]. rewrite !map_map.
    clear V. split; [|split; [|exact I]]; induction F as [|l c ls cs E F IH]; cbn [map]; try reflexivity; rewrite IH; f_equal; cbn [counted_as shown_as].
    + unfold id_of. rewrite E. reflexivity.
    + destruct (C28_parse upper title l) as (c0 & E' & _ & _ & _ & _ & _ & _ & Q). rewrite E in E'. injection E' as <-. apply Q.
  - split; [each H; reflexivity|]. exists (FTexts items). split; [|apply words]. apply C71_list; auto. intros s I. apply no_has; auto.
  - split; [reflexivity|]. exists (FTexts items). split; [|apply words]. apply (C71_sponsors upper lower title all_digits items); auto. intros s I. apply no_has; auto.
  - split; [reflexivity|]. exists (FTexts items). split; [|apply words]. apply C71_keywords; auto. intros s I. apply no_has; auto.
  - split; [reflexivity|]. exists (FTexts items). split; [|apply words]. apply C71_keywords; auto. intros s I. apply no_has; auto.
  - split; [each H; reflexivity|]. eexists. split; [apply C71_text, H|apply word].
  - split; [each H; reflexivity|]. eexists. split; [apply C71_capitals, H|apply word].
  - split; [reflexivity|]. eexists. split; [apply C71_abstract|apply word].
  - split; [reflexivity|]. eexists. split; [apply C71_abstract|apply word].
  - split; [each H; reflexivity|]. eexists. split; [apply C71_first, H|apply word].
  - split; [each H; reflexivity|]. eexists. split; [apply C71_stripped, H|apply word].
  - split; [each H; reflexivity|]. eexists. split; [apply C71_number, H|apply number].
  - split; [reflexivity|]. eexists. split; [apply C71_year; [exact []|exact H]|apply number].
Qed.
(** what a look-up gives *)
Lemma item_tells r key ts : plain r -> tells upper lower key r ts ->
  (item r key = Raise KeyError /\ ts = [] /\ wos_get upper lower title all_digits r key = Ok None) \/
  (exists v, item r key = Ok v /\ good_value v ts /\ wos_get upper lower title all_digits r key = Ok (Some v)).
Proof.
  intros P (tag & C & [(N & T & ->)|(N & S)]).
  - left. assert (D : dget tag (wfields r) = None). { unfold lines_of in N. destruct (dget tag (wfields r)) as [raw|] eqn:E; [|reflexivity]. destruct (field_two r P _ _ E) as (_ & X & _). contradiction. }
    assert (I : item r key = Raise KeyError) by (rewrite (item_called r tag key P T C), D; reflexivity). split; [exact I|]. split; [reflexivity|]. rewrite (get_called r tag key P T C), I. reflexivity.
  - right. destruct (says_value _ _ _ S) as (T & v & V & G). unfold lines_of in *. destruct (dget tag (wfields r)) as [raw|] eqn:E; [|congruence].
    assert (I : item r key = Ok v) by (rewrite (item_called r tag key P T C), E; exact V). exists v. split; [exact I|]. split; [exact G|]. rewrite (get_called r tag key P T C), I. reflexivity.
Qed.
(** the year *)
Lemma year_of_lines r : plain r -> year_ok r ->
  (lines_of $"PY" r = [] /\ wos_year upper lower title all_digits r = Raise KeyError) \/ (exists y, (1000 <= y <= 9999)%Z /\ first_line $"PY" r = dec_Z y /\ wos_year upper lower title all_digits r = Ok y).
Proof.
  intros P Y. unfold wos_year. rewrite (item_called r $"PY" $"year" P); [|reflexivity|right; reflexivity].
  destruct (dget $"PY" (wfields r)) as [raw|] eqn:E.
  - right. destruct (year_value upper lower title all_digits r P Y raw E) as (y & vs & B & -> & V). exists y. split; [exact B|]. split; [unfold first_line, lines_of; rewrite E; reflexivity|]. rewrite V. reflexivity.
  - left. split; [unfold lines_of; rewrite E; reflexivity|reflexivity].
Qed.
End Proofs.
