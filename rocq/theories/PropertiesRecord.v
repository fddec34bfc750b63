(** C27, C51, C54 and C55: looking fields up in records; names of tags. *)
From Coq Require Import String.
From Verif Require Import Base PyStr TagNames RecordModel RecordProofs.
Set Implicit Arguments.

(** ** C27 *)
(** What the last action shows, after any history of lookups, is what it shows on a fresh record. *)
Definition history_free {Raw V} (cl : rclass Raw V) (fd : dict str Raw) : Prop :=
  forall n (h : list act) (a : act), 3 <= n ->
    exists xs x, perform_all cl fd n [a] [] = Some [x] /\ perform_all cl fd n (h ++ [a]) [] = Some (xs ++ [x])%list /\ length xs = length h.
(** After any history both names of a field give the same value, raw value and membership. *)
Definition names_agree {Raw V} (cl : rclass Raw V) (fd : dict str Raw) (k k' : str) : Prop :=
  forall n (h : list act), 3 <= n ->
    exists xs v b g r, perform_all cl fd n (h ++ [ItemOf k; ItemOf k'; IsIn k; IsIn k'; GetOf k; GetOf k'; RawOf k; RawOf k']) [] =
      Some (xs ++ [SItem v; SItem v; SIn b; SIn b; SGet g; SGet g; SRaw r; SRaw r])%list.
(** no two different fields of the record are the two names of one field *)
Definition one_name_each {Raw} (alt : str -> option str) (fd : dict str Raw) : Prop :=
  forall k k', In k (dkeys fd) -> In k' (dkeys fd) -> alt k = Some k' -> k = k'.

Section Any.
Context {Raw V : Type}.
Variable cl : rclass Raw V.
Variable fd : dict str Raw.
Hypothesis inv : forall k a, alt cl k = Some a -> alt cl a = Some k.
Hypothesis one : one_name_each (alt cl) fd.
Hypothesis alone : forall k, special cl k <> None -> alt cl k = None.
Hypothesis stops : forall n k, value cl fd (3 + n) k <> None.
Lemma has_back : forall k a, dget k fd <> None -> alt cl k = Some a -> alt cl a = Some k /\ (dget a fd = None \/ a = k).
Proof.
  intros k a K A. split; [apply inv, A|]. destruct (dget a fd) as [r|] eqn:E; [right|left; reflexivity]. symmetry. apply one; [| |exact A].
  - destruct (dget k fd) eqn:F; [apply dget_Some_key in F; exact F|contradiction].
  - apply dget_Some_key in E. exact E.
Qed.
Lemma answers n a : 3 <= n -> answer cl fd n a <> None.
Proof.
  intros L. apply answer_stops; intros k; [replace n with (3 + (n - 3)) by lia|replace (S n) with (3 + (S n - 3)) by lia]; apply stops.
Qed.
Lemma Forall2_unique {A B} (R : A -> B -> Prop) l xs ys : (forall a x y, R a x -> R a y -> x = y) -> Forall2 R l xs -> Forall2 R l ys -> xs = ys.
Proof. intros U F. revert ys. induction F as [|a x l xs R1 F IH]; intros ys G; inversion G; subst; [reflexivity|]. f_equal; [eapply U; eassumption|apply IH; assumption]. Qed.
Lemma any_history : history_free cl fd.
Proof.
  intros n h a L. assert (T : forall a, answer cl fd n a <> None) by (intros; apply answers, L).
  destruct (@perform_all_ok _ _ cl fd has_back alone n [a] T [] (valid_nil cl fd)) as (x & Q & F). destruct (@perform_all_ok _ _ cl fd has_back alone n (h ++ [a]) T [] (valid_nil cl fd)) as (y & Q' & F').
  inversion F as [|a' x0 l' xs E F0]; subst. inversion F0; subst.
  apply Forall2_app_inv_l in F'. destruct F' as (xs & zs & F1 & F2 & ->). inversion F2 as [|a' z l' zs' E' F3]; subst. inversion F3; subst.
  exists xs, x0. split; [exact Q|]. assert (z = x0) by congruence. subst z. split; [exact Q'|]. clear - F1. induction F1; cbn; congruence.
Qed.
Lemma any_names k k' : alt cl k = Some k' -> names_agree cl fd k k'.
Proof.
  intros A n h L. assert (T : forall a, answer cl fd n a <> None) by (intros; apply answers, L). pose proof (inv _ A) as B.
  assert (D : dget k fd = None \/ dget k' fd = None \/ k' = k) by (destruct (dget k fd) eqn:E; [right; apply (@has_back k k'); [congruence|exact A]|left; reflexivity]).
  assert (VN : forall m, value cl fd m k = value cl fd m k') by (intros m; apply value_names; auto using has_back).
  assert (SK : special cl k = None) by (destruct (special cl k) eqn:S; [rewrite (alone k) in A; congruence|reflexivity]).
  assert (SK' : special cl k' = None) by (destruct (special cl k') eqn:S; [rewrite (alone k') in B; congruence|reflexivity]).
  assert (RN : match resolve cl fd k with Some (_, r) => Some r | None => None end = match resolve cl fd k' with Some (_, r) => Some r | None => None end).
  { unfold resolve. rewrite A, B. destruct (dget k fd) eqn:E, (dget k' fd) eqn:E'; try reflexivity. destruct D as [D|[D|D]]; congruence. }
  assert (WN : within cl fd n k = within cl fd n k').
  { unfold within. rewrite SK, SK', !resolve_has. destruct (resolve cl fd k) as [[? ?]|], (resolve cl fd k') as [[? ?]|]; congruence. }
  destruct (@perform_all_ok _ _ cl fd has_back alone n (h ++ [ItemOf k; ItemOf k'; IsIn k; IsIn k'; GetOf k; GetOf k'; RawOf k; RawOf k']) T [] (valid_nil cl fd)) as (y & Q' & F').
  apply Forall2_app_inv_l in F'. destruct F' as (xs & zs & F1 & F2 & ->).
  repeat match goal with F : Forall2 _ (_ :: _) _ |- _ => inversion F; clear F; subst end.
  match goal with F : Forall2 _ [] _ |- _ => inversion F; clear F; subst end. cbn [answer] in *.
  repeat match goal with
  | H : option_map _ (value cl fd n k') = _ |- _ => rewrite <- (VN n) in H
  | H : option_map _ (within cl fd n k') = _ |- _ => rewrite <- WN in H
  | H : Some (SRaw (get_raw cl fd k')) = _ |- _ => unfold get_raw at 1 in H; rewrite <- RN in H
  | H : Some (SRaw (get_raw cl fd k)) = _ |- _ => unfold get_raw at 1 in H
  end.
  destruct (value cl fd n k) as [v|] eqn:E1; [|discriminate]. destruct (within cl fd n k) as [b|] eqn:E2; [|discriminate]. cbn [option_map] in *.
  repeat match goal with H : Some _ = Some _ |- _ => injection H as <- end.
  exists xs. do 4 eexists. exact Q'.
Qed.
End Any.

Lemma no_alt_one {Raw} (fd : dict str Raw) : one_name_each no_alt fd.
Proof. intros k k' _ _ E. discriminate. Qed.

(** C27 for the four kinds of records, whatever the tag functions do. *)
Theorem C27_wos :
  forall (Raw V : Type) f truthy piece cite (own_id : V) same no_grants (fd : dict str Raw),
    let cl := wos_class f truthy piece cite own_id same no_grants in
    one_name_each wos_alt fd ->
    history_free cl fd /\ forall k k', wos_alt k = Some k' -> names_agree cl fd k k'.
Proof.
  intros Raw V f truthy piece cite own_id same ng fd cl one.
  assert (AL : forall k, special cl k <> None -> alt cl k = None).
  { intros k. unfold cl, wos_class. cbn [special alt]. repeat (match goal with |- context [eqb k ?x] => destruct (eqb_spec k x) as [->|] end; [reflexivity|]). intros X. destruct (X eq_refl). }
  split; [apply any_history|intros k k'; apply (@any_names _ _ cl fd)]; try exact one; try exact AL; try exact wos_back; intros n k0; apply wos_stops.
Qed.
Print Assumptions C27_wos.
Theorem C27_medline :
  forall (Raw V : Type) f truthy piece cite (own_id : V) g (fd : dict str Raw),
    let cl := medline_class f truthy piece cite own_id g in
    one_name_each medline_alt fd ->
    history_free cl fd /\ forall k k', medline_alt k = Some k' -> names_agree cl fd k k'.
Proof.
  intros Raw V f truthy piece cite own_id g fd cl one.
  assert (AL : forall k, special cl k <> None -> alt cl k = None).
  { intros k. unfold cl, medline_class. cbn [special alt]. unfold medline_made. repeat (match goal with |- context [eqb k ?x] => destruct (eqb_spec k x) as [->|] end; [reflexivity|]).
    destruct (dget k medline_same) as [t|] eqn:E.
    - intros _. apply dget_In in E. unfold medline_same in E. repeat (destruct E as [E|E]; [injection E as <- _; reflexivity|]). destruct E.
    - repeat (match goal with |- context [eqb k ?x] => destruct (eqb_spec k x) as [->|] end; [reflexivity|]). intros X. destruct (X eq_refl). }
  split; [apply any_history|intros k k'; apply (@any_names _ _ cl fd)]; try exact one; try exact AL; try exact medline_back; intros n k0; apply medline_stops.
Qed.
Print Assumptions C27_medline.
Theorem C27_scopus :
  forall (Raw V : Type) f truthy piece cite spoilt mend (fd : dict str Raw), history_free (V:=V) (scopus_class f truthy piece cite spoilt mend) fd.
Proof.
  intros Raw V f truthy piece cite spoilt mend fd. refine (@any_history _ _ _ fd _ _ _ _); [intros k a E; discriminate E|apply no_alt_one|intros k _; reflexivity|intros n k; apply scopus_stops]. 
Qed.
Print Assumptions C27_scopus.
Theorem C27_proquest :
  forall (Raw V : Type) f truthy piece cite own_id zero word (fd : dict str Raw), history_free (V:=V) (proquest_class f truthy piece cite own_id zero word) fd.
Proof.
  intros Raw V f truthy piece cite own_id zero word fd. refine (@any_history _ _ _ fd _ _ _ _); [intros k a E; discriminate E|apply no_alt_one|intros k _; reflexivity|intros n k; apply proquest_stops].
Qed.
Print Assumptions C27_proquest.

(** an example: values are strings, [piece] is the text, the citation is the joined text *)
Definition ex_wos (fd : dict str str) : rclass str str :=
  wos_class (fun _ s => Ok s) (fun s => negb (eqb s [])) (fun _ s => Ok s) (fun l => Ok (join $", " l)) $"WOS:1" (fun s => s) [].
Definition ex_fd : dict str str := [($"TI", $"On x"); ($"AU", $"Doe J"); ($"PY", $"1999"); ($"zz", $"?")].
Example C27_example :
  one_name_each wos_alt ex_fd /\
  perform_all (ex_wos ex_fd) ex_fd 3 [ItemOf $"selfCitation"; ItemOf $"title"; IsIn $"year"; ItemOf $"journal"; IsIn $"journal"; CopyOf; RawOf $"year"; ItemOf $"zz"] [] =
  Some [SItem (Ok $"Doe J, 1999, On x"); SItem (Ok $"On x"); SIn (Ok true); SItem (Raise KeyError); SIn (Ok false); SCopy; SRaw (Some $"1999"); SItem (Ok $"?")].
Proof.
  split; [|vm_compute; reflexivity]. intros k k' A B E. simpl in A. repeat (destruct A as [<-|A]; [vm_compute in E; try (injection E as <-); simpl in B; repeat (destruct B as [B|B]; [discriminate|]); destruct B|]). destruct A.
Qed.
(** without the condition on the fields the value of a name depends on earlier lookups *)
Example C27_condition_needed :
  let fd := [($"TI", $"short"); ($"title", $"long")] in
  perform_all (ex_wos fd) fd 3 [ItemOf $"title"] [] = Some [SItem (Ok $"long")] /\
  perform_all (ex_wos fd) fd 3 [ItemOf $"TI"; ItemOf $"title"] [] = Some [SItem (Ok $"short"); SItem (Ok $"short")].
Proof. vm_compute. split; reflexivity. Qed.

(** ** C54: what is in a record can be read, and what is not cannot. *)
(** The lookup [R[k]] raises KeyError exactly when [k in R] is false. Restricted to records whose tag functions never raise
    KeyError; C54_refuted shows it is needed. *)
Theorem C54_readable_partial :
  forall (Raw V : Type) (cl : rclass Raw V) (fd : dict str Raw) n k v b,
    (forall t raw, In (t, raw) fd -> proc cl t raw <> Raise KeyError) ->
    perform_all cl fd (S n) [ItemOf k] [] = Some [SItem v] -> perform_all cl fd n [IsIn k] [] = Some [SIn b] ->
    (b = Ok false <-> v = Raise KeyError).
Proof.
  intros Raw V cl fd n k v b calm P1 P2.
  assert (calm' : forall t raw, dget t fd = Some raw -> proc cl t raw <> Raise KeyError) by (intros t raw E; apply calm, dget_In, E).
  unfold perform_all, perform in *. cbn [getitem dget] in P1. unfold contains_key in P2. rewrite resolve_has in P2. change (dhas k (@nil (str * V))) with false in P2. rewrite orb_false_r in P2.
  destruct (resolve cl fd k) as [[k' raw]|] eqn:R.
  - apply resolve_in in R. specialize (calm' _ _ R). destruct (proc cl k' raw) as [x|e]; injection P1 as <-; injection P2 as <-; split; intros Q; congruence.
  - destruct (special cl k) as [p|]; [|injection P1 as <-; injection P2 as <-; tauto].
    destruct (run (getitem cl fd n) p []) as [[r c']|]; [|discriminate].
    destruct r as [x|e]; [injection P1 as <-; injection P2 as <-; split; discriminate|]. injection P1 as <-. destruct e; injection P2 as <-; split; congruence.
Qed.
Print Assumptions C54_readable_partial.
(** C54 is false: fields that cannot be read although they are in the record. *)
Theorem C54_refuted :
  (forall (V : Type) f truthy piece cite (own_id : V) g, let fd := [($"PMID", [$"1"]); ($"ED", [$"Doe J"])] in
     perform_all (medline_class f truthy piece cite own_id g) fd 3 [IsIn $"ED"; ItemOf $"ED"; IsIn $"Editor"] [] =
     Some [SIn (Ok true); SItem (Raise KeyError); SIn (Ok false)]) /\
  (forall (V : Type) f truthy piece cite spoilt (mend : V -> option V -> option V -> option V -> res V), let fd := [($"EID", $"2-s2.0"); ($"Funding Text", $"x")] in
     perform_all (scopus_class f truthy piece cite spoilt mend) fd 3 [IsIn $"Funding Text"; ItemOf $"Funding Text"] [] = Some [SIn (Ok true); SItem (Raise KeyError)]) /\
  (forall truthy piece cite own_id same ng, let fd := [($"UT", [$"WOS:1"]); ($"PD", [$"Q1"])] in
     perform_all (wos_class (fun t raw => if eqb t $"PD" then month ascii_upper (fun _ => false) raw else Raise ValueError) truthy piece cite own_id same ng) fd 3 [IsIn $"month"; ItemOf $"month"] [] =
     Some [SIn (Ok true); SItem (Raise KeyError)]).
Proof. split; [|split]; intros; vm_compute; reflexivity. Qed.
Print Assumptions C54_refuted.
Example C54_example :
  (forall t raw, In (t, raw) ex_fd -> proc (ex_wos ex_fd) t raw <> Raise KeyError) /\
  perform_all (ex_wos ex_fd) ex_fd 4 [ItemOf $"month"] [] = Some [SItem (Raise KeyError)] /\ perform_all (ex_wos ex_fd) ex_fd 3 [IsIn $"month"] [] = Some [SIn (Ok false)].
Proof. split; [|split; vm_compute; reflexivity]. intros t raw _. unfold ex_wos, wos_class. cbn [proc]. destruct (dhas t wos_tags); discriminate. Qed.

(** ** C55: the common names of the fields *)
(** the field each common name stands for *)
Definition medline_stands : list (str * str) :=
  [($"authorsShort", $"AU"); ($"authorsFull", $"FAU"); ($"title", $"TI"); ($"journal", $"JT"); ($"j9", $"TA"); ($"keywords", $"OT"); ($"abstract", $"AB"); ($"grants", $"GR")].
Definition scopus_stands : list (str * str) :=
  [($"authorsShort", $"Authors"); ($"authorsFull", $"Authors"); ($"title", $"Title"); ($"year", $"Year"); ($"journal", $"Source title"); ($"j9", $"Abbreviated Source Title");
   ($"volume", $"Volume"); ($"beginningPage", $"Page start"); ($"citations", $"References"); ($"keywords", $"Index Keywords"); ($"abstract", $"Abstract"); ($"id", $"EID")].
Definition proquest_stands : list (str * str) :=
  [($"authorsShort", $"Author"); ($"authorsFull", $"Author"); ($"title", $"Title"); ($"year", $"Degree date"); ($"keywords", $"Identifier / keyword"); ($"abstract", $"Abstract")].
(** [R[name]] is [R[field]] after any history *)
Definition stands_for {Raw V} (cl : rclass Raw V) (fd : dict str Raw) (name field : str) : Prop :=
  forall n (h : list act), 3 <= n -> exists xs r, perform_all cl fd n (h ++ [ItemOf name; ItemOf field]) [] = Some (xs ++ [SItem r; SItem r])%list.
Section Stands.
Context {Raw V : Type}.
Variable cl : rclass Raw V.
Variable fd : dict str Raw.
Hypothesis inv : forall k a, alt cl k = Some a -> alt cl a = Some k.
Hypothesis one : one_name_each (alt cl) fd.
Hypothesis alone : forall k, special cl k <> None -> alt cl k = None.
Hypothesis stops : forall n k, value cl fd (3 + n) k <> None.
Lemma any_stands name field : ~ In name (dkeys fd) -> special cl name = Some (ask field (fun v => Ret (Ok v))) -> stands_for cl fd name field.
Proof.
  intros N S n h L. assert (T : forall a, answer cl fd n a <> None) by (intros; apply answers; assumption).
  destruct (@perform_all_ok _ _ cl fd (@has_back _ _ cl fd inv one) alone n (h ++ [ItemOf name; ItemOf field]) T [] (valid_nil cl fd)) as (y & Q & F).
  apply Forall2_app_inv_l in F. destruct F as (xs & zs & F1 & F2 & ->).
  repeat match goal with F : Forall2 _ (_ :: _) _ |- _ => inversion F; clear F; subst end.
  match goal with F : Forall2 _ [] _ |- _ => inversion F; clear F; subst end. cbn [answer] in *.
  destruct (value cl fd n name) as [r|] eqn:E1; [|discriminate]. destruct (value cl fd n field) as [r'|] eqn:E2; [|discriminate]. cbn [option_map] in *.
  assert (r = r'); [|subst r'; repeat match goal with H : Some _ = Some _ |- _ => injection H as <- end; eauto].
  destruct n as [|n]; [lia|]. pose proof E1 as E3. cbn [value] in E1. assert (A : alt cl name = None) by (apply alone; congruence). unfold resolve in E1. assert (D : dget name fd = None) by (destruct (dget name fd) eqn:D; [apply dget_Some_key in D; contradiction|reflexivity]).
  rewrite D, A, S in E1. unfold ask in E1. cbn [runp] in E1. destruct (value cl fd n field) as [x|] eqn:E4; [|discriminate].
  apply value_S in E4. rewrite E4 in E2. injection E2 as <-. destruct x; injection E1 as <-; reflexivity.
Qed.
End Stands.
Theorem C55_medline :
  forall (Raw V : Type) f truthy piece cite (own_id : V) g (fd : dict str Raw) name field,
    one_name_each medline_alt fd -> In (name, field) medline_stands -> ~ In name (dkeys fd) ->
    stands_for (medline_class f truthy piece cite own_id g) fd name field.
Proof.
  intros Raw V f truthy piece cite own_id g fd name field one I N.
  refine (@any_stands _ _ _ fd _ _ _ _ name field _ _); [exact medline_back|exact one| |intros; apply medline_stops|exact N|].
  - intros k. unfold medline_class. cbn [special alt]. unfold medline_made. repeat (match goal with |- context [eqb k ?x] => destruct (eqb_spec k x) as [->|] end; [reflexivity|]).
    destruct (dget k medline_same) as [t|] eqn:E.
    + intros _. apply dget_In in E. unfold medline_same in E. repeat (destruct E as [E|E]; [injection E as <- _; reflexivity|]). destruct E.
    + repeat (match goal with |- context [eqb k ?x] => destruct (eqb_spec k x) as [->|] end; [reflexivity|]). intros X. destruct (X eq_refl).
  - unfold medline_stands in I. repeat (destruct I as [I|I]; [injection I as <- <-; reflexivity|]). destruct I.
Qed.
Print Assumptions C55_medline.
Theorem C55_scopus :
  forall (Raw V : Type) f truthy piece cite spoilt mend (fd : dict str Raw) name field,
    In (name, field) scopus_stands -> ~ In name (dkeys fd) -> stands_for (V:=V) (scopus_class f truthy piece cite spoilt mend) fd name field.
Proof.
  intros Raw V f truthy piece cite spoilt mend fd name field I N.
  refine (@any_stands _ _ _ fd _ _ _ _ name field _ _); [intros k a E; discriminate E|apply no_alt_one|intros k _; reflexivity|intros; apply scopus_stops|exact N|].
  unfold scopus_stands in I. repeat (destruct I as [I|I]; [injection I as <- <-; reflexivity|]). destruct I.
Qed.
Print Assumptions C55_scopus.
(** the full statement has no exception for 'authorsFull' *)
Theorem C55_proquest_partial :
  forall (Raw V : Type) f truthy piece cite own_id zero word (fd : dict str Raw) name field,
    In (name, field) proquest_stands -> name <> $"authorsFull" -> ~ In name (dkeys fd) -> stands_for (V:=V) (proquest_class f truthy piece cite own_id zero word) fd name field.
Proof.
  intros Raw V f truthy piece cite own_id zero word fd name field I X N.
  refine (@any_stands _ _ _ fd _ _ _ _ name field _ _); [intros k a E; discriminate E|apply no_alt_one|intros k _; reflexivity|intros; apply proquest_stops|exact N|].
  unfold proquest_stands in I. repeat (destruct I as [I|I]; [injection I as <- <-; try (destruct (X eq_refl)); reflexivity|]). destruct I.
Qed.
Print Assumptions C55_proquest_partial.
(** C55 is false of the authors of ProQuest records: 'authorsFull' is the word Author. *)
Theorem C55_proquest_refuted :
  forall truthy piece cite own_id zero, let fd := [($"Author", [$"Doe, Jane"])] in
    perform_all (proquest_class (fun _ raw => Ok (hd [] raw)) truthy piece cite own_id zero $"Author") fd 3 [ItemOf $"authorsFull"; ItemOf $"Author"; ItemOf $"authorsShort"] [] =
    Some [SItem (Ok $"Author"); SItem (Ok $"Doe, Jane"); SItem (Ok $"Doe, Jane")].
Proof. intros. vm_compute. reflexivity. Qed.
Print Assumptions C55_proquest_refuted.
Example C55_example :
  let fd := [($"EID", $"2-s2.0"); ($"Title", $"On x"); ($"Year", $"1999")] in
  In ($"title", $"Title") scopus_stands /\ ~ In $"title" (dkeys fd) /\
  perform_all (scopus_class (fun _ s => Ok s) (fun s => negb (eqb s [])) (fun _ s => Ok s) (fun l => Ok (join $" " l)) (fun _ => false) (fun c _ _ _ => Ok c)) fd 3
    [IsIn $"title"; ItemOf $"title"; ItemOf $"Title"; ItemOf $"selfCitation"; IsIn $"volume"] [] =
  Some [SIn (Ok true); SItem (Ok $"On x"); SItem (Ok $"On x"); SItem (Ok $"On x 1999"); SIn (Ok false)].
Proof. split; [simpl; tauto|]. split; [intros K; simpl in K; repeat (destruct K as [K|K]; [discriminate|]); destruct K|vm_compute; reflexivity]. Qed.

(** ** C51 *)
(** [upper] is python's; only its effect on ASCII text is used *)
Definition ascii_case (upper : str -> str) : Prop := forall s, forallb ascii_char s = true -> upper s = ascii_upper s.
(** C51: tag, name and back; both conversions leave their results alone. *)
Theorem C51_round_trip :
  forall upper tag name, ascii_case upper -> In (tag, name) wos_tags ->
    tag_to_full tag = Ok name /\ wos_alt tag = Some name /\ wos_alt name = Some tag /\
    normalize_to_name tag = Ok name /\ normalize_to_name name = Ok name /\
    normalize_to_tag upper name = Ok tag /\ normalize_to_tag upper tag = Ok tag.
Proof.
  intros upper tag name U K.
  assert (F : forallb (fun p : str * str => match tag_to_full (fst p), wos_alt (fst p), normalize_to_name (fst p), normalize_to_name (snd p) with Ok a, Some b, Ok c, Ok d => eqb a (snd p) && eqb b (snd p) && eqb c (snd p) && eqb d (snd p) | _, _, _, _ => false end) wos_tags = true) by (vm_compute; reflexivity).
  rewrite forallb_forall in F. specialize (F _ K). cbn [fst snd] in F.
  destruct (tag_to_full tag) as [a|] eqn:E1; [|discriminate]. destruct (wos_alt tag) as [b|] eqn:E2; [|discriminate]. destruct (normalize_to_name tag) as [c|] eqn:E3; [|discriminate]. destruct (normalize_to_name name) as [d|] eqn:E4; [|discriminate].
  rewrite !andb_true_iff in F. destruct F as (((F1 & F2) & F3) & F4). apply eqb_eq in F1, F2, F3, F4. subst a b c d.
  split; [reflexivity|]. split; [reflexivity|]. split; [apply wos_back, E2|]. split; [reflexivity|]. split; [reflexivity|].
  split; apply (@normalize_makes upper U (tag, name)); try exact K; cbn [fst snd]; [right; reflexivity|left].
  destruct (@upper_names upper U (tag, name) K) as (A & _). exact A.
Qed.
Print Assumptions C51_round_trip.
(** C51: what the test accepts are the tags and the names. *)
Theorem C51_accepted :
  forall s, is_tag_or_name s = true <-> exists tag name, In (tag, name) wos_tags /\ (s = tag \/ s = name).
Proof.
  intros s. unfold is_tag_or_name. rewrite mem_In, wos_tables, in_app_iff, !in_map_iff. split.
  - intros [([t m] & <- & K)|([t m] & <- & K)]; exists t, m; auto.
  - intros (t & m & K & [->| ->]); [left|right]; exists (t, m); auto.
Qed.
Print Assumptions C51_accepted.
(** C51: conversion to tags ignores case and accepts nothing else. *)
Theorem C51_to_tag :
  forall upper s, ascii_case upper ->
    (forall tag, normalize_to_tag upper s = Ok tag <-> exists name, In (tag, name) wos_tags /\ (upper s = tag \/ upper s = upper name)) /\
    ((forall tag, normalize_to_tag upper s <> Ok tag) -> normalize_to_tag upper s = Raise KeyError).
Proof.
  intros upper s U. pose proof (@normalize_spec upper U s) as N. split.
  - intros tag. split.
    + intros E. rewrite E in N. destruct N as ([t m] & A & <- & B). exists m. auto.
    + intros (m & A & B). apply (@normalize_makes upper U (tag, m)); assumption.
  - intros X. destruct (normalize_to_tag upper s) as [t|e]; [destruct (X t eq_refl)|]. destruct N as [-> _]. reflexivity.
Qed.
Print Assumptions C51_to_tag.
Example C51_example :
  ascii_case ascii_upper /\ In ($"J9", $"j9") wos_tags /\ normalize_to_tag ascii_upper $"AuthorsFull" = Ok $"AF" /\ normalize_to_tag ascii_upper $"xx" = Raise KeyError /\ length wos_tags = 61.
Proof. split; [intros s _; reflexivity|]. split; [apply mem_In; vm_compute; reflexivity|]. vm_compute. auto. Qed.
