(** C99: records as mappings. *)
From Coq Require Import String.
From Verif Require Import Base PyStr TagNames RecordModel RecordProofs PropertiesRecord RecordMapModel RecordMapSpec.
Set Implicit Arguments.

(** What each action shows on a record after any history of actions: single lookups show what they show on a fresh record, and the other methods what single lookups on fresh records say. *)
Definition mapping_like {Raw V} (cl : rclass Raw V) (fd : dict str Raw) : Prop :=
  forall n (h : list mact) (a : mact) (untitled : V) is_none item raw, 3 <= n ->
    (forall k, perform_all cl fd n [ItemOf k] [] = Some [SItem (item k)]) -> (forall k, perform_all cl fd n [RawOf k] [] = Some [SRaw (raw k)]) ->
    exists xs x, mperform_all cl fd untitled is_none n (h ++ [a]) [] = Some (xs ++ [x])%list /\ length xs = length h /\
      match a with One b => exists y, x = MOne y /\ perform_all cl fd n [b] [] = Some [y] | _ => shows fd item raw untitled is_none a x end.

Section Any.
Context {Raw V : Type}.
Variable cl : rclass Raw V.
Variable fd : dict str Raw.
Hypothesis inv : forall k a, alt cl k = Some a -> alt cl a = Some k.
Hypothesis one : one_name_each (alt cl) fd.
Hypothesis alone : forall k, special cl k <> None -> alt cl k = None.
Hypothesis stops : forall n k, value cl fd (3 + n) k <> None.
Variable n : nat.
Hypothesis enough : 3 <= n.
Variables (untitled : V) (is_none : V -> bool) (item : str -> res V) (raw : str -> option Raw).
Hypothesis fresh : forall k, perform_all cl fd n [ItemOf k] [] = Some [SItem (item k)].
Hypothesis fresh_raw : forall k, perform_all cl fd n [RawOf k] [] = Some [SRaw (raw k)].
Let back := @has_back _ _ cl fd inv one.
Let valid := valid cl fd.
Lemma item_value k : value cl fd n k = Some (item k).
Proof.
  pose proof (stops (n - 3) k) as S. replace (3 + (n - 3)) with n in S by lia. destruct (value cl fd n k) as [r|] eqn:E; [|contradiction].
  destruct (@getitem_ok _ _ cl fd back alone n k [] r (valid_nil cl fd) E) as (c' & Q & _). pose proof (fresh k) as F. cbn [perform_all perform] in F. rewrite Q in F. congruence.
Qed.
Lemma raw_value k : get_raw cl fd k = raw k.
Proof. pose proof (fresh_raw k) as F. cbn in F. congruence. Qed.
Lemma get_item k c : valid c -> exists c', getitem cl fd n k c = Some (item k, c') /\ valid c'.
Proof. intros A. apply (@getitem_ok _ _ cl fd back alone n k c (item k) A (item_value k)). Qed.
Lemma get_got k c : valid c -> exists r c', get cl fd n k c = Some (r, c') /\ valid c' /\ got item k r.
Proof.
  intros A. destruct (get_item k A) as (c' & Q & A'). unfold get, got. rewrite Q. destruct (item k) as [v|e]; [eauto|]. destruct e; eauto.
Qed.
Lemma walk_ok tags : forall c, valid c -> exists l e c', walk cl fd n tags c = Some (l, e, c') /\ valid c' /\ pairs item tags l e.
Proof.
  induction tags as [|t ts IH]; intros c A; cbn [walk]; [do 3 eexists; split; [reflexivity|split; [exact A|constructor]]|]. destruct (get_item t A) as (c1 & Q & A1). rewrite Q. destruct (item t) as [v|e] eqn:E.
  - destruct (IH c1 A1) as (l & e & c2 & W & A2 & P). rewrite W. do 3 eexists. split; [reflexivity|]. split; [exact A2|]. constructor; assumption.
  - do 3 eexists. split; [reflexivity|]. split; [exact A1|]. constructor. exact E.
Qed.
Lemma sub_ok tags : forall done d c, valid c -> (forall k, In k (dkeys d) <-> In k done) -> NoDup (dkeys d) -> (forall k v, dget k d = Some v -> got item k (Ok v)) ->
  exists r c', sub_dict cl fd n tags d c = Some (r, c') /\ valid c' /\ sub_is item (done ++ tags) r.
Proof.
  induction tags as [|t ts IH]; intros done d c A K ND G; cbn [sub_dict].
  - do 2 eexists. split; [reflexivity|]. split; [exact A|]. rewrite app_nil_r. cbn [sub_is]. auto.
  - destruct (get_got t A) as (r & c1 & Q & A1 & GT). rewrite Q. destruct r as [v|e].
    + destruct (IH (done ++ [t])%list (dset t v d) c1 A1) as (r & c2 & S & A2 & SI).
      * intros k. rewrite In_dkeys_dset, in_app_iff, K. cbn [In]. intuition congruence.
      * apply NoDup_dset. exact ND.
      * intros k w. rewrite dget_dset. destruct (eqb_spec k t) as [->|N]; [intros Q'; injection Q' as <-; exact GT|apply G].
      * rewrite S. do 2 eexists. split; [reflexivity|]. split; [exact A2|]. rewrite <- app_assoc in SI. exact SI.
    + do 2 eexists. split; [reflexivity|]. split; [exact A1|]. cbn [sub_is]. exists done, t, ts. split; [reflexivity|]. split; [exact GT|]. intros k I. apply K in I. apply dhas_spec in I. rewrite dhas_dget in I.
      destruct (dget k d) as [v|] eqn:D; [|discriminate]. exists v. apply G, D.
Qed.
Lemma sub_raw_ok tags : sub_raw_is raw tags (sub_raw cl fd tags).
Proof.
  unfold sub_raw. assert (G : forall tags done (d : dict str (option Raw)), sub_raw_is raw done d -> sub_raw_is raw (done ++ tags) (fold_left (fun d t => dset t (get_raw cl fd t) d) tags d)).
  { clear tags. induction tags as [|t ts IH]; intros done d S; cbn [fold_left]; [rewrite app_nil_r; exact S|]. replace (done ++ t :: ts)%list with ((done ++ [t]) ++ ts)%list by (rewrite <- app_assoc; reflexivity). apply IH. destruct S as (K & ND & G). split; [|split].
    - intros k. rewrite In_dkeys_dset, in_app_iff, K. cbn [In]. intuition congruence.
    - apply NoDup_dset. exact ND.
    - intros k w. rewrite dget_dset. destruct (eqb_spec k t) as [->|N]; [intros Q'; injection Q' as <-; apply raw_value|apply G]. }
  apply (G tags [] []). split; [|split]; [cbn; tauto|constructor|discriminate].
Qed.
Lemma mperform_ok a c : valid c -> exists x c', mperform cl fd untitled is_none n a c = Some (x, c') /\ valid c' /\
  match a with One b => exists y, x = MOne y /\ answer cl fd n b = Some y | _ => shows fd item raw untitled is_none a x end.
Proof.
  intros A. destruct a; cbn [mperform shows].
  - destruct (answer cl fd n a) as [y|] eqn:E; [|destruct (@answers _ _ cl fd stops n a enough E)]. destruct (@perform_ok _ _ cl fd back alone n a c y A E) as (c' & Q & A'). rewrite Q. eexists. exists c'. split; [reflexivity|]. split; [exact A'|]. exists y. auto.
  - eexists. exists c. split; [reflexivity|]. split; [exact A|reflexivity].
  - eexists. exists c. split; [reflexivity|]. split; [exact A|]. unfold dkeys. rewrite map_length. reflexivity.
  - destruct (walk_ok (dkeys fd) A) as (l & e & c' & W & A' & P). rewrite W. eexists. exists c'. split; [reflexivity|]. split; [exact A'|exact P].
  - destruct (walk_ok (dkeys fd) A) as (l & e & c' & W & A' & P). rewrite W. eexists. exists c'. split; [reflexivity|]. split; [exact A'|]. exists l. auto.
  - eexists. exists c. split; [reflexivity|]. split; [exact A|reflexivity].
  - eexists. exists c. split; [reflexivity|]. split; [exact A|reflexivity].
  - destruct (@sub_ok tags [] [] c A) as (r & c' & S & A' & SI); [cbn; tauto|constructor|discriminate|]. rewrite S. eexists. exists c'. split; [reflexivity|]. split; [exact A'|exact SI].
  - eexists. exists c. split; [reflexivity|]. split; [exact A|apply sub_raw_ok].
  - unfold title_of. destruct (get_got $"title" A) as (r & c' & Q & A' & G). rewrite Q. unfold got in G. destruct (item $"title") as [v|e]; [|destruct e]; rewrite G; eexists; exists c'; (split; [reflexivity|]); auto.
  - unfold authors_of. destruct (get_got $"authorsFull" A) as (r & c' & Q & A' & G). rewrite Q. destruct (get_got $"authorsShort" A') as (r2 & c2 & Q2 & A2 & G2). unfold got in G. destruct (item $"authorsFull") as [v|e].
    + rewrite G. destruct (is_none v); [rewrite Q2; eexists; exists c2; auto|eexists; exists c'; auto].
    + destruct e; rewrite G; first [rewrite Q2; eexists; exists c2; split; [reflexivity|]; split; [exact A2|]; exact G2|eexists; exists c'; split; [reflexivity|]; split; [exact A'|reflexivity]].
Qed.
Lemma mperform_all_ok l : forall c, valid c -> exists xs, mperform_all cl fd untitled is_none n l c = Some xs /\
  Forall2 (fun a x => match a with One b => exists y, x = MOne y /\ answer cl fd n b = Some y | _ => shows fd item raw untitled is_none a x end) l xs.
Proof.
  induction l as [|a l IH]; intros c A; cbn [mperform_all]; [eexists; split; [reflexivity|constructor]|]. destruct (mperform_ok a A) as (x & c' & Q & A' & S). rewrite Q. destruct (IH c' A') as (xs & W & F). rewrite W. eexists. split; [reflexivity|]. constructor; assumption.
Qed.
End Any.
Lemma any_mapping {Raw V} (cl : rclass Raw V) (fd : dict str Raw) : (forall k a, alt cl k = Some a -> alt cl a = Some k) -> one_name_each (alt cl) fd -> (forall k, special cl k <> None -> alt cl k = None) ->
  (forall n k, value cl fd (3 + n) k <> None) -> mapping_like cl fd.
Proof.
  intros inv one alone stops n h a untitled is_none item raw L F FR.
  destruct (@mperform_all_ok _ _ cl fd inv one alone stops n L untitled is_none item raw F FR (h ++ [a]) [] (valid_nil cl fd)) as (ys & Q & F2).
  apply Forall2_app_inv_l in F2. destruct F2 as (xs & zs & F1 & F2 & ->). inversion F2 as [|a' z l' zs' E F3]; subst. inversion F3; subst. exists xs, z. split; [exact Q|]. split; [clear - F1; induction F1; cbn; congruence|].
  destruct a; try exact E. destruct E as (y & -> & A). exists y. split; [reflexivity|]. destruct (@perform_ok _ _ cl fd (@has_back _ _ cl fd inv one) alone n a [] y (valid_nil cl fd) A) as (c' & P & _). cbn [perform_all]. rewrite P. reflexivity.
Qed.
(** C99 for the four kinds of records. *)
Theorem C99_wos : forall (Raw V : Type) f truthy piece cite (own_id : V) same no_grants (fd : dict str Raw), one_name_each wos_alt fd -> mapping_like (wos_class f truthy piece cite own_id same no_grants) fd.
Proof.
  intros Raw V f truthy piece cite own_id same ng fd one. apply any_mapping; [exact wos_back|exact one| |intros n k; apply wos_stops].
  intros k. unfold wos_class. cbn [special alt]. repeat (match goal with |- context [eqb k ?x] => destruct (eqb_spec k x) as [->|] end; [reflexivity|]). intros X. destruct (X eq_refl).
Qed.
Theorem C99_medline : forall (Raw V : Type) f truthy piece cite (own_id : V) g (fd : dict str Raw), one_name_each medline_alt fd -> mapping_like (medline_class f truthy piece cite own_id g) fd.
Proof.
  intros Raw V f truthy piece cite own_id g fd one. apply any_mapping; [exact medline_back|exact one| |intros n k; apply medline_stops].
  intros k. unfold medline_class. cbn [special alt]. unfold medline_made. repeat (match goal with |- context [eqb k ?x] => destruct (eqb_spec k x) as [->|] end; [reflexivity|]).
  destruct (dget k medline_same) as [t|] eqn:E.
  - intros _. apply dget_In in E. unfold medline_same in E. repeat (destruct E as [E|E]; [injection E as <- _; reflexivity|]). destruct E.
  - repeat (match goal with |- context [eqb k ?x] => destruct (eqb_spec k x) as [->|] end; [reflexivity|]). intros X. destruct (X eq_refl).
Qed.
Theorem C99_scopus : forall (Raw V : Type) f truthy piece cite spoilt mend (fd : dict str Raw), mapping_like (V:=V) (scopus_class f truthy piece cite spoilt mend) fd.
Proof. intros Raw V f truthy piece cite spoilt mend fd. apply any_mapping; [intros k a E; discriminate E|apply no_alt_one|intros k _; reflexivity|intros n k; apply scopus_stops]. Qed.
Theorem C99_proquest : forall (Raw V : Type) f truthy piece cite own_id zero word (fd : dict str Raw), mapping_like (V:=V) (proquest_class f truthy piece cite own_id zero word) fd.
Proof. intros Raw V f truthy piece cite own_id zero word fd. apply any_mapping; [intros k a E; discriminate E|apply no_alt_one|intros k _; reflexivity|intros n k; apply proquest_stops]. Qed.
(** The tags that a record shows when it is walked are in it and can be read as its fields; when all can be read, items() and values() have one element for each. *)
Theorem C99_walk : forall {V} (item : str -> res V) tags l, pairs item tags l None -> map fst l = tags /\ forall t v, In (t, v) l -> item t = Ok v.
Proof.
  intros V item tags l P. remember None as e eqn:E. induction P as [|t ts e' I|t ts v l x I P IH]; [split; [reflexivity|intros t v []]|discriminate|]. destruct (IH E) as [A B]. split; [cbn; rewrite A; reflexivity|].
  intros t' v' [Q|Q]; [injection Q as <- <-; exact I|apply B, Q].
Qed.
(** ** Example *)
Example C99_ex : mperform_all (ex_wos ex_fd) ex_fd $"Untitled record" (fun _ => false) 3
    [One (ItemOf $"title"); Tags; Len; Items; Values; Sub [$"year"; $"journal"; $"year"]; Title; Authors; RawItems] [] =
  Some [MOne (SItem (Ok $"On x")); MTags [$"TI"; $"AU"; $"PY"; $"zz"]; MLen 4; MItems [($"TI", $"On x"); ($"AU", $"Doe J"); ($"PY", $"1999"); ($"zz", $"?")] None; MValues [$"On x"; $"Doe J"; $"1999"; $"?"] None;
        MSub (Ok [($"year", Some $"1999"); ($"journal", None)]); MTitle (Ok $"On x"); MAuthors (Ok (Some $"Doe J")); MRawItems ex_fd].
Proof. vm_compute. reflexivity. Qed.
Print Assumptions C99_wos.
Print Assumptions C99_medline.
Print Assumptions C99_scopus.
Print Assumptions C99_proquest.
Print Assumptions C99_walk.
