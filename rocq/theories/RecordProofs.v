(** Proofs for C27 and C54: lookups do not depend on what was looked up before. *)
From Coq Require Import String.
From Verif Require Import Base PyStr TagNames RecordModel.
Set Implicit Arguments.

Section Proofs.
Context {Raw V : Type}.
Variable cl : rclass Raw V.
Variable fd : dict str Raw.
(** no two fields of the record are names of each other, and the alternative name of a field leads back to it *)
Hypothesis back : forall k a, dget k fd <> None -> alt cl k = Some a -> alt cl a = Some k /\ (dget a fd = None \/ a = k).
(** special keys have no other name *)
Hypothesis alone : forall k, special cl k <> None -> alt cl k = None.

Fixpoint runp (get : str -> option (res V)) (p : prog V) : option (res V) :=
  match p with
  | Ret r => Some r
  | Ask k f => match get k with Some r => runp get (f r) | None => None end
  end.
(** the value of a key, without memo *)
Fixpoint value (n : nat) (key : str) : option (res V) :=
  match n with
  | 0 => None
  | S n' =>
    match resolve cl fd key with
    | Some (k, raw) => Some (proc cl k raw)
    | None => match special cl key with None => Some (Raise KeyError) | Some p => runp (value n') p end
    end
  end.
Lemma runp_mono g h p r : (forall k x, g k = Some x -> h k = Some x) -> runp g p = Some r -> runp h p = Some r.
Proof.
  intros M. induction p as [x|k f IH]; cbn; [auto|]. destruct (g k) as [x|] eqn:E; [|discriminate]. rewrite (M _ _ E). apply IH.
Qed.
Lemma value_S n k r : value n k = Some r -> value (S n) k = Some r.
Proof.
  revert k r. induction n as [|n IH]; intros k r; [discriminate|]. change (value (S n) k) with
    (match resolve cl fd k with Some (k', raw) => Some (proc cl k' raw) | None => match special cl k with None => Some (Raise KeyError) | Some p => runp (value n) p end end).
  change (value (S (S n)) k) with
    (match resolve cl fd k with Some (k', raw) => Some (proc cl k' raw) | None => match special cl k with None => Some (Raise KeyError) | Some p => runp (value (S n)) p end end).
  destruct (resolve cl fd k) as [[k' raw]|]; [auto|]. destruct (special cl k) as [p|]; [|auto]. apply runp_mono. exact IH.
Qed.
Lemma value_le n m k r : n <= m -> value n k = Some r -> value m k = Some r.
Proof. induction 1; [auto|]. intros K. apply value_S. auto. Qed.
Lemma value_det n m k r s : value n k = Some r -> value m k = Some s -> r = s.
Proof. intros A B. destruct (Nat.le_ge_cases n m) as [L|L]; [apply (value_le _ L) in A|apply (value_le _ L) in B]; congruence. Qed.

(** everything memoised is what a fresh record gives *)
Definition valid (c : dict str V) : Prop := forall k v, dget k c = Some v -> exists m, value m k = Some (Ok v).
Lemma valid_nil : valid [].
Proof. intros k v. discriminate. Qed.
Lemma valid_dset m k v c : valid c -> value m k = Some (Ok v) -> valid (dset k v c).
Proof. intros A B k' v' K. rewrite dget_dset in K. destruct (eqb_spec k' k) as [->|N]; [injection K as <-; eauto|apply A, K]. Qed.
Lemma resolve_own k raw : dget k fd = Some raw -> resolve cl fd k = Some (k, raw).
Proof. intros E. unfold resolve. rewrite E. reflexivity. Qed.
Lemma resolve_in key k raw : resolve cl fd key = Some (k, raw) -> dget k fd = Some raw.
Proof. unfold resolve. destruct (dget key fd) eqn:E; [intros Q; injection Q as <- <-; exact E|]. destruct (alt cl key) as [a|]; [|discriminate]. destruct (dget a fd) eqn:F; [|discriminate]. intros Q. injection Q as <- <-. exact F. Qed.
Lemma resolve_alt k raw a : dget k fd = Some raw -> alt cl k = Some a -> resolve cl fd a = Some (k, raw).
Proof.
  intros E A. destruct (@back k a) as [B [D| ->]]; [congruence|exact A| |apply resolve_own, E].
  unfold resolve. rewrite D, B, E. reflexivity.
Qed.
Lemma valid_memo_field k raw v c : dget k fd = Some raw -> proc cl k raw = Ok v -> valid c -> valid (memo cl k v c).
Proof.
  intros E P A. assert (K : value 1 k = Some (Ok v)) by (cbn; rewrite (@resolve_own k raw E), P; reflexivity).
  unfold memo. destruct (alt cl k) as [a|] eqn:F; [|apply (@valid_dset 1); assumption].
  apply (@valid_dset 1); [apply (@valid_dset 1); assumption|]. cbn. rewrite (@resolve_alt k raw a E F), P. reflexivity.
Qed.
Lemma valid_memo_special m k v c : special cl k <> None -> value m k = Some (Ok v) -> valid c -> valid (memo cl k v c).
Proof. intros E P A. unfold memo. rewrite (@alone k E). apply (@valid_dset m); assumption. Qed.

Lemma run_ok get g p : (forall k c r, valid c -> g k = Some r -> exists c', get k c = Some (r, c') /\ valid c') ->
  forall c r, valid c -> runp g p = Some r -> exists c', run get p c = Some (r, c') /\ valid c'.
Proof.
  intros G. induction p as [x|k f IH]; intros c r A K; cbn in *.
  - injection K as ->. eauto.
  - destruct (g k) as [x|] eqn:E; [|discriminate]. destruct (G k c x A E) as (c' & Q & A'). rewrite Q. apply IH; assumption.
Qed.
Lemma getitem_ok n : forall k c r, valid c -> value n k = Some r -> exists c', getitem cl fd n k c = Some (r, c') /\ valid c'.
Proof.
  induction n as [|n IH]; intros k c r A K; [discriminate|].
  change (getitem cl fd (S n) k c) with
   (match dget k c with
    | Some v => Some (Ok v, c)
    | None => match resolve cl fd k with
      | Some (k', raw) => match proc cl k' raw with Ok v => Some (Ok v, memo cl k' v c) | Raise e => Some (Raise e, c) end
      | None => match special cl k with
        | None => Some (Raise KeyError, c)
        | Some p => match run (getitem cl fd n) p c with
                    | Some (Ok v, c') => Some (Ok v, memo cl k v c') | Some (Raise e, c') => Some (Raise e, c') | None => None end
        end end end).
  destruct (dget k c) as [v|] eqn:D.
  { destruct (A _ _ D) as (m & B). rewrite (value_det _ _ _ K B). eauto. }
  pose proof K as K'. cbn [value] in K. destruct (resolve cl fd k) as [[k' raw]|] eqn:R.
  - injection K as <-. apply resolve_in in R. destruct (proc cl k' raw) as [v|e] eqn:P; [|eauto]. eexists. split; [reflexivity|]. apply (@valid_memo_field k' raw v c R P A).
  - destruct (special cl k) as [p|] eqn:S; [|injection K as <-; eauto].
    destruct (run_ok (getitem cl fd n) (value n) p IH A K) as (c' & Q & A'). rewrite Q. destruct r as [v|e]; [|eauto].
    eexists. split; [reflexivity|]. apply (@valid_memo_special (Datatypes.S n)); [congruence|exact K'|exact A'].
Qed.

(** membership without memo *)
Definition within (n : nat) (k : str) : option (res bool) :=
  if dhas k fd || match alt cl k with Some a => dhas a fd | None => false end then Some (Ok true)
  else match special cl k with
       | None => Some (Ok false)
       | Some p => match runp (value n) p with
                   | Some (Ok _) => Some (Ok true) | Some (Raise KeyError) => Some (Ok false) | Some (Raise e) => Some (Raise e) | None => None end
       end.
Lemma resolve_has k : (dhas k fd || match alt cl k with Some a => dhas a fd | None => false end) = match resolve cl fd k with Some _ => true | None => false end.
Proof.
  unfold resolve. rewrite (dhas_dget k fd). destruct (dget k fd); [reflexivity|]. cbn. destruct (alt cl k) as [a|]; [|reflexivity]. rewrite dhas_dget. destruct (dget a fd); reflexivity.
Qed.
Lemma contains_ok n k c r : valid c -> within n k = Some r -> exists c', contains_key cl fd n k c = Some (r, c') /\ valid c'.
Proof.
  intros A K. unfold within in K. unfold contains_key. rewrite resolve_has in *. destruct (resolve cl fd k) as [x|] eqn:R; cbn [orb] in *; [injection K as <-; eauto|].
  destruct (dhas k c) eqn:D.
  - rewrite dhas_dget in D. destruct (dget k c) as [v|] eqn:E; [|discriminate]. destruct (A _ _ E) as (m & B). eexists. split; [|exact A]. f_equal. f_equal.
    destruct (special cl k) as [p|] eqn:S.
    + destruct (runp (value n) p) as [x|] eqn:P; [|discriminate]. assert (x = Ok v).
      { apply (@value_det (Datatypes.S n) m k); [cbn [value]; rewrite R, S; exact P|exact B]. }
      subst x. congruence.
    + destruct m; [discriminate|]. cbn [value] in B. rewrite R, S in B. discriminate.
  - destruct (special cl k) as [p|] eqn:S; [|injection K as <-; eauto].
    destruct (runp (value n) p) as [x|] eqn:P; [|discriminate].
    destruct (run_ok (getitem cl fd n) (value n) p (getitem_ok n) A P) as (c' & Q & A'). rewrite Q. destruct x as [v|e].
    + injection K as <-. eexists. split; [reflexivity|]. apply (@valid_memo_special (Datatypes.S n)); [congruence| |exact A']. cbn [value]. rewrite R, S. exact P.
    + exists c'. split; [|exact A']. destruct e; injection K as <-; reflexivity.
Qed.

(** what an action shows, without memo *)
Definition answer (n : nat) (a : act) : option (@shown Raw V) :=
  match a with
  | ItemOf k => option_map (fun r => SItem r) (value n k)
  | IsIn k => option_map (fun r => SIn r) (within n k)
  | GetOf k => option_map (fun r => SGet match r with Ok v => Ok (Some v) | Raise KeyError => Ok None | Raise e => Raise e end) (value n k)
  | RawOf k => Some (SRaw (get_raw cl fd k))
  | CopyOf => Some SCopy
  end.
Lemma perform_ok n a c x : valid c -> answer n a = Some x -> exists c', perform cl fd n a c = Some (x, c') /\ valid c'.
Proof.
  intros A K. destruct a as [k|k|k|k|]; cbn in *.
  - destruct (value n k) as [r|] eqn:E; [|discriminate]. injection K as <-. destruct (getitem_ok n k A E) as (c' & Q & A'). rewrite Q. eauto.
  - destruct (within n k) as [r|] eqn:E; [|discriminate]. injection K as <-. destruct (contains_ok n k A E) as (c' & Q & A'). rewrite Q. eauto.
  - destruct (value n k) as [r|] eqn:E; [|discriminate]. injection K as <-. destruct (getitem_ok n k A E) as (c' & Q & A'). unfold get. rewrite Q. destruct r as [v|e]; [eauto|destruct e; eauto].
  - injection K as <-. eauto.
  - injection K as <-. exists []. split; [reflexivity|apply valid_nil].
Qed.
Lemma perform_all_ok n l : (forall a, answer n a <> None) -> forall c, valid c ->
  exists xs, perform_all cl fd n l c = Some xs /\ Forall2 (fun a x => answer n a = Some x) l xs.
Proof.
  intros T. induction l as [|a l IH]; intros c A; cbn; [eexists; split; [reflexivity|constructor]|].
  destruct (answer n a) as [x|] eqn:E; [|destruct (T a E)]. destruct (perform_ok n a A E) as (c' & Q & A'). rewrite Q. destruct (IH c' A') as (xs & Q' & F). rewrite Q'. eauto.
Qed.

(** *** recursion stops *)
Inductive asks_only (P : str -> Prop) : prog V -> Prop :=
| AR r : asks_only P (Ret r)
| AA k f : P k -> (forall r, asks_only P (f r)) -> asks_only P (Ask k f).
Lemma asks_runp g P p : asks_only P p -> (forall k, P k -> g k <> None) -> runp g p <> None.
Proof. intros A G. induction A as [r|k f K _ IH]; cbn; [discriminate|]. destruct (g k) eqn:E; [apply IH|destruct (G _ K E)]. Qed.
Lemma value_stops n k P : (forall p, special cl k = Some p -> asks_only P p) -> (forall k', P k' -> value n k' <> None) -> value (S n) k <> None.
Proof. intros A G. cbn [value]. destruct (resolve cl fd k) as [[k' raw]|]; [discriminate|]. destruct (special cl k) as [p|]; [|discriminate]. eapply asks_runp; [apply A; reflexivity|exact G]. Qed.
Lemma stops_le n m k : n <= m -> value n k <> None -> value m k <> None.
Proof. intros L A. destruct (value n k) as [r|] eqn:E; [|contradiction]. rewrite (value_le _ L E). discriminate. Qed.
Lemma answer_stops n : (forall k, value n k <> None) -> (forall k, value (S n) k <> None) -> forall a, answer n a <> None.
Proof.
  intros T T' [k|k|k|k|]; cbn [answer]; try discriminate.
  - specialize (T k). destruct (value n k); [discriminate|contradiction].
  - specialize (T' k). unfold within. rewrite resolve_has. cbn [value] in T'. destruct (resolve cl fd k) as [[? ?]|]; [discriminate|].
    destruct (special cl k) as [p|]; [|discriminate]. destruct (runp (value n) p) as [[v|e]|]; [discriminate|destruct e; discriminate|contradiction].
  - specialize (T k). destruct (value n k); [discriminate|contradiction].
Qed.

(** *** both names give the same value *)
Lemma value_names n k a : alt cl k = Some a -> alt cl a = Some k -> (dget k fd = None \/ dget a fd = None \/ a = k) -> value n k = value n a.
Proof.
  intros A B N. destruct n as [|n]; [reflexivity|]. cbn [value]. destruct (dget k fd) as [raw|] eqn:E.
  - rewrite (@resolve_own k raw E). rewrite (@resolve_alt k raw a E A). reflexivity.
  - destruct (dget a fd) as [raw|] eqn:F.
    + rewrite (@resolve_own a raw F), (@resolve_alt a raw k F B). reflexivity.
    + unfold resolve. rewrite E, F, A, B, E, F. destruct (special cl k) eqn:S; [rewrite (@alone k) in A; [discriminate|congruence]|]. destruct (special cl a) eqn:S'; [rewrite (@alone a) in B; [discriminate|congruence]|]. reflexivity.
Qed.
End Proofs.

Lemma asks_weaken {V} (P Q : str -> Prop) (p : prog V) : (forall k, P k -> Q k) -> asks_only P p -> asks_only Q p.
Proof. intros W A. induction A; constructor; auto. Qed.
Section Ask.
Context {V : Type}.
Variable P : str -> Prop.
Lemma asks_ask k (f : V -> prog V) : P k -> (forall v, asks_only P (f v)) -> asks_only P (ask k f).
Proof. intros A B. constructor; [exact A|]. intros [v|e]; [apply B|constructor]. Qed.
Lemma asks_get k (f : option V -> prog V) : P k -> (forall v, asks_only P (f v)) -> asks_only P (ask_get k f).
Proof. intros A B. constructor; [exact A|]. intros [v|e]; [apply B|]. destruct e; try apply B; constructor. Qed.
Lemma asks_part truthy piece k (f g : list str -> prog V) acc : P k -> (forall l, asks_only P (f l)) -> (forall l, asks_only P (g l)) -> asks_only P (part truthy piece k f acc g).
Proof.
  intros A B C. apply asks_get; [exact A|]. intros [v|]; [|apply C]. destruct (truthy v); [|apply C]. apply asks_ask; [exact A|]. intros v2. destruct (piece k v2); [apply B|constructor].
Qed.
Lemma asks_parts truthy piece ks (fin : list str -> prog V) acc : (forall k, In k ks -> P k) -> (forall l, asks_only P (fin l)) -> asks_only P (parts truthy piece ks fin acc).
Proof.
  intros A B. revert acc. induction ks as [|k ks IH]; intros acc; cbn [parts]; [apply B|]. apply asks_part; [apply A; left; reflexivity| |]; intros l; apply IH; intros k' K; apply A; right; exact K.
Qed.
Lemma asks_create truthy piece cite : (forall k, In k [$"authorsShort"; $"year"; $"j9"; $"title"; $"volume"; $"beginningPage"; $"DOI"] -> P k) -> asks_only (V:=V) P (create_citation truthy piece cite).
Proof.
  intros A. unfold create_citation. apply asks_parts; [intros k K; apply A; simpl in *; tauto|]. intros l.
  assert (R : forall acc, asks_only P (parts truthy piece [$"volume"; $"beginningPage"; $"DOI"] (fun acc => Ret (cite acc)) acc)) by (intros acc; apply asks_parts; [intros k K; apply A; simpl in *; tauto|intros; constructor]).
  apply asks_part; [apply A; simpl; tauto|exact R|]. intros l'. apply asks_part; [apply A; simpl; tauto|exact R|exact R].
Qed.
Lemma asks_scopus truthy piece cite spoilt mend : (forall k, In k [$"authorsShort"; $"title"; $"year"; $"journal"; $"volume"; $"beginningPage"] -> P k) -> asks_only (V:=V) P (scopus_citation truthy piece cite spoilt mend).
Proof.
  intros A. unfold scopus_citation. apply asks_parts; [exact A|]. intros l. destruct (cite l) as [c|]; [|constructor]. destruct (spoilt c); [|constructor].
  apply asks_get; [apply A; simpl; tauto|]. intros y. apply asks_get; [apply A; simpl; tauto|]. intros t. apply asks_get; [apply A; simpl; tauto|]. intros j. constructor.
Qed.
End Ask.

(** *** the tables *)
Lemma alt_back (d : dict str str) : forallb (fun k => match dget k d with Some a => match dget a d with Some k' => eqb k' k | None => false end | None => false end) (dkeys d) = true ->
  forall k a, dget k d = Some a -> dget a d = Some k.
Proof.
  intros F k a E. rewrite forallb_forall in F. assert (K : In k (dkeys d)) by (apply dget_Some_key in E; exact E). specialize (F k K). rewrite E in F. destruct (dget a d) as [k'|]; [|discriminate]. apply eqb_eq in F. congruence.
Qed.
Lemma wos_back k a : wos_alt k = Some a -> wos_alt a = Some k.
Proof. apply alt_back. vm_compute. reflexivity. Qed.
Lemma medline_back k a : medline_alt k = Some a -> medline_alt a = Some k.
Proof. apply alt_back. vm_compute. reflexivity. Qed.

(** *** the four kinds stop after three nested lookups *)
Section Levels.
Context {Raw V : Type}.
Variable fd : dict str Raw.
Lemma plain_stops (cl : rclass Raw V) k n : special cl k = None -> value cl fd (S n) k <> None.
Proof. intros E. apply (@value_stops _ _ cl fd n k (fun _ => False)); [congruence|tauto]. Qed.
(** special keys asking only keys that are not special, and then those asking only such keys *)
Lemma two_levels (cl : rclass Raw V) (P Q : str -> Prop) :
  (forall k, P k -> special cl k = None) ->
  (forall k p, Q k -> special cl k = Some p -> asks_only P p) ->
  (forall k p, special cl k = Some p -> asks_only Q p) ->
  forall n k, value cl fd (3 + n) k <> None.
Proof.
  intros A B C n k. apply (@stops_le _ _ cl fd 3); [lia|]. apply (@value_stops _ _ cl fd 2 k Q); [apply C|]. intros k1 K1.
  apply (@value_stops _ _ cl fd 1 k1 P); [intros p; apply B, K1|]. intros k2 K2. apply plain_stops, A, K2.
Qed.
End Levels.
Section Kinds.
Context {Raw V : Type}.
Variable f : str -> Raw -> res V.
Variable truthy : V -> bool.
Variable piece : str -> V -> res str.
Variable cite : list str -> res V.
Variable own_id : V.
Variable fd : dict str Raw.

Lemma wos_stops same ng n k : value (wos_class f truthy piece cite own_id same ng) fd (3 + n) k <> None.
Proof.
  apply (@two_levels _ _ fd (wos_class f truthy piece cite own_id same ng) (fun k => special (wos_class f truthy piece cite own_id same ng) k = None) (fun k => special (wos_class f truthy piece cite own_id same ng) k = None)); [auto|congruence|].
  intros k' p. cbn. destruct (eqb k' _); [intros E; injection E as <-|destruct (eqb k' _); [intros E; injection E as <-; constructor|destruct (eqb k' _); [intros E; injection E as <-; constructor|discriminate]]].
  apply asks_create. intros k2 K. repeat (destruct K as [<-|K]; [reflexivity|]). destruct K.
Qed.
Lemma medline_stops g n k : value (medline_class f truthy piece cite own_id g) fd (3 + n) k <> None.
Proof.
  set (cl := medline_class f truthy piece cite own_id g).
  set (P := fun k => special cl k = None).
  assert (M : forall k p, medline_made g k = Some p -> asks_only P p).
  { intros k' p. unfold medline_made.
    destruct (eqb k' $"year").
    { intros E. injection E as <-. apply asks_ask; [reflexivity|]. intros v. destruct (g k' [v]) as [x|e]; [constructor|]. destruct e; try apply AR. apply asks_ask; [reflexivity|]. intros v2. constructor. }
    repeat (destruct (eqb k' _); [intros E; injection E as <-; repeat (apply asks_ask; [reflexivity|intros ?]); constructor|]). discriminate. }
  assert (S : forall k t, dget k medline_same = Some t -> P t).
  { intros k' t E. apply dget_In in E. unfold medline_same in E. repeat (destruct E as [E|E]; [injection E as _ <-; reflexivity|]). destruct E. }
  apply (@two_levels _ _ fd cl P (fun k => k <> $"selfCitation")); [auto| |].
  - intros k' p N. unfold cl, medline_class, scopus_class, proquest_class. cbn [special]. destruct (medline_made g k') as [q|] eqn:E; [intros Q; injection Q as <-; apply (M _ _ E)|].
    destruct (dget k' medline_same) as [t|] eqn:E2; [intros Q; injection Q as <-; apply asks_ask; [apply (S _ _ E2)|intros; constructor]|].
    destruct (eqb_spec k' $"selfCitation"); [contradiction|]. destruct (eqb k' _); [intros Q; injection Q as <-; constructor|discriminate].
  - intros k' p. assert (W : forall q : prog V, asks_only P q -> asks_only (fun k => k <> $"selfCitation") q) by (intros q; apply asks_weaken; intros k0 K0 ->; discriminate K0).
    unfold cl, medline_class; cbn [special]. destruct (medline_made g k') as [q|] eqn:E; [intros Q; injection Q as <-; apply W, (M _ _ E)|].
    destruct (dget k' medline_same) as [t|] eqn:E2; [intros Q; injection Q as <-; apply W, asks_ask; [apply (S _ _ E2)|intros; constructor]|].
    destruct (eqb k' _); [intros Q; injection Q as <-|destruct (eqb k' _); [intros Q; injection Q as <-; constructor|discriminate]].
    apply asks_create. intros k2 K. repeat (destruct K as [<-|K]; [discriminate|]). destruct K.
Qed.
Lemma scopus_stops spoilt mend n k : value (scopus_class f truthy piece cite spoilt mend) fd (3 + n) k <> None.
Proof.
  set (cl := scopus_class f truthy piece cite spoilt mend). set (P := fun k => special cl k = None).
  assert (S : forall k t, dget k scopus_same = Some t -> P t).
  { intros k' t E. apply dget_In in E. unfold scopus_same in E. repeat (destruct E as [E|E]; [injection E as _ <-; reflexivity|]). destruct E. }
  apply (@two_levels _ _ fd cl P (fun k => k <> $"selfCitation")); [auto| |].
  - intros k' p N. unfold cl, medline_class, scopus_class, proquest_class. cbn [special]. destruct (dget k' scopus_same) as [t|] eqn:E2; [intros Q; injection Q as <-; apply asks_ask; [apply (S _ _ E2)|intros; constructor]|].
    destruct (eqb_spec k' $"selfCitation"); [contradiction|discriminate].
  - intros k' p. unfold cl, medline_class, scopus_class, proquest_class. cbn [special]. destruct (dget k' scopus_same) as [t|] eqn:E2.
    + intros Q. injection Q as <-. apply asks_ask; [|intros; constructor]. intros ->. discriminate (S _ _ E2).
    + destruct (eqb k' _); [intros Q; injection Q as <-|discriminate]. apply asks_scopus. intros k2 K. repeat (destruct K as [<-|K]; [discriminate|]). destruct K.
Qed.
Lemma proquest_stops zero word n k : value (proquest_class f truthy piece cite own_id zero word) fd (3 + n) k <> None.
Proof.
  set (cl := proquest_class f truthy piece cite own_id zero word). set (P := fun k => special cl k = None).
  assert (S : forall k t, dget k proquest_same = Some t -> P t).
  { intros k' t E. apply dget_In in E. unfold proquest_same in E. repeat (destruct E as [E|E]; [injection E as _ <-; reflexivity|]). destruct E. }
  apply (@two_levels _ _ fd cl P (fun k => k <> $"selfCitation")); [auto| |].
  - intros k' p N. unfold cl, medline_class, scopus_class, proquest_class. cbn [special]. destruct (dget k' proquest_same) as [t|] eqn:E2; [intros Q; injection Q as <-; apply asks_ask; [apply (S _ _ E2)|intros; constructor]|].
    destruct (eqb_spec k' $"selfCitation"); [contradiction|]. repeat (destruct (eqb k' _); [intros Q; injection Q as <-; constructor|]). discriminate.
  - intros k' p. unfold cl, medline_class, scopus_class, proquest_class. cbn [special]. destruct (dget k' proquest_same) as [t|] eqn:E2.
    + intros Q. injection Q as <-. apply asks_ask; [|intros; constructor]. intros ->. discriminate (S _ _ E2).
    + destruct (eqb k' _); [intros Q; injection Q as <-|repeat (destruct (eqb k' _); [intros Q; injection Q as <-; constructor|]); discriminate].
      apply asks_create. intros k2 K. repeat (destruct K as [<-|K]; [discriminate|]). destruct K.
Qed.
End Kinds.

(** *** membership *)
Section Within.
Context {Raw V : Type}.
Variable cl : rclass Raw V.
Variable fd : dict str Raw.
Hypothesis calm : forall k raw, dget k fd = Some raw -> proc cl k raw <> Raise KeyError.
Lemma within_value n k r : value cl fd (S n) k = Some r ->
  within cl fd n k = Some match r with
    | Ok _ => Ok true
    | Raise KeyError => Ok false
    | Raise e => match resolve cl fd k with Some _ => Ok true | None => Raise e end
    end.
Proof.
  intros K. unfold within. rewrite resolve_has. cbn [value] in K. destruct (resolve cl fd k) as [[k' raw]|] eqn:R.
  - injection K as <-. apply resolve_in in R. specialize (calm k' R). destruct (proc cl k' raw) as [v|e]; [reflexivity|]. destruct e; try reflexivity. congruence.
  - destruct (special cl k) as [p|]; [|injection K as <-; reflexivity]. rewrite K. destruct r as [v|e]; [reflexivity|destruct e; reflexivity].
Qed.
End Within.

(** *** normalizeToTag *)
Lemma wos_tables : tags_and_names = (map fst wos_tags ++ map snd wos_tags)%list.
Proof. vm_compute. reflexivity. Qed.
Definition name_table : dict str str := Eval vm_compute in full_to_tag_upper ascii_upper.
Lemma upper_table_ext (upper upper' : str -> str) l d : (forall p, In p l -> upper (fst p) = upper' (fst p)) ->
  fold_left (fun t (p : str * str) => dset (upper (fst p)) (snd p) t) l d = fold_left (fun t p => dset (upper' (fst p)) (snd p) t) l d.
Proof. revert d. induction l as [|p l IH]; intros d E; cbn; [reflexivity|]. rewrite (E p (or_introl eq_refl)). apply IH. intros q K. apply E. right. exact K. Qed.
Section Norm.
Variable upper : str -> str.
Hypothesis ascii : forall s, forallb ascii_char s = true -> upper s = ascii_upper s.
Lemma upper_names (p : str * str) : In p wos_tags -> upper (fst p) = fst p /\ upper (snd p) = ascii_upper (snd p) /\ dget (ascii_upper (snd p)) name_table = Some (fst p)
  /\ match dget (fst p) name_table with Some t => t = fst p | None => True end.
Proof.
  assert (F : forallb (fun p : str * str => forallb ascii_char (fst p) && forallb ascii_char (snd p) && eqb (ascii_upper (fst p)) (fst p) && match dget (ascii_upper (snd p)) name_table with Some t => eqb t (fst p) | None => false end
     && match dget (fst p) name_table with Some t => eqb t (fst p) | None => true end) wos_tags = true) by (vm_compute; reflexivity).
  rewrite forallb_forall in F. intros K. specialize (F p K). rewrite !andb_true_iff in F. destruct F as ((((A & B) & C) & D) & G). apply eqb_eq in C.
  pose proof (ascii _ A) as A1. pose proof (ascii _ B) as B1. split; [exact (eq_trans A1 C)|]. split; [exact B1|]. split.
  - destruct (dget (ascii_upper (snd p)) name_table); [apply eqb_eq in D; congruence|discriminate].
  - destruct (dget (fst p) name_table); [apply eqb_eq, G|exact Logic.I].
Qed.
Lemma upper_table : full_to_tag_upper upper = name_table.
Proof.
  transitivity (full_to_tag_upper ascii_upper); [|vm_compute; reflexivity]. apply upper_table_ext. intros p K. apply ascii.
  assert (F : forallb (fun p => forallb ascii_char (fst p)) full_to_tag = true) by (vm_compute; reflexivity). rewrite forallb_forall in F. apply F, K.
Qed.
Lemma name_table_from (u t : str) : dget u name_table = Some t -> exists p : str * str, In p wos_tags /\ fst p = t /\ u = ascii_upper (snd p).
Proof.
  intros E. apply dget_In in E. assert (F : forallb (fun q => existsb (fun p => eqb (fst p) (snd q) && eqb (fst q) (ascii_upper (snd p))) wos_tags) name_table = true) by (vm_compute; reflexivity).
  rewrite forallb_forall in F. specialize (F _ E). apply existsb_exists in F. destruct F as (p & A & B). apply andb_true_iff in B. destruct B as [B C]. apply eqb_eq in B, C. exists p. split; [exact A|]. split; [exact B|exact C].
Qed.
Lemma known_upper (u : str) : mem u (tags_and_names_upper upper) = true <-> exists p : str * str, In p wos_tags /\ (u = fst p \/ u = upper (snd p)).
Proof.
  rewrite mem_In. unfold tags_and_names_upper. rewrite wos_tables, map_app, in_app_iff, !map_map, !in_map_iff. split.
  - intros [(p & A & B)|(p & A & B)]; exists p; (split; [exact B|]); [left|right]; subst u; [apply (proj1 (@upper_names p B))|reflexivity].
  - intros (p & A & [B|B]); [left|right]; exists p; (split; [|exact A]); subst u; [apply (proj1 (@upper_names p A))|reflexivity].
Qed.
Lemma normalize_spec s :
  match normalize_to_tag upper s with
  | Ok t => exists p : str * str, In p wos_tags /\ fst p = t /\ (upper s = fst p \/ upper s = upper (snd p))
  | Raise e => e = KeyError /\ forall p : str * str, In p wos_tags -> upper s <> fst p /\ upper s <> upper (snd p)
  end.
Proof.
  unfold normalize_to_tag. rewrite upper_table. destruct (mem (upper s) (tags_and_names_upper upper)) eqn:M; cbn [negb].
  - destruct (dget (upper s) name_table) as [t|] eqn:E.
    + destruct (name_table_from _ E) as (p & A & B & C). exists p. split; [exact A|]. split; [exact B|]. right. rewrite C. symmetry. apply (@upper_names p A).
    + apply known_upper in M. destruct M as (p & A & [B|B]); exists p; (split; [exact A|]); [split; [congruence|left; exact B]|].
      exfalso. destruct (@upper_names p A) as (_ & C & D & _). rewrite B, C in E. congruence.
  - split; [reflexivity|]. intros p A. split; intros B; assert (X : mem (upper s) (tags_and_names_upper upper) = true) by (apply known_upper; exists p; tauto); congruence.
Qed.
Lemma normalize_makes (p : str * str) s : In p wos_tags -> upper s = fst p \/ upper s = upper (snd p) -> normalize_to_tag upper s = Ok (fst p).
Proof.
  intros A B. unfold normalize_to_tag. rewrite upper_table. assert (X : mem (upper s) (tags_and_names_upper upper) = true) by (apply known_upper; exists p; tauto). rewrite X. cbn [negb].
  destruct (@upper_names p A) as (C & D & E & G). destruct B as [B|B].
  - rewrite B. destruct (dget (fst p) name_table); [congruence|reflexivity].
  - rewrite B, D, E. reflexivity.
Qed.
End Norm.
