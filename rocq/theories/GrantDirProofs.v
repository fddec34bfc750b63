(** Proofs about directories of grant files. *)
From Coq Require Import List ZArith Lia Bool Arith Permutation.
From Coq Require Import String.
From Verif Require Import Base PyStr SeriesSpec CsvModel GrantModel GrantSpec GrantProofs GrantFileModel GrantFileSpec GrantFileProofs GrantDirModel GrantDirSpec.
Import ListNotations.
Local Open Scope list_scope.

Definition isN (m : member) : bool := eqb (g_kind (m_grant m)) NSERCG.
Definition notN (m : member) : bool := negb (isN m).
(** the key a member was added with is its key still *)
Definition fresh (m : member) : Prop := m_key m = gkey_of (m_grant m).

Lemma same_key g h : same_grant g h <-> gkey_of g = gkey_of h.
Proof.
  unfold same_grant, gkey_of. fold (dvals (g_data g)). fold (dvals (g_data h)). destruct (g_bad g), (g_bad h).
  - split; [intros (K & [(X & _)|(_ & _ & V & E)]); [discriminate|congruence]|]. intros E. injection E as -> V ->. split; [reflexivity|]. right. auto.
  - split; [intros (K & [(X & Y & _)|(_ & X & _)]); discriminate|discriminate].
  - split; [intros (K & [(_ & X & _)|(X & _)]); discriminate|discriminate].
  - split; [intros (K & [(_ & _ & V)|(X & _)]); [congruence|discriminate]|]. intros E. injection E as -> V. split; [reflexivity|]. left. auto.
Qed.
Lemma key_kind g h : gkey_of g = gkey_of h -> g_kind g = g_kind h.
Proof. intros E. apply same_key in E. apply E. Qed.

(** ** Joining *)
Lemma gjoin_In t : forall s, (forall m, In m (gjoin s t) -> In m s \/ In m t) /\ (forall m, In m s -> In m (gjoin s t)) /\
  (forall m, In m t -> exists m', In m' (gjoin s t) /\ m_key m' = m_key m /\ gkey_of (m_grant m') = gkey_of (m_grant m)).
Proof.
  induction t as [|m t IH]; intros s; unfold gjoin in *; cbn [fold_left].
  - split; [auto|]. split; [auto|]. intros m [].
  - set (b := existsb _ s). destruct (IH (if b then s else s ++ [m])) as (A & B & C). split; [|split].
    + intros x I1. apply A in I1 as [I1|I1]; [|right; right; exact I1]. destruct b; [left; exact I1|]. apply in_app_iff in I1 as [I1|[<-|[]]]; [left; exact I1|right; left; reflexivity].
    + intros x I1. apply B. destruct b; [exact I1|apply in_app_iff; left; exact I1].
    + intros x [<-|I1]; [|apply C; exact I1]. destruct b eqn:E.
      * unfold b in E. apply existsb_exists in E as (m' & I1 & E). apply andb_true_iff in E as [E1 E2]. apply (proj1 (eqb_true _ _)) in E1. apply (proj1 (eqb_true _ _)) in E2. exists m'. split; [apply B; exact I1|split; [exact E1|exact E2]].
      * exists m. split; [apply B; apply in_app_iff; right; left; reflexivity|auto].
Qed.
Lemma gjoin_keys t : forall s, (forall m, In m s -> notN m = true -> fresh m) -> (forall m, In m t -> fresh m /\ notN m = true) ->
  NoDup (map (fun m => gkey_of (m_grant m)) (filter notN s)) -> NoDup (map (fun m => gkey_of (m_grant m)) (filter notN (gjoin s t))).
Proof.
  induction t as [|m t IH]; intros s FS FT ND; [exact ND|]. unfold gjoin in *. cbn [fold_left]. destruct (FT m (or_introl eq_refl)) as [FM NM]. destruct (existsb _ s) eqn:E.
  - apply IH; [exact FS| |exact ND]. intros x I1. apply FT. right. exact I1.
  - apply IH.
    + intros x I1. apply in_app_iff in I1 as [I1|[<-|[]]]; [apply FS; exact I1|intros _; exact FM].
    + intros x I1. apply FT. right. exact I1.
    + rewrite filter_app, map_app. cbn [filter]. rewrite NM. cbn [map]. apply (Permutation_NoDup (Permutation_cons_append _ _)). constructor; [|exact ND].
      intros I1. apply in_map_iff in I1 as (x & K & I1). apply filter_In in I1 as [I1 N1]. rewrite <- not_true_iff_false in E. apply E. apply existsb_exists. exists x. split; [exact I1|].
      rewrite (FS x I1 N1), FM, K, eqb_refl. reflexivity.
Qed.
Lemma gjoin_other t : forall s, (forall m, In m t -> notN m = true) -> filter isN (gjoin s t) = filter isN s.
Proof.
  induction t as [|m t IH]; intros s FT; [reflexivity|]. unfold gjoin in *. cbn [fold_left]. destruct (existsb _ s).
  - apply IH. intros x I1. apply FT. right. exact I1.
  - rewrite IH by (intros x I1; apply FT; right; exact I1). rewrite filter_app. cbn [filter]. assert (N : isN m = false) by (specialize (FT m (or_introl eq_refl)); unfold notN in FT; destruct (isN m); [discriminate|reflexivity]). rewrite N. apply app_nil_r.
Qed.
Lemma exists_N k s : isN k = true ->
  existsb (fun m' => eqb (m_key m') (m_key k) && eqb (gkey_of (m_grant m')) (gkey_of (m_grant k))) s = existsb (fun m' => eqb (m_key m') (m_key k) && eqb (gkey_of (m_grant m')) (gkey_of (m_grant k))) (filter isN s).
Proof.
  intros N. induction s as [|x s IH]; [reflexivity|]. cbn [existsb filter]. destruct (isN x) eqn:X; cbn [existsb]; rewrite IH; [reflexivity|].
  replace (eqb (gkey_of (m_grant x)) (gkey_of (m_grant k))) with false; [rewrite andb_false_r; reflexivity|]. symmetry. apply neq_eqb. intros E. apply key_kind in E. unfold isN in *. rewrite E in X. congruence.
Qed.
Lemma gjoin_N t : forall s, (forall m, In m t -> isN m = true) -> filter isN (gjoin s t) = gjoin (filter isN s) t /\ filter notN (gjoin s t) = filter notN s.
Proof.
  induction t as [|m t IH]; intros s FT; [split; reflexivity|]. unfold gjoin in *. cbn [fold_left]. pose proof (FT m (or_introl eq_refl)) as NM. rewrite (exists_N m s NM).
  assert (FT' : forall x, In x t -> isN x = true) by (intros x I1; apply FT; right; exact I1). destruct (existsb _ (filter isN s)).
  - apply IH. exact FT'.
  - destruct (IH (s ++ [m]) FT') as [A B]. rewrite A, B, !filter_app. unfold notN. cbn [filter]. rewrite NM. cbn [negb]. rewrite app_nil_r. split; reflexivity.
Qed.

(** ** Merging *)
Lemma gmem_N g s : g_kind g = NSERCG -> gmem g s = gmem g (filter isN s).
Proof.
  intros K. unfold gmem, gfinds. induction s as [|x s IH]; [reflexivity|]. cbn [existsb filter]. destruct (isN x) eqn:X; cbn [existsb]; rewrite IH; [reflexivity|].
  replace (eqb (gkey_of (m_grant x)) (gkey_of g)) with false; [rewrite andb_false_r; reflexivity|]. symmetry. apply neq_eqb. intros E. apply key_kind in E. unfold isN in X. rewrite E, K in X. discriminate X.
Qed.
Lemma overlap_N new s : (forall m, In m new -> isN m = true) -> overlap new s = overlap new (filter isN s).
Proof.
  unfold overlap. generalize (@nil (str * grant)). induction new as [|m new IH]; intros o F; [reflexivity|]. cbn [fold_left]. rewrite (gmem_N (m_grant m) s) by (apply (proj1 (eqb_true _ _)); exact (F m (or_introl eq_refl))).
  apply IH. intros x I1. apply F. right. exact I1.
Qed.
Lemma overlap_kinds new s : (forall m, In m new -> isN m = true) -> forall i g, dget i (overlap new s) = Some g -> g_kind g = NSERCG.
Proof.
  intros F. unfold overlap. assert (X : forall o, (forall i g, dget i o = Some g -> g_kind g = NSERCG) -> forall i g, dget i (fold_left (fun o m => if gmem (m_grant m) s then dset (g_id (m_grant m)) (m_grant m) o else o) new o) = Some g -> g_kind g = NSERCG).
  { induction new as [|m new IH]; intros o O; [exact O|]. cbn [fold_left]. apply IH; [intros x I1; apply F; right; exact I1|]. destruct (gmem (m_grant m) s); [|exact O]. intros i g. rewrite dget_dset. destruct (eqb _ _); [|apply O]. intros E. injection E as <-. apply (proj1 (eqb_true _ _)). exact (F m (or_introl eq_refl)). }
  apply X. intros i g E. discriminate.
Qed.
Lemma gremove_incl g : forall s s', gremove g s = Ok s' -> forall m, In m s' -> In m s.
Proof.
  induction s as [|x s IH]; intros s' E m I1; cbn [gremove] in E; [discriminate|]. destruct (gfinds g x); [injection E as <-; right; exact I1|]. destruct (gremove g s) as [r|] eqn:R; [|discriminate]. cbn [bind] in E. injection E as <-.
  destruct I1 as [<-|I1]; [left; reflexivity|right; exact (IH r eq_refl m I1)].
Qed.
Lemma remove_all_incl : forall gs s s', remove_all gs s = Ok s' -> forall m, In m s' -> In m s.
Proof.
  induction gs as [|g gs IH]; intros s s' E m I1; cbn [remove_all] in E; [injection E as <-; exact I1|]. destruct (gremove g s) as [r|] eqn:R; [|discriminate]. cbn [bind] in E. exact (gremove_incl _ _ _ R _ (IH _ _ E m I1)).
Qed.
Lemma update_all_N o : (forall i g, dget i o = Some g -> g_kind g = NSERCG) -> forall s s', update_all o s = Ok s' -> update_all o (filter isN s) = Ok (filter isN s') /\ filter notN s' = filter notN s.
Proof.
  intros O. induction s as [|m s IH]; intros s' E; cbn [update_all] in E; [injection E as <-; split; reflexivity|]. cbn [filter]. unfold notN in *.
  assert (ST : forall m', isN m' = isN m -> (isN m = false -> m' = m) -> forall r, update_all o s = Ok r -> s' = m' :: r ->
    (isN m = true -> update_all o (m :: filter isN s) = Ok (m' :: filter isN r)) ->
    update_all o (if isN m then m :: filter isN s else filter isN s) = Ok (filter isN s') /\ filter (fun m => negb (isN m)) s' = (if negb (isN m) then m :: filter (fun m => negb (isN m)) s else filter (fun m => negb (isN m)) s)).
  { intros m' K S r R -> U. destruct (IH r R) as [A B]. cbn [filter]. rewrite K. destruct (isN m) eqn:N; cbn [negb].
    - split; [apply U; reflexivity|exact B].
    - split; [exact A|]. rewrite (S eq_refl), B. reflexivity. }

  destruct (dget (g_id (m_grant m)) o) as [g'|] eqn:G.
  - destruct (g_kind (m_grant m)) eqn:K.
    3: { destruct (nserc_update (m_grant m) g') as [g1 [x|]] eqn:U; [discriminate|]. destruct (update_all o s) as [r|] eqn:R; [|discriminate]. cbn [bind] in E. injection E as <-.
      assert (K1 : g_kind g1 = NSERCG). { unfold nserc_update in U. destruct (update_fields _ _) as [d x]. injection U as <- _. exact K. }
      apply (ST (mkMember (m_key m) g1)) with (r := r); try reflexivity.
      - unfold isN. cbn [m_grant]. rewrite K, K1. reflexivity.
      - unfold isN. rewrite K. discriminate.
      - intros _. cbn [update_all]. rewrite G, K, U. destruct (IH r eq_refl) as [A _]. rewrite A. reflexivity. }
    all: destruct (update_all o s) as [r|] eqn:R; [|discriminate]; cbn [bind] in E; injection E as <-; assert (BU : base_update (m_grant m) g' = m_grant m) by (unfold base_update; rewrite (O _ _ G), K; reflexivity); rewrite BU in *;
      apply (ST (mkMember (m_key m) (m_grant m))) with (r := r); try reflexivity; try (destruct m; reflexivity); unfold isN; rewrite K; discriminate.
  - destruct (update_all o s) as [r|] eqn:R; [|discriminate]. cbn [bind] in E. injection E as <-. apply (ST m) with (r := r); try reflexivity. intros _. cbn [update_all]. rewrite G. destruct (IH r eq_refl) as [A _]. rewrite A. reflexivity.
Qed.
Lemma meets_N s new : (forall m, In m new -> isN m = true) -> meets s new = meets (filter isN s) new.
Proof. unfold meets. induction new as [|m new IH]; intros F; [reflexivity|]. cbn [existsb]. rewrite IH by (intros x I1; apply F; right; exact I1). f_equal. apply exists_N. exact (F m (or_introl eq_refl)). Qed.
Lemma merge_N s new s' : (forall m, In m new -> isN m = true) -> merge_nserc s new = Ok s' -> merge_nserc (filter isN s) new = Ok (filter isN s') /\ filter notN s' = filter notN s.
Proof.
  intros F E. unfold merge_nserc in *. rewrite <- (meets_N s new F). destruct (meets s new).
  2: { injection E as <-. destruct (gjoin_N new s F) as [C D]. rewrite C, D. split; reflexivity. }
  unfold merge_body in *. rewrite <- (overlap_N new s F). pose proof (overlap_kinds new s F) as O. destruct (remove_all (dvals (overlap new s)) new) as [new'|] eqn:R; [|discriminate]. cbn [bind] in *.
  destruct (update_all (overlap new s) s) as [s1|] eqn:U; [|discriminate]. cbn [bind] in *. injection E as <-. destruct (update_all_N _ O _ _ U) as [A B]. rewrite A. cbn [bind].
  destruct (gjoin_N new' s1) as [C D]; [intros m I1; apply F; exact (remove_all_incl _ _ _ R m I1)|]. rewrite C, D, B. split; reflexivity.
Qed.
(** the other way round: what is of NSERC decides *)
Lemma update_all_ok o : (forall i g, dget i o = Some g -> g_kind g = NSERCG) -> forall s r, update_all o (filter isN s) = Ok r -> exists s', update_all o s = Ok s'.
Proof.
  intros O. induction s as [|m s IH]; intros r E; [exists []; reflexivity|]. cbn [filter] in E. cbn [update_all]. destruct (isN m) eqn:N.
  - cbn [update_all] in E. assert (K : g_kind (m_grant m) = NSERCG) by (apply (proj1 (eqb_true _ _)); exact N). destruct (dget (g_id (m_grant m)) o) as [g'|].
    + rewrite K in *. destruct (nserc_update (m_grant m) g') as [g1 [x|]]; [discriminate|]. destruct (update_all o (filter isN s)) as [q|]; [|discriminate]. destruct (IH q eq_refl) as [s' ->]. eexists. reflexivity.
    + destruct (update_all o (filter isN s)) as [q|]; [|discriminate]. destruct (IH q eq_refl) as [s' ->]. eexists. reflexivity.
  - destruct (IH r E) as [s' ->]. destruct (dget (g_id (m_grant m)) o); [|eexists; reflexivity]. destruct (g_kind (m_grant m)) eqn:K; try (eexists; reflexivity). unfold isN in N. rewrite K in N. discriminate N.
Qed.
Lemma merge_ok s new r : (forall m, In m new -> isN m = true) -> merge_nserc (filter isN s) new = Ok r -> exists s', merge_nserc s new = Ok s'.
Proof.
  intros F E. unfold merge_nserc in *. rewrite <- (meets_N s new F) in E. destruct (meets s new); [|eexists; reflexivity]. unfold merge_body in *. rewrite <- (overlap_N new s F) in E. pose proof (overlap_kinds new s F) as O. destruct (remove_all (dvals (overlap new s)) new) as [new'|]; [|discriminate]. cbn [bind] in *.
  destruct (update_all (overlap new s) (filter isN s)) as [q|] eqn:U; [|discriminate]. destruct (update_all_ok _ O _ _ U) as [s1 ->]. eexists. reflexivity.
Qed.

(** ** One file *)
Lemma gadd_In g s m : In m (gadd g s) -> In m s \/ m = mkMember (gkey_of g) g.
Proof. unfold gadd. destruct (gmem g s); [auto|]. intros I1. apply in_app_iff in I1 as [I1|[<-|[]]]; auto. Qed.
Lemma other_file_In mk rows e : forall m, In m (fst (other_file mk rows e)) -> fresh m /\ exists n l d, m_grant m = mk n l d.
Proof.
  unfold other_file. cbn [fst]. assert (X : forall s, (forall m, In m s -> fresh m /\ exists n l d, m_grant m = mk n l d) -> forall m, In m (fold_left (fun s r => gadd (mk (fst (fst r)) (snd (fst r)) (snd r)) s) rows s) -> fresh m /\ exists n l d, m_grant m = mk n l d).
  { induction rows as [|r rows IH]; intros s S; [exact S|]. cbn [fold_left]. apply IH. intros m I1. apply gadd_In in I1 as [I1| ->]; [apply S; exact I1|]. split; [reflexivity|]. cbn. eauto. }
  apply X. intros m [].
Qed.
(** the members a file of NSERC gives *)
Definition well_keyed (m : member) : Prop := g_kind (m_grant m) = NSERCG /\ (exists c, g_id (m_grant m) = pre c) /\
  ((m_key m = KGood NSERCG (g_id (m_grant m)) /\ g_bad (m_grant m) = false /\ g_err (m_grant m) = None) \/ g_bad (m_grant m) = true).
Definition good_ids (s : gset) : list str := map (fun m => g_id (m_grant m)) (filter (fun m => negb (g_bad (m_grant m))) s).
Lemma nserc_new hash l d : well_keyed (mkMember (gkey_of (nserc hash l d)) (nserc hash l d)).
Proof.
  unfold well_keyed, nserc, gkey_of. cbn [m_grant m_key]. destruct (dget $"Cle" d) as [[[|x c]|c|]|]; cbn; (split; [reflexivity|]); (split; [eexists; reflexivity|]); try (right; reflexivity); left; auto.
Qed.
Lemma nserc_update_same g o g' e : nserc_update g o = (g', e) -> g_kind g' = g_kind g /\ g_id g' = g_id g /\ g_bad g' = g_bad g /\ g_err g' = g_err g.
Proof. unfold nserc_update. destruct (update_fields _ _) as [d x]. intros E. injection E as <- _. auto. Qed.
Lemma update_first_same g : forall s s' e, update_first g s = (s', e) -> (forall m, In m s -> well_keyed m) -> (forall m, In m s' -> well_keyed m) /\ good_ids s' = good_ids s.
Proof.
  induction s as [|m s IH]; intros s' e E W; cbn [update_first] in E; [injection E as <- _; split; [intros m []|reflexivity]|]. destruct (eqb (gkey_of (m_grant m)) (gkey_of g)).
  - destruct (nserc_update (m_grant m) g) as [g' x] eqn:U. injection E as <- _. destruct (nserc_update_same _ _ _ _ U) as (A & B & C & D). split.
    + intros y [<-|I1]; [|apply W; right; exact I1]. pose proof (W m (or_introl eq_refl)) as Wm. unfold well_keyed in *. cbn [m_grant m_key]. rewrite A, B, C, D. exact Wm.
    + unfold good_ids. cbn [filter m_grant]. rewrite C. destruct (g_bad (m_grant m)); cbn [negb map m_grant]; [reflexivity|]. rewrite B. reflexivity.
  - destruct (update_first g s) as [r x] eqn:U. injection E as <- _. destruct (IH r x eq_refl) as [A B]; [intros y I1; apply W; right; exact I1|]. split.
    + intros y [<-|I1]; [apply W; left; reflexivity|apply A; exact I1].
    + unfold good_ids in *. cbn [filter]. destruct (g_bad (m_grant m)); cbn [negb map]; rewrite B; reflexivity.
Qed.
Lemma nserc_rows_keyed hash ended : forall rows s s' e, nserc_rows hash rows ended s = (s', e) -> (forall m, In m s -> well_keyed m) -> NoDup (good_ids s) ->
  (forall m, In m s' -> well_keyed m) /\ NoDup (good_ids s').
Proof.
  induction rows as [|[l d] rows IH]; intros s s' e E W N; cbn [nserc_rows] in E; [injection E as <- _; auto|]. destruct (gmem (nserc hash l d) s) eqn:M.
  - destruct (update_first (nserc hash l d) s) as [s1 [x|]] eqn:U; destruct (update_first_same _ _ _ _ U W) as [A B].
    + injection E as <- _. rewrite B. auto.
    + apply (IH _ _ _ E A). rewrite B. exact N.
  - assert (GA : gadd (nserc hash l d) s = s ++ [mkMember (gkey_of (nserc hash l d)) (nserc hash l d)]) by (unfold gadd; rewrite M; reflexivity). rewrite GA in E. apply (IH _ _ _ E).
    + intros m I1. apply in_app_iff in I1 as [I1|[<-|[]]]; [apply W; exact I1|apply nserc_new].
    + unfold good_ids. rewrite filter_app, map_app. cbn [filter m_grant]. destruct (g_bad (nserc hash l d)) eqn:B; cbn [negb map]; [rewrite app_nil_r; exact N|]. apply (Permutation_NoDup (Permutation_cons_append _ _)). constructor; [|exact N].
      cbn [m_grant]. intros I1. apply in_map_iff in I1 as (m & Q & I1). apply filter_In in I1 as [I1 G]. apply negb_true_iff in G. destruct (W m I1) as (K & _ & [(MK & _ & _)|X]); [|congruence].
      rewrite <- not_true_iff_false in M. apply M. unfold gmem. apply existsb_exists. exists m. split; [exact I1|]. unfold gfinds, gkey_of. rewrite G, B, MK, K, Q.
      assert (K' : g_kind (nserc hash l d) = NSERCG) by (unfold nserc; destruct (dget $"Cle" d) as [[[|? ?]| |]|]; reflexivity). rewrite K', eqb_refl. reflexivity.
Qed.
Lemma process_kinds pep hash f k gs e : process pep hash f = Ok (k, (gs, e)) ->
  (k = NSERCG /\ (forall m, In m gs -> well_keyed m) /\ NoDup (good_ids gs)) \/ (k <> NSERCG /\ forall m, In m gs -> fresh m /\ g_kind (m_grant m) = k).
Proof.
  unfold process. destruct (is_nsf f).
  { intros E. right. unfold parse_nsf in E. destruct (ftree f) as [root|]; [|injection E as <- <- _; split; [discriminate|intros m []]]. destruct (findall $"Award" root) as [|top tl]; [discriminate|]. destruct (nsf_fields top) as [d|]; [|discriminate].
    cbn [bind] in E. injection E as <- <- _. split; [discriminate|]. intros m I1. apply gadd_In in I1 as [[]| ->]. split; [reflexivity|]. cbn. unfold nsf_grant. destruct (dget $"AwardID" d) as [[[|? ?]| |]|]; reflexivity. }
  destruct (is_cihr f) as [[|]|]; [| |discriminate]; cbn [bind].
  { intros E. right. injection E as <- P. split; [discriminate|]. unfold parse_cihr in P. destruct (length (text_lines f) <? 3); [injection P as <- _; intros m []|]. destruct (lines_reader pep 3 (skipn 3 (text_lines f))) as [rows x]. intros m I1.
    assert (I2 : In m (fst (other_file (cihr hash (basename (fname f))) rows x))) by (rewrite P; exact I1). apply other_file_In in I2 as (F & n & l & d & G). split; [exact F|]. rewrite G. reflexivity. }
  destruct (is_nserc f) as [[|]|]; [| |discriminate]; cbn [bind].
  { intros E. left. injection E as <- P. split; [reflexivity|]. unfold parse_nserc in P. destruct (lines_reader pep 0 (text_lines f)) as [rows x]. unfold nserc_file in P. apply (nserc_rows_keyed _ _ _ _ _ _ P); [intros m []|constructor]. }
  destruct (is_fallback f); [|discriminate]. intros E. right. injection E as <- P. split; [discriminate|]. unfold parse_fallback in P. destruct (lines_reader pep 0 (text_lines f)) as [rows x]. intros m I1.
  assert (I2 : In m (fst (other_file (fallback hash (basename (fname f))) rows x))) by (rewrite P; exact I1). apply other_file_In in I2 as (F & n & l & d & G). split; [exact F|]. rewrite G. reflexivity.
Qed.
(** what the file alone gives *)
Lemma alone pep hash ext f : ends_in ext (fname f) = true -> from_file pep hash ext f =
  match process pep hash f with
  | Ok (k, (gs, e)) => Ok {| c_grants := gs; c_types := [k]; c_bad := match e with Some _ => true | None => false end; c_errors := match e with Some x => [(fname f, x)] | None => [] end |}
  | Raise UnknownFile => Raise BadInputFile
  | Raise e => Raise e
  end.
Proof. intros E. unfold from_file. rewrite E. cbn [negb]. destruct (process pep hash f) as [[k [gs [e|]]]|[]]; reflexivity. Qed.

(** ** Exceptions *)
Lemma step_raise p c e : step p c = Raise e -> e = EOther.
Proof.
  unfold step, start_field, put. destruct (pst p), c; repeat match goal with |- context [if ?b then _ else _] => destruct b end; intros E; try discriminate; injection E as <-; reflexivity.
Qed.
Lemma steps_raise : forall l p e, steps p l = Raise e -> e = EOther.
Proof. induction l as [|c l IH]; intros p e E; cbn in E; [discriminate|]. destruct (step p (Some c)) as [q|x] eqn:S; cbn in E; [exact (IH _ _ E)|]. injection E as <-. exact (step_raise _ _ _ S). Qed.
Lemma read_lines_raise : forall ls p n l rs e, read_lines None p n l ls = (rs, Some e) -> e = EOther.
Proof.
  induction ls as [|x ls IH]; intros p n l rs e E; cbn [read_lines] in E; [discriminate|]. destruct (mem 0%N x); [injection E as _ <-; reflexivity|]. destruct (let* p1 := steps p x in step p1 None) as [p2|y] eqn:S.
  - destruct (eqb (pst p2) StartRecord); [|exact (IH _ _ _ _ _ E)]. destruct (read_lines None ps0 (n + 1) x ls) as [r q] eqn:R. injection E as _ ->. exact (IH _ _ _ _ _ R).
  - injection E as _ <-. destruct (steps p x) as [p1|z] eqn:T; cbn in S; [exact (step_raise _ _ _ S)|]. injection S as <-. exact (steps_raise _ _ _ T).
Qed.
Lemma table_raise n ls h rs e : table None n ls = (h, rs, Some e) -> e = EOther.
Proof. unfold table. destruct (read_lines None ps0 n [] ls) as [[|x r] q] eqn:R; intros E; injection E as _ _ ->; exact (read_lines_raise _ _ _ _ _ _ R). Qed.
Lemma append_raise t s d e : append_to t s d = Raise e -> e = AttributeError.
Proof. unfold append_to. destruct (dget t d) as [[]|]; intros E; try discriminate; injection E as <-; reflexivity. Qed.
Lemma iter_raise {A} (f : A -> gfields -> res gfields) : (forall a d e, f a d = Raise e -> e = AttributeError) -> forall l d e, NetModel.iter f l d = Raise e -> e = AttributeError.
Proof. intros F. induction l as [|a l IH]; intros d e E; cbn in E; [discriminate|]. destruct (f a d) as [d'|x] eqn:X; cbn in E; [exact (IH _ _ E)|]. injection E as <-. exact (F _ _ _ X). Qed.
Lemma nsf_raise top e : nsf_fields top = Raise e -> e = AttributeError.
Proof.
  assert (P : forall t o d x, nsf_part t o d = Raise x -> x = AttributeError) by (intros t o d x; unfold nsf_part; destruct (findall t o) as [|p l]; [discriminate|]; destruct (child_texts p); [discriminate|]; apply append_raise).
  unfold nsf_fields. destruct (NetModel.iter nsf_org _ _) as [d1|x] eqn:A; cbn [bind]; [destruct (NetModel.iter _ _ d1) as [d2|x] eqn:B; cbn [bind]|].
  - apply iter_raise. intros a d y. unfold nsf_other. destruct (_ || _); [discriminate|]. destruct (e_children a); [discriminate|apply append_raise].
  - intros E. injection E as <-. revert B. apply iter_raise. intros a d y. apply append_raise.
  - intros E. injection E as <-. revert A. apply iter_raise. intros a d y. unfold nsf_org. destruct (nsf_part $"Directorate" a d) as [d'|z] eqn:Z; cbn [bind]; [apply P|]. intros E. injection E as <-. exact (P _ _ _ _ Z).
Qed.
Lemma process_raise pep hash f : process pep hash f <> Raise BadInputFile.
Proof.
  unfold process. destruct (is_nsf f).
  - unfold parse_nsf. destruct (ftree f) as [r|]; [|discriminate]. destruct (findall $"Award" r) as [|t l]; [discriminate|]. destruct (nsf_fields t) as [d|e] eqn:E; cbn [bind]; [discriminate|]. apply nsf_raise in E. subst e. discriminate.
  - destruct (is_cihr f) as [c|e] eqn:C; cbn [bind].
    + destruct c; [discriminate|]. destruct (is_nserc f) as [n|e] eqn:N; cbn [bind]; [destruct n; [discriminate|]; destruct (is_fallback f); discriminate|].
      enough (X : e = EOther) by (subst e; discriminate). unfold is_nserc in N. destruct (negb _); [discriminate|]. destruct (table None 0 (text_lines f)) as [[[h|] rows] [x|]] eqn:T; try discriminate.
      * destruct (existsb _ _); [discriminate|]. injection N as <-. exact (table_raise _ _ _ _ _ T).
      * destruct (existsb _ _); discriminate.
      * injection N as <-. exact (table_raise _ _ _ _ _ T).
    + enough (X : e = EOther) by (subst e; discriminate). unfold is_cihr in C. do 4 (destruct (negb _); [discriminate|]). destruct (table None 3 (skipn 3 (text_lines f))) as [[[h|] [|r rows]] [x|]] eqn:T; try discriminate;
        try (destruct (mem _ h); [|discriminate]); try discriminate; injection C as <-; exact (table_raise _ _ _ _ _ T).
Qed.

(** ** Grants of NSERC that are good *)
Definition with_id (c : str) (rows : list (str * gfields)) : list gfields := map snd (filter (fun x => eqb (fst x) c) rows).
Definition held (rows : list (str * gfields)) (l : dict str gfields) : Prop :=
  map fst l = first_seen (map fst rows) /\ forall c d, In (c, d) l -> texts d /\ forall f, text_of f d = merged f (with_id c rows).
Lemma held_NoDup rows l : held rows l -> NoDup (dkeys l).
Proof. intros [E _]. unfold dkeys. rewrite E. apply first_seen_NoDup. Qed.
Lemma with_id_app c a b : with_id c (a ++ b) = with_id c a ++ with_id c b.
Proof. unfold with_id. rewrite filter_app, map_app. reflexivity. Qed.
Lemma with_id_none c rows : ~ In c (map fst rows) -> with_id c rows = [].
Proof.
  induction rows as [|r rows IH]; intros N; [reflexivity|]. unfold with_id in *. cbn [filter]. destruct (eqb_spec (fst r) c) as [E|_]; [exfalso; apply N; left; exact E|]. apply IH. intros I1. apply N. now right.
Qed.
Lemma merge_held rows1 rows2 l1 l2 : held rows1 l1 -> held rows2 l2 -> exists l, merge_nserc (mem_of l1) (mem_of l2) = Ok (mem_of l) /\ held (rows1 ++ rows2) l.
Proof.
  intros K1 K2. pose proof (held_NoDup _ _ K1) as ND1. pose proof (held_NoDup _ _ K2) as ND2. destruct K1 as [A1 B1], K2 as [A2 B2].
  assert (NS : NoDup (dkeys (shared l2 l1))) by (unfold shared; rewrite (dkeys_filter (fun k => dhas k l1)) by reflexivity; apply NoDup_filter; exact ND2).
  rewrite merge_same. unfold merge_body, overlap. rewrite overlap_spec.
  2: { cbn [dkeys map app]. rewrite <- (map_map fst pre). apply FinFun.Injective_map_NoDup; [intros x y; apply pre_inj|exact NS]. }
  cbn [app]. unfold dvals. rewrite map_map. cbn [snd]. rewrite remove_all_spec; [|exact ND2|exact NS|].
  2: { intros x I1. unfold shared in I1. apply filter_In in I1. apply in_map. apply I1. }
  cbn [bind]. destruct (update_all_spec (shared l2 l1)) with (l := l1) as (l1' & E & F).
  { intros c d I1. unfold shared in I1. apply filter_In in I1. apply (B2 c d). apply I1. }
  { intros c d I1. apply (B1 c d I1). }
  rewrite E. cbn [bind].
  assert (KE : dkeys l1' = dkeys l1). { clear -F. induction F as [|x y l l' [E _] F IH]; [reflexivity|]. cbn. unfold dkeys in IH. rewrite IH, E. reflexivity. }
  set (rest := filter (fun x : str * gfields => negb (mem (fst x) (map fst (shared l2 l1)))) l2).
  assert (RK : forall k, In k (dkeys rest) -> ~ In k (dkeys l1)).
  { intros k I1 I2. unfold rest in I1. rewrite (dkeys_filter (fun k => negb (mem k (map fst (shared l2 l1))))) in I1 by reflexivity. apply filter_In in I1 as [I1 N]. apply negb_true_iff in N. apply mem_not_In in N. apply N. change (map fst (shared l2 l1)) with (dkeys (shared l2 l1)). unfold shared. rewrite (dkeys_filter (fun k => dhas k l1)) by reflexivity. apply filter_In. split; [exact I1|]. apply dhas_spec. exact I2. }
  exists (l1' ++ rest). split.
  - f_equal. apply gjoin_new.
    + intros k I1. rewrite KE. apply RK. exact I1.
    + unfold rest. rewrite (dkeys_filter (fun k => negb (mem k (map fst (shared l2 l1))))) by reflexivity. apply NoDup_filter. exact ND2.
  - split.
    + rewrite map_app. unfold dkeys in KE. rewrite KE, A1, map_app, first_seen_app. f_equal. rewrite <- A2. change (map fst rest) with (dkeys rest). unfold rest. rewrite (dkeys_filter (fun k => negb (mem k (map fst (shared l2 l1))))) by reflexivity. apply filter_ext_in. intros k I1. f_equal.
      destruct (mem k (map fst rows1)) eqn:M.
      * apply mem_In. change (map fst (shared l2 l1)) with (dkeys (shared l2 l1)). unfold shared. rewrite (dkeys_filter (fun k => dhas k l1)) by reflexivity. apply filter_In. split; [exact I1|]. apply dhas_spec. unfold dkeys. rewrite A1. apply first_seen_In. apply mem_In. exact M.
      * apply mem_not_In. intros I2. change (map fst (shared l2 l1)) with (dkeys (shared l2 l1)) in I2. unfold shared in I2. rewrite (dkeys_filter (fun k => dhas k l1)) in I2 by reflexivity. apply filter_In in I2 as [_ I2]. apply dhas_spec in I2. unfold dkeys in I2. rewrite A1 in I2. apply (proj1 (first_seen_In _ _)) in I2. apply mem_not_In in M. exact (M I2).
    + intros c d I1. apply in_app_iff in I1 as [I1|I1].
      * assert (X : exists d0, In (c, d0) l1 /\ texts d /\ forall f, text_of f d = glue (text_of f d0) (match dget c (shared l2 l1) with Some d1 => text_of f d1 | None => [] end)).
        { clear -F I1. generalize dependent (shared l2 l1). intros sh F. induction F as [|[c0 d0] [c1 d1] l l' [E [T X]] F IH]; [destruct I1|]. cbn [fst snd] in *. destruct I1 as [I1|I1]; [injection I1 as <- <-; subst c0; exists d0; split; [left; reflexivity|]; split; [exact T|exact X]|]. destruct (IH I1) as (d2 & I2 & Y). exists d2. split; [now right|exact Y]. }
        destruct X as (d0 & I0 & TD & X). split; [exact TD|]. intros f. rewrite X, with_id_app, merged_app. destruct (B1 c d0 I0) as [_ X0]. rewrite X0. f_equal.
        destruct (dget c (shared l2 l1)) as [d1|] eqn:G.
        -- apply dget_In in G. unfold shared in G. apply filter_In in G. apply (B2 c d1). apply G.
        -- apply dget_None in G. rewrite with_id_none; [reflexivity|]. intros I2. apply G. unfold shared. rewrite (dkeys_filter (fun k => dhas k l1)) by reflexivity. apply filter_In. split; [unfold dkeys; rewrite A2; apply first_seen_In; exact I2|]. apply dhas_spec. apply in_map_iff. exists (c, d0). auto.
      * assert (NI : ~ In c (dkeys l1)) by (apply RK; apply in_map_iff; exists (c, d); auto). unfold rest in I1. apply filter_In in I1 as [I1 _]. destruct (B2 c d I1) as [TD X]. split; [exact TD|]. intros f. rewrite X, with_id_app, merged_app, (with_id_none c rows1); [cbn; symmetry; apply glue_nil|]. intros I2. apply NI. unfold dkeys. rewrite A1. apply first_seen_In. exact I2.
Qed.
(** ** Directories *)
Lemma read_listed ext : forall es fs, are_read ext es fs <-> fs = dlisted ext es.
Proof.
  unfold dlisted. induction es as [|[b f] es IH]; intros fs.
  - split; [intros A; inversion A; reflexivity|intros ->; constructor].
  - cbn [filter fst snd]. split.
    + intros A. inversion A as [|? ? fs' E A'|? ? ? ? E A'|? ? ? A']; subst.
      * apply IH in A'. rewrite (proj2 (ends_in_iff _ _) E). cbn [map snd andb]. rewrite A'. reflexivity.
      * apply IH in A'. destruct (ends_in ext (fname f)) eqn:Q; [exfalso; apply E; apply ends_in_iff; exact Q|]. exact A'.
      * apply IH in A'. rewrite andb_false_r. exact A'.
    + intros ->. destruct (ends_in ext (fname f)) eqn:Q; [destruct b|]; cbn [andb map snd].
      * apply read_it; [apply ends_in_iff; exact Q|apply IH; reflexivity].
      * apply no_file. apply IH. reflexivity.
      * apply other_name; [intros E; apply ends_in_iff in E; congruence|apply IH; reflexivity].
Qed.
Definition c0 : collected := {| c_grants := []; c_types := []; c_bad := false; c_errors := [] |}.
(** one file more *)
Definition step_with (c : collected) (o : option collected) : res collected :=
  match o with
  | None => Ok c
  | Some d =>
    let* s := if mem NSERCG (c_types d) then merge_nserc (c_grants c) (c_grants d) else Ok (gjoin (c_grants c) (c_grants d)) in
    Ok {| c_grants := s; c_types := fold_left (fun l k => add_kind k l) (c_types d) (c_types c); c_bad := c_bad c || c_bad d; c_errors := fold_left (fun l x => dset (fst x) (snd x) l) (c_errors d) (c_errors c) |}
  end.
Fixpoint all_with (c : collected) (os : list (option collected)) : res collected :=
  match os with [] => Ok c | o :: os' => let* c' := step_with c o in all_with c' os' end.
(** the collection of one file *)
Definition one_file (f : gfile) (d : collected) : Prop :=
  (exists k, c_types d = [k] /\ ((k = NSERCG /\ (forall m, In m (c_grants d) -> well_keyed m) /\ NoDup (good_ids (c_grants d))) \/ (k <> NSERCG /\ forall m, In m (c_grants d) -> fresh m /\ g_kind (m_grant m) = k))) /\
  (c_errors d = [] \/ exists x, c_errors d = [(fname f, x)]).
Lemma alone_one pep hash ext f d : from_file pep hash ext f = Ok d -> one_file f d.
Proof.
  intros E. destruct (ends_in ext (fname f)) eqn:X; [|unfold from_file in E; rewrite X in E; discriminate]. rewrite (alone _ _ _ _ X) in E. destruct (process pep hash f) as [[k [gs e]]|[]] eqn:P; try discriminate. injection E as <-. split.
  - exists k. split; [reflexivity|]. exact (process_kinds _ _ _ _ _ _ P).
  - cbn [c_errors]. destruct e; eauto.
Qed.
Lemma read_all pep hash ext : forall fs c, (forall f, In f fs -> ends_in ext (fname f) = true) ->
  (forall os, each_alone pep hash ext fs os -> read_grants pep hash ext fs c = all_with c os) /\ (forall c', read_grants pep hash ext fs c = Ok c' -> exists os, each_alone pep hash ext fs os).
Proof.
  induction fs as [|f fs IH]; intros c X.
  - split; [intros os A; inversion A; reflexivity|]. intros c' _. exists []. constructor.
  - pose proof (alone pep hash ext f (X f (or_introl eq_refl))) as AL. assert (X' : forall f, In f fs -> ends_in ext (fname f) = true) by (intros y I1; apply X; right; exact I1). split.
    + intros os A. inversion A as [|? o ? os' O A']; subst. cbn [read_grants all_with]. rewrite AL in O. destruct o as [d|].
      * destruct (process pep hash f) as [[k [gs e]]|[]] eqn:P; try discriminate. injection O as <-. cbn [step_with c_types c_grants c_bad c_errors].
        assert (M : (match k with NSERCG => merge_nserc (c_grants c) gs | _ => Ok (gjoin (c_grants c) gs) end) = if mem NSERCG [k] then merge_nserc (c_grants c) gs else Ok (gjoin (c_grants c) gs)) by (destruct k; reflexivity).
        rewrite <- M. destruct k, e as [e|]; cbn [fold_left fst snd]; try (destruct (merge_nserc (c_grants c) gs); [|reflexivity]); cbn [bind]; destruct (IH {| c_grants := c_grants c; c_types := []; c_bad := false; c_errors := [] |} X') as [_ _]; apply (IH _ X'); exact A'.
      * destruct O as [-> O]. destruct (process pep hash f) as [[k [gs e]]|e] eqn:P; [discriminate|].
        assert (U : e = UnknownFile) by (destruct e; try reflexivity; try discriminate O; exfalso; exact (process_raise _ _ _ P)). subst e. cbn [eqb]. rewrite eqb_refl. cbn [step_with bind]. apply (IH _ X'). exact A'.
    + intros c' E. cbn [read_grants] in E. destruct (process pep hash f) as [[k [gs e]]|x] eqn:P.
      * destruct (match k with NSERCG => merge_nserc (c_grants c) gs | _ => Ok (gjoin (c_grants c) gs) end) as [s|]; [|discriminate]. cbn [bind] in E. apply (IH _ X') in E as [os A]. eexists (Some _ :: os). constructor; [exact AL|exact A].
      * destruct x; try discriminate. destruct (eqb_spec ext []) as [->|]; [|discriminate]. apply (IH _ X') in E as [os A]. exists (None :: os). constructor; [split; [reflexivity|exact AL]|exact A].
Qed.
Lemma listed_ends ext es f : In f (dlisted ext es) -> ends_in ext (fname f) = true.
Proof. unfold dlisted. intros I1. apply in_map_iff in I1 as (e & <- & I1). apply filter_In in I1 as [_ I1]. apply andb_prop in I1. apply I1. Qed.

(** what holds of the collection after some files *)
Definition others_in (s : gset) : list grant := map m_grant (filter notN s).
Definition so_far (done : list collected) (c : collected) : Prop :=
  (forall m, In m (c_grants c) -> notN m = true -> fresh m) /\ first_of_each (flat_map others_of done) (others_in (c_grants c)) /\
  c_types c = first_seen (flat_map c_types done) /\ c_bad c = existsb c_bad done.
Lemma others_eq c : others_of c = others_in (c_grants c).
Proof. unfold others_of, grants_of, others_in. induction (c_grants c) as [|m s IH]; [reflexivity|]. cbn [map filter]. unfold notN, isN. destruct (eqb _ _); cbn [negb map]; rewrite IH; reflexivity. Qed.
Lemma join_firsts t : forall s done, (forall m, In m s -> notN m = true -> fresh m) -> (forall m, In m t -> fresh m /\ notN m = true) -> first_of_each done (others_in s) ->
  first_of_each (done ++ map m_grant t) (others_in (gjoin s t)).
Proof.
  induction t as [|m t IH]; intros s done FS FT FE; [cbn [map]; rewrite app_nil_r; exact FE|]. unfold gjoin in *. cbn [fold_left map]. destruct (FT m (or_introl eq_refl)) as [FM NM].
  replace (done ++ m_grant m :: map m_grant t) with ((done ++ [m_grant m]) ++ map m_grant t) by (rewrite <- app_assoc; reflexivity).
  assert (FT' : forall m, In m t -> fresh m /\ notN m = true) by (intros x I1; apply FT; right; exact I1). destruct (existsb _ s) eqn:E.
  - apply IH; [exact FS|exact FT'|]. apply existsb_exists in E as (x & I1 & E). apply andb_prop in E as [_ E]. apply eqb_eq in E. apply first_old with (m_grant x); [exact FE| |apply same_key; exact E].
    apply in_map. apply filter_In. split; [exact I1|]. unfold notN, isN in *. rewrite (key_kind _ _ E). exact NM.
  - apply IH; [|exact FT'|].
    + intros x I1. apply in_app_iff in I1 as [I1|[<-|[]]]; [apply FS; exact I1|intros _; exact FM].
    + unfold others_in. rewrite filter_app, map_app. cbn [filter]. rewrite NM. cbn [map]. apply first_new; [exact FE|]. intros h I1 SG. apply in_map_iff in I1 as (x & <- & I1). apply filter_In in I1 as [I1 N1]. apply same_key in SG.
      rewrite <- not_true_iff_false in E. apply E. apply existsb_exists. exists x. split; [exact I1|]. rewrite (FS x I1 N1), FM, SG, eqb_refl. reflexivity.
Qed.
Lemma wk_N m : well_keyed m -> isN m = true.
Proof. intros (K & _). unfold isN. rewrite K. reflexivity. Qed.
Lemma fs_snoc l (k : gkind) : first_seen (l ++ [k]) = add_kind k (first_seen l).
Proof.
  rewrite first_seen_app. unfold add_kind. cbn [first_seen filter]. destruct (mem k l) eqn:M; cbn [negb].
  - apply mem_In in M. apply (first_seen_In k) in M. apply mem_In in M. rewrite M. apply app_nil_r.
  - apply mem_not_In in M. assert (M' : mem k (first_seen l) = false) by (apply mem_not_In; intros I1; apply M; apply (first_seen_In k); exact I1). rewrite M'. reflexivity.
Qed.
Lemma so_far_step f done c d c' : so_far done c -> one_file f d -> step_with c (Some d) = Ok c' -> so_far (done ++ [d]) c'.
Proof.
  intros (A & B & C & D) ((k & K & O) & _) E. cbn [step_with] in E. rewrite K in E. cbn [mem existsb] in E.
  assert (Y : exists s, c_grants c' = s /\ (if eqb NSERCG k then merge_nserc (c_grants c) (c_grants d) else Ok (gjoin (c_grants c) (c_grants d))) = Ok s /\ c_types c' = add_kind k (c_types c) /\ c_bad c' = c_bad c || c_bad d).
  { unfold mem in E. cbn [existsb] in E. rewrite orb_false_r in E. destruct (if eqb NSERCG k then _ else _) as [s|]; [|discriminate]. cbn [bind] in E. injection E as <-. exists s. auto. }
  destruct Y as (s & G & J & T & Bd). unfold so_far. rewrite !flat_map_app, existsb_app, T, Bd, C, D, G. cbn [flat_map existsb]. rewrite !app_nil_r, orb_false_r, others_eq, K, fs_snoc.
  destruct O as [(-> & W & _)|(NK & W)].
  - rewrite eqb_refl in J. apply merge_N in J as [_ J]; [|intros m I1; apply wk_N; apply W; exact I1]. split; [|split; [|auto]].
    + intros m I1 N1. assert (I2 : In m (filter notN s)) by (apply filter_In; auto). rewrite J in I2. apply filter_In in I2. apply A; tauto.
    + unfold others_in in *. rewrite J. replace (filter notN (c_grants d)) with (@nil member); [rewrite app_nil_r; exact B|]. clear -W. induction (c_grants d) as [|m l IH]; [reflexivity|]. cbn [filter]. unfold notN at 1. rewrite (wk_N m (W m (or_introl eq_refl))). cbn [negb]. apply IH. intros x I1. apply W. right. exact I1.
  - rewrite neq_eqb in J by congruence. injection J as <-. assert (W' : forall m, In m (c_grants d) -> fresh m /\ notN m = true) by (intros m I1; destruct (W m I1) as [F Q]; split; [exact F|unfold notN, isN; rewrite Q, neq_eqb by exact NK; reflexivity]).
    split; [|split; [|auto]].
    + intros m I1 N1. destruct (gjoin_In (c_grants d) (c_grants c)) as (X & _). apply X in I1 as [I1|I1]; [apply A; assumption|apply W'; exact I1].
    + replace (others_in (c_grants d)) with (map m_grant (c_grants d)); [apply join_firsts; assumption|]. unfold others_in. f_equal. symmetry. apply filter_all. intros m I1. apply W'. exact I1.
Qed.
Lemma all_so_far : forall fs os done c c', Forall2 (fun f o => match o with Some d => one_file f d | None => True end) fs os -> so_far done c -> all_with c os = Ok c' -> so_far (done ++ known os) c'.
Proof.
  intros fs os. revert fs. induction os as [|o os IH]; intros fs done c c' F S E; cbn [all_with] in E; [injection E as <-; cbn; rewrite app_nil_r; exact S|]. inversion F as [|f ? fs' ? O F']; subst. destruct (step_with c o) as [c1|] eqn:ST; [|discriminate]. cbn [bind] in E. destruct o as [d|].
  - unfold known. cbn [flat_map app]. replace (done ++ d :: flat_map _ os) with ((done ++ [d]) ++ known os) by (rewrite <- app_assoc; reflexivity). apply (IH fs' _ c1 c' F'); [exact (so_far_step f _ _ _ _ S O ST)|exact E].
  - cbn [step_with] in ST. injection ST as <-. exact (IH fs' _ c c' F' S E).
Qed.
Lemma so_far_0 : so_far [] c0.
Proof. split; [intros m []|]. split; [constructor|]. split; reflexivity. Qed.
(** errors *)
Lemma all_errors : forall fs os c c', Forall2 (fun f o => match o with Some d => one_file f d | None => True end) fs os -> NoDup (map fname fs) -> (forall f, In f fs -> ~ In (fname f) (dkeys (c_errors c))) ->
  all_with c os = Ok c' -> c_errors c' = c_errors c ++ flat_map c_errors (known os).
Proof.
  intros fs os. revert fs. induction os as [|o os IH]; intros fs c c' F ND NI E; cbn [all_with] in E; [injection E as <-; cbn; rewrite app_nil_r; reflexivity|]. inversion F as [|f ? fs' ? O F']; subst. inversion ND as [|? ? NF ND']; subst. destruct (step_with c o) as [c1|] eqn:ST; [|discriminate]. cbn [bind] in E. destruct o as [d|].
  - assert (X : c_errors c1 = c_errors c ++ c_errors d).
    { cbn [step_with] in ST. destruct (if mem _ _ then _ else _) as [s|]; [|discriminate]. cbn [bind] in ST. injection ST as <-. cbn [c_errors]. destruct O as (_ & [Q|[x Q]]); rewrite Q; cbn [fold_left fst snd]; [rewrite app_nil_r; reflexivity|].
      specialize (NI f (or_introl eq_refl)). clear -NI. induction (c_errors c) as [|[k v] l IH]; [reflexivity|]. cbn [dset dkeys map fst] in *. destruct (eqb_spec (fname f) k) as [Q|_]; [exfalso; apply NI; left; symmetry; exact Q|]. cbn [app]. rewrite IH; [reflexivity|]. intros I1. apply NI. right. exact I1. }
    rewrite (IH fs' c1 c' F' ND'); [|intros y I1|exact E].
    + rewrite X. unfold known. cbn [flat_map app]. rewrite <- app_assoc. reflexivity.
    + rewrite X. unfold dkeys. rewrite map_app. intros I2. apply in_app_iff in I2 as [I2|I2]; [exact (NI y (or_intror I1) I2)|]. destruct O as (_ & [Q|[x Q]]); rewrite Q in I2; [destruct I2|]. destruct I2 as [I2|[]]. cbn in I2. apply NF. rewrite I2. apply in_map. exact I1.
  - cbn [step_with] in ST. injection ST as <-. apply (IH fs' c c' F' ND'); [|exact E]. intros y I1. apply NI. right. exact I1.
Qed.
(** the good grants of NSERC *)
Definition tail (i : str) : str := skipn 6 i.
Lemma tail_pre c : tail (pre c) = c.
Proof. reflexivity. Qed.
Definition item (g : grant) : str * gfields := (tail (g_id g), g_data g).
Lemma plain_members s : (forall m, In m s -> well_keyed m) -> NoDup (good_ids s) -> (forall m, In m s -> plain_grant (m_grant m)) ->
  exists l, s = mem_of l /\ NoDup (dkeys l) /\ (forall c d, In (c, d) l -> texts d) /\ map item (map m_grant s) = l.
Proof.
  intros W N P. exists (map item (map m_grant s)).
  assert (E : s = mem_of (map item (map m_grant s))).
  { clear N. induction s as [|m s IH]; [reflexivity|]. unfold mem_of in *. cbn [map]. f_equal; [|apply IH; intros x I1; [apply W|apply P]; right; exact I1]. destruct (W m (or_introl eq_refl)) as (K & (c & C) & Q). destruct (P m (or_introl eq_refl)) as (GB & GE & _).
    destruct Q as [(MK & _ & _)|Q]; [|congruence]. destruct m as [mk [k i b e d]]. cbn in *. subst. reflexivity. }
  split; [exact E|]. split; [|split; [|reflexivity]].
  - assert (G : good_ids s = map pre (dkeys (map item (map m_grant s)))).
    { clear E N. unfold good_ids, dkeys. induction s as [|m s IH]; [reflexivity|]. cbn [filter map fst]. destruct (P m (or_introl eq_refl)) as (GB & _). rewrite GB. cbn [negb map item fst]. rewrite IH; [|intros x I1; apply W; right; exact I1|intros x I1; apply P; right; exact I1].
      destruct (W m (or_introl eq_refl)) as (_ & (c & ->) & _). rewrite tail_pre. reflexivity. }
    rewrite G in N. apply NoDup_map_inv in N. exact N.
  - intros c d I1. apply in_map_iff in I1 as (g & Q & I1). apply in_map_iff in I1 as (m & <- & I1). injection Q as _ <-. destruct (P m I1) as (_ & _ & A & B). split; assumption.
Qed.
Lemma first_seen_fix (l : list str) : NoDup l -> first_seen l = l.
Proof. induction l as [|x l IH]; intros ND; [reflexivity|]. inversion ND as [|? ? NI ND']; subst. cbn [first_seen]. rewrite (IH ND'). f_equal. apply filter_all. intros y I1. rewrite neq_eqb; [reflexivity|]. intros ->. exact (NI I1). Qed.
Lemma held_self l : NoDup (dkeys l) -> (forall c d, In (c, d) l -> texts d) -> held l l.
Proof.
  intros ND T. split; [symmetry; apply first_seen_fix; exact ND|]. intros c d I1. split; [exact (T c d I1)|]. intros f. assert (E : with_id c l = [d]); [|rewrite E, merged_one; reflexivity]. clear T. unfold with_id. induction l as [|[c' d'] l IH]; [destruct I1|].
  inversion ND as [|? ? NI ND']; subst. cbn [filter fst]. destruct I1 as [I1|I1].
  - injection I1 as <- <-. rewrite eqb_refl. cbn [map snd]. f_equal. apply with_id_none. exact NI.
  - destruct (eqb_spec c' c) as [->|_]; [exfalso; apply NI; apply in_map_iff; exists (c, d); auto|]. exact (IH ND' I1).
Qed.
Lemma all_nserc : forall fs os done l c, Forall2 (fun f o => match o with Some d => one_file f d | None => True end) fs os -> (forall d g, In d (known os) -> In g (nserc_of d) -> plain_grant g) ->
  filter isN (c_grants c) = mem_of l -> held done l ->
  exists c' l', all_with c os = Ok c' /\ filter isN (c_grants c') = mem_of l' /\ held (done ++ map item (flat_map nserc_of (known os))) l'.
Proof.
  intros fs os. revert fs. induction os as [|o os IH]; intros fs done l c F P E H.
  - exists c, l. cbn. rewrite app_nil_r. auto.
  - inversion F as [|f ? fs' ? O F']; subst. destruct o as [d|]; cbn [all_with].
    + assert (P' : forall d g, In d (known os) -> In g (nserc_of d) -> plain_grant g) by (intros y g I1; apply P; unfold known; cbn [flat_map app]; right; exact I1). pose proof (P d) as Pd. specialize (fun g => Pd g (or_introl eq_refl)).
      destruct O as ((k & K & O) & _). cbn [step_with]. rewrite K. unfold mem. cbn [existsb]. rewrite orb_false_r. unfold known. cbn [flat_map app]. rewrite map_app, app_assoc. destruct O as [(-> & W & N)|(NK & W)].
      * rewrite eqb_refl. assert (NO : nserc_of d = map m_grant (c_grants d)). { unfold nserc_of, grants_of. apply filter_all. intros g I1. apply in_map_iff in I1 as (m & <- & I1). destruct (W m I1) as (Q & _). rewrite Q. reflexivity. }
        destruct (plain_members (c_grants d) W N) as (l2 & E2 & ND2 & T2 & L2). { intros m I1. apply Pd. rewrite NO. apply in_map. exact I1. }
        destruct (merge_held done l2 l l2 H (held_self l2 ND2 T2)) as (l3 & M & H3).
        assert (WN : forall m, In m (c_grants d) -> isN m = true) by (intros m I1; apply wk_N; apply W; exact I1).
        destruct (merge_ok (c_grants c) (c_grants d) (mem_of l3) WN) as [s S]; [rewrite E, E2; exact M|]. pose proof S as S'. apply merge_N in S' as [S1 _]; [|exact WN]. rewrite E, E2, M in S1. injection S1 as S1. rewrite S. cbn [bind].
        rewrite NO, L2. apply (IH fs' _ l3 _ F' P'); [symmetry; exact S1|exact H3].
      * rewrite neq_eqb by congruence. cbn [bind]. replace (nserc_of d) with (@nil grant). { cbn [map]. rewrite app_nil_r. apply (IH fs' _ l _ F' P'); [|exact H]. cbn [c_grants]. rewrite gjoin_other; [exact E|]. intros m I1. destruct (W m I1) as [_ Q]. unfold notN, isN. rewrite Q, neq_eqb by exact NK. reflexivity. }
        unfold nserc_of, grants_of. clear -W NK. induction (c_grants d) as [|m s IHs]; [reflexivity|]. cbn [map filter]. destruct (W m (or_introl eq_refl)) as [_ Q]. rewrite Q, neq_eqb by exact NK. apply IHs. intros x I1. apply W. right. exact I1.
    + cbn [step_with bind]. apply (IH fs' done l c F'); try assumption.
Qed.
Lemma held_merged given l : Forall (fun g => exists c, g_id g = pre c) given -> held (map item given) l -> merged_grants given (map m_grant (mem_of l)).
Proof.
  intros G [K1 K2]. unfold merged_grants.
  assert (I : map g_id given = map pre (map fst (map item given))). { rewrite !map_map. apply map_ext_in. intros g I1. rewrite Forall_forall in G. destruct (G g I1) as [c E]. unfold item. cbn [fst]. rewrite E, tail_pre. reflexivity. }
  rewrite I. assert (FS : forall l, first_seen (map pre l) = map pre (first_seen l)).
  { clear. induction l as [|x l IH]; [reflexivity|]. cbn [map first_seen]. rewrite IH. f_equal. clear IH. induction (first_seen l) as [|y k IHk]; [reflexivity|]. cbn [map filter]. destruct (eqb_spec y x) as [->|NE]; [rewrite eqb_refl; exact IHk|]. rewrite neq_eqb by (intros E; apply NE; exact (pre_inj _ _ E)). cbn [negb map]. rewrite IHk. reflexivity. }
  rewrite FS, <- K1. unfold mem_of. rewrite !map_map. revert K2. clear K1 I FS. induction l as [|[c d] l IH]; intros K2; [constructor|]. cbn [map fst snd]. constructor.
  - split; [reflexivity|]. split; [reflexivity|]. split; [reflexivity|]. intros f. destruct (K2 c d (or_introl eq_refl)) as [_ X]. cbn [m_grant gm g_data]. rewrite X. f_equal. clear -G. unfold with_id. induction G as [|g given [c' E] G IHg]; [reflexivity|]. cbn [map filter]. unfold item at 1. cbn [fst].
    rewrite E, tail_pre. destruct (eqb_spec c' c) as [->|NE]; [rewrite eqb_refl; cbn [map]; rewrite IHg; reflexivity|]. rewrite neq_eqb by (intros Q; apply NE; exact (pre_inj _ _ Q)). exact IHg.
  - apply IH. intros; apply K2; now right.
Qed.
