(** C87: collections made from directories of record files. *)
From Coq Require Import List ZArith Lia Bool Arith Permutation.
From Coq Require Import String.
From Verif Require Import Base PyStr WosModel WosProofs PropertiesWos PropertiesMedline FileModel FileProofs PropertiesFile BytesModel PropertiesBytes DirModel DirSpec.
From Verif Require MedlineModel ProQuestModel ScopusModel.
Import ListNotations.
Local Open Scope list_scope.

Lemma ends_in_spec t s : ends_in t s = true <-> ends t s.
Proof.
  unfold ends_in, ends. rewrite starts_with_spec. split; intros (x & E).
  - exists (rev x). rewrite <- (rev_involutive s), E, rev_app_distr, rev_involutive. reflexivity.
  - exists (rev x). rewrite E, rev_app_distr. reflexivity.
Qed.
Lemma ends_in_not t s : ends_in t s = false <-> ~ ends t s.
Proof. rewrite <- ends_in_spec. destruct (ends_in t s); split; intros; try congruence; tauto. Qed.
Lemma full_spec dir f p : path_in dir f p <-> p = full dir f.
Proof.
  unfold path_in, full. destruct (ends_in $"/" dir) eqn:E.
  - apply ends_in_spec in E. split; [intros [[_ ->]|[N _]]; [reflexivity|contradiction]|intros ->; left; auto].
  - apply ends_in_not in E. split; [intros [[N _]|[_ ->]]; [contradiction|reflexivity]|intros ->; right; auto].
Qed.
Lemma listed_spec dir ext es p b : In (p, b) (listed dir ext es) <-> asked dir ext es p b.
Proof.
  unfold asked. induction es as [|[f [b'|]] es IH]; cbn [listed].
  - split; [intros []|intros (f & [] & _)].
  - destruct (ends_in ext (full dir f) && negb (ends_in $"mkRecordDirCache" (full dir f)))%bool eqn:E.
    + apply andb_true_iff in E as [E1 E2]. apply negb_true_iff in E2. apply ends_in_spec in E1. apply ends_in_not in E2. cbn [In]. rewrite IH. split.
      * intros [X|(g & I1 & R)]; [injection X as <- <-; exists f; split; [left; reflexivity|]; split; [apply full_spec; reflexivity|auto]|exists g; split; [right; exact I1|exact R]].
      * intros (g & [X|I1] & P & R); [injection X as -> ->; left; apply full_spec in P; rewrite P; reflexivity|right; exists g; auto].
    + rewrite IH. split; [intros (g & I1 & R); exists g; split; [right; exact I1|exact R]|]. intros (g & [X|I1] & P & R1 & R2); [|exists g; auto]. injection X as -> ->. apply full_spec in P. subst p. apply ends_in_spec in R1. apply ends_in_not in R2. rewrite R1, R2 in E. discriminate.
  - rewrite IH. split; intros (g & I1 & R); exists g; (split; [|exact R]); [right; exact I1|]. destruct I1 as [X|I1]; [discriminate|exact I1].
Qed.
Lemma same_key r q : same_record r q <-> anykey_of r = anykey_of q.
Proof.
  destruct r as [a|a|a|a], q as [b|b|b|b]; cbn [same_record anykey_of]; try (split; [intros []|discriminate]); unfold same_by, rkey, MedlineModel.mkey_of, ProQuestModel.pkey_of, ScopusModel.skey_of, dvals.
  - destruct (wbad a), (wbad b); split; intros H; try (destruct H as [(X & Y & Z)|(X & Y & Z & W)]; congruence); try discriminate; injection H; intros; try (right; auto; fail); left; auto.
  - destruct (MedlineModel.mbad a), (MedlineModel.mbad b); split; intros H; try (destruct H as [(X & Y & Z)|(X & Y & Z & W)]; congruence); try discriminate; injection H; intros; try (right; auto; fail); left; auto.
  - destruct (ProQuestModel.pbad a), (ProQuestModel.pbad b); split; intros H; try (destruct H as [(X & Y & Z)|(X & Y & Z & W)]; congruence); try discriminate; injection H; intros; try (right; auto; fail); left; auto.
  - destruct (ScopusModel.sbad a), (ScopusModel.sbad b); split; intros H; try (destruct H as [(X & Y & Z)|(X & Y & Z & W)]; congruence); try discriminate; injection H; intros; try (right; auto; fail); left; auto.
Qed.
(** adding records to a set *)
Lemma add_records rs : forall s, (NoDup (map anykey_of s) -> NoDup (map anykey_of (fold_left add_record rs s))) /\
  (forall r, In r (fold_left add_record rs s) -> In r s \/ In r rs) /\ (forall r, In r s -> In r (fold_left add_record rs s)) /\
  (forall r, In r rs -> exists q, In q (fold_left add_record rs s) /\ anykey_of q = anykey_of r).
Proof.
  induction rs as [|r rs IH]; intros s; cbn [fold_left].
  - split; [auto|]. split; [auto|]. split; [auto|]. intros r [].
  - destruct (IH (add_record s r)) as (A & B & C & D). assert (IN : forall q, In q s -> In q (add_record s r)) by (intros q I1; unfold add_record; destruct (mem _ _); [exact I1|apply in_or_app; left; exact I1]).
    split; [|split; [|split]].
    + intros N. apply A. unfold add_record. destruct (mem (anykey_of r) (map anykey_of s)) eqn:M; [exact N|]. apply mem_not_In in M. rewrite map_app. cbn [map]. apply (Permutation_NoDup (Permutation_cons_append (map anykey_of s) (anykey_of r))). constructor; assumption.
    + intros q I1. destruct (B q I1) as [I2|I2]; [|right; right; exact I2]. unfold add_record in I2. destruct (mem _ _); [left; exact I2|]. apply in_app_or in I2 as [I2|[->|[]]]; [left; exact I2|right; left; reflexivity].
    + intros q I1. apply C, IN, I1.
    + intros q [->|I1]; [|apply D, I1]. unfold add_record in C. destruct (mem (anykey_of q) (map anykey_of s)) eqn:M.
      * apply mem_In, in_map_iff in M as (x & E & I2). exists x. split; [|exact E]. unfold add_record. rewrite (proj2 (mem_In _ _)) by (apply in_map_iff; exists x; auto). apply C, I2.
      * exists q. split; [|reflexivity]. unfold add_record. rewrite M. apply C, in_or_app. right. left. reflexivity.
Qed.
Lemma In_add_str t l x : In x (add_str t l) <-> In x l \/ x = t.
Proof.
  unfold add_str. destruct (mem t l) eqn:M; [|rewrite in_app_iff; cbn; intuition]. apply mem_In in M. split; [auto|]. intros [I1|E1]; [exact I1|]. rewrite E1. exact M.
Qed.
Lemma NoDup_add_str t l : NoDup l -> NoDup (add_str t l).
Proof. unfold add_str. intros N. destruct (mem t l) eqn:M; [exact N|]. apply mem_not_In in M. apply (Permutation_NoDup (Permutation_cons_append l t)). constructor; assumption. Qed.
(** a file alone *)
Lemma first_kind_none b : first_kind handlers b = None <-> forall k, detector k b = false.
Proof.
  unfold handlers. cbn [first_kind]. split.
  - intros H k. destruct (detector WosFile b) eqn:A, (detector MedlineFile b) eqn:B, (detector ProQuestFile b) eqn:C, (detector ScopusFile b) eqn:D; try discriminate. destruct k; assumption.
  - intros H. rewrite !H. reflexivity.
Qed.
Lemma first_kind_det b k : first_kind handlers b = Some k -> detector k b = true.
Proof.
  generalize handlers. induction l as [|j l IH]; cbn [first_kind]; [discriminate|]. destruct (detector j b) eqn:D; [|exact IH]. intros E. injection E as <-. exact D.
Qed.
Section Proofs.
Variable alpha : char -> bool.
Lemma read_one p ext b name : ends_in ext p = true ->
  read_path alpha p name ext b = match first_kind handlers b with
    | None => Raise BadInputFile
    | Some k => let* (rs, e) := processor alpha k b in Ok (mkFcoll rs [type_name k] (match name with [] => path_name p | _ => name end) e (if e then [p] else []))
    end.
Proof.
  intros E. unfold read_path. rewrite E. cbn [negb]. generalize handlers. induction l as [|k l IH]; cbn [try_handlers first_kind]; [reflexivity|]. destruct (detector k b); [reflexivity|exact IH].
Qed.
(** the invariant of the loop: what has been read so far *)
Definition one ext p b c' := read_path alpha p [] ext b = Ok c'.
Definition gathered ext (done : list (str * bytes)) (c0 c : fcoll) : Prop :=
  (NoDup (map anykey_of (f_recs c0)) -> NoDup (map anykey_of (f_recs c))) /\
  (forall r, In r (f_recs c) -> In r (f_recs c0) \/ exists p b c', In (p, b) done /\ one ext p b c' /\ In r (f_recs c')) /\
  (forall r, In r (f_recs c0) -> In r (f_recs c)) /\
  (forall p b c' r, In (p, b) done -> one ext p b c' -> In r (f_recs c') -> exists q, In q (f_recs c) /\ anykey_of q = anykey_of r) /\
  (NoDup (f_types c0) -> NoDup (f_types c)) /\
  (forall t, In t (f_types c) <-> In t (f_types c0) \/ exists p b c', In (p, b) done /\ one ext p b c' /\ In t (f_types c')) /\
  f_name c = f_name c0 /\
  (f_bad c = true <-> f_bad c0 = true \/ exists p b c', In (p, b) done /\ one ext p b c' /\ f_bad c' = true) /\
  (NoDup (f_errors c0) -> NoDup (f_errors c)) /\
  (forall p, In p (f_errors c) <-> In p (f_errors c0) \/ exists b c', In (p, b) done /\ one ext p b c' /\ f_bad c' = true).
Lemma loop ext fl : (forall p b, In (p, b) fl -> ends_in ext p = true) -> forall c0 c, read_files alpha ext fl c0 = Ok c -> gathered ext fl c0 c.
Proof.
  induction fl as [|[p b] fl IH]; intros EX c0 c; cbn [read_files].
  - intros E. injection E as ->. unfold gathered. repeat split; auto; try (intros [H|(x & y & z & [] & _)]; exact H); try (intros [H|(y & z & [] & _)]; exact H). intros p b c' r [].
  - assert (EX' : forall q d, In (q, d) fl -> ends_in ext q = true) by (intros q d I1; apply (EX q d); right; exact I1). specialize (IH EX').
    pose proof (read_one p ext b [] (EX p b (or_introl eq_refl))) as RO.
    destruct (first_kind handlers b) as [k|] eqn:FK.
    + destruct (processor alpha k b) as [[rs e]|x] eqn:PR; [|discriminate]. cbn [bind]. intros E. apply IH in E. destruct E as (G1 & G2 & G3 & G4 & G5 & G6 & G7 & G8 & G9 & G10). cbn [bind f_recs f_types f_name f_bad f_errors] in *.
      destruct (add_records rs (f_recs c0)) as (A1 & A2 & A3 & A4). unfold gathered.
      split; [auto|]. split; [|split; [auto|split]].
      * intros r I1. apply G2 in I1 as [I1|(q & d & c' & I1 & O1 & R1)]; [|right; exists q, d, c'; cbn; auto]. apply A2 in I1 as [I1|I1]; [left; exact I1|]. right. exists p, b. eexists. split; [left; reflexivity|]. split; [exact RO|exact I1].
      * intros q d c' r [X|I1] O1 R1; [|eapply G4; eassumption]. injection X as <- <-. unfold one in O1. rewrite RO in O1. injection O1 as <-. cbn [f_recs] in R1. destruct (A4 r R1) as (z & I2 & K). exists z. split; [apply G3, I2|exact K].
      * split; [intros N; apply G5, NoDup_add_str, N|]. split; [|split; [exact G7|split; [|split]]].
        -- intros t. rewrite G6, In_add_str. split.
           ++ intros [[I1| ->]|(q & d & c' & I1 & O1 & R1)]; [left; exact I1| |right; exists q, d, c'; cbn; auto]. right. exists p, b. eexists. split; [left; reflexivity|]. split; [exact RO|left; reflexivity].
           ++ intros [I1|(q & d & c' & [X|I1] & O1 & R1)]; [auto| |right; exists q, d, c'; auto]. injection X as <- <-. unfold one in O1. rewrite RO in O1. injection O1 as <-. cbn [f_types] in R1. destruct R1 as [<-|[]]. auto.
        -- rewrite G8, orb_true_iff. split.
           ++ intros [[B|B]|(q & d & c' & I1 & O1 & R1)]; [auto| |right; exists q, d, c'; cbn; auto]. right. exists p, b. eexists. split; [left; reflexivity|]. split; [exact RO|exact B].
           ++ intros [B|(q & d & c' & [X|I1] & O1 & R1)]; [auto| |right; exists q, d, c'; auto]. injection X as <- <-. unfold one in O1. rewrite RO in O1. injection O1 as <-. cbn [f_bad] in R1. auto.
        -- intros N. apply G9. destruct e; [apply NoDup_add_str, N|exact N].
        -- intros q. rewrite G10. split.
           ++ intros [I1|(d & c' & I1 & O1 & R1)]; [|right; exists d, c'; cbn; auto]. destruct e; [|auto]. apply In_add_str in I1 as [I1| ->]; [auto|]. right. exists b. eexists. split; [left; reflexivity|]. split; [exact RO|reflexivity].
           ++ intros [I1|(d & c' & [X|I1] & O1 & R1)]; [left; destruct e; [apply In_add_str; auto|exact I1]| |right; exists d, c'; auto]. injection X as <- <-. unfold one in O1. rewrite RO in O1. injection O1 as <-. cbn [f_bad] in R1. subst e. left. apply In_add_str. auto.
    + destruct (eqb_spec ext []) as [EE|EE]; [|discriminate]. intros E. apply IH in E. assert (NO : forall c', ~ one ext p b c') by (intros c' O1; unfold one in O1; rewrite RO in O1; discriminate).
      destruct E as (G1 & G2 & G3 & G4 & G5 & G6 & G7 & G8 & G9 & G10). unfold gathered. split; [exact G1|]. split; [|split; [exact G3|split; [|split; [exact G5|split; [|split; [exact G7|split; [|split; [exact G9|]]]]]]]].
      * intros r I1. apply G2 in I1 as [I1|(q & d & c' & I1 & R1)]; [auto|right; exists q, d, c'; cbn; auto].
      * intros q d c' r [X|I1] O1 R1; [injection X as <- <-; destruct (NO _ O1)|eapply G4; eassumption].
      * intros t. rewrite G6. split; (intros [I1|(q & d & c' & I1 & O1 & R1)]; [auto|]); [right; exists q, d, c'; cbn; auto|]. destruct I1 as [X|I1]; [injection X as <- <-; destruct (NO _ O1)|right; exists q, d, c'; auto].
      * rewrite G8. split; (intros [I1|(q & d & c' & I1 & O1 & R1)]; [auto|]); [right; exists q, d, c'; cbn; auto|]. destruct I1 as [X|I1]; [injection X as <- <-; destruct (NO _ O1)|right; exists q, d, c'; auto].
      * intros q. rewrite G10. split; (intros [I1|(d & c' & I1 & O1 & R1)]; [auto|]); [right; exists d, c'; cbn; auto|]. destruct I1 as [X|I1]; [injection X as <- <-; destruct (NO _ O1)|right; exists d, c'; auto].
Qed.
Lemma loop_raises ext fl : (forall p b, In (p, b) fl -> ends_in ext p = true) -> forall c0 e, read_files alpha ext fl c0 = Raise e -> exists p b, In (p, b) fl /\ read_path alpha p [] ext b = Raise e /\ (ext = [] -> exists k, detector k b = true).
Proof.
  induction fl as [|[p b] fl IH]; intros EX c0 e; cbn [read_files]; [discriminate|]. pose proof (read_one p ext b [] (EX p b (or_introl eq_refl))) as RO.
  assert (IH' : forall c1, read_files alpha ext fl c1 = Raise e -> exists q d, In (q, d) ((p, b) :: fl) /\ read_path alpha q [] ext d = Raise e /\ (ext = [] -> exists k, detector k d = true)).
  { intros c1 E. destruct (IH (fun q d I1 => EX q d (or_intror I1)) c1 e E) as (q & d & I1 & R). exists q, d. cbn. auto. }
  destruct (first_kind handlers b) as [k|] eqn:FK.
  - destruct (processor alpha k b) as [[rs er]|x] eqn:PR; cbn [bind]; [apply IH'|]. intros E. injection E as ->. exists p, b. split; [left; reflexivity|]. split; [exact RO|]. intros _. exists k. apply first_kind_det, FK.
  - destruct (eqb_spec ext []) as [EE|EE]; [apply IH'|]. intros E. injection E as <-. exists p, b. split; [left; reflexivity|]. split; [exact RO|]. contradiction.
Qed.
Lemma loop_ok ext fl : (forall p b, In (p, b) fl -> ends_in ext p = true) -> forall c0 c, read_files alpha ext fl c0 = Ok c -> forall p b, In (p, b) fl -> (exists c', read_path alpha p [] ext b = Ok c') \/ (ext = [] /\ forall k, detector k b = false).
Proof.
  induction fl as [|[p b] fl IH]; intros EX c0 c E q d; [intros []|]. cbn [read_files] in E. pose proof (read_one p ext b [] (EX p b (or_introl eq_refl))) as RO.
  destruct (first_kind handlers b) as [k|] eqn:FK.
  - destruct (processor alpha k b) as [[rs er]|x] eqn:PR; cbn [bind] in E; [|discriminate]. intros [X|I1]; [|apply (IH (fun q d I1 => EX q d (or_intror I1)) _ _ E q d I1)]. injection X as <- <-. left. eexists. exact RO.
  - destruct (eqb_spec ext []) as [EE|EE]; [|discriminate]. intros [X|I1]; [|apply (IH (fun q d I1 => EX q d (or_intror I1)) _ _ E q d I1)]. injection X as <- <-. right. split; [exact EE|]. apply first_kind_none, FK.
Qed.
Lemma listed_ext dir ext es p b : In (p, b) (listed dir ext es) -> ends_in ext p = true.
Proof. intros I1. apply listed_spec in I1 as (f & _ & _ & X & _). apply ends_in_spec, X. Qed.
End Proofs.

(** The collection of a directory is the union of the collections of its files that have the extension and are no caches: each record of it is in one of these, and each
    record of these is equal to one of it, no two of its records being equal. Its types are theirs, the files among its errors are those whose collections are bad, and it is
    bad exactly if there is one. *)
Theorem C87_union : forall alpha dir name ext es c, read_dir alpha dir name ext es = Ok c ->
  (forall r, In r (f_recs c) -> exists p b c', asked dir ext es p b /\ read_path alpha p [] ext b = Ok c' /\ In r (f_recs c')) /\
  (forall p b c' r, asked dir ext es p b -> read_path alpha p [] ext b = Ok c' -> In r (f_recs c') -> exists q, In q (f_recs c) /\ same_record q r) /\
  ForallOrdPairs (fun r q => ~ same_record r q) (f_recs c) /\
  NoDup (f_types c) /\ (forall t, In t (f_types c) <-> exists p b c', asked dir ext es p b /\ read_path alpha p [] ext b = Ok c' /\ In t (f_types c')) /\
  NoDup (f_errors c) /\ (forall p, In p (f_errors c) <-> exists b c', asked dir ext es p b /\ read_path alpha p [] ext b = Ok c' /\ f_bad c' = true) /\
  (f_bad c = true <-> f_errors c <> []).
Proof.
  intros alpha dir name ext es c R. unfold read_dir in R. apply loop in R; [|intros p b I1; eapply listed_ext; exact I1]. destruct R as (G1 & G2 & G3 & G4 & G5 & G6 & G7 & G8 & G9 & G10). cbn [f_recs f_types f_name f_bad f_errors map] in *.
  assert (E10 : forall p, In p (f_errors c) <-> exists b c', asked dir ext es p b /\ read_path alpha p [] ext b = Ok c' /\ f_bad c' = true).
  { intros p. rewrite G10. split; [intros [[]|(b & c' & I1 & R)]|intros (b & c' & I1 & R); right]; exists b, c'; (split; [apply listed_spec, I1|exact R]). }
  split; [|split; [|split; [|split; [apply G5; constructor|split; [|split; [apply G9; constructor|split; [exact E10|]]]]]]].
  - intros r I1. destruct (G2 r I1) as [[]|(p & b & c' & I2 & R)]. exists p, b, c'. split; [apply listed_spec, I2|exact R].
  - intros p b c' r AS O1 I1. apply listed_spec in AS. destruct (G4 p b c' r AS O1 I1) as (q & I2 & K). exists q. split; [exact I2|apply same_key, K].
  - assert (ND : NoDup (map anykey_of (f_recs c))) by (apply G1; constructor). clear - ND. induction (f_recs c) as [|r l IH]; [constructor|]. cbn [map] in ND. inversion_clear ND. constructor; [|apply IH; assumption]. apply Forall_forall. intros q I1 S1. apply same_key in S1. apply H. rewrite S1. apply in_map, I1.
  - intros t. rewrite G6. split; [intros [[]|(p & b & c' & I1 & R)]|intros (p & b & c' & I1 & R); right]; exists p, b, c'; (split; [apply listed_spec, I1|exact R]).
  - rewrite G8. split.
    + intros [X|(p & b & c' & I1 & R)]; [discriminate|]. intros N. assert (X : In p (f_errors c)) by (apply E10; exists b, c'; split; [apply listed_spec, I1|exact R]). rewrite N in X. destruct X.
    + intros N. destruct (f_errors c) as [|p l]; [congruence|]. right. destruct (proj1 (E10 p) (or_introl eq_refl)) as (b & c' & A & R). exists p, b, c'. split; [apply listed_spec, A|exact R].
Qed.
(** There is one exactly if every such file can be read, where files of no known kind are passed over if no extension was asked for; otherwise the exception is that of a file. *)
Theorem C87_readable : forall alpha dir name ext es,
  ((exists c, read_dir alpha dir name ext es = Ok c) <->
   forall p b, asked dir ext es p b -> (exists c', read_path alpha p [] ext b = Ok c') \/ (ext = [] /\ forall k, detector k b = false)) /\
  forall e, read_dir alpha dir name ext es = Raise e -> exists p b, asked dir ext es p b /\ read_path alpha p [] ext b = Raise e.
Proof.
  intros alpha dir name ext es. unfold read_dir. set (c0 := mkFcoll _ _ _ _ _). assert (EX := fun p b => @listed_ext dir ext es p b). split; [split|].
  - intros (c & R) p b A. apply listed_spec in A. exact (loop_ok alpha ext _ EX c0 c R p b A).
  - intros H. destruct (read_files alpha ext (listed dir ext es) c0) as [c|e] eqn:R; [exists c; reflexivity|]. destruct (loop_raises alpha ext _ EX c0 e R) as (p & b & I1 & RP & K). apply listed_spec in I1. destruct (H p b I1) as [(c' & O1)|[E N]]; [congruence|]. destruct (K E) as (k & D). rewrite N in D. discriminate.
  - intros e R. destruct (loop_raises alpha ext _ EX c0 e R) as (p & b & I1 & RP & _). exists p, b. split; [apply listed_spec, I1|exact RP].
Qed.
(** The name: the one given, or that of the directory with the extension asked for. *)
Theorem C87_name : forall alpha dir name ext es c, read_dir alpha dir name ext es = Ok c ->
  (name <> [] -> f_name c = name) /\ (name = [] -> ext = [] -> f_name c = $"files-from-" ++ dir) /\ (name = [] -> ext <> [] -> f_name c = ext ++ $"-files-from-" ++ dir).
Proof.
  intros alpha dir name ext es c R. unfold read_dir in R. apply loop in R; [|intros p b I1; eapply listed_ext; exact I1]. destruct R as (_ & _ & _ & _ & _ & _ & -> & _). cbn [f_name]. unfold dir_name.
  split; [destruct name; congruence|]. split; [intros -> ->; reflexivity|]. intros -> N. destruct ext; [congruence|reflexivity].
Qed.
Lemma asked_perm dir ext es es' p b : Permutation es es' -> asked dir ext es p b -> asked dir ext es' p b.
Proof. intros P (f & I1 & R). exists f. split; [eapply Permutation_in; eassumption|exact R]. Qed.
(** The order in which the system lists the files does not matter. *)
Theorem C87_order : forall alpha dir name ext es es', Permutation es es' ->
  ((exists c, read_dir alpha dir name ext es = Ok c) <-> (exists c, read_dir alpha dir name ext es' = Ok c)) /\
  forall c c', read_dir alpha dir name ext es = Ok c -> read_dir alpha dir name ext es' = Ok c' ->
    length (f_recs c) = length (f_recs c') /\ (forall r, In r (f_recs c) -> exists q, In q (f_recs c') /\ same_record q r) /\
    (forall t, In t (f_types c) <-> In t (f_types c')) /\ f_bad c = f_bad c' /\ (forall p, In p (f_errors c) <-> In p (f_errors c')) /\ f_name c = f_name c'.
Proof.
  assert (HALF : forall alpha dir name ext es es' c c', Permutation es es' -> read_dir alpha dir name ext es = Ok c -> read_dir alpha dir name ext es' = Ok c' ->
    (forall r, In r (f_recs c) -> exists q, In q (f_recs c') /\ same_record q r) /\ (forall t, In t (f_types c) -> In t (f_types c')) /\ (forall p, In p (f_errors c) -> In p (f_errors c')) /\ length (f_recs c) <= length (f_recs c')).
  { intros alpha dir name ext es es' c c' P R R'. destruct (C87_union alpha dir name ext es c R) as (A1 & A2 & A3 & A4 & A5 & A6 & A7 & A8). destruct (C87_union alpha dir name ext es' c' R') as (B1 & B2 & B3 & B4 & B5 & B6 & B7 & B8).
    assert (X : forall r, In r (f_recs c) -> exists q, In q (f_recs c') /\ same_record q r) by (intros r I1; destruct (A1 r I1) as (p & b & d & AS & O1 & I2); apply (B2 p b d r); [eapply asked_perm; eassumption|exact O1|exact I2]).
    split; [exact X|]. split; [|split].
    - intros t I1. apply A5 in I1 as (p & b & d & AS & R1). apply B5. exists p, b, d. split; [eapply asked_perm; eassumption|exact R1].
    - intros t I1. apply A7 in I1 as (b & d & AS & R1). apply B7. exists b, d. split; [eapply asked_perm; eassumption|exact R1].
    - rewrite <- (map_length anykey_of (f_recs c)), <- (map_length anykey_of (f_recs c')). apply NoDup_incl_length.
      + unfold read_dir in R. apply loop in R; [|intros p b I1; eapply listed_ext; exact I1]. apply R. constructor.
      + intros k I1. apply in_map_iff in I1 as (r & <- & I1). destruct (X r I1) as (q & I2 & S1). apply same_key in S1. rewrite <- S1. apply in_map, I2. }
  intros alpha dir name ext es es' P. split.
  - rewrite (proj1 (C87_readable alpha dir name ext es)), (proj1 (C87_readable alpha dir name ext es')). split; intros H p b A; apply H; [apply Permutation_sym in P|]; eapply asked_perm; eassumption.
  - intros c c' R R'. destruct (HALF alpha dir name ext es es' c c' P R R') as (A1 & A2 & A3 & A4). destruct (HALF alpha dir name ext es' es c' c (Permutation_sym P) R' R) as (B1 & B2 & B3 & B4).
    split; [lia|]. split; [exact A1|]. split; [split; auto|]. split; [|split; [split; auto|]].
    + destruct (C87_union alpha dir name ext es c R) as (_ & _ & _ & _ & _ & _ & _ & U). destruct (C87_union alpha dir name ext es' c' R') as (_ & _ & _ & _ & _ & _ & _ & U').
      assert (NE : f_errors c <> [] <-> f_errors c' <> []) by (split; intros N X; [destruct (f_errors c) as [|p l]; [congruence|specialize (A3 p (or_introl eq_refl)); rewrite X in A3; destruct A3]|destruct (f_errors c') as [|p l]; [congruence|specialize (B3 p (or_introl eq_refl)); rewrite X in B3; destruct B3]]).
      rewrite NE, <- U' in U. destruct (f_bad c), (f_bad c'); try reflexivity; [destruct U as [U _]; symmetry; apply U; reflexivity|destruct U as [_ U]; apply U; reflexivity].
    + destruct (C87_name alpha dir name ext es c R) as (N1 & N2 & N3). destruct (C87_name alpha dir name ext es' c' R') as (N1' & N2' & N3'). destruct name as [|x name]; [|rewrite N1, N1' by discriminate; reflexivity]. destruct ext as [|y ext]; [rewrite N2, N2' by reflexivity; reflexivity|]. rewrite N3, N3' by (reflexivity || discriminate). reflexivity.
Qed.
(** Subdirectories, files without the extension and caches make no difference at all. *)
Theorem C87_ignored : forall alpha dir name ext before after f x,
  (forall p b, path_in dir f p -> x = AFile b -> ~ ends ext p \/ ends $"mkRecordDirCache" p) ->
  read_dir alpha dir name ext (before ++ (f, x) :: after) = read_dir alpha dir name ext (before ++ after).
Proof.
  intros alpha dir name ext before after f x H. unfold read_dir. f_equal. induction before as [|[g y] before IH].
  - cbn [app listed]. destruct x as [b|]; [|reflexivity]. destruct (H (full dir f) b) as [N|N]; [apply full_spec; reflexivity|reflexivity| |].
    + apply ends_in_not in N. rewrite N. reflexivity.
    + apply ends_in_spec in N. rewrite N, andb_false_r. reflexivity.
  - cbn [app listed]. rewrite IH. reflexivity.
Qed.
(** Collections of WOS records that were each written to a file of one directory are read back together. *)
Definition written_to (part : str * list wrec) (x : str * entry) : Prop := fst x = fst part /\ exists b, write_wos_bytes (snd part) = Ok b /\ snd x = AFile b.
Lemma ends_name t x f : ~ In 47%N t -> ends t (x ++ 47%N :: f) -> ends t f.
Proof.
  intros N (y & E). unfold ends. revert y E. induction x as [|c x IH]; intros y E.
  - cbn [app] in E. destruct y as [|d y]; [cbn [app] in E; subst t; destruct N; left; reflexivity|]. cbn [app] in E. injection E as _ E. exists y. exact E.
  - destruct y as [|d y]; [cbn [app] in E; subst t; destruct N; right; apply in_or_app; right; left; reflexivity|]. cbn [app] in E. injection E as _ E. exact (IH y E).
Qed.
Lemma path_name_end dir f p t : path_in dir f p -> ~ In 47%N t -> ends t p -> ends t f.
Proof.
  intros [[(d & ->) ->]|[_ ->]] N E; [rewrite <- app_assoc in E|]; (eapply ends_name; [exact N|exact E]).
Qed.
Lemma path_end dir f p t : path_in dir f p -> ends t f -> ends t p.
Proof. intros P (y & ->). destruct P as [[_ ->]|[_ ->]]; [exists (dir ++ y)|exists (dir ++ $"/" ++ y)]; rewrite <- !app_assoc; reflexivity. Qed.
Lemma path_of dir f : exists p, path_in dir f p.
Proof. exists (full dir f). apply full_spec. reflexivity. Qed.
Lemma F2_left {A B} (R : A -> B -> Prop) l m a : Forall2 R l m -> In a l -> exists b, In b m /\ R a b.
Proof. induction 1; intros I1; [destruct I1|]. destruct I1 as [<-|I1]; [exists y; cbn; auto|]. destruct (IHForall2 I1) as (b & I2 & X). exists b. cbn. auto. Qed.
Lemma F2_right {A B} (R : A -> B -> Prop) l m b : Forall2 R l m -> In b m -> exists a, In a l /\ R a b.
Proof. induction 1; intros I1; [destruct I1|]. destruct I1 as [<-|I1]; [exists x; cbn; auto|]. destruct (IHForall2 I1) as (a & I2 & X). exists a. cbn. auto. Qed.
Lemma all_wos l : (forall r, In r l -> exists w, r = WosRec w) -> exists ws, l = map WosRec ws.
Proof.
  induction l as [|r l IH]; intros H; [exists []; reflexivity|]. destruct (H r (or_introl eq_refl)) as (w & ->). destruct IH as (ws & ->); [intros q I1; apply H; right; exact I1|]. exists (w :: ws). reflexivity.
Qed.
Theorem C87_written : forall alpha dir name ext parts es,
  (forall f rs, In (f, rs) parts -> rs <> [] /\ NoDup (map wid rs) /\ (forall r, In r rs -> read_from_bytes r) /\ ends ext f /\ ~ ends $"mkRecordDirCache" f) ->
  Forall2 written_to parts es -> name <> [] -> parts <> [] ->
  exists recs, read_dir alpha dir name ext es = Ok (mkFcoll (map WosRec recs) [$"WOSRecord"] name false []) /\ NoDup (map wid recs) /\
    (forall r, In r recs -> exists f rs, In (f, rs) parts /\ In r rs) /\ (forall f rs r, In (f, rs) parts -> In r rs -> exists q, In q recs /\ wid q = wid r).
Proof.
  intros alpha dir name ext parts es H W NN NP.
  assert (FILE : forall p b, asked dir ext es p b -> exists f rs nm, In (f, rs) parts /\ read_path alpha p [] ext b = Ok (mkFcoll (map WosRec rs) [$"WOSRecord"] nm false [])).
  { intros p b (f & I1 & P & (before & EP) & _). destruct (F2_right _ _ _ _ W I1) as ([f' rs] & I2 & EF & b' & WB & EB). cbn [fst snd] in *. subst f'. injection EB as <-. destruct (H f rs I2) as (NE & ND & RB & EX & _).
    destruct (C76_wos alpha rs p before ext $"n" NE ND RB EP ltac:(discriminate)) as (b' & WB' & RP). rewrite WB in WB'. injection WB' as <-. exists f, rs.
    assert (EI : ends_in ext p = true) by (apply ends_in_spec; exists before; exact EP). rewrite (read_one alpha p ext b [] EI). rewrite (read_one alpha p ext b $"n" EI) in RP.
    destruct (first_kind handlers b) as [k|]; [|discriminate]. destruct (processor alpha k b) as [[l e]|x]; [|discriminate]. cbn [bind] in *. injection RP as E1 E2 E3 _. eexists. split; [exact I2|]. rewrite E1, E2, E3. reflexivity. }
  assert (PART : forall f rs, In (f, rs) parts -> exists p b nm, asked dir ext es p b /\ read_path alpha p [] ext b = Ok (mkFcoll (map WosRec rs) [$"WOSRecord"] nm false [])).
  { intros f rs I2. destruct (F2_left _ _ _ _ W I2) as ([f' x] & I1 & EF & b & WB & EB). cbn [fst snd] in *. subst f' x. destruct (H f rs I2) as (NE & ND & RB & EX & NC). destruct (path_of dir f) as (p & P).
    assert (A : asked dir ext es p b) by (exists f; split; [exact I1|]; split; [exact P|]; split; [eapply path_end; eassumption|]; intros X; apply NC; eapply path_name_end; [exact P| |exact X]; apply mem_not_In; reflexivity).
    destruct (A) as (_ & _ & _ & (before & EP) & _). destruct (C76_wos alpha rs p before ext $"n" NE ND RB EP ltac:(discriminate)) as (b' & WB' & RP). rewrite WB in WB'. injection WB' as <-. exists p, b.
    assert (EI : ends_in ext p = true) by (apply ends_in_spec; exists before; exact EP). rewrite (read_one alpha p ext b [] EI). rewrite (read_one alpha p ext b $"n" EI) in RP.
    destruct (first_kind handlers b) as [k|]; [|discriminate]. destruct (processor alpha k b) as [[l e]|x]; [|discriminate]. cbn [bind] in *. injection RP as E1 E2 E3 _. eexists. split; [exact A|]. rewrite E1, E2, E3. reflexivity. }
  destruct (proj2 (proj1 (C87_readable alpha dir name ext es))) as (c & R). { intros p b A. left. destruct (FILE p b A) as (f & rs & nm & _ & RP). eexists. exact RP. }
  destruct (C87_union alpha dir name ext es c R) as (U1 & U2 & U3 & U4 & U5 & U6 & U7 & U8). pose proof (proj1 (C87_name alpha dir name ext es c R) NN) as UN.
  assert (SRC : forall r, In r (f_recs c) -> exists f rs w, In (f, rs) parts /\ In w rs /\ r = WosRec w).
  { intros r I1. destruct (U1 r I1) as (p & b & c' & A & RP & I2). destruct (FILE p b A) as (f & rs & nm & I3 & RP'). rewrite RP in RP'. injection RP' as ->. cbn [f_recs] in I2. apply in_map_iff in I2 as (w & <- & I2). exists f, rs, w. auto. }
  destruct (all_wos (f_recs c)) as (recs & ER). { intros r I1. destruct (SRC r I1) as (f & rs & w & _ & _ & ->). exists w. reflexivity. }
  assert (GOOD : forall w f rs, In (f, rs) parts -> In w rs -> wbad w = false). { intros w f rs I1 I2. destruct (H f rs I1) as (_ & _ & RB & _). destruct (RB w I2) as (? & ? & ? & ? & _ & _ & _ & B). exact B. }
  exists recs. split; [|split; [|split]].
  - rewrite R. f_equal. destruct c as [cr ct cn cb ce]. cbn [f_recs f_types f_name f_bad f_errors] in *. subst cr cn.
    assert (TS : forall t, In t ct -> t = $"WOSRecord"). { intros t I1. apply U5 in I1 as (p & b & c' & A & RP & I2). destruct (FILE p b A) as (f & rs & nm & _ & RP'). rewrite RP in RP'. injection RP' as ->. cbn [f_types] in I2. destruct I2 as [<-|[]]. reflexivity. }
    assert (TW : In $"WOSRecord" ct). { destruct parts as [|[f rs] parts]; [congruence|]. destruct (PART f rs (or_introl eq_refl)) as (p & b & nm & A & RP). apply U5. exists p, b. eexists. split; [exact A|]. split; [exact RP|]. left. reflexivity. }
    assert (CE : ce = []). { destruct ce as [|p ce]; [reflexivity|]. destruct (proj1 (U7 p) (or_introl eq_refl)) as (b & c' & A & RP & B). destruct (FILE p b A) as (f & rs & nm & _ & RP'). rewrite RP in RP'. injection RP' as ->. discriminate. }
    subst ce. assert (CB : cb = false) by (destruct cb; [|reflexivity]; destruct (proj1 U8 eq_refl); reflexivity). subst cb. f_equal.
    destruct ct as [|t ct]; [destruct TW|]. rewrite (TS t (or_introl eq_refl)). destruct ct as [|u ct]; [reflexivity|]. inversion_clear U4. destruct H0. left. rewrite (TS t (or_introl eq_refl)), (TS u (or_intror (or_introl eq_refl))). reflexivity.
  - rewrite ER in U3, SRC. clear - U3 SRC GOOD. assert (G : forall w, In w recs -> wbad w = false). { intros w I1. destruct (SRC (WosRec w)) as (f & rs & w' & I2 & I3 & E); [apply in_map, I1|]. injection E as ->. eapply GOOD; eassumption. } clear SRC GOOD.
    induction recs as [|w recs IH]; [constructor|]. cbn [map] in *. inversion_clear U3. constructor; [|apply IH; [assumption|intros x I1; apply G; right; exact I1]]. intros I1. apply in_map_iff in I1 as (x & E & I1). rewrite Forall_forall in H. apply (H (WosRec x)); [apply in_map, I1|]. cbn [same_record]. left. rewrite (G w), (G x) by (cbn; auto). auto.
  - intros w I1. destruct (SRC (WosRec w)) as (f & rs & w' & I2 & I3 & E); [rewrite ER; apply in_map, I1|]. injection E as ->. exists f, rs. auto.
  - intros f rs w I1 I2. destruct (PART f rs I1) as (p & b & nm & A & RP). destruct (U2 p b _ (WosRec w) A RP) as (q & I3 & S1); [cbn [f_recs]; apply in_map, I2|]. rewrite ER in I3. apply in_map_iff in I3 as (v & <- & I3). exists v. split; [exact I3|]. destruct S1 as [(_ & _ & E)|(_ & B & _)]; [exact E|]. rewrite (GOOD w f rs I1 I2) in B. discriminate.
Qed.
(** Two files in a directory that has a cache, a subdirectory and another file; one record is in both files *)
Definition wos_of (rs : list wrec) : bytes := match write_wos_bytes rs with Ok b => b | Raise _ => [] end.
Definition ex_dir : list (str * entry) := [($"a.isi", AFile (wos_of [rA])); ($"sub", Other); ($"x.mkRecordDirCache", AFile $"zz"); ($"b.isi", AFile (wos_of [rB; rA])); ($"readme", AFile $"hello")].
Example C87_ex : read_dir ascii_letter $"/data" [] $".isi" ex_dir = Ok (mkFcoll [WosRec rA; WosRec rB] [$"WOSRecord"] $".isi-files-from-/data" false [])
  /\ read_dir ascii_letter $"/data" [] [] ex_dir = Ok (mkFcoll [WosRec rA; WosRec rB] [$"WOSRecord"] $"files-from-/data" false [])
  /\ read_dir ascii_letter $"/data" [] $"e" ex_dir = Raise BadInputFile
  /\ read_dir ascii_letter $"/data" $"n" [] [($"a", AFile (wos_of [rA])); ($"b", AFile med_file); ($"c", AFile (removelast (wos_of [rB])))] =
     Ok (mkFcoll [WosRec rA; MedlineRec (MedlineModel.mkMrec (Some $"PMID:12") [($"PMID", [$"12"]); ($"TI", [$"On examples"])] false None); WosRec rB; WosRec (mkWrec $"WOS:Missing" [] true (Some BadWOSRecord))] [$"WOSRecord"; $"MedlineRecord"] $"n" true [$"/data/c"]).
Proof. repeat split; vm_compute; reflexivity. Qed.
Example C87_written_ex : let parts := [($"a.isi", [rA]); ($"b.isi", [rB; rA])] in
  (forall f rs, In (f, rs) parts -> rs <> [] /\ NoDup (map wid rs) /\ (forall r, In r rs -> read_from_bytes r) /\ ends $".isi" f /\ ~ ends $"mkRecordDirCache" f) /\
  Forall2 written_to parts [($"a.isi", AFile (wos_of [rA])); ($"b.isi", AFile (wos_of [rB; rA]))].
Proof.
  cbn zeta. split.
  - intros f rs I1. cbn [In] in I1. destruct I1 as [I1|[I1|[]]]; injection I1 as <- <-; (split; [discriminate|]; split; [apply nodupb_NoDup; vm_compute; reflexivity|]; split; [|split; [apply ends_in_spec; vm_compute; reflexivity|apply ends_in_not; vm_compute; reflexivity]]); intros r I1; apply C76_wos_ex; cbn in *; tauto.
  - repeat constructor; eexists; (split; [vm_compute; reflexivity|]); vm_compute; reflexivity.
Qed.
Print Assumptions C87_union.
Print Assumptions C87_readable.
Print Assumptions C87_name.
Print Assumptions C87_order.
Print Assumptions C87_ignored.
Print Assumptions C87_written.
