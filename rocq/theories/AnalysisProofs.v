(** Proofs about the analyses of a collection. *)
From Coq Require Import List ZArith Lia Bool Arith Permutation Sorted.
From Coq Require Import String.
From Verif Require Import Base PyStr PyInt SeriesSpec RecordView RecordViewFacts CitationModel AnalysisModel AnalysisSpec.
Import ListNotations.
Local Open Scope list_scope.
Set Implicit Arguments.

(** ** Years *)
Section Years.
Context {R : Type}.
Variable year : R -> option yearval.
Definition keep (a b : Z) (r : R) : bool := match year r with Some (YNum y) => (a <=? y)%Z && (y <=? b)%Z | _ => false end.
Lemma keep_spec a b r : keep a b r = true <-> dated_in year a b r.
Proof.
  unfold keep, dated_in. destruct (year r) as [[y|s]|].
  - rewrite andb_true_iff, !Z.leb_le. split; [intros ?; exists y; auto|intros (y' & [= ->] & ?); auto].
  - split; [discriminate|intros (y' & [=] & _)].
  - split; [discriminate|intros (y' & [=] & _)].
Qed.
Lemma split_drop rs a b : year_split year rs a b true = Ok (filter (keep a b) rs).
Proof.
  induction rs as [|r rs IH]; [reflexivity|]. cbn. unfold keep at 1. destruct (year r) as [[y|s]|]; rewrite IH; reflexivity.
Qed.
Lemma split_strict rs a b : (forall r, In r rs -> dated year r) -> year_split year rs a b false = Ok (filter (keep a b) rs).
Proof.
  intros D. induction rs as [|r rs IH]; [reflexivity|]. cbn. unfold keep at 1. destruct (D r (or_introl eq_refl)) as [y ->].
  rewrite IH by (intros q Q; apply D; right; exact Q). cbn. destruct ((a <=? y)%Z && (y <=? b)%Z); reflexivity.
Qed.
Lemma split_raise rs a b r : In r rs -> ~ dated year r -> year_split year rs a b false = Raise TypeError.
Proof.
  intros I1 N. induction rs as [|q rs IH]; [destruct I1|]. cbn. destruct (year q) as [[y|s]|] eqn:Y; try reflexivity.
  destruct I1 as [->|I1]; [exfalso; apply N; exists y; exact Y|]. rewrite (IH I1). reflexivity.
Qed.
End Years.

(** ** Citations *)
Section Cites.
Context {R : Type} `{EqDec R}.
Variable cites : R -> option (list cite).
Definition given_key (t : key_type) (c : cite) : res (option ckey) :=
  match t with
  | ByCitation => Ok (Some (KCite (q_id c)))
  | ByJournal => read_attr KText (q_journal c)
  | ByYear => read_attr KYear (q_year c)
  | ByAuthor => read_attr KText (q_author c)
  end.
Lemma stats_loop_ext k k' cs : forall d, (forall c, In c cs -> k c = k' c) -> stats_loop k cs d = stats_loop k' cs d.
Proof.
  induction cs as [|c cs IH]; intros d E; [reflexivity|]. cbn. rewrite <- (E c (or_introl eq_refl)). destruct (k c); [|reflexivity].
  cbn. apply IH. intros q Q. apply E. right. exact Q.
Qed.
Lemma stats_by t rs : local_cite_stats cites rs (key_name t) = stats_records cites (given_key t) rs [].
Proof. destruct t; reflexivity. Qed.
Definition key_list (t : key_type) (c : cite) : list ckey := match key_of t c with Some k => [k] | None => [] end.
Lemma given_key_ok t c : key_exists t c -> given_key t c = Ok (key_of t c).
Proof. destruct t; cbn; intros K; [reflexivity| | |]; match goal with K : has_attr ?a |- _ => destruct a; [destruct K| |]; reflexivity end. Qed.
Lemma given_key_bad t c : ~ key_exists t c -> given_key t c = Raise AttributeError.
Proof. destruct t; cbn; intros K; [exfalso; exact (K Logic.I)| | |]; match goal with K : ~ has_attr ?a |- _ => destruct a; [reflexivity| |]; exfalso; apply K; exact Logic.I end. Qed.
Lemma key_exists_dec t c : key_exists t c \/ ~ key_exists t c.
Proof. destruct t; cbn; [left; exact Logic.I| | |]; match goal with |- has_attr ?a \/ _ => destruct a; cbn; auto end. Qed.
Lemma stats_loop_ok t cs : forall d, (forall c, In c cs -> key_exists t c) ->
  stats_loop (given_key t) cs d = Ok (fold_left (fun d k => dincr k d) (flat_map (key_list t) cs) d).
Proof.
  induction cs as [|c cs IH]; intros d E; [reflexivity|]. cbn [stats_loop flat_map]. rewrite given_key_ok by (apply E; left; reflexivity). cbn [bind].
  rewrite IH by (intros q Q; apply E; right; exact Q). rewrite fold_left_app. f_equal. f_equal. unfold key_list. destruct (key_of t c) as [k|]; [|reflexivity].
  cbn. unfold dincr. destruct (dget k d) as [n|]; [|reflexivity]. rewrite Nat.add_comm. reflexivity.
Qed.
Lemma stats_loop_bad t cs c : In c cs -> ~ key_exists t c -> forall d, stats_loop (given_key t) cs d = Raise AttributeError.
Proof.
  intros I1 N. induction cs as [|q cs IH]; intros d; [destruct I1|]. cbn. destruct (key_exists_dec t q) as [K|K].
  - rewrite given_key_ok by exact K. cbn. destruct I1 as [->|I1]; [contradiction|]. apply IH, I1.
  - rewrite given_key_bad by exact K. reflexivity.
Qed.
Lemma stats_records_ok t rs : forall d, (forall c, In c (citations cites rs) -> key_exists t c) ->
  stats_records cites (given_key t) rs d = Ok (fold_left (fun d k => dincr k d) (flat_map (key_list t) (citations cites rs)) d).
Proof.
  induction rs as [|r rs IH]; intros d E; [reflexivity|]. cbn [stats_records]. unfold citations in *. cbn [flat_map] in *. fold (refs cites r) in *.
  rewrite stats_loop_ok by (intros c I1; apply E; apply in_or_app; left; exact I1). cbn [bind].
  rewrite IH by (intros c I1; apply E; apply in_or_app; right; exact I1). rewrite flat_map_app, fold_left_app. reflexivity.
Qed.
Lemma all_or_bad t cs : (forall c, In c cs -> key_exists t c) \/ exists c, In c cs /\ ~ key_exists t c.
Proof.
  induction cs as [|c cs [A|(q & Iq & Nq)]]; [left; intros c []| |right; exists q; split; [right; exact Iq|exact Nq]].
  destruct (key_exists_dec t c) as [K|K]; [left; intros q [<-|I1]; auto|right; exists c; split; [left; reflexivity|exact K]].
Qed.
Lemma stats_records_bad t rs c : In c (citations cites rs) -> ~ key_exists t c -> forall d, stats_records cites (given_key t) rs d = Raise AttributeError.
Proof.
  intros I1 N. induction rs as [|r rs IH]; intros d; [destruct I1|]. cbn [stats_records]. unfold citations in I1. cbn [flat_map] in I1. fold (refs cites r).
  destruct (all_or_bad t (refs cites r)) as [A|(q & Iq & Nq)].
  - rewrite stats_loop_ok by exact A. cbn. apply IH. apply in_app_or in I1 as [I1|I1]; [|exact I1]. exfalso. apply N, A, I1.
  - rewrite (stats_loop_bad t _ q Iq Nq). reflexivity.
Qed.
Lemma count_keys t k cs : count k (flat_map (key_list t) cs) = length (filter (fun c => match key_of t c with Some k' => eqb k k' | None => false end) cs).
Proof.
  induction cs as [|c cs IH]; [reflexivity|]. cbn [flat_map filter]. unfold key_list at 1. destruct (key_of t c) as [k'|]; [|exact IH]. cbn.
  destruct (eqb k k'); cbn; rewrite IH; reflexivity.
Qed.
Lemma length_keys t cs : length (flat_map (key_list t) cs) = length (filter (fun c => match key_of t c with Some _ => true | None => false end) cs).
Proof.
  induction cs as [|c cs IH]; [reflexivity|]. cbn [flat_map filter]. unfold key_list at 1. destruct (key_of t c) as [k'|]; [|exact IH]. cbn. rewrite IH. reflexivity.
Qed.
End Cites.
Lemma total_dincr {K} `{EqDec K} (k : K) (d : dict K nat) : total snd (dincr k d) = S (total snd d).
Proof.
  unfold dincr. induction d as [|[a n] d IH]; [reflexivity|]. cbn [dget]. destruct (eqb k a) eqn:E; cbn [dset].
  - rewrite E. cbn. lia.
  - destruct (dget k d) eqn:G; cbn [dset]; rewrite E; unfold total in *; cbn [fold_right snd] in *; rewrite IH; lia.
Qed.
Lemma total_dincrs {K} `{EqDec K} (l : list K) : forall d : dict K nat, total snd (fold_left (fun d k => dincr k d) l d) = total snd d + length l.
Proof. induction l as [|k l IH]; intros d; cbn [fold_left length]; [lia|]. rewrite IH, total_dincr. lia. Qed.
Lemma lists_of (d : dict ckey nat) : local_cite_lists d = (map fst d, map snd d).
Proof.
  unfold local_cite_lists. assert (G : forall ks ns, fold_left (fun '(ks, ns) '(k, n) => (ks ++ [k], ns ++ [n])) d (ks, ns) = (ks ++ map fst d, ns ++ map snd d)).
  { induction d as [|[k n] d IH]; intros ks ns; cbn; [rewrite !app_nil_r; reflexivity|]. rewrite IH, <- !app_assoc. reflexivity. }
  apply G.
Qed.

Section Citing.
Context {R : Type} `{EqDec R}.
Variable cites : R -> option (list cite).
Variable upper : str -> str.
Lemma citing_filter rs c : citing cites rs c = filter (fun r => existsb (same_cite c) (refs cites r)) rs.
Proof.
  induction rs as [|r rs IH]; [reflexivity|]. cbn. rewrite IH. unfold refs. destruct (cites r) as [cs|]; [|reflexivity]. destruct (existsb (same_cite c) cs); reflexivity.
Qed.
Lemma cites_it r c : existsb (same_cite c) (refs cites r) = true <-> refers_to cites c r.
Proof.
  unfold refers_to. rewrite existsb_exists. split; intros (d & I1 & E); exists d; (split; [exact I1|]).
  - apply eqb_eq in E. symmetry. exact E.
  - unfold same_cite. rewrite E. apply eqb_refl.
Qed.

(** *** citeFilter *)
Lemma some_hit_spec (test : cite -> hit) cs : some_hit test cs = true <-> exists pre c post, cs = pre ++ c :: post /\ test c = Yes /\ forall q, In q pre -> test q = No.
Proof.
  induction cs as [|c cs IH]; cbn.
  - split; [discriminate|]. intros ([|p pre] & c & post & Q & _); discriminate.
  - destruct (test c) eqn:T.
    + split; [|reflexivity]. intros _. exists [], c, cs. split; [reflexivity|]. split; [exact T|intros q []].
    + rewrite IH. split.
      * intros (pre & q & post & -> & Q & P). exists (c :: pre), q, post. split; [reflexivity|]. split; [exact Q|]. intros p [<-|I1]; auto.
      * intros ([|p pre] & q & post & E & Q & P); injection E as -> ->; [congruence|]. exists pre, q, post. split; [reflexivity|]. split; [exact Q|]. intros x I1. apply P. right. exact I1.
    + split; [discriminate|]. intros ([|p pre] & q & post & E & Q & P); injection E as -> ->; [congruence|]. rewrite (P p (or_introl eq_refl)) in T. discriminate.
Qed.
(** the first that is not No decides: a Yes is found if no Stop comes before *)
Lemma some_hit_stop (test : cite -> hit) cs : some_hit test cs = true <-> exists pre c post, cs = pre ++ c :: post /\ test c = Yes /\ forall q, In q pre -> test q <> Stop.
Proof.
  rewrite some_hit_spec. split.
  - intros (pre & c & post & A & B & D). exists pre, c, post. split; [exact A|]. split; [exact B|]. intros q I1. rewrite (D q I1). discriminate.
  - revert cs. intros cs (pre & c & post & -> & B & D). induction pre as [|p pre IH].
    + exists [], c, post. split; [reflexivity|]. split; [exact B|intros q []].
    + destruct (test p) eqn:T.
      * exists [], p, (pre ++ c :: post). split; [reflexivity|]. split; [exact T|intros q []].
      * destruct IH as (a & b & e & Q & B' & D'); [intros q I1; apply D; right; exact I1|]. exists (p :: a), b, e. cbn. rewrite Q. split; [reflexivity|]. split; [exact B'|]. intros q [<-|I1]; auto.
      * exfalso. apply (D p); [left; reflexivity|exact T].
Qed.
Definition test_of (k field : str) (cs : bool) (c : cite) : hit :=
  if eqb field $"all" then yes_no (if cs then contains k (q_original c) else contains (upper k) (upper (q_original c)))
  else if eqb field $"author" then in_author upper (upper k) (q_author c)
  else if eqb field $"journal" then in_attr (upper k) (q_journal c)
  else if eqb field $"year" then match py_int k with Some y => match q_year c with Has z => yes_no (Z.eqb y z) | _ => No end | None => No end
  else if eqb field $"V" then in_attr (upper k) (q_V c)
  else if eqb field $"P" then in_attr (upper k) (q_P c)
  else if eqb field $"misc" then in_attr (upper k) (q_misc c)
  else if eqb field $"anonymous" then yes_no (anonymous c)
  else if eqb field $"bad" then yes_no (q_bad c)
  else No.
Lemma never_hit cs : some_hit (fun _ => No) cs = false.
Proof. induction cs; auto. Qed.
Lemma cite_match_ok k field cs r : ~ (field = $"year" /\ py_int k = None /\ refs cites r <> []) ->
  cite_match cites upper k field cs r = Ok (some_hit (test_of k field cs) (refs cites r)).
Proof.
  intros NB. unfold cite_match, refs, test_of in *. destruct (cites r) as [l|]; [|reflexivity].
  destruct (eqb_spec field $"all"); [reflexivity|]. destruct (eqb_spec field $"author"); [reflexivity|]. destruct (eqb_spec field $"journal"); [reflexivity|].
  destruct (eqb_spec field $"year") as [F|_].
  { destruct (py_int k) eqn:P.
    - destruct l; reflexivity.
    - destruct l; [reflexivity|]. exfalso. apply NB. split; [exact F|]. split; [reflexivity|discriminate]. }
  destruct (eqb field $"V"); [reflexivity|]. destruct (eqb field $"P"); [reflexivity|]. destruct (eqb field $"misc"); [reflexivity|].
  destruct (eqb field $"anonymous"); [reflexivity|]. destruct (eqb field $"bad"); [reflexivity|]. rewrite never_hit. reflexivity.
Qed.
Lemma cite_match_bad k cs r : py_int k = None -> refs cites r <> [] -> cite_match cites upper k $"year" cs r = Raise ValueError.
Proof. intros P N. unfold cite_match, refs in *. destruct (cites r) as [l|]; [|congruence]. cbn. rewrite P. destruct l; [congruence|reflexivity]. Qed.
Lemma matching_ok k field cs rs : ~ bad_year cites k field rs ->
  matching cites upper k field cs rs = Ok (filter (fun r => some_hit (test_of k field cs) (refs cites r)) rs).
Proof.
  induction rs as [|r rs IH]; intros NB; [reflexivity|]. cbn. rewrite cite_match_ok.
  - cbn. rewrite IH; [cbn; destruct (some_hit _ _); reflexivity|]. intros (F & P & N). apply NB. split; [exact F|]. split; [exact P|]. unfold citations in *. cbn. destruct (flat_map (refs cites) rs); [congruence|]. intros E. apply app_eq_nil in E as [_ E]. discriminate.
  - intros (F & P & N). apply NB. split; [exact F|]. split; [exact P|]. unfold citations. cbn. destruct (refs cites r); [congruence|discriminate].
Qed.
Lemma matching_bad k field cs rs : bad_year cites k field rs -> matching cites upper k field cs rs = Raise ValueError.
Proof.
  intros (-> & P & N). induction rs as [|r rs IH]; [exfalso; apply N; reflexivity|]. cbn [matching]. destruct (refs cites r) eqn:E.
  - rewrite cite_match_ok by (rewrite E; tauto). cbn [bind]. rewrite IH; [reflexivity|]. intros Q. apply N. unfold citations in *. cbn. rewrite E, Q. reflexivity.
  - rewrite cite_match_bad; [reflexivity|exact P|rewrite E; discriminate].
Qed.
Lemma yes_contains k s : (if contains k s then Yes else No) = Yes <-> inside k s.
Proof. unfold inside. rewrite <- contains_spec. destruct (contains k s); split; congruence. Qed.
Lemma yes_no_yes b : yes_no b = Yes <-> b = true.
Proof. destruct b; cbn; split; congruence. Qed.
Lemma in_attr_yes k a : in_attr k a = Yes <-> exists s, a = Has s /\ inside k s.
Proof.
  destruct a as [| |s]; cbn; [split; [discriminate|intros (s & [=] & _)]|split; [discriminate|intros (s & [=] & _)]|]. rewrite yes_contains. split; [intros I1; exists s; auto|intros (s' & [= ->] & I1); exact I1].
Qed.
Lemma test_yes k field cs c : test_of k field cs c = Yes <-> answers upper k field cs c.
Proof.
  unfold test_of. split.
  - repeat match goal with |- context [eqb field ?x] => destruct (eqb_spec field x) as [->|?] end; try discriminate; intros T.
    + apply yes_no_yes in T. destruct cs; apply contains_spec in T; constructor; exact T.
    + unfold in_author in T. destruct (q_author c) as [| |s] eqn:E; try discriminate. apply yes_contains in T. apply (@A_author upper k cs c s); assumption.
    + apply in_attr_yes in T as (s & E & I1). apply (@A_journal upper k cs c s); assumption.
    + destruct (py_int k) as [y|] eqn:P; [|discriminate]. destruct (q_year c) as [| |z] eqn:E; try discriminate. apply yes_no_yes, Z.eqb_eq in T. subst z. apply (@A_year upper k cs c y); assumption.
    + apply in_attr_yes in T as (s & E & I1). apply (@A_V upper k cs c s); assumption.
    + apply in_attr_yes in T as (s & E & I1). apply (@A_P upper k cs c s); assumption.
    + apply in_attr_yes in T as (s & E & I1). apply (@A_misc upper k cs c s); assumption.
    + apply yes_no_yes in T. unfold anonymous in T. destruct (q_author c) eqn:E; try discriminate; [apply A_unread; exact E|]. apply eqb_eq in T. subst a. apply A_anonymous. exact E.
    + apply yes_no_yes in T. apply A_bad. exact T.
  - intros A. destruct A; cbn [eqb]; match goal with |- context [eqb ?f ?g] => idtac end.
    all: repeat (match goal with |- context [if eqb ?f ?g then _ else _] => let b := eval vm_compute in (eqb f g) in replace (eqb f g) with b by reflexivity end; cbv iota).
    + apply yes_no_yes, contains_spec. assumption.
    + apply yes_no_yes, contains_spec. assumption.
    + rewrite H0. cbn. apply yes_contains. assumption.
    + apply in_attr_yes. eauto.
    + rewrite H1, H0. apply yes_no_yes, Z.eqb_refl.
    + apply in_attr_yes. eauto.
    + apply in_attr_yes. eauto.
    + apply in_attr_yes. eauto.
    + apply yes_no_yes. unfold anonymous. rewrite H0. reflexivity.
    + apply yes_no_yes. unfold anonymous. rewrite H0. reflexivity.
    + apply yes_no_yes. assumption.
Qed.
Lemma in_attr_stop k a : in_attr k a = Stop <-> a = Empty.
Proof. destruct a as [| |s]; cbn; [split; congruence|split; congruence|]. destruct (contains k s); split; congruence. Qed.
Lemma test_stop k field cs c : test_of k field cs c = Stop <-> blank field c.
Proof.
  unfold test_of. split.
  - repeat match goal with |- context [eqb field ?x] => destruct (eqb_spec field x) as [->|?] end; try discriminate; intros T.
    + destruct cs; destruct (contains _ _); discriminate.
    + unfold in_author in T. destruct (q_author c) as [| |s]; try discriminate. destruct (contains _ _); discriminate.
    + apply in_attr_stop in T. constructor. exact T.
    + destruct (py_int k); [|discriminate]. destruct (q_year c); try discriminate. destruct (Z.eqb _ _); discriminate.
    + apply in_attr_stop in T. constructor. exact T.
    + apply in_attr_stop in T. constructor. exact T.
    + apply in_attr_stop in T. constructor. exact T.
    + destruct (anonymous c); discriminate.
    + destruct (q_bad c); discriminate.
  - intros A. destruct A; repeat (match goal with |- context [if eqb ?f ?g then _ else _] => let b := eval vm_compute in (eqb f g) in replace (eqb f g) with b by reflexivity end; cbv iota); apply in_attr_stop; assumption.
Qed.
End Citing.
