(** Property theorems about networkCoAuthor with citeProfile (C95).  [rs] are the records in iteration order, [cite_id] and
    [cite_str] are ID() and str() of a citation. *)
From Coq Require Import String Lia.
From Verif Require Import Base PyStr Nx NxFacts RecordView SeriesSpec RecordViewFacts NetModel NetSpec NetFacts CiteNetModel CiteNetSpec CiteNetProofs
  CiteProfileModel CiteProfileSpec CiteProfileProofs.

(** C95: the network is the one without citeProfile, and every node has two more attributes: the citations of the records
    that list an author who was first listed by the same record as that author, in the order of their first occurrence,
    and how often each was counted, a record once for every author before and at the place of such an author. *)
Theorem C95_profile :
  forall (I R C J : Type) (EI : EqDec I) (EJ : EqDec J) (cite_id : C -> J) (cite_str : C -> str) (authors : R -> list I) (journal : R -> bool)
         (details : R -> attrs) (cites : R -> list C) (weighted dropNonJournals counted : bool) (rs : list R),
    (forall r, In r rs -> NoDup (dkeys (details r))) ->
    let rs' := filter (fun r => negb dropNonJournals || journal r) rs in
    exists g g0, co_author_profiles cite_id cite_str authors journal details cites weighted dropNonJournals counted rs = Ok g /\
      co_author authors journal details weighted dropNonJournals counted rs = Ok g0 /\
      WF g /\ gdir g = false /\ nodes g = nodes g0 /\ (forall u v, ed g u v = ed g0 u v) /\
      (forall n k, k <> $"citeProfileCites" -> k <> $"citeProfileCounts" -> node_attr g n k = node_attr g0 n k) /\
      (forall n, is_node g n ->
         node_attr g n $"citeProfileCites" = Some (VStr (shown_cites cite_id cite_str cites (listed_together authors rs' n) rs')) /\
         node_attr g n $"citeProfileCounts" = Some (VStr (shown_counts cite_id cites (listed_together authors rs' n) rs'))).
Proof.
  intros I R C J EI EJ cite_id cite_str authors journal details cites w dnj cnt rs ND rs'.
  destruct (co_author_spec authors journal details w dnj cnt rs ND) as (g0 & A & W & D & _ & _).
  destruct (profiles_spec cite_id cite_str authors journal details cites w dnj cnt rs A W) as (g & Q & W' & D' & E & X & M). fold rs' in M.
  exists g, g0. split; [exact Q|]. split; [exact A|]. split; [exact W'|]. split; [congruence|]. split; [exact E|]. split; [exact X|]. split.
  - intros n k N1 N2. unfold node_attr. rewrite M. destruct (nd g0 n) as [a|]; [|reflexivity]. rewrite !dget_dset_other by assumption. reflexivity.
  - intros n K. unfold is_node in K. rewrite E in K. apply nd_In in K. destruct K as (a & N). unfold node_attr. rewrite M, N. split; [|apply dget_dset_same].
    rewrite dget_dset_other by discriminate. apply dget_dset_same.
Qed.
Print Assumptions C95_profile.

Lemma positions_none {I} (p : I -> bool) l : (forall x, In x l -> p x = false) -> forall k, positions_of p k l = 0.
Proof. induction l as [|x l IH]; intros F k; [reflexivity|]. cbn [positions_of]. rewrite (F x (or_introl eq_refl)). apply IH. intros y K. apply F. right. exact K. Qed.
Lemma first_listed {I R} `{EqDec I} (authors : R -> list I) n rs : forall k, (exists r, In r rs /\ In n (authors r)) -> first_from authors k n rs <> None.
Proof.
  induction rs as [|r rs IH]; intros k (x & K & L); [destruct K|]. cbn [first_from]. destruct (mem n (authors r)) eqn:M; [discriminate|]. apply IH. destruct K as [->|K]; [apply mem_In in L; congruence|eauto].
Qed.
Lemma times_ext {R C J} `{EqDec J} (cite_id : C -> J) (cite_str : C -> str) (cites : R -> list C) (t t' : R -> nat) rs : (forall r, In r rs -> t r = t' r) ->
  shown_cites cite_id cite_str cites t rs = shown_cites cite_id cite_str cites t' rs /\ shown_counts cite_id cites t rs = shown_counts cite_id cites t' rs.
Proof.
  intros E. assert (T : cites_taken cites t rs = cites_taken cites t' rs).
  { unfold cites_taken. clear -E. induction rs as [|r rs IH]; [reflexivity|]. cbn [flat_map]. rewrite (E r (or_introl eq_refl)), IH; [reflexivity|]. intros x K. apply E. right. exact K. }
  assert (N : forall x, times_cited cite_id cites t rs x = times_cited cite_id cites t' rs x). { intros x. unfold times_cited. apply total_ext. intros r K. rewrite (E r K). reflexivity. }
  unfold shown_cites, shown_counts, shown_text, shown_ids. rewrite T. split; [reflexivity|]. f_equal. apply map_ext. intros x. rewrite N. reflexivity.
Qed.
(** C95: the profile of an author who is the only one first listed by that record, and who is always listed first and once,
    is made of the citations of the records that list them.  Missing: other authors, for whom it is false. *)
Theorem C95_own_partial :
  forall (I R C J : Type) (EI : EqDec I) (EJ : EqDec J) (cite_id : C -> J) (cite_str : C -> str) (authors : R -> list I) (journal : R -> bool)
         (details : R -> attrs) (cites : R -> list C) (weighted dropNonJournals counted : bool) (rs : list R) g n,
    (forall r, In r rs -> NoDup (dkeys (details r))) ->
    co_author_profiles cite_id cite_str authors journal details cites weighted dropNonJournals counted rs = Ok g ->
    let rs' := filter (fun r => negb dropNonJournals || journal r) rs in
    is_node g n ->
    (forall m, together authors rs' n m = true -> m = n) ->
    (forall r, In r rs' -> In n (authors r) -> exists l, authors r = n :: l /\ ~ In n l) ->
    node_attr g n $"citeProfileCites" = Some (VStr (shown_cites cite_id cite_str cites (listed_once authors n) rs')) /\
    node_attr g n $"citeProfileCounts" = Some (VStr (shown_counts cite_id cites (listed_once authors n) rs')).
Proof.
  intros I R C J EI EJ cite_id cite_str authors journal details cites w dnj cnt rs g n ND Q rs' K ON FI.
  destruct (C95_profile _ _ _ _ _ _ cite_id cite_str authors journal details cites w dnj cnt rs ND) as (g' & g0 & Q' & _ & _ & _ & _ & _ & _ & P). rewrite Q in Q'. injection Q' as <-. fold rs' in P.
  destruct (P n K) as (-> & ->).
  destruct (times_ext cite_id cite_str cites (listed_together authors rs' n) (listed_once authors n) rs') as (-> & ->); [|split; reflexivity].
  intros r L. unfold listed_together, listed_once.
  assert (O : forall l, ~ In n l -> forall k, positions_of (together authors rs' n) k l = 0).
  { intros l NI. apply positions_none. intros x X. destruct (together authors rs' n x) eqn:T; [|reflexivity]. apply ON in T. subst x. contradiction. }
  destruct (mem n (authors r)) eqn:M; [|apply O, mem_not_In, M]. apply mem_In in M. destruct (FI r L M) as (l & -> & NI). cbn [positions_of]. rewrite (O l NI). unfold together. rewrite eqb_refl. reflexivity.
Qed.
Print Assumptions C95_own_partial.

(** C95, refuted: two authors of one record with one citation both show it three times. *)
Theorem C95_shared_refuted :
  exists (rs : list (list str * list str)) g,
    co_author_profiles (fun c : str => c) (fun c => c) fst (fun _ => true) (fun _ => []) snd true false true rs = Ok g /\
    is_node g $"A" /\ node_attr g $"A" $"citeProfileCounts" = Some (VStr $"3") /\ node_attr g $"B" $"citeProfileCounts" = Some (VStr $"3") /\
    shown_counts (fun c : str => c) snd (listed_once fst $"A") rs = $"1" /\ shown_counts (fun c : str => c) snd (listed_once fst $"B") rs = $"1".
Proof.
  eexists [([$"A"; $"B"], [$"c"])], _. split; [vm_compute; reflexivity|]. split; [left; reflexivity|]. repeat split; vm_compute; reflexivity.
Qed.
Print Assumptions C95_shared_refuted.
(** C95, refuted: an author shows citations of a record that does not list them. *)
Theorem C95_foreign_refuted :
  exists (rs : list (list str * list str)) g,
    co_author_profiles (fun c : str => c) (fun c => c) fst (fun _ => true) (fun _ => []) snd true false true rs = Ok g /\
    is_node g $"A" /\ node_attr g $"A" $"citeProfileCites" = Some (VStr $"c|d") /\
    (forall r, In r rs -> In $"d" (snd r) -> ~ In $"A" (fst r)).
Proof.
  eexists [([$"A"; $"B"], [$"c"]); ([$"B"], [$"d"])], _. split; [vm_compute; reflexivity|]. split; [left; reflexivity|]. split; [vm_compute; reflexivity|].
  intros r [<-|[<-|[]]] K L; cbn in *; [destruct K as [K|[]]; discriminate|destruct L as [L|[]]; discriminate].
Qed.
Print Assumptions C95_foreign_refuted.

(** three records: Ann alone cites c and d, Ann and Bob cite d and e, Cy cites nothing; Bob and Ann are first listed by different records *)
Definition profile_records : list (list str * list str) := [([$"Ann"], [$"c"; $"d"]); ([$"Ann"; $"Bob"], [$"d"; $"e"]); ([$"Cy"], [])].
Example C95_example :
  (forall r, In r profile_records -> NoDup (@dkeys str val [])) /\
  (forall m, together fst profile_records $"Ann" m = true -> m = $"Ann") /\
  (forall r, In r profile_records -> In $"Ann" (fst r) -> exists l, fst r = $"Ann" :: l /\ ~ In $"Ann" l) /\
  exists g, co_author_profiles (fun c : str => c) (fun c => c) fst (fun _ => true) (fun _ => []) snd true false true profile_records = Ok g /\
    node_attr g $"Ann" $"citeProfileCites" = Some (VStr $"c|d|e") /\ node_attr g $"Ann" $"citeProfileCounts" = Some (VStr $"1|2|1") /\
    node_attr g $"Bob" $"citeProfileCites" = Some (VStr $"d|e") /\ node_attr g $"Bob" $"citeProfileCounts" = Some (VStr $"2|2") /\
    node_attr g $"Cy" $"citeProfileCites" = Some (VStr []) /\ shown_counts (fun c : str => c) snd (listed_once fst $"Ann") profile_records = $"1|2|1".
Proof.
  split; [intros r _; constructor|]. split.
  { intros m. unfold together. change (first_from fst 0 $"Ann" profile_records) with (Some 0). unfold profile_records. cbn [first_from fst].
    destruct (mem m [$"Ann"]) eqn:M; [apply mem_In in M; destruct M as [<-|[]]; reflexivity|]. destruct (mem m [$"Ann"; $"Bob"]); [discriminate|]. destruct (mem m [$"Cy"]); discriminate. }
  split.
  { intros r [<-|[<-|[<-|[]]]] K; cbn [fst] in *; [exists []; split; [reflexivity|intros []]|exists [$"Bob"]; split; [reflexivity|intros [X|[]]; discriminate]|destruct K as [K|[]]; discriminate]. }
  eexists. split; [vm_compute; reflexivity|]. repeat split; vm_compute; reflexivity.
Qed.
