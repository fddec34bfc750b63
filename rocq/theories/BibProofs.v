(** Proofs for C69 and C70. *)
From Coq Require Import List ZArith Lia Bool Arith Permutation Sorting.Sorted.
From Coq Require Import String.
From Verif Require Import Base PyStr RecordView RecordViewFacts JournalProofs TextModel BibModel.
Import ListNotations.
Local Open Scope list_scope.

Lemma bib_format_ok v max : max <> 0 -> exists f, bib_format v max = Ok f.
Proof.
  intros M. unfold bib_format. destruct (max <? length (bib_text v)); [|destruct (mem quote (bib_text v)); eexists; reflexivity].
  destruct (Nat.eqb_spec max 0); [contradiction|]. eexists. reflexivity.
Qed.
Lemma bib_lines_ok max : max <> 0 -> forall l, exists fs, Forall2 (fun tv f => bib_format (snd tv) max = Ok f) l fs /\
  bib_lines max l = Ok (map (fun p => fst (fst p) ++ $" = " ++ snd p ++ $",") (combine l fs)).
Proof.
  intros M. induction l as [|[t v] l (fs & F & E)]; [exists []; split; [constructor|reflexivity]|]. destruct (bib_format_ok v max M) as [f B].
  exists (f :: fs). split; [constructor; assumption|]. cbn [bib_lines]. rewrite B. cbn [bind]. rewrite E. reflexivity.
Qed.
(** an entry in lines *)
Lemma entry_lines a (ls : list str) sep : ~ In nl a -> ls <> [] -> (forall l, In l ls -> ~ In nl l) -> ~ In nl sep ->
  split_char nl (a ++ [44%N; nl] ++ sep ++ join (nl :: sep) ls ++ [nl; 125%N]) = (a ++ [44%N]) :: map (fun l => sep ++ l) ls ++ [[125%N]].
Proof.
  intros NA NE NL NS.
  assert (J : forall ls, ls <> [] -> sep ++ join (nl :: sep) ls = join [nl] (map (fun l => sep ++ l) ls)).
  { clear. induction ls as [|x [|y ls] IH]; intros NE; [congruence|reflexivity|]. change (join (nl :: sep) (x :: y :: ls)) with (x ++ (nl :: sep) ++ join (nl :: sep) (y :: ls)).
    change (join [nl] (map (fun l => sep ++ l) (x :: y :: ls))) with ((sep ++ x) ++ [nl] ++ join [nl] (map (fun l => sep ++ l) (y :: ls))). rewrite <- IH by discriminate. rewrite <- !app_assoc. reflexivity. }
  replace (a ++ [44%N; nl] ++ sep ++ join (nl :: sep) ls ++ [nl; 125%N]) with (join [nl] ((a ++ [44%N]) :: map (fun l => sep ++ l) ls ++ [[125%N]])).
  - apply (@split_join nl); [discriminate|]. intros l I. destruct I as [<-|I].
    + rewrite in_app_iff. intros [X|[X|[]]]; [exact (NA X)|discriminate].
    + apply in_app_or in I. destruct I as [I|[<-|[]]]; [|intros [X|[]]; discriminate]. apply in_map_iff in I. destruct I as (x & <- & I). rewrite in_app_iff. intros [X|X]; [exact (NS X)|exact (NL x I X)].
  - replace (a ++ [44%N; nl] ++ sep ++ join (nl :: sep) ls ++ [nl; 125%N]) with (a ++ [44%N; nl] ++ (sep ++ join (nl :: sep) ls) ++ [nl; 125%N]) by (rewrite <- !app_assoc; reflexivity).
    rewrite J by exact NE. assert (ME : map (fun l => sep ++ l) ls <> []) by (intros Q; apply map_eq_nil in Q; contradiction). revert ME. generalize (map (fun l => sep ++ l) ls). clear. intros m ME.
    assert (K : forall m : list str, m <> [] -> join [nl] (m ++ [[125%N]]) = join [nl] m ++ [nl; 125%N]).
    { clear. induction m as [|x [|y m] IH]; intros NE; [congruence|reflexivity|]. change (join [nl] ((x :: y :: m) ++ [[125%N]])) with (x ++ [nl] ++ join [nl] ((y :: m) ++ [[125%N]])). rewrite IH by discriminate. cbn [join]. rewrite <- !app_assoc. reflexivity. }
    destruct m as [|x m]; [congruence|]. change (join [nl] ((a ++ [44%N]) :: (x :: m) ++ [[125%N]])) with ((a ++ [44%N]) ++ [nl] ++ join [nl] ((x :: m) ++ [[125%N]])). rewrite K by discriminate. rewrite <- !app_assoc. reflexivity.
Qed.

(** ** the words in an ID *)
Section Id.
Variable title_case : str -> str.
Definition dashed (ws : list str) : str := concat (map (fun w => $"-" ++ title_case w) ws).
Lemma add_words_spec : forall ws id, exists used rest, ws = used ++ rest /\ add_words title_case id ws = id ++ dashed used /\
  (rest <> [] -> 35 <= length (id ++ dashed used)) /\ (forall a b, used = a ++ b -> b <> [] -> length (id ++ dashed a) < 35).
Proof.
  induction ws as [|w ws IH]; intros id.
  - exists [], []. split; [reflexivity|]. split; [unfold dashed; cbn; rewrite app_nil_r; reflexivity|]. split; [congruence|]. intros a b E NB. symmetry in E. apply app_eq_nil in E. destruct E. congruence.
  - cbn [add_words]. destruct (Nat.ltb_spec (length id) 35) as [L|L].
    + destruct (IH (id ++ $"-" ++ title_case w)) as (used & rest & -> & E & F & G). exists (w :: used), rest. split; [reflexivity|]. split; [|split].
      * rewrite E. unfold dashed. cbn [map concat]. rewrite <- !app_assoc. reflexivity.
      * intros NR. specialize (F NR). unfold dashed in *. cbn [map concat]. rewrite <- !app_assoc in F |- *. exact F.
      * intros a b Q NB. destruct a as [|x a]; [unfold dashed; cbn; rewrite app_nil_r; exact L|]. cbn in Q. injection Q as -> Q. specialize (G a b Q NB). unfold dashed in *. cbn [map concat]. rewrite <- !app_assoc in G |- *. exact G.
    + exists [], (w :: ws). split; [reflexivity|]. split; [unfold dashed; cbn; rewrite app_nil_r; reflexivity|]. split; [intros _; unfold dashed; cbn; rewrite app_nil_r; exact L|]. intros a b E NB. symmetry in E. apply app_eq_nil in E. destruct E. congruence.
Qed.
Lemma title_words_spec t : Permutation (title_words t) (split_char sp t) /\ StronglySorted (fun v w => length w <= length v) (title_words t).
Proof using.
  unfold title_words. split.
  - eapply Permutation_trans; [apply Permutation_sym, Permutation_rev|]. apply Permutation_sym, ssort_perm.
  - assert (S1 : StronglySorted (fun x y : str => Nat.leb (length x) (length y) = true) (ssort (@length char) Nat.leb (split_char sp t))).
    { apply (ssort_ordered (@length char) Nat.leb); [intros a b; destruct (Nat.leb_spec a b); [auto|right; apply Nat.leb_le; lia]|]. intros a b c A B. apply Nat.leb_le in A, B. apply Nat.leb_le. lia. }
    assert (AP : forall (l m : list str), StronglySorted (fun v w => length w <= length v) l -> StronglySorted (fun v w => length w <= length v) m -> (forall x y, In x l -> In y m -> length y <= length x) -> StronglySorted (fun v w => length w <= length v) (l ++ m)).
    { clear. induction l as [|x l IH]; intros m A B C; [exact B|]. inversion A; subst. cbn. constructor; [apply IH; auto; intros u v I J; apply C; [right; exact I|exact J]|]. apply Forall_app. split; [assumption|]. apply Forall_forall. intros y J. apply C; [left; reflexivity|exact J]. }
    induction S1 as [|x l S1 IH F]; [constructor|]. cbn. apply AP; [exact IH|repeat constructor|]. intros u y I [<-|[]]. apply in_rev in I. rewrite Forall_forall in F. apply Nat.leb_le, F, I.
Qed.
Lemma sorted_split (a b : list str) : StronglySorted (fun v w => length w <= length v) (a ++ b) -> forall x y, In x a -> In y b -> length y <= length x.
Proof using. induction a as [|z a IH]; intros SS x y I J; [destruct I|]. cbn in SS. inversion SS; subst. destruct I as [->|I]; [rewrite Forall_forall in H2; apply H2, in_or_app; right; exact J|apply IH; assumption]. Qed.
End Id.

Lemma write_entries_ok title_case max wos restricted nice : max <> 0 -> forall rs text, (forall r, In r rs -> b_bad r = false) ->
  exists es, Forall2 (fun r e => bib_string title_case max wos restricted nice r = Ok e) rs es /\
    forall more, write_entries title_case max wos restricted nice (rs ++ more) text = write_entries title_case max wos restricted nice more (text ++ concat (map (fun e => [nl; nl] ++ e) es)).
Proof.
  intros M. induction rs as [|r rs IH]; intros text B; [exists []; split; [constructor|intros more; cbn; rewrite app_nil_r; reflexivity]|].
  assert (E : exists e, bib_string title_case max wos restricted nice r = Ok e).
  { unfold bib_string. rewrite (B r (or_introl eq_refl)). destruct wos; [eexists; reflexivity|]. destruct (bib_lines_ok max M (if restricted then b_common r else b_items r)) as (fs & _ & ->). cbn [bind]. eexists. reflexivity. }
  destruct E as [e E]. destruct (IH ((text ++ [nl; nl]) ++ e)) as (es & F & G); [intros q I; apply B; right; exact I|]. exists (e :: es). split; [constructor; assumption|]. intros more. cbn [app write_entries]. rewrite E, G. cbn [map concat]. rewrite <- !app_assoc. reflexivity.
Qed.

Lemma copyrights_spec num abstracts : NoDup (probable_copyrights num abstracts) /\
  forall c, In c (probable_copyrights num abstracts) <-> c <> [] /\ exists a, In a abstracts /\ snd (find_copyright num a) = c.
Proof.
  unfold probable_copyrights.
  assert (G : forall l acc, NoDup acc -> (forall c, In c acc -> c <> []) ->
    let r := fold_left (fun l a => let c := snd (find_copyright num a) in if eqb c [] || mem c l then l else l ++ [c]) l acc in
    NoDup r /\ forall c, In c r <-> In c acc \/ (c <> [] /\ exists a, In a l /\ snd (find_copyright num a) = c)).
  { induction l as [|a l IH]; intros acc ND NE; cbn [fold_left]; [split; [exact ND|]; intros c; split; [auto|intros [X|(_ & b & [] & _)]; exact X]|]. cbv zeta.
    set (s := snd (find_copyright num a)). destruct (eqb_spec s []) as [E|E]; cbn [orb].
    - destruct (IH acc ND NE) as [A B]. split; [exact A|]. intros c. rewrite B. split; intros [X|(X & b & Y & Z)]; auto.
      + right. split; [exact X|]. exists b. cbn. auto.
      + destruct Y as [->|Y]; [fold s in Z; congruence|]. right. split; [exact X|]. exists b. auto.
    - destruct (mem s acc) eqn:M.
      + apply mem_In in M. destruct (IH acc ND NE) as [A B]. split; [exact A|]. intros c. rewrite B. split; intros [X|(X & b & Y & Z)]; auto.
        * right. split; [exact X|]. exists b. cbn. auto.
        * destruct Y as [->|Y]; [fold s in Z; subst c; auto|]. right. split; [exact X|]. exists b. auto.
      + assert (NM : ~ In s acc) by (intros I; apply mem_In in I; congruence). destruct (IH (acc ++ [s])) as [A B].
        * clear -ND NM. clearbody s. induction acc as [|x acc IH]; cbn; [constructor; [intros []|constructor]|]. inversion ND; subst. constructor; [|apply IH; [assumption|intros X; apply NM; right; exact X]]. rewrite in_app_iff. intros [X|[X|[]]]; [contradiction|apply NM; left; congruence].
        * intros c I. apply in_app_or in I. destruct I as [I|[<-|[]]]; auto.
        * split; [exact A|]. intros c. rewrite B, in_app_iff. cbn [In]. split.
          -- intros [[X|[<-|[]]]|(X & b & Y & Z)]; [auto|right; split; [exact E|exists a; auto]|right; split; [exact X|exists b; auto]].
          -- intros [X|(X & b & [->|Y] & Z)]; [auto|left; right; left; exact Z|right; split; [exact X|exists b; auto]]. }
  destruct (G abstracts [] ltac:(constructor) ltac:(intros c [])) as [A B]. split; [exact A|]. intros c. rewrite B. cbn [In]. tauto.
Qed.
