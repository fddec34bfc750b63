(** Proofs about layouts of text. *)
From Coq Require Import List ZArith Lia Bool Arith.
From Coq Require Import String.
From Verif Require Import Base PyStr PyInt Regex RegexLang RegexFacts JournalModel JournalProofs TextModel TextSpec.
Import ListNotations.
Local Open Scope list_scope.

(** ** Splitting *)
Lemma cut_sound sep s a b : cut sep s = Some (a, b) -> s = a ++ sep ++ b.
Proof.
  revert a b. induction s as [|x s IH]; intros a b.
  - change (cut sep []) with (if starts_with sep [] then Some (@nil char, skipn (length sep) (@nil char)) else None). destruct (starts_with sep []) eqn:W; [|discriminate].
    apply starts_with_spec in W as [t E]. symmetry in E. apply app_eq_nil in E as [-> ->]. intros [= <- <-]. reflexivity.
  - change (cut sep (x :: s)) with (if starts_with sep (x :: s) then Some (@nil char, skipn (length sep) (x :: s)) else match cut sep s with Some (a, b) => Some (x :: a, b) | None => None end).
    destruct (starts_with sep (x :: s)) eqn:W.
    + apply starts_with_spec in W as [t E]. rewrite E. rewrite skipn_app_exact. intros [= <- <-]. reflexivity.
    + destruct (cut sep s) as [[a' b']|] eqn:C; [|discriminate]. intros [= <- <-]. cbn. rewrite (IH _ _ eq_refl). reflexivity.
Qed.
Lemma cut_found sep s : contains sep s = true -> exists a b, cut sep s = Some (a, b).
Proof.
  induction s as [|x s IH].
  - cbn. rewrite orb_false_r. intros W. change (cut sep []) with (if starts_with sep [] then Some (@nil char, skipn (length sep) (@nil char)) else None). rewrite W. eauto.
  - cbn [contains]. intros W. change (cut sep (x :: s)) with (if starts_with sep (x :: s) then Some (@nil char, skipn (length sep) (x :: s)) else match cut sep s with Some (a, b) => Some (x :: a, b) | None => None end).
    destruct (starts_with sep (x :: s)); [eauto|]. destruct (IH W) as (a & b & ->). eauto.
Qed.
Lemma split_on_not_nil fuel sep s : split_on fuel sep s <> [].
Proof. destruct fuel; cbn; destruct (cut sep s) as [[a b]|]; discriminate. Qed.
Lemma join_cons sep x l : l <> [] -> join sep (x :: l) = x ++ sep ++ join sep l.
Proof. destruct l; [congruence|reflexivity]. Qed.
Lemma split_on_join sep : forall fuel s, join sep (split_on fuel sep s) = s.
Proof.
  induction fuel as [|fuel IH]; intros s; cbn [split_on].
  - destruct (cut sep s) as [[a b]|]; reflexivity.
  - destruct (cut sep s) as [[a b]|] eqn:C; [|reflexivity]. rewrite join_cons by apply split_on_not_nil. rewrite IH. symmetry. apply cut_sound, C.
Qed.
Lemma split_on_two sep s fuel : contains sep s = true -> 2 <= length (split_on (S fuel) sep s).
Proof.
  intros C. apply cut_found in C as (a & b & C). cbn [split_on]. rewrite C. cbn [length]. pose proof (split_on_not_nil fuel sep b). destruct (split_on fuel sep b); [congruence|cbn; lia].
Qed.
Lemma join_last sep l : 2 <= length l -> join sep l = join sep (removelast l) ++ sep ++ last l [].
Proof.
  induction l as [|x l IH]; [cbn; lia|]. destruct l as [|y l]; [cbn; lia|]. intros _. destruct l as [|z l].
  - reflexivity.
  - rewrite join_cons by discriminate. rewrite IH by (cbn; lia). change (removelast (x :: y :: z :: l)) with (x :: removelast (y :: z :: l)). rewrite join_cons by (cbn; discriminate).
    change (last (x :: y :: z :: l) []) with (last (y :: z :: l) []). rewrite <- !app_assoc. reflexivity.
Qed.
(** the last part does not contain the separator again *)
Lemma cut_contains sep s : cut sep s = None -> contains sep s = false.
Proof. intros C. destruct (contains sep s) eqn:E; [|reflexivity]. apply cut_found in E as (a & b & Q). congruence. Qed.
Lemma split_on_last sep : sep <> [] -> forall fuel s, length s <= fuel -> contains sep (last (split_on fuel sep s) []) = false.
Proof.
  intros NE. induction fuel as [|fuel IH]; intros s L.
  - destruct s; [|cbn in L; lia]. cbn [split_on]. destruct (cut sep []) as [[a b]|] eqn:C; [|apply cut_contains, C]. apply cut_sound in C. symmetry in C. apply app_eq_nil in C as [_ C]. apply app_eq_nil in C as [C _]. congruence.
  - cbn [split_on]. destruct (cut sep s) as [[a b]|] eqn:C; [|apply cut_contains, C].
    pose proof (split_on_not_nil fuel sep b) as N. destruct (split_on fuel sep b) as [|p ps] eqn:E; [congruence|]. change (last (a :: p :: ps) []) with (last (p :: ps) []). rewrite <- E. apply IH.
    apply cut_sound in C. subst s. rewrite !app_length in L. destruct sep; [congruence|cbn in L; lia].
Qed.
Lemma lstrip_split s : exists w, s = w ++ lstrip s /\ blank_text w.
Proof.
  induction s as [|c s (w & E & B)]; [exists []; split; [reflexivity|intros c []]|]. cbn. destruct (ws_char c) eqn:W.
  - exists (c :: w). split; [cbn; f_equal; exact E|]. intros x [<-|I1]; [exact W|apply B, I1].
  - exists []. split; [reflexivity|intros x []].
Qed.
Lemma rstrip_split s : exists w, s = rstrip s ++ w /\ blank_text w.
Proof.
  destruct (lstrip_split (rev s)) as (w & E & B). exists (rev w). split.
  - unfold rstrip. rewrite <- rev_app_distr, <- E. symmetry. apply rev_involutive.
  - intros c I1. apply B. rewrite in_rev. exact I1.
Qed.

(** ** findCopyright *)
(** a match of an expression is a beginning of the text *)
Definition Pre {X} (r : rx) : Prop := forall s c (k : str -> caps -> option X) x, rmatch r s c k = Some x -> exists u v c', s = u ++ v /\ k v c' = Some x.
Lemma pre_rep {X} (a : rx) g : @Pre X a -> forall fuel lo hi s c (k : str -> caps -> option X) x, rep (rmatch a) g fuel lo hi s c k = Some x -> exists u v c', s = u ++ v /\ k v c' = Some x.
Proof.
  intros PA. induction fuel as [|fuel IH]; intros lo hi s c k x; cbn [rep]; [discriminate|].
  assert (M : match hi with Some 0 => None | _ => rmatch a s c (fun s' c' => if length s' <? length s then rep (rmatch a) g fuel (pred lo) (option_map pred hi) s' c' k else None) end = Some x -> exists u v c', s = u ++ v /\ k v c' = Some x).
  { assert (M : rmatch a s c (fun s' c' => if length s' <? length s then rep (rmatch a) g fuel (pred lo) (option_map pred hi) s' c' k else None) = Some x -> exists u v c', s = u ++ v /\ k v c' = Some x).
    { intros Q. apply PA in Q as (u & v & c' & -> & Q). destruct (_ <? _); [|discriminate]. apply IH in Q as (u' & v' & c'' & -> & Q). exists (u ++ u'), v', c''. rewrite app_assoc. auto. }
    destruct hi as [[|h]|]; [discriminate|exact M|exact M]. }
  assert (K : (if lo =? 0 then k s c else None) = Some x -> exists u v c', s = u ++ v /\ k v c' = Some x).
  { destruct (lo =? 0); [|discriminate]. intros Q. exists [], s, c. auto. }
  destruct g; unfold orelse; intros Q.
  - match type of Q with match ?m with _ => _ end = _ => destruct m eqn:E end; [injection Q as ->; apply M; reflexivity|apply K, Q].
  - match type of Q with match ?m with _ => _ end = _ => destruct m eqn:E end; [injection Q as ->; apply K; reflexivity|apply M, Q].
Qed.
Lemma pre_all {X} (r : rx) : @Pre X r.
Proof.
  induction r as [p|a IHa b IHb|a IHa b IHb|g lo hi a IHa|n a IHa| |]; intros s c k x; cbn [rmatch].
  - destruct s as [|y s]; [discriminate|]. destruct (p y); [|discriminate]. intros Q. exists [y], s, c. auto.
  - intros Q. apply IHa in Q as (u & v & c' & -> & Q). apply IHb in Q as (u' & v' & c'' & -> & Q). exists (u ++ u'), v', c''. rewrite app_assoc. auto.
  - unfold orelse. destruct (rmatch a s c k) eqn:E; [intros [= ->]; apply (IHa s c k x), E|apply IHb].
  - apply pre_rep, IHa.
  - intros Q. apply IHa in Q as (u & v & c' & -> & Q). exists u, v, (set_cap n (firstn (length (u ++ v) - length v) (u ++ v)) c'). auto.
  - intros Q. exists [], s, c. auto.
  - destruct s as [|y [|z s]]; [|destruct (y =? nl)%N; [|discriminate]|discriminate]; intros Q; eexists [], _, c; (split; [reflexivity|exact Q]).
Qed.
(** a group around the whole expression holds a beginning of the text *)
Lemma match_whole n r s c : re_match (RGrp n r) s = Some c -> exists u v, s = u ++ v /\ c n = Some u.
Proof.
  unfold re_match. cbn [rmatch]. intros Q. apply pre_all in Q as (u & v & c' & -> & [= <-]). exists u, v. split; [reflexivity|]. unfold set_cap. rewrite Nat.eqb_refl. f_equal.
  rewrite app_length. replace (length u + length v - length v) with (length u) by lia. rewrite firstn_app, Nat.sub_diag, firstn_all. cbn. apply app_nil_r.
Qed.
Lemma search_whole n r s c : re_search (RGrp n r) s = Some c -> exists u, c n = Some u /\ contains u s = true.
Proof.
  induction s as [|x s IH].
  - change (re_search (RGrp n r) []) with (match re_match (RGrp n r) [] with Some c => Some c | None => None end). destruct (re_match (RGrp n r) []) as [c'|] eqn:M; [|discriminate]. intros [= ->].
    apply match_whole in M as (u & v & E & C). exists u. split; [exact C|]. apply contains_spec. exists [], v. exact E.
  - change (re_search (RGrp n r) (x :: s)) with (match re_match (RGrp n r) (x :: s) with Some c => Some c | None => re_search (RGrp n r) s end). destruct (re_match (RGrp n r) (x :: s)) as [c'|] eqn:M.
    + intros [= ->]. apply match_whole in M as (u & v & E & C). exists u. split; [exact C|]. apply contains_spec. exists [], v. exact E.
    + intros Q. destruct (IH Q) as (u & C & K). exists u. split; [exact C|]. cbn [contains]. rewrite K. apply orb_true_r.
Qed.
Lemma splitter_inside num s t : splitter num s = Some t -> contains t s = true.
Proof.
  unfold splitter. destruct (find (fun t => contains t s) copyright_hits) as [h|] eqn:F.
  - intros [= <-]. apply find_some in F as [_ F]. exact F.
  - destruct (re_search (copyright_regex num) s) as [c|] eqn:R; [|discriminate]. intros E. apply search_whole in R as (u & C & K). rewrite C in E. injection E as <-. exact K.
Qed.
(** the language of the expression *)
Lemma lang_cls p u : Lang (RCls p) u -> exists x, u = [x] /\ p x = true.
Proof. inversion 1; subst; eauto. Qed.
Lemma lang_char x u : Lang (rchar x) u -> u = [x].
Proof. intros L. apply lang_cls in L as (y & -> & E). apply N.eqb_eq in E. subst. reflexivity. Qed.
Lemma lang_cat a b u : Lang (RCat a b) u -> exists v w, u = v ++ w /\ Lang a v /\ Lang b w.
Proof. inversion 1; subst; eauto. Qed.
Lemma lang_text t u : Lang (rtext t) u -> u = t.
Proof.
  revert u. induction t as [|x t IH]; intros u L; cbn in L; [inversion L; reflexivity|]. apply lang_cat in L as (v & w & -> & A & B). apply lang_char in A as ->. rewrite (IH _ B). reflexivity.
Qed.
Lemma lang_opt_char x u : Lang (ropt (rchar x)) u -> u = [] \/ u = [x].
Proof. intros L. inversion L as [| | | |a' E1 E2|a' u' L' E1 E2| |]; subst; [left; reflexivity|right; apply lang_char, L']. Qed.
Lemma text_lang t : Lang (rtext t) t.
Proof. induction t as [|x t IH]; [constructor|]. cbn. change (x :: t) with ([x] ++ t). constructor; [constructor; apply N.eqb_refl|exact IH]. Qed.
Lemma text_no_loop t : no_loop (rtext t).
Proof. induction t as [|x t IH]; [constructor|]. cbn. constructor; [constructor|exact IH]. Qed.
Lemma copyright_no_loop num : no_loop (copyright_regex num).
Proof. unfold copyright_regex. cbn [rseq]. repeat first [apply text_no_loop | constructor]. Qed.
Lemma digits_lang num y : Lang (rseq [RCls num; RCls num; RCls num; RCls num]) y <-> four_digits num y.
Proof.
  cbn [rseq]. split.
  - intros L. repeat (apply lang_cat in L as (? & ? & -> & ?A & L)). apply lang_cls in L as (d & -> & ?). apply lang_cls in A as (d1 & -> & ?), A0 as (d2 & -> & ?), A1 as (d3 & -> & ?).
    split; [reflexivity|]. intros c [<-|[<-|[<-|[<-|[]]]]]; assumption.
  - intros [L D]. destruct y as [|a [|b [|c [|d [|]]]]]; try discriminate. change [a; b; c; d] with ([a] ++ [b] ++ [c] ++ [d]). repeat (constructor; [constructor; apply D; cbn; tauto|]). constructor. apply D. cbn. tauto.
Qed.
Lemma copyright_lang num t : Lang (copyright_regex num) t <-> dated num t.
Proof.
  unfold copyright_regex, dated. split.
  - intros L. inversion L as [| | | | | |n a u L' E1 E2|]; subst. clear L. inversion L' as [| |a b u L E1 E2|a b u L E1 E2| | | |]; subst; clear L'; inversion L as [| | | | | |n a u L' E1 E2|]; subst; clear L.
    + change (rseq ?l) with (rseq l) in L'.
      apply lang_cat in L' as (? & ? & -> & A1 & L). apply lang_cat in L as (? & ? & -> & A2 & L). apply lang_cat in L as (? & ? & -> & A3 & L). apply lang_cat in L as (? & ? & -> & A4 & L). apply lang_cat in L as (? & ? & -> & A5 & L).
      apply lang_cat in L as (? & ? & -> & A6 & L). apply lang_cat in L as (y & ? & -> & A7 & A8). apply lang_char in A1 as ->, A2 as ->, A6 as ->, A8 as ->. apply lang_opt_char in A3, A5. apply digits_lang in A7.
      inversion A4 as [| | | | | |n a u L E1 E2|]; subst. exists y. split; [exact A7|]. left. eexists _, _, _. split; [exact A3|]. split; [|split; [exact A5|reflexivity]].
      inversion L as [| |a b u L' E1 E2|a b u L' E1 E2| | | |]; subst; apply lang_char in L' as ->; auto.
    + apply lang_cat in L' as (? & ? & -> & A1 & L). apply lang_cat in L as (? & ? & -> & A2 & L). apply lang_cat in L as (y & ? & -> & A3 & L). apply lang_char in A1 as ->, A2 as ->. apply digits_lang in A3. apply (lang_text $" Elsevier") in L as ->. exists y. split; [exact A3|right; reflexivity].
  - intros (y & Y & [(o & c & e & O & C & E & ->)| ->]); apply digits_lang in Y.
    + apply L_grp, L_or_l, L_grp. change $". " with ([46%N] ++ [sp]). rewrite <- !app_assoc.
      apply (L_cat (rchar 46%N)); [constructor; reflexivity|]. apply (L_cat (rchar sp)); [constructor; reflexivity|]. apply (L_cat (ropt (rchar 40%N))); [destruct O as [-> | ->]; [apply L_opt_no|apply L_opt; constructor; reflexivity]|].
      apply L_cat; [apply L_grp; destruct C as [-> | ->]; [apply L_or_l|apply L_or_r]; constructor; reflexivity|]. apply (L_cat (ropt (rchar 41%N))); [destruct E as [-> | ->]; [apply L_opt_no|apply L_opt; constructor; reflexivity]|].
      apply (L_cat (rchar sp)); [constructor; reflexivity|]. apply L_cat; [exact Y|constructor; reflexivity].
    + apply L_grp, L_or_r, L_grp. change $". " with ([46%N] ++ [sp]). rewrite <- !app_assoc. apply (L_cat (rchar 46%N)); [constructor; reflexivity|]. apply (L_cat (rchar sp)); [constructor; reflexivity|]. apply L_cat; [exact Y|apply text_lang].
Qed.
Lemma match_dated n r s c : no_loop r -> re_match (RGrp n r) s = Some c -> exists u v, s = u ++ v /\ c n = Some u /\ Lang r u.
Proof.
  intros NL. unfold re_match. cbn [rmatch]. intros Q. apply (no_loop_sound r NL) in Q as (u & v & c' & -> & L & [= <-]). exists u, v. split; [reflexivity|]. split; [|exact L]. unfold set_cap. rewrite Nat.eqb_refl. f_equal.
  rewrite app_length. replace (length u + length v - length v) with (length u) by lia. rewrite firstn_app, Nat.sub_diag, firstn_all. cbn. apply app_nil_r.
Qed.
Lemma search_dated n r : no_loop r -> forall s c, re_search (RGrp n r) s = Some c -> exists u, c n = Some u /\ Lang r u /\ contains u s = true.
Proof.
  intros NL. induction s as [|x s IH]; intros c.
  - change (re_search (RGrp n r) []) with (match re_match (RGrp n r) [] with Some c => Some c | None => None end). destruct (re_match (RGrp n r) []) as [c'|] eqn:M; [|discriminate]. intros [= ->].
    apply (match_dated _ _ _ _ NL) in M as (u & v & E & C & L). exists u. split; [exact C|]. split; [exact L|]. apply contains_spec. exists [], v. exact E.
  - change (re_search (RGrp n r) (x :: s)) with (match re_match (RGrp n r) (x :: s) with Some c => Some c | None => re_search (RGrp n r) s end). destruct (re_match (RGrp n r) (x :: s)) as [c'|] eqn:M.
    + intros [= ->]. apply (match_dated _ _ _ _ NL) in M as (u & v & E & C & L). exists u. split; [exact C|]. split; [exact L|]. apply contains_spec. exists [], v. exact E.
    + intros Q. destruct (IH _ Q) as (u & C & L & K). exists u. split; [exact C|]. split; [exact L|]. cbn [contains]. rewrite K. apply orb_true_r.
Qed.
Lemma search_found n r u s : Lang r u -> contains u s = true -> re_search (RGrp n r) s <> None.
Proof.
  intros L C. apply contains_spec in C as (a & b & ->). induction a as [|x a IH].
  - cbn [app]. assert (M : re_match (RGrp n r) (u ++ b) <> None) by (unfold re_match; apply (lang_found (RGrp n r) u); [constructor; exact L|discriminate]).
    destruct (u ++ b); unfold re_search; fold re_search; destruct (re_match _ _); congruence.
  - cbn [app]. change (re_search (RGrp n r) (x :: a ++ u ++ b)) with (match re_match (RGrp n r) (x :: a ++ u ++ b) with Some c => Some c | None => re_search (RGrp n r) (a ++ u ++ b) end). destruct (re_match _ _); [discriminate|exact IH].
Qed.
Lemma splitter_dated num s t : (forall u, In u phrases -> contains u s = false) -> splitter num s = Some t -> dated num t.
Proof.
  intros NP. unfold splitter. change copyright_hits with phrases. destruct (find _ phrases) eqn:F; [apply find_some in F as [I1 F]; rewrite (NP _ I1) in F; discriminate|].
  destruct (re_search (copyright_regex num) s) as [c|] eqn:R; [|discriminate]. intros E. pose proof (copyright_no_loop num) as NL. unfold copyright_regex in R, NL. inversion NL; subst. apply search_dated in R as (u & C & L & _); [|assumption].
  rewrite C in E. injection E as <-. apply copyright_lang. apply L_grp, L.
Qed.
Lemma splitter_none num s : (forall u, In u phrases -> contains u s = false) -> (splitter num s = None <-> forall t, dated num t -> contains t s = false).
Proof.
  intros NP. split.
  - unfold splitter. change copyright_hits with phrases. destruct (find _ phrases) eqn:F; [discriminate|]. intros E t D. destruct (contains t s) eqn:C; [|reflexivity]. exfalso. apply copyright_lang in D. unfold copyright_regex in D. inversion D; subst.
    destruct (re_search (copyright_regex num) s) as [c|] eqn:R; [|unfold copyright_regex in R; eapply search_found in R; eauto]. pose proof (copyright_no_loop num) as NL. unfold copyright_regex in R, NL. inversion NL; subst. apply search_dated in R as (u & CC & _ & _); [|assumption]. congruence.
  - intros ND. destruct (splitter num s) as [t|] eqn:E; [|reflexivity]. pose proof (splitter_inside num s t E) as C. rewrite (ND t) in C; [discriminate|]. eapply splitter_dated; eauto.
Qed.

Lemma copyright_split num s : let '(a, b) := find_copyright num s in exists w, s = a ++ b ++ w /\ blank_text w.
Proof.
  unfold find_copyright. destruct (splitter num s) as [[|x sep]|] eqn:E.
  - exists []. split; [cbn; rewrite app_nil_r; reflexivity|intros c []].
  - apply splitter_inside in E. assert (NL : exists n, length s = S n).
    { destruct s; [|eexists; reflexivity]. cbn in E. discriminate. }
    destruct NL as [n NL]. rewrite NL. pose proof (split_on_two (x :: sep) s n E) as T. pose proof (split_on_join (x :: sep) (S n) s) as J. rewrite (join_last _ _ T) in J.
    destruct (rstrip_split (last (split_on (S n) (x :: sep) s) [])) as (w & W & B).
    destruct (@eqb_spec char _ x 46%N) as [->|N]; exists w; (split; [|exact B]); rewrite <- J at 1; rewrite W at 1; rewrite <- !app_assoc; reflexivity.
  - exists []. split; [cbn; rewrite app_nil_r; reflexivity|intros c []].
Qed.

(** ** _bibFormatter *)
Lemma firstn_plus {A} a b (l : list A) : firstn (a + b) l = firstn a l ++ firstn b (skipn a l).
Proof. revert l. induction a as [|a IH]; intros l; [reflexivity|]. destruct l as [|x l]; [cbn; rewrite firstn_nil; reflexivity|]. cbn. rewrite IH. reflexivity. Qed.
Lemma pieces_concat s max n : concat (map (fun i => piece max i s) (seq 0 n)) = firstn (n * max) s.
Proof.
  induction n as [|n IH]; [reflexivity|]. rewrite seq_S, map_app, concat_app, IH. cbn [Nat.add map concat]. rewrite app_nil_r. unfold piece. replace (S n * max) with (n * max + max) by lia.
  symmetry. apply firstn_plus.
Qed.
Lemma bib_pieces_concat s max : concat (bib_pieces s max) = firstn ((length s / max) * max) s.
Proof. apply pieces_concat. Qed.
Lemma piece_length max i s : max <> 0 -> i < length s / max -> length (piece max i s) = max.
Proof.
  intros NZ L. unfold piece. rewrite firstn_length, skipn_length. pose proof (Nat.div_mod (length s) max NZ). assert (i * max + max <= length s) by nia. lia.
Qed.

(** ** Widths *)
Lemma rjust_wide n s : (Z.of_nat (length s) <= n)%Z -> wide n (rjust n s).
Proof. intros L. unfold wide, rjust. rewrite app_length, repeat_length. lia. Qed.
Lemma pad_wide c n s : (Z.of_nat (length s) <= n)%Z -> wide n (pad_right c n s).
Proof. intros L. unfold wide, pad_right. rewrite app_length, repeat_length. lia. Qed.
Lemma center_wide c n s : (Z.of_nat (length s) <= n)%Z -> wide n (center c n s).
Proof.
  intros L. unfold wide, center. rewrite !app_length, !repeat_length. pose proof (Nat.div_mod (Z.to_nat (n - Z.of_nat (length s))) 2 ltac:(lia)). lia.
Qed.
Lemma entry_wide h v r : (3 <= h)%Z -> (Z.of_nat (length (dec_Z r)) <= 2)%Z -> wide h (prep_entry h v r).
Proof.
  intros H3 D. unfold prep_entry, wide. rewrite app_length. rewrite Nat2Z.inj_add, (pad_wide sp 2 (dec_Z r)) by exact D.
  destruct (Z.leb_spec (Z.of_nat (length v)) (h - 2)) as [L|L].
  - rewrite (rjust_wide (h - 2) v L). lia.
  - rewrite app_length. unfold upto. destruct (Z.ltb_spec (h - 3) 0); [lia|]. rewrite firstn_length. change (length $".") with 1. lia.
Qed.
(** widths of the columns, as chosen by the loop *)
Fixpoint widths (w rem : Z) (n : nat) : list Z :=
  match n with
  | 0 => []
  | S n' => if (0 <? rem)%Z then (w + 1)%Z :: widths w (rem - 1) n' else if (rem <? 0)%Z then (w - 1)%Z :: widths w (rem + 1) n' else w :: widths w rem n'
  end.
Definition zsum (l : list Z) : Z := fold_right Z.add 0%Z l.
Lemma widths_sum w n : forall rem, (-1 <= rem <= Z.of_nat n)%Z -> (n = 0 -> rem = 0%Z) -> zsum (widths w rem n) = (w * Z.of_nat n + rem)%Z.
Proof.
  induction n as [|n IH]; intros rem B N0.
  - rewrite N0 by reflexivity. cbn. lia.
  - cbn [widths]. destruct (Z.ltb_spec 0 rem); [|destruct (Z.ltb_spec rem 0)]; cbn [zsum fold_right]; fold (zsum (widths w (rem - 1) n)) (zsum (widths w (rem + 1) n)) (zsum (widths w rem n)).
    + rewrite IH; lia.
    + rewrite IH; lia.
    + rewrite IH; lia.
Qed.
Lemma widths_min w n : forall rem x, In x (widths w rem n) -> (w - 1 <= x)%Z.
Proof.
  induction n as [|n IH]; intros rem x I1; [destruct I1|]. cbn in I1. destruct (0 <? rem)%Z; [|destruct (rem <? 0)%Z]; destruct I1 as [<-|I1]; try lia; eapply IH; eassumption.
Qed.
(** every line of every column has the width of the column *)
Definition col_wide (height : nat) (w : Z) (c : list str) : Prop := length c = S height /\ forall l, In l c -> wide w l.
Lemma column_wide height head rows w : wide w head -> (3 <= w)%Z -> (forall v r, In (v, r) rows -> (Z.of_nat (length (dec_Z r)) <= 2)%Z) -> col_wide height w (column height head rows).
Proof.
  intros W W3 RK. unfold column. split.
  - cbn [length]. rewrite map_length, firstn_length, app_length, repeat_length. lia.
  - intros l [<-|I1]; [exact W|]. apply in_map_iff in I1 as ([v r] & <- & I1). rewrite W. apply entry_wide; [exact W3|].
    assert (I2 : In (v, r) (rows ++ repeat ($"NA", (-1)%Z) (height - length rows))).
    { revert I1. generalize (rows ++ repeat ($"NA", (-1)%Z) (height - length rows)). intros m. clear. revert height. induction m as [|x m IH]; intros [|h]; cbn; try tauto. intros [->|I1]; [auto|right; apply (IH _ I1)]. }
    apply in_app_or in I2 as [I2|I2]; [apply (RK v r I2)|]. apply repeat_spec in I2. injection I2 as -> ->. vm_compute. discriminate.
Qed.
Lemma columns_ok height w : forall values rem, (3 <= w - 1)%Z ->
  (forall t rows, In (t, rows) values -> (Z.of_nat (length t) <= w - 1)%Z /\ forall v r, In (v, r) rows -> (Z.of_nat (length (dec_Z r)) <= 2)%Z) ->
  exists cs, columns w rem height values = Ok cs /\ Forall2 (fun x c => col_wide height x c) (widths w rem (length values)) cs.
Proof.
  induction values as [|[t rows] values IH]; intros rem W3 V; [exists []; split; [reflexivity|constructor]|].
  destruct (V t rows (or_introl eq_refl)) as [VT VR]. cbn [columns widths length].
  assert (IH' : forall rem, exists cs, columns w rem height values = Ok cs /\ Forall2 (fun x c => col_wide height x c) (widths w rem (length values)) cs).
  { intros rem'. apply IH; [exact W3|]. intros t' r' I1. apply V. right. exact I1. }
  unfold heading. destruct (0 <? rem)%Z; [|destruct (rem <? 0)%Z].
  - destruct (Z.ltb_spec (w + 1) 0); [lia|]. cbn [bind snd fst]. destruct (IH' (rem - 1)%Z) as (cs & -> & F). eexists. split; [reflexivity|]. constructor; [|exact F]. apply column_wide; [apply center_wide; lia|lia|exact VR].
  - destruct (Z.ltb_spec (w - 1) 0); [lia|]. cbn [bind snd fst]. destruct (IH' (rem + 1)%Z) as (cs & -> & F). eexists. split; [reflexivity|]. constructor; [|exact F]. apply column_wide; [apply center_wide; lia|lia|exact VR].
  - destruct (Z.ltb_spec w 0); [lia|]. cbn [bind snd fst]. destruct (IH' rem) as (cs & -> & F). eexists. split; [reflexivity|]. constructor; [|exact F]. apply column_wide; [apply center_wide; lia|lia|exact VR].
Qed.
Lemma join_length (sep : str) l : l <> [] -> length (join sep l) + length sep = fold_right (fun x n => length x + length sep + n) 0 l.
Proof.
  induction l as [|x l IH]; [congruence|]. intros _. destruct l as [|y l]; [cbn; lia|]. rewrite join_cons by discriminate. cbn [fold_right] in *. rewrite !app_length. specialize (IH ltac:(discriminate)). lia.
Qed.
Lemma line_wide height ws cs i sep : length sep = 1 -> cs <> [] -> i <= height -> Forall2 (fun x c => col_wide height x c) ws cs -> wide (zsum ws + Z.of_nat (length ws) + 1) (line_at sep cs i).
Proof.
  intros LS NE LI F. unfold line_at, wide. rewrite !app_length. change (length $"|") with 1.
  assert (J : Z.of_nat (length (join sep (map (fun c => nth i c []) cs))) = (zsum ws + Z.of_nat (length ws) - 1)%Z).
  { pose proof (join_length sep (map (fun c => nth i c []) cs)) as JL. rewrite LS in JL.
    assert (SUM : Z.of_nat (fold_right (fun x n => length x + 1 + n) 0 (map (fun c => nth i c []) cs)) = (zsum ws + Z.of_nat (length ws))%Z).
    { clear JL NE. induction F as [|x c ws cs [CL CW] F IH]; [reflexivity|]. cbn [map fold_right zsum length]. fold (zsum ws). rewrite !Nat2Z.inj_add, IH. rewrite (CW (nth i c [])) by (apply nth_In; lia). lia. }
    specialize (JL ltac:(destruct cs; [congruence|discriminate])). lia. }
  lia.
Qed.
Lemma table_wide values height width : values <> [] -> (0 <= height)%Z -> (5 <= width / Z.of_nat (length values))%Z ->
  (forall t rows, In (t, rows) values -> (Z.of_nat (length t) <= width / Z.of_nat (length values) - 2)%Z /\ forall v r, In (v, r) rows -> (Z.of_nat (length (dec_Z r)) <= 2)%Z) ->
  exists ls, table_compact values height width = Ok ls /\ Z.of_nat (length ls) = (height + 1)%Z /\ forall l, In l ls -> wide width l.
Proof.
  intros NE H0 W5 V. unfold table_compact. destruct values as [|v0 vs] eqn:EV; [congruence|]. rewrite <- EV in *. clear NE. cbv zeta.
  set (n := Z.of_nat (length values)) in *. assert (NP : (1 <= n)%Z) by (unfold n; rewrite EV; cbn [length]; lia).
  destruct (columns_ok (Z.to_nat height) (width / n - 1) values (width mod n - 1)) as (cs & EC & F); [lia| |].
  { intros t rows I1. destruct (V t rows I1) as [A B]. split; [lia|exact B]. }
  match goal with |- context [bind ?X _] => change X with (columns (width / n - 1) (width mod n - 1) (Z.to_nat height) values) end. rewrite EC. cbn [bind]. destruct (Z.ltb_spec height 0); [lia|]. eexists. split; [reflexivity|].
  assert (NC : cs <> []) by (intros ->; inversion F as [E|]; rewrite EV in E; cbn in E; destruct (0 <? _)%Z; [|destruct (_ <? 0)%Z]; discriminate).
  assert (LW : length (widths (width / n - 1) (width mod n - 1) (length values)) = length values).
  { generalize (width mod n - 1)%Z as rem. generalize (width / n - 1)%Z as w. intros w. clear. induction (length values) as [|k IH]; intros rem; [reflexivity|]. cbn. destruct (0 <? rem)%Z; [|destruct (rem <? 0)%Z]; cbn; rewrite IH; reflexivity. }
  assert (SW : (zsum (widths (width / n - 1) (width mod n - 1) (length values)) + Z.of_nat (length (widths (width / n - 1) (width mod n - 1) (length values))) + 1)%Z = width).
  { pose proof (Z.mod_pos_bound width n ltac:(lia)) as MB. pose proof (Z.div_mod width n ltac:(lia)) as DM. rewrite widths_sum; [|fold n; lia|intros E; unfold n in NP; rewrite E in NP; cbn in NP; lia]. rewrite LW. fold n. nia. }
  split; [cbn [length]; rewrite map_length, seq_length; lia|]. intros l I1. rewrite <- SW. destruct I1 as [<-|I1].
  - apply (line_wide (Z.to_nat height)); [reflexivity|exact NC|lia|exact F].
  - apply in_map_iff in I1 as (i & <- & I1). apply in_seq in I1. apply (line_wide (Z.to_nat height)); [reflexivity|exact NC|lia|exact F].
Qed.
Lemma header_wide first second w : (55 <= w)%Z -> (Z.of_nat (length first) <= w - 1)%Z -> (Z.of_nat (length second) <= w - 2)%Z ->
  (forall l, In l (header first second w true) -> wide w l) /\ length (header first second w true) = if (w <? 78)%Z then 4 else 3.
Proof.
  intros W L1 L2. unfold header. assert (B : forall s, (Z.of_nat (length s) <= w - 2)%Z -> wide w ($"|" ++ pad_right 43%N (w - 2) s ++ $"|")).
  { intros s L. unfold wide. rewrite !app_length. pose proof (pad_wide 43%N (w - 2) s L) as P. unfold wide in P. change (length $"|") with 1. lia. }
  assert (A : wide w ($"+" ++ pad_right 43%N (w - 1) first)).
  { unfold wide. rewrite !app_length. pose proof (pad_wide 43%N (w - 1) first L1) as P. unfold wide in P. change (length $"+") with 1. lia. }
  change (Z.of_nat (length description)) with 76%Z. assert (D1 : (Z.of_nat (length description1) <= w - 2)%Z) by (change (Z.of_nat (length description1)) with 41%Z; lia). assert (D2 : (Z.of_nat (length description2) <= w - 2)%Z) by (change (Z.of_nat (length description2)) with 34%Z; lia).
  destruct (Z.ltb_spec (w - 2) 76), (Z.ltb_spec w 78); try lia; (split; [|reflexivity]); intros l I1; cbn [app In] in I1.
  - destruct I1 as [<-|[<-|[<-|[<-|[]]]]]; auto.
  - destruct I1 as [<-|[<-|[<-|[]]]]; auto; apply B; change (Z.of_nat (length description)) with 76%Z; lia.
Qed.
Lemma dec_short r : (-9 <= r <= 99)%Z -> (Z.of_nat (length (dec_Z r)) <= 2)%Z.
Proof.
  intros B. assert (A : forallb (fun i => (Z.of_nat (length (dec_Z (Z.of_nat i - 9))) <=? 2)%Z) (seq 0 109) = true) by (vm_compute; reflexivity).
  rewrite forallb_forall in A. specialize (A (Z.to_nat (r + 9))). rewrite Z.leb_le in A. replace (Z.of_nat (Z.to_nat (r + 9)) - 9)%Z with r in A by lia. apply A. apply in_seq. lia.
Qed.

(** ** The progress bar *)
Lemma prep_wide s m : (6 <= m)%Z -> wide m (prep_string s m).
Proof.
  intros L. unfold prep_string. destruct (Z.leb_spec (Z.of_nat (length s)) (m - 1)) as [B|B].
  - unfold wide. rewrite app_length, Nat2Z.inj_add, (pad_wide sp (m - 1) s B). change (length $" ") with 1. lia.
  - unfold wide. rewrite !app_length. change (length $"...") with 3. change (length $" ") with 1.
    assert (Q : Z.quot (- (m - 1)) 2 = (- ((m - 1) / 2))%Z) by (rewrite Z.quot_opp_l by lia; rewrite Z.quot_div_nonneg by lia; reflexivity). rewrite Q.
    pose proof (Z.div_mod (m - 1) 2 ltac:(lia)) as DM. assert (M2 : ((m - 1) mod 2 = 0 /\ Z.even (m - 1) = true \/ (m - 1) mod 2 = 1 /\ Z.even (m - 1) = false)%Z).
    { rewrite Zmod_even. destruct (Z.even (m - 1)); auto. }
    set (h := ((m - 1) / 2)%Z) in *. assert (HP : (0 < h)%Z) by (destruct M2 as [[? ?]|[? ?]]; lia).
    unfold from. destruct (Z.ltb_spec (- h) 0); [|lia]. rewrite skipn_length.
    destruct M2 as [[M E]|[M E]]; rewrite E; unfold upto.
    + assert (U : Z.quot (m - 1 - 6) 2 = (h - 3)%Z) by (replace (m - 1 - 6)%Z with ((h - 3) * 2)%Z by lia; apply Z.quot_mul; lia).
      rewrite U. destruct (Z.ltb_spec (h - 3) 0); [|rewrite firstn_length; lia].
      exfalso. (* m = 6: odd *) lia.
    + assert (U : Z.quot (m - 1 - 4) 2 = (h - 2)%Z).
      { rewrite Z.quot_div_nonneg by lia. replace (m - 1 - 4)%Z with (1 + (h - 2) * 2)%Z by lia. rewrite Z.div_add by lia. reflexivity. }
      rewrite U. destruct (Z.ltb_spec (h - 2) 0); [lia|]. rewrite firstn_length. lia.
Qed.
