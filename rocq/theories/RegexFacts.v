(** When the matcher takes its first choice. *)
From Coq Require Import String.
From Verif Require Import Base PyStr Span Regex.
Set Implicit Arguments.

Section Facts.
Context {X : Type}.
Implicit Types (k : str -> caps -> option X).
(** [r] at [s] prefers to end at [s'] with the groups [c'] *)
Definition Takes (r : rx) (s : str) (c : caps) (s' : str) (c' : caps) : Prop :=
  forall k x, k s' c' = Some x -> rmatch r s c k = Some x.
Definition Fails (r : rx) (s : str) (c : caps) : Prop := forall k, rmatch r s c k = None.

Lemma Takes_cat a b s c s1 c1 s2 c2 : Takes a s c s1 c1 -> Takes b s1 c1 s2 c2 -> Takes (RCat a b) s c s2 c2.
Proof. intros A B k x E. cbn [rmatch]. apply A. apply B. exact E. Qed.
Lemma Fails_cat a b s c : Fails a s c -> Fails (RCat a b) s c.
Proof. intros A k. cbn [rmatch]. apply A. Qed.
Lemma Takes_eps s c : Takes REps s c s c.
Proof. intros k x E. exact E. Qed.
Lemma Takes_grp n r s c a s' c' : s = a ++ s' -> Takes r s c s' c' -> Takes (RGrp n r) s c s' (set_cap n a c').
Proof.
  intros S A k x E. cbn [rmatch]. apply A. cbv beta. replace (firstn (length s - length s') s) with a; [exact E|].
  subst s. rewrite app_length. replace (length a + length s' - length s') with (length a + 0) by lia.
  rewrite firstn_app_2. cbn. symmetry. apply app_nil_r.
Qed.
Lemma Fails_grp n r s c : Fails r s c -> Fails (RGrp n r) s c.
Proof. intros A k. cbn [rmatch]. apply A. Qed.
Lemma Takes_or_l a b s c s' c' : Takes a s c s' c' -> Takes (ROr a b) s c s' c'.
Proof. intros A k x E. cbn [rmatch]. rewrite (A k x E). reflexivity. Qed.
Lemma Takes_or_r a b s c s' c' : Fails a s c -> Takes b s c s' c' -> Takes (ROr a b) s c s' c'.
Proof. intros A B k x E. cbn [rmatch]. rewrite A. cbn [orelse]. apply B, E. Qed.
Lemma Takes_opt r s c s' c' : length s' < length s -> Takes r s c s' c' -> Takes (ropt r) s c s' c'.
Proof.
  intros L A k x E. unfold ropt. cbn [rmatch rep]. rewrite (A _ x); [reflexivity|]. cbv beta.
  destruct (Nat.ltb_spec (length s') (length s)) as [_|H]; [|lia].
  destruct (length s) as [|n]; [lia|]. cbn [rep pred option_map Nat.eqb orelse]. exact E.
Qed.
Lemma Skips_opt r s c : Fails r s c -> Takes (ropt r) s c s c.
Proof. intros A k x E. unfold ropt. cbn [rmatch rep]. rewrite A. cbn. exact E. Qed.
Lemma rtext_eq t : forall s c k, rmatch (rtext t) s c k = if starts_with t s then k (skipn (length t) s) c else None.
Proof.
  induction t as [|y t IH]; intros s c k; [destruct s; reflexivity|].
  change (rtext (y :: t)) with (RCat (rchar y) (rtext t)). cbn [rmatch rchar length starts_with].
  destruct s as [|x s]; [reflexivity|]. unfold rchar. cbn [rmatch skipn]. rewrite IH. unfold char in *.
  destruct (N.eqb_spec y x) as [->|N]; [rewrite eqb_refl|rewrite (neq_eqb N)]; destruct (starts_with t s); reflexivity.
Qed.
Lemma Takes_text t s c : Takes (rtext t) (t ++ s) c s c.
Proof.
  intros k x E. rewrite rtext_eq. replace (starts_with t (t ++ s)) with true by (symmetry; apply starts_with_spec; eauto).
  replace (skipn (length t) (t ++ s)) with s; [exact E|]. rewrite skipn_app, skipn_all, Nat.sub_diag. reflexivity.
Qed.
Lemma Fails_text t s c : starts_with t s = false -> Fails (rtext t) s c.
Proof. intros E k. rewrite rtext_eq, E. reflexivity. Qed.
Lemma Fails_text_then t b s c : Fails b s c -> Fails (RCat (rtext t) b) (t ++ s) c.
Proof.
  intros F k. cbn [rmatch]. rewrite rtext_eq. replace (starts_with t (t ++ s)) with true by (symmetry; apply starts_with_spec; eauto).
  replace (skipn (length t) (t ++ s)) with s; [apply F|]. rewrite skipn_app, skipn_all, Nat.sub_diag. reflexivity.
Qed.
Lemma Takes_cls (p : char -> bool) x s c : p x = true -> Takes (RCls p) (x :: s) c s c.
Proof. intros E k y H. cbn [rmatch]. rewrite E. exact H. Qed.
Lemma Fails_cls (p : char -> bool) s c : match s with [] => True | x :: _ => p x = false end -> Fails (RCls p) s c.
Proof. intros E k. cbn [rmatch]. destruct s; [reflexivity|]. rewrite E. reflexivity. Qed.

(** runs of one character class *)
Lemma rmatch_cls (p : char -> bool) s c k : rmatch (RCls p) s c k = match s with x :: s' => if p x then k s' c else None | [] => None end.
Proof. reflexivity. Qed.
Lemma rep_all (p : char -> bool) c k x : forall fuel s lo, length s < fuel -> lo <= length (tw p s) ->
  k (dw p s) c = Some x -> rep (rmatch (RCls p)) true fuel lo None s c k = Some x.
Proof.
  induction fuel as [|fuel IH]; intros s lo L H E; [lia|]. cbn [rep option_map]. rewrite rmatch_cls.
  destruct s as [|y s]; cbn [tw dw length] in *.
  - replace lo with 0 by lia. cbn. exact E.
  - destruct (p y) eqn:P.
    + replace (length s <? S (length s)) with true by (symmetry; apply Nat.ltb_lt; lia).
      rewrite (IH s (pred lo)); [reflexivity|lia|cbn [length] in H; lia|exact E].
    + cbn [orelse length] in *. replace lo with 0 by lia. exact E.
Qed.
Lemma rep_upto (p : char -> bool) c k x : forall fuel s lo n, length s < fuel -> lo <= length (twn n p s) ->
  k (dwn n p s) c = Some x -> rep (rmatch (RCls p)) true fuel lo (Some n) s c k = Some x.
Proof.
  induction fuel as [|fuel IH]; intros s lo n L H E; [lia|]. cbn [rep]. rewrite rmatch_cls.
  destruct n as [|n].
  - cbn [twn dwn length orelse] in *. replace lo with 0 by lia. exact E.
  - destruct s as [|y s]; cbn [twn dwn length] in *.
    + replace lo with 0 by lia. cbn. exact E.
    + destruct (p y) eqn:P.
      * replace (length s <? S (length s)) with true by (symmetry; apply Nat.ltb_lt; lia). cbn [option_map pred].
        rewrite (IH s (pred lo) n); [reflexivity|lia|cbn [length] in H; lia|exact E].
      * cbn [orelse length] in *. replace lo with 0 by lia. exact E.
Qed.
Lemma Takes_plus (p : char -> bool) s c : tw p s <> [] -> Takes (rplus (RCls p)) s c (dw p s) c.
Proof.
  intros NE k x E. unfold rplus. cbn [rmatch]. apply rep_all; [lia| |exact E]. destruct (tw p s); [congruence|cbn; lia].
Qed.
Lemma Fails_plus (p : char -> bool) s c : tw p s = [] -> Fails (rplus (RCls p)) s c.
Proof. intros E k. unfold rplus. cbn [rmatch rep]. destruct s as [|x s]; [reflexivity|]. cbn [tw] in E. destruct (p x); [discriminate|reflexivity]. Qed.
Lemma Takes_some (p : char -> bool) n s c : twn n p s <> [] -> Takes (RRep true 1 (Some n) (RCls p)) s c (dwn n p s) c.
Proof.
  intros NE k x E. cbn [rmatch]. apply rep_upto; [lia| |exact E]. destruct (twn n p s); [congruence|cbn; lia].
Qed.
Lemma Fails_some (p : char -> bool) n s c : twn (S n) p s = [] -> Fails (RRep true 1 (Some (S n)) (RCls p)) s c.
Proof. intros E k. cbn [rmatch rep]. destruct s as [|x s]; [reflexivity|]. cbn [twn] in E. destruct (p x); [discriminate|reflexivity]. Qed.
(** the lazy one stops as soon as it may *)
Lemma Takes_lazy (p : char -> bool) x s c : p x = true -> Takes (rplus_lazy (RCls p)) (x :: s) c s c.
Proof.
  intros P k y E. unfold rplus_lazy. cbn [rmatch rep length Nat.eqb orelse pred option_map]. rewrite P.
  replace (length s <? S (length s)) with true by (symmetry; apply Nat.ltb_lt; lia). rewrite E. reflexivity.
Qed.
Lemma opt_cls (p : char -> bool) x s c k : rmatch (ropt (RCls p)) (x :: s) c k = orelse (if p x then k s c else None) (k (x :: s) c).
Proof.
  unfold ropt. cbn [rmatch rep length]. replace (length s <? S (length s)) with true by (symmetry; apply Nat.ltb_lt; lia).
  destruct (p x); reflexivity.
Qed.
Lemma opt_cls_nil (p : char -> bool) c k : rmatch (ropt (RCls p)) [] c k = k [] c.
Proof. reflexivity. Qed.
Lemma rmatch_cat a b s c k : rmatch (RCat a b) s c k = rmatch a s c (fun s' c' => rmatch b s' c' k).
Proof. reflexivity. Qed.
Lemma Takes_eol c : Takes REol [] c [] c.
Proof. intros k x E. exact E. Qed.
Lemma Fails_eol x s c : x <> nl -> Fails REol (x :: s) c.
Proof. intros N k. cbn [rmatch]. destruct s; [|reflexivity]. destruct (N.eqb_spec x nl); [congruence|reflexivity]. Qed.
End Facts.
