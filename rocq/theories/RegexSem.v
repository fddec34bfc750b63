(** What a pattern matches, without the order in which the matcher tries: the matcher of Regex.v finds a match if there is one, and only such matches. *)
From Coq Require Import String.
From Verif Require Import Base PyStr Span Regex RegexFacts.
Set Implicit Arguments.

Inductive Reps (B : str -> caps -> str -> caps -> Prop) : nat -> option nat -> str -> caps -> str -> caps -> Prop :=
| R_stop hi s c : Reps B 0 hi s c s c
| R_more lo hi s c s1 c1 s2 c2 : hi <> Some 0 -> B s c s1 c1 -> length s1 < length s -> Reps B (pred lo) (option_map pred hi) s1 c1 s2 c2 -> Reps B lo hi s c s2 c2.
Fixpoint M (r : rx) (s : str) (c : caps) (s' : str) (c' : caps) : Prop :=
  match r with
  | RCls p => exists x, s = x :: s' /\ p x = true /\ c' = c
  | RCat a b => exists s1 c1, M a s c s1 c1 /\ M b s1 c1 s' c'
  | ROr a b => M a s c s' c' \/ M b s c s' c'
  | RRep _ lo hi a => Reps (M a) lo hi s c s' c'
  | RGrp n a => exists c1, M a s c s' c1 /\ c' = set_cap n (firstn (length s - length s') s) c1
  | REps => s' = s /\ c' = c
  | REol => (s = [] \/ s = [nl]) /\ s' = s /\ c' = c
  end.
Section Sem.
Context {X : Type}.
Implicit Types (k : str -> caps -> option X).
Lemma orelse_some (a b : option X) x : orelse a b = Some x -> a = Some x \/ b = Some x.
Proof. destruct a; cbn; auto. Qed.
Lemma rep_sound (body : str -> caps -> (str -> caps -> option X) -> option X) (B : str -> caps -> str -> caps -> Prop) g :
  (forall s c k x, body s c k = Some x -> exists s' c', B s c s' c' /\ k s' c' = Some x) ->
  forall fuel lo hi s c k x, rep body g fuel lo hi s c k = Some x -> exists s' c', Reps B lo hi s c s' c' /\ k s' c' = Some x.
Proof.
  intros H fuel. induction fuel as [|fuel IH]; intros lo hi s c k x E; cbn [rep] in E; [discriminate|].
  assert (D : (match hi with Some 0 => None | _ => body s c (fun s' c' => if length s' <? length s then rep body g fuel (pred lo) (option_map pred hi) s' c' k else None) end) = Some x \/ (if lo =? 0 then k s c else None) = Some x).
  { destruct g; apply orelse_some in E; tauto. }
  clear E. destruct D as [D|D].
  - assert (NZ : hi <> Some 0) by (intros ->; discriminate). assert (D' : body s c (fun s' c' => if length s' <? length s then rep body g fuel (pred lo) (option_map pred hi) s' c' k else None) = Some x) by (destruct hi as [[|h]|]; [congruence|exact D|exact D]).
    apply H in D' as (s1 & c1 & B1 & D'). destruct (Nat.ltb_spec (length s1) (length s)) as [L|]; [|discriminate]. apply IH in D' as (s2 & c2 & R & K). exists s2, c2. split; [|exact K]. exact (@R_more B lo hi s c s1 c1 s2 c2 NZ B1 L R).
  - destruct (Nat.eqb_spec lo 0) as [->|]; [|discriminate]. exists s, c. split; [apply R_stop|exact D].
Qed.
Theorem rmatch_sound r : forall s c k x, rmatch r s c k = Some x -> exists s' c', M r s c s' c' /\ k s' c' = Some x.
Proof.
  induction r as [p|a IHa b IHb|a IHa b IHb|g lo hi a IHa|n a IHa| |]; intros s c k x E; cbn [rmatch M] in *.
  - destruct s as [|y s]; [discriminate|]. destruct (p y) eqn:P; [|discriminate]. exists s, c. split; [exists y; auto|exact E].
  - apply IHa in E as (s1 & c1 & A & E). apply IHb in E as (s2 & c2 & B & E). exists s2, c2. split; [exists s1, c1; auto|exact E].
  - apply orelse_some in E as [E|E]; [apply IHa in E|apply IHb in E]; destruct E as (s1 & c1 & A & E); exists s1, c1; auto.
  - exact (@rep_sound _ (M a) g IHa _ _ _ _ _ _ _ E).
  - apply IHa in E as (s1 & c1 & A & E). eexists s1, _. split; [exists c1; split; [exact A|reflexivity]|exact E].
  - exists s, c. auto.
  - destruct s as [|y [|z s]]; [exists [], c; auto| |discriminate]. destruct (N.eqb_spec y nl) as [->|]; [|discriminate]. exists [nl], c. split; [auto|exact E].
Qed.
Lemma rep_complete (body : str -> caps -> (str -> caps -> option X) -> option X) (B : str -> caps -> str -> caps -> Prop) g :
  (forall s c s' c' k, B s c s' c' -> k s' c' <> None -> body s c k <> None) ->
  forall lo hi s c s' c', Reps B lo hi s c s' c' -> forall fuel k, length s < fuel -> k s' c' <> None -> rep body g fuel lo hi s c k <> None.
Proof.
  intros H lo hi s c s' c' R. induction R as [hi s c|lo hi s c s1 c1 s2 c2 NZ B1 L R IH]; intros [|fuel] k F K; [lia| |lia|]; cbn [rep].
  - cbn [Nat.eqb]. destruct g.
    + match goal with |- orelse ?m _ <> None => destruct m; [discriminate|exact K] end.
    + destruct (k s c); [discriminate|congruence].
  - assert (Y : body s c (fun s' c' => if length s' <? length s then rep body g fuel (pred lo) (option_map pred hi) s' c' k else None) <> None).
    { apply (H _ _ s1 c1 _ B1). destruct (Nat.ltb_spec (length s1) (length s)) as [_|Q]; [|lia]. apply IH; [lia|exact K]. }
    assert (Z : match hi with Some 0 => None | _ => body s c (fun s' c' => if length s' <? length s then rep body g fuel (pred lo) (option_map pred hi) s' c' k else None) end <> None) by (destruct hi as [[|h]|]; [congruence|exact Y|exact Y]).
    destruct g.
    + match goal with |- orelse ?m _ <> None => destruct m; [discriminate|congruence] end.
    + destruct (if lo =? 0 then k s c else None); [discriminate|exact Z].
Qed.
Theorem rmatch_complete r : forall s c s' c' k, M r s c s' c' -> k s' c' <> None -> rmatch r s c k <> None.
Proof.
  induction r as [p|a IHa b IHb|a IHa b IHb|g lo hi a IHa|n a IHa| |]; intros s c s' c' k E K; cbn [rmatch M] in *.
  - destruct E as (x & -> & P & ->). rewrite P. exact K.
  - destruct E as (s1 & c1 & A & B). apply (IHa _ _ s1 c1 _ A). exact (IHb _ _ _ _ _ B K).
  - destruct E as [A|B].
    + pose proof (IHa _ _ _ _ _ A K) as Z. destruct (rmatch a s c k); [discriminate|congruence].
    + pose proof (IHb _ _ _ _ _ B K) as Z. destruct (rmatch a s c k); [discriminate|exact Z].
  - apply (@rep_complete _ (M a) g IHa _ _ _ _ _ _ E); [lia|exact K].
  - destruct E as (c1 & A & ->). exact (IHa _ _ _ _ _ A K).
  - destruct E as [-> ->]. exact K.
  - destruct E as ([->| ->] & -> & ->); [exact K|]. change (nl =? nl)%N with true. exact K.
Qed.
Lemma Takes_unique r s c s' c' : M r s c s' c' -> (forall s1 c1, M r s c s1 c1 -> s1 = s' /\ c1 = c') -> @Takes X r s c s' c'.
Proof.
  intros E U k x K. destruct (rmatch r s c k) as [y|] eqn:R.
  - apply rmatch_sound in R as (s1 & c1 & R & Y). apply U in R as [-> ->]. congruence.
  - exfalso. apply (@rmatch_complete r s c s' c' k E); congruence.
Qed.
Lemma Fails_none r s c : (forall s1 c1, ~ M r s c s1 c1) -> @Fails X r s c.
Proof. intros U k. destruct (rmatch r s c k) as [y|] eqn:R; [|reflexivity]. apply rmatch_sound in R as (s1 & c1 & R & _). destruct (U _ _ R). Qed.
End Sem.

(** the characters a pattern can take, the groups it can set *)
Fixpoint takes_char (r : rx) (x : char) : Prop :=
  match r with RCls p => p x = true | RCat a b | ROr a b => takes_char a x \/ takes_char b x | RRep _ _ _ a | RGrp _ a => takes_char a x | REps | REol => False end.
Fixpoint sets_group (r : rx) (n : nat) : Prop :=
  match r with RCls _ | REps | REol => False | RCat a b | ROr a b => sets_group a n \/ sets_group b n | RRep _ _ _ a => sets_group a n | RGrp m a => n = m \/ sets_group a n end.
Lemma M_chars r : forall s c s' c', M r s c s' c' -> exists a, s = a ++ s' /\ Forall (takes_char r) a.
Proof.
  induction r as [p|a IHa b IHb|a IHa b IHb|g lo hi a IHa|n a IHa| |]; intros s c s' c' E; cbn [M takes_char] in *.
  - destruct E as (x & -> & P & _). exists [x]. split; [reflexivity|repeat constructor; exact P].
  - destruct E as (s1 & c1 & A & B). apply IHa in A as (u & -> & U). apply IHb in B as (v & -> & V). exists (u ++ v). split; [apply app_assoc|]. apply Forall_app. split; (eapply Forall_impl; [|eassumption]; auto).
  - destruct E as [A|B]; [apply IHa in A as (u & -> & U)|apply IHb in B as (u & -> & U)]; exists u; (split; [reflexivity|]); (eapply Forall_impl; [|eassumption]; auto).
  - induction E as [hi s c|lo hi s c s1 c1 s2 c2 NZ B1 L R IH]; [exists []; auto|]. apply IHa in B1 as (u & -> & U). destruct IH as (v & -> & V). exists (u ++ v). split; [apply app_assoc|apply Forall_app; auto].
  - destruct E as (c1 & A & _). exact (IHa _ _ _ _ A).
  - destruct E as [-> _]. exists []. auto.
  - destruct E as (_ & -> & _). exists []. auto.
Qed.
Lemma M_groups r : forall s c s' c', M r s c s' c' -> forall n, ~ sets_group r n -> c' n = c n.
Proof.
  induction r as [p|a IHa b IHb|a IHa b IHb|g lo hi a IHa|m a IHa| |]; intros s c s' c' E n N; cbn [M sets_group] in *.
  - destruct E as (x & _ & _ & ->). reflexivity.
  - destruct E as (s1 & c1 & A & B). rewrite (IHb _ _ _ _ B n), (IHa _ _ _ _ A n); tauto.
  - destruct E as [A|B]; [apply (IHa _ _ _ _ A)|apply (IHb _ _ _ _ B)]; tauto.
  - induction E as [hi s c|lo hi s c s1 c1 s2 c2 NZ B1 L R IH]; [reflexivity|]. rewrite IH. apply (IHa _ _ _ _ B1), N.
  - destruct E as (c1 & A & ->). unfold set_cap. destruct (Nat.eqb_spec n m) as [->|_]; [tauto|]. apply (IHa _ _ _ _ A). tauto.
  - destruct E as [_ ->]. reflexivity.
  - destruct E as (_ & _ & ->). reflexivity.
Qed.
(** runs of a class and texts *)
Lemma M_run p g lo hi s c s' c' : M (RRep g lo hi (RCls p)) s c s' c' <-> exists a, s = a ++ s' /\ Forall (fun x => p x = true) a /\ lo <= length a /\ (forall h, hi = Some h -> length a <= h) /\ c' = c.
Proof.
  cbn [M]. split.
  - intros E. change (fun s0 c0 s'0 c'0 => exists x, s0 = x :: s'0 /\ p x = true /\ c'0 = c0) with (M (RCls p)) in E. induction E as [hi s c|lo hi s c s1 c1 s2 c2 NZ B1 L R IH].
    + exists []. cbn. repeat split; auto; lia.
    + destruct B1 as (x & -> & P & ->). destruct IH as (a & -> & F & LA & H & ->). exists (x :: a). cbn [app length]. split; [reflexivity|]. split; [constructor; assumption|]. split; [lia|]. split; [|reflexivity].
      intros h ->. specialize (H (pred h) eq_refl). destruct h; [congruence|]. cbn in H. lia.
  - intros (a & -> & F & LA & H & ->). revert lo hi LA H. induction F as [|x a P F IH]; intros lo hi LA H; cbn [app length] in *.
    + replace lo with 0 by lia. apply R_stop.
    + apply (@R_more _ lo hi (x :: a ++ s') c (a ++ s') c s' c).
      * intros ->. specialize (H 0 eq_refl). lia.
      * exists x. auto.
      * cbn. lia.
      * apply IH; [lia|]. intros h E. destruct hi as [[|h']|]; cbn in E; [specialize (H 0 eq_refl); lia| |discriminate]. injection E as <-. specialize (H (S h') eq_refl). lia.
Qed.
Lemma M_text t : forall s c s' c', M (rtext t) s c s' c' <-> s = t ++ s' /\ c' = c.
Proof.
  induction t as [|y t IH]; intros s c s' c'; cbn [rtext fold_right M app].
  - split; intros [-> ->]; auto.
  - fold (rtext t). split.
    + intros (s1 & c1 & (x & -> & P & ->) & B). apply IH in B as [-> ->]. apply N.eqb_eq in P. subst. auto.
    + intros [-> ->]. exists (t ++ s'), c. split; [exists y; split; [reflexivity|]; split; [apply N.eqb_refl|reflexivity]|]. apply IH. auto.
Qed.
Lemma M_char y s c s' c' : M (rchar y) s c s' c' <-> s = y :: s' /\ c' = c.
Proof. cbn [rchar M]. split; [intros (x & -> & P & ->); apply N.eqb_eq in P; subst; auto|intros [-> ->]; exists y; split; [reflexivity|split; [apply N.eqb_refl|reflexivity]]]. Qed.
Lemma M_opt r s c s' c' : M (ropt r) s c s' c' <-> (s' = s /\ c' = c) \/ (length s' < length s /\ M r s c s' c').
Proof.
  cbn [ropt M]. split.
  - intros E. inversion E as [hi x1 x2|lo hi x1 x2 s1 c1 x3 x4 NZ B1 L R]; subst; [auto|]. cbn in R. inversion R as [hi2 y1 y2|lo2 hi2 y1 y2 s2 c2 y3 y4 NZ2 B2 L2 R2]; subst; [auto|congruence].
  - intros [[-> ->]|[L E]]; [apply R_stop|]. apply (@R_more _ 0 (Some 1) s c s' c' s' c'); [discriminate|exact E|exact L|apply R_stop].
Qed.
Lemma cap_text (a s' : str) : firstn (length (a ++ s') - length s') (a ++ s') = a.
Proof. rewrite app_length. replace (length a + length s' - length s') with (length a + 0) by lia. rewrite firstn_app_2. cbn. apply app_nil_r. Qed.
Lemma M_grp n r a s' c c' : M (RGrp n r) (a ++ s') c s' c' <-> exists c1, M r (a ++ s') c s' c1 /\ c' = set_cap n a c1.
Proof. cbn [M]. rewrite cap_text. reflexivity. Qed.
