(** Python string built-ins used by the readers and writers. Nothing here is repository code. *)
From Coq Require Import String.
From Verif Require Import Base.
Set Implicit Arguments.

Definition nl : char := 10%N.
Definition cr : char := 13%N.
Definition sp : char := 32%N.
Definition bom : char := 65279%N.

(** str.isspace() on one character: the Unicode white space python knows *)
Definition ws_char (c : char) : bool :=
  ((9 <=? c) && (c <=? 13) || (28 <=? c) && (c <=? 32) || (c =? 133) || (c =? 160) || (c =? 5760)
   || (8192 <=? c) && (c <=? 8202) || (c =? 8232) || (c =? 8233) || (c =? 8239) || (c =? 8287) || (c =? 12288))%N.
Definition isspace (s : str) : bool := match s with [] => false | _ => forallb ws_char s end.

(** s.startswith(p) *)
Fixpoint starts_with (p s : str) : bool :=
  match p, s with
  | [], _ => true
  | a :: p', b :: s' => eqb a b && starts_with p' s'
  | _, [] => false
  end.
(** p in s *)
Fixpoint contains (p s : str) : bool :=
  starts_with p s || match s with [] => false | _ :: s' => contains p s' end.

(** iterating over an open text file: pieces ending in a newline, the last one perhaps not *)
Fixpoint lines (s : str) : list str :=
  match s with
  | [] => []
  | c :: s' =>
    if eqb c nl then [c] :: lines s'
    else match lines s' with [] => [[c]] | l :: ls => (c :: l) :: ls end
  end.
(** universal newlines when reading in text mode *)
Fixpoint translate (s : str) : str :=
  match s with
  | [] => []
  | c :: s' =>
    if eqb c cr then nl :: match s' with
                           | d :: s'' => if eqb d nl then translate s'' else translate s'
                           | [] => []
                           end
    else c :: translate s'
  end.
(** decoding with utf-8-sig drops one leading byte order mark *)
Definition strip_bom (s : str) : str :=
  match s with c :: s' => if eqb c bom then s' else s | [] => [] end.

(** s[:-1] *)
Definition init_ {A} (l : list A) : list A := removelast l.

(** sep.join(l) *)
Fixpoint join (sep : str) (l : list str) : str :=
  match l with
  | [] => []
  | [x] => x
  | x :: l' => x ++ sep ++ join sep l'
  end.
(** s.split(c) for a one character separator *)
Fixpoint split_char (c : char) (s : str) : list str :=
  match s with
  | [] => [[]]
  | d :: s' =>
    if eqb d c then [] :: split_char c s'
    else match split_char c s' with [] => [[d]] | w :: ws => (d :: w) :: ws end
  end.
(** s.lstrip(), s.rstrip(), s.strip() *)
Fixpoint lstrip (s : str) : str :=
  match s with [] => [] | c :: s' => if ws_char c then lstrip s' else s end.
Definition rstrip (s : str) : str := rev (lstrip (rev s)).
Definition strip (s : str) : str := rstrip (lstrip s).

(** ** facts *)
Lemma starts_with_spec p s : starts_with p s = true <-> exists t, s = p ++ t.
Proof.
  revert s; induction p as [|a p IH]; intros s; cbn [starts_with app].
  - split; [intros _; exists s; reflexivity | reflexivity].
  - destruct s as [|b s]; [split; [discriminate | intros (t & Q); discriminate]|].
    rewrite andb_true_iff, IH, eqb_true. split.
    + intros (-> & t & ->); exists t; reflexivity.
    + intros (t & Q); inversion Q; subst; split; [reflexivity | exists t; reflexivity].
Qed.
Lemma contains_spec p s : contains p s = true <-> exists a b, s = a ++ p ++ b.
Proof.
  revert p; induction s as [|c s IH]; intros p; cbn [contains].
  - rewrite orb_false_r, starts_with_spec. split.
    + intros (t & Q); exists [], t; assumption.
    + intros (a & b & Q). symmetry in Q. apply app_eq_nil in Q as [-> Q]; exists b; cbn in *; congruence.
  - rewrite orb_true_iff, starts_with_spec, IH. split.
    + intros [(t & ->)|(a & b & ->)]; [exists [], t; reflexivity | exists (c :: a), b; reflexivity].
    + intros ([|x a] & b & Q); [left; exists b; exact Q|]. inversion Q; subst. right; exists a, b; reflexivity.
Qed.

Lemma lines_concat s : concat (lines s) = s.
Proof.
  induction s as [|c s IH]; [reflexivity|]. cbn [lines].
  destruct (eqb_spec c nl) as [->|N]; [cbn; rewrite IH; reflexivity|].
  destruct (lines s) as [|l ls]; cbn in *; [rewrite <- IH; reflexivity|]. rewrite IH; reflexivity.
Qed.
Lemma lines_full (l s : str) : ~ In nl l -> lines (l ++ nl :: s) = (l ++ [nl]) :: lines s.
Proof.
  induction l as [|c l IH]; intros N; cbn [app lines].
  - rewrite eqb_refl; reflexivity.
  - rewrite neq_eqb by (intros ->; apply N; left; reflexivity).
    rewrite IH by (intros I; apply N; right; exact I). reflexivity.
Qed.
Lemma lines_last (l : str) : l <> [] -> ~ In nl l -> lines l = [l].
Proof.
  induction l as [|c l IH]; intros NE N; [congruence|]. cbn [lines].
  rewrite neq_eqb by (intros ->; apply N; left; reflexivity).
  destruct l as [|d l]; [reflexivity|]. rewrite IH; [reflexivity | discriminate | intros I; apply N; right; exact I].
Qed.

(** a line of a file which is not its unterminated last line *)
Definition full_line (l : str) : Prop := exists b, l = b ++ [nl] /\ ~ In nl b.
Definition tail_line (l : str) : Prop := l <> [] /\ ~ In nl l.
Inductive file_lines : list str -> Prop :=
| fl_nil : file_lines []
| fl_last l : tail_line l -> file_lines [l]
| fl_cons l ls : full_line l -> file_lines ls -> file_lines (l :: ls).

Lemma lines_file_lines s : file_lines (lines s).
Proof.
  induction s as [|c s IH]; [constructor|]. cbn [lines].
  destruct (eqb_spec c nl) as [->|N].
  - constructor; [exists []; split; [reflexivity | intros []] | exact IH].
  - destruct (lines s) as [|l ls].
    + constructor; split; [discriminate|]. intros [E|[]]; congruence.
    + inversion IH as [|? [NE T]|? ? (b & -> & T) F]; subst.
      * constructor; split; [discriminate|]. intros [E|I]; [congruence | auto].
      * constructor; [|assumption]. exists (c :: b); split; [reflexivity|]. intros [E|I]; [congruence | auto].
Qed.
Lemma lines_of_file_lines ls : file_lines ls -> lines (concat ls) = ls.
Proof.
  induction 1 as [|l [NE N]|l ls (b & -> & N) F IH]; cbn; [reflexivity| |].
  - rewrite app_nil_r; apply lines_last; assumption.
  - rewrite <- app_assoc; cbn. rewrite lines_full by assumption. rewrite IH; reflexivity.
Qed.
Lemma file_lines_app a b : Forall full_line a -> file_lines b -> file_lines (a ++ b).
Proof. induction 1; cbn; [auto | intros; constructor; auto]. Qed.
Lemma file_lines_tl l ls : file_lines (l :: ls) -> file_lines ls.
Proof. intros F; inversion F; subst; [constructor | assumption]. Qed.
Lemma file_lines_skip a b : file_lines (a ++ b) -> file_lines b.
Proof. induction a as [|l a IH]; cbn; [auto|]. intros F; apply IH; eapply file_lines_tl; eassumption. Qed.
Lemma file_lines_full l x ls : file_lines (l :: x :: ls) -> full_line l.
Proof. intros F; inversion F; subst; assumption. Qed.
Lemma file_lines_ne l ls : file_lines (l :: ls) -> l <> [].
Proof. intros F; inversion F as [|? [NE _]|? ? (b & -> & _)]; subst; [assumption|]. intros Q; apply app_eq_nil in Q as [_ Q]; discriminate. Qed.
Lemma lines_app_full a s : Forall full_line a -> lines (concat a ++ s) = a ++ lines s.
Proof.
  induction 1 as [|l a (b & -> & N) F IH]; cbn; [reflexivity|].
  rewrite <- !app_assoc; cbn. rewrite lines_full by assumption. rewrite IH; reflexivity.
Qed.

Lemma translate_no_cr s : ~ In cr (translate s).
Proof.
  assert (H : forall n s, length s <= n -> ~ In cr (translate s)).
  { clear. induction n as [|n IH]; intros [|c s] L; cbn [translate length] in *; try (intros []; fail); [lia|].
    destruct (eqb_spec c cr) as [->|N].
    - destruct s as [|d s]; [intros [Q|[]]; discriminate Q|]. cbn [length] in L.
      destruct (eqb_spec d nl) as [->|M]; intros [Q|I]; try discriminate Q.
      + apply (IH s) in I; [assumption|lia].
      + apply (IH (d :: s)) in I; [assumption| cbn; lia].
    - intros [Q|I]; [congruence|]. apply (IH s) in I; [assumption|lia]. }
  apply (H (length s)); lia.
Qed.
Lemma translate_id s : ~ In cr s -> translate s = s.
Proof.
  induction s as [|c s IH]; intros N; [reflexivity|]. cbn [translate].
  rewrite neq_eqb by (intros ->; apply N; left; reflexivity).
  rewrite IH; [reflexivity | intros I; apply N; right; exact I].
Qed.
Lemma In_lines c l s : In l (lines s) -> In c l -> In c s.
Proof. intros I J. rewrite <- (lines_concat s). apply in_concat; exists l; split; assumption. Qed.

(** a prefix of a text, line by line *)
Inductive Trunc : list str -> list str -> Prop :=
| T_nil l ls : Trunc (l :: ls) []
| T_part l q x ls : l = q ++ x -> q <> [] -> x <> [] -> ~ In nl q -> Trunc (l :: ls) [q]
| T_cons l ls ps : Trunc ls ps -> Trunc (l :: ls) (l :: ps).

Lemma lines_prefix ls p x : file_lines ls -> concat ls = p ++ x -> x <> [] -> Trunc ls (lines p).
Proof.
  intros F; revert p x; induction F as [|l [NE N]|l ls (b & -> & N) F IH]; intros p x Q NX; cbn in Q.
  - symmetry in Q; apply app_eq_nil in Q as [_ Q]; congruence.
  - rewrite app_nil_r in Q. destruct p as [|c p]; [constructor|].
    rewrite lines_last; [eapply T_part; [exact Q | discriminate | assumption |] | discriminate|];
    subst l; intros I; apply N; apply in_or_app; left; exact I.
  - rewrite <- app_assoc in Q; cbn in Q.
    (* compare p with b ++ [nl] *)
    destruct (Nat.le_gt_cases (length p) (length b)) as [L|G].
    + assert (E : exists y, b = p ++ y).
      { clear - Q L. revert b Q L; induction p as [|c p IH]; intros b Q L; [exists b; reflexivity|].
        destruct b as [|d b]; cbn in *; [lia|]. inversion Q; subst. destruct (IH b H1) as (y & ->); [lia|]. exists y; reflexivity. }
      destruct E as (y & ->). destruct p as [|c p]; [constructor|].
      assert (NP : ~ In nl (c :: p)) by (intros I; apply N; apply in_or_app; left; exact I).
      rewrite lines_last; [|discriminate|assumption].
      eapply T_part with (x := y ++ [nl]); [rewrite app_assoc; reflexivity | discriminate | | assumption].
      intros Z; apply app_eq_nil in Z as [_ Z]; discriminate.
    + assert (E : exists y, p = b ++ nl :: y).
      { clear - Q G. revert p Q G; induction b as [|d b IH]; intros p Q G.
        - destruct p as [|c p]; cbn in *; [lia|]. inversion Q; subst. exists p; reflexivity.
        - destruct p as [|c p]; cbn in *; [lia|]. inversion Q; subst. destruct (IH p H1) as (y & ->); [lia|]. exists y; reflexivity. }
      destruct E as (y & ->). rewrite lines_full by assumption. constructor. apply IH with (x := x); [|assumption].
      rewrite <- app_assoc in Q. apply app_inv_head in Q. inversion Q; reflexivity.
Qed.
Lemma Trunc_app a b p : Trunc (a ++ b) p -> Trunc a p \/ exists p', p = a ++ p' /\ (Trunc b p' \/ (b = [] /\ False)).
Proof.
  revert p; induction a as [|l a IH]; intros p T; cbn in T.
  - right; exists p; split; [reflexivity | left; assumption].
  - inversion T as [|? q x|? ? ps T']; subst.
    + left; constructor.
    + left; econstructor; try reflexivity; assumption.
    + destruct (IH _ T') as [T2|(p' & -> & H)]; [left; constructor; assumption | right; exists p'; split; [reflexivity|assumption]].
Qed.
