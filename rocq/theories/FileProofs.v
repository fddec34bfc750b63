(** Facts about the encodings and the recognition of files. *)
From Coq Require Import List ZArith Lia Bool Arith.
From Coq Require Import String.
From Verif Require Import Base PyStr FileModel.
Import ListNotations.
Local Open Scope list_scope.
Ltac Zify.zify_post_hook ::= Z.to_euclidean_division_equations.

(** a character that utf-8 can encode *)
Definition scalar (c : char) : Prop := (c < 1114112)%N /\ ~ (55296 <= c < 57344)%N.
Lemma scalar_surrogate c : scalar c -> surrogate c = false.
Proof. intros [_ H]. unfold surrogate. destruct (N.leb_spec 55296 c), (N.ltb_spec c 57344); cbn; try reflexivity. lia. Qed.
Lemma no_code_spec c : no_code c = false <-> scalar c.
Proof.
  unfold no_code, surrogate, scalar. destruct (N.leb_spec 55296 c), (N.ltb_spec c 57344), (N.leb_spec 1114112 c); cbn; split; intros; try discriminate; try reflexivity; lia.
Qed.
Lemma encode_ok s b : utf8_encode s = Ok b <-> Forall scalar s /\ b = flat_map utf8_char s.
Proof.
  unfold utf8_encode. assert (E : existsb no_code s = false <-> Forall scalar s).
  { induction s as [|c s IH]; cbn [existsb]; [split; [constructor|reflexivity]|]. rewrite orb_false_iff, no_code_spec, IH. split; [intros []; constructor; assumption|intros H; inversion H; auto]. }
  destruct (existsb no_code s).
  - split; [discriminate|]. intros [F _]. apply E in F. discriminate.
  - split; [intros H; injection H as <-; split; [apply E; reflexivity|reflexivity]|intros [_ ->]; reflexivity].
Qed.
Ltac solve_bool := repeat match goal with
  | |- context [(?a <? ?b)%N] => destruct (N.ltb_spec a b); try lia
  | |- context [(?a <=? ?b)%N] => destruct (N.leb_spec a b); try lia
  end.
Lemma tail_byte_ok n : tail_byte (128 + n mod 64)%N = true.
Proof. unfold tail_byte. solve_bool; reflexivity. Qed.
Lemma decode_char c b : scalar c -> utf8_decode (utf8_char c ++ b) = ocons c (utf8_decode b).
Proof.
  intros SC. pose proof (scalar_surrogate c SC) as SG. destruct SC as [C S]. unfold utf8_char. destruct (N.ltb_spec c 128) as [L|L].
  - cbn [app utf8_decode]. destruct (N.ltb_spec c 128); [reflexivity|lia].
  - destruct (N.ltb_spec c 2048) as [L2|L2].
    + cbn [app utf8_decode]. rewrite tail_byte_ok. cbn [negb]. destruct (N.ltb_spec (192 + c / 64) 128); [lia|]. destruct (N.leb_spec 194 (192 + c / 64)); [|lia]. destruct (N.ltb_spec (192 + c / 64) 224); [|lia]. cbn [andb]. f_equal. lia.
    + destruct (N.ltb_spec c 65536) as [L3|L3].
      * cbn [app utf8_decode]. rewrite !tail_byte_ok. cbn [negb]. destruct (N.ltb_spec (224 + c / 4096) 128); [lia|]. destruct (N.leb_spec 194 (224 + c / 4096)); [|lia]. destruct (N.ltb_spec (224 + c / 4096) 224); [lia|]. cbn [andb].
        destruct (N.leb_spec 224 (224 + c / 4096)); [|lia]. destruct (N.ltb_spec (224 + c / 4096) 240); [|lia]. cbn [andb]. cbv zeta.
        replace ((224 + c / 4096 - 224) * 4096 + (128 + c / 64 mod 64 - 128) * 64 + (128 + c mod 64 - 128))%N with c by lia. destruct (N.leb_spec 2048 c); [|lia]. rewrite SG. reflexivity.
      * cbn [app utf8_decode]. rewrite !tail_byte_ok. cbn [negb]. destruct (N.ltb_spec (240 + c / 262144) 128); [lia|]. destruct (N.leb_spec 194 (240 + c / 262144)); [|lia]. destruct (N.ltb_spec (240 + c / 262144) 224); [lia|]. cbn [andb].
        destruct (N.leb_spec 224 (240 + c / 262144)); [|lia]. destruct (N.ltb_spec (240 + c / 262144) 240); [lia|]. cbn [andb]. cbv zeta.
        replace ((240 + c / 262144 - 240) * 262144 + (128 + c / 4096 mod 64 - 128) * 4096 + (128 + c / 64 mod 64 - 128) * 64 + (128 + c mod 64 - 128))%N with c by lia.
        destruct (N.leb_spec 240 (240 + c / 262144)); [|lia]. destruct (N.ltb_spec (240 + c / 262144) 245); [|lia]. destruct (N.leb_spec 65536 c); [|lia]. destruct (N.ltb_spec c 1114112); [|lia]. reflexivity.
Qed.
Lemma decode_encode s : Forall scalar s -> utf8_decode (flat_map utf8_char s) = Some s.
Proof. induction 1 as [|c s H F IH]; [reflexivity|]. cbn [flat_map]. rewrite decode_char by exact H. rewrite IH. reflexivity. Qed.
(** one step of decoding *)
Lemma decode_step b s : utf8_decode b = Some s -> b = [] /\ s = [] \/ exists c b' s', scalar c /\ b = utf8_char c ++ b' /\ s = c :: s' /\ utf8_decode b' = Some s'.
Proof.
  destruct b as [|w b1]; cbn [utf8_decode]; intros E; [left; split; [reflexivity|congruence]|right].
  destruct (N.ltb_spec w 128) as [W|W].
  { destruct (utf8_decode b1) as [s'|] eqn:D; [|discriminate]. injection E as <-. exists w, b1, s'. split; [split; lia|]. unfold utf8_char. destruct (N.ltb_spec w 128); [|lia]. auto. }
  destruct b1 as [|x b2]; [discriminate|]. unfold tail_byte in E. destruct (N.leb_spec 128 x) as [X1|]; [|discriminate]. destruct (N.ltb_spec x 192) as [X2|]; [|discriminate]. cbn [andb negb] in E.
  destruct (N.leb_spec 194 w) as [W2|W2]; cbn [andb] in E; [destruct (N.ltb_spec w 224) as [W3|W3]; cbn [andb] in E|].
  { destruct (utf8_decode b2) as [s'|] eqn:D; [|discriminate]. injection E as <-. exists ((w - 192) * 64 + (x - 128))%N, b2, s'. split; [split; lia|]. split; [|auto]. unfold utf8_char.
    destruct (N.ltb_spec ((w - 192) * 64 + (x - 128)) 128); [lia|]. destruct (N.ltb_spec ((w - 192) * 64 + (x - 128)) 2048); [|lia]. cbn [app]. f_equal; [lia|]. f_equal. lia. }
  all: destruct b2 as [|y b3]; [discriminate|]; destruct (N.leb_spec 128 y) as [Y1|]; [|discriminate]; destruct (N.ltb_spec y 192) as [Y2|]; [|discriminate]; cbn [andb negb] in E.
  2: { destruct (N.leb_spec 224 w) as [W4|W4]; [lia|]. cbn [andb] in E. destruct b3 as [|z b4]; [discriminate|]. destruct (N.leb_spec 240 w) as [W6|]; [lia|]. rewrite andb_false_r in E. discriminate. }
  destruct (N.leb_spec 224 w) as [W4|W4]; [|lia]. cbn [andb] in E. destruct (N.ltb_spec w 240) as [W5|W5]; cbn [andb] in E.
  { cbv zeta in E. set (c := ((w - 224) * 4096 + (x - 128) * 64 + (y - 128))%N) in *. destruct (N.leb_spec 2048 c) as [C|]; [|discriminate]. cbn [andb] in E. unfold surrogate in E.
    assert (SC : scalar c). { split; [unfold c; lia|]. destruct (N.leb_spec 55296 c), (N.ltb_spec c 57344); cbn [andb negb] in E; try discriminate; lia. }
    destruct (negb _); [|discriminate]. destruct (utf8_decode b3) as [s'|] eqn:D; [|discriminate]. injection E as <-. exists c, b3, s'. split; [exact SC|]. split; [|auto]. unfold utf8_char. clear SC.
    destruct (N.ltb_spec c 128); [lia|]. destruct (N.ltb_spec c 2048); [lia|]. destruct (N.ltb_spec c 65536); [|unfold c in *; lia]. unfold c in *. cbn [app]. f_equal; [lia|]. f_equal; [lia|]. f_equal. lia. }
  destruct b3 as [|z b4]; [discriminate|].
  cbv zeta in E; set (c := ((w - 240) * 262144 + (x - 128) * 4096 + (y - 128) * 64 + (z - 128))%N) in *.
  destruct (N.leb_spec 128 z) as [Z1|]; cbn [andb] in E; [|discriminate]; destruct (N.ltb_spec z 192) as [Z2|]; cbn [andb] in E; [|discriminate].
  destruct (N.leb_spec 240 w) as [W6|]; cbn [andb] in E; [|discriminate].
  destruct (N.ltb_spec w 245) as [W7|]; cbn [andb] in E; [|discriminate]. destruct (N.leb_spec 65536 c) as [C1|]; cbn [andb] in E; [|discriminate]. destruct (N.ltb_spec c 1114112) as [C2|]; [|discriminate].
  destruct (utf8_decode b4) as [s'|] eqn:D; [|discriminate]. injection E as <-. exists c, b4, s'. split; [split; lia|]. split; [|auto]. unfold utf8_char.
  destruct (N.ltb_spec c 128); [lia|]. destruct (N.ltb_spec c 2048); [lia|]. destruct (N.ltb_spec c 65536); [lia|]. unfold c in *. cbn [app]. f_equal; [lia|]. f_equal; [lia|]. f_equal; [lia|]. f_equal. lia.
Qed.
Lemma utf8_char_ne c : utf8_char c <> [].
Proof. unfold utf8_char. destruct (c <? 128)%N; [discriminate|]. destruct (c <? 2048)%N; [discriminate|]. destruct (c <? 65536)%N; discriminate. Qed.
Lemma decoded : forall n b s, length b <= n -> utf8_decode b = Some s -> Forall scalar s /\ b = flat_map utf8_char s.
Proof.
  induction n as [|n IH]; intros b s L E; apply decode_step in E as [[-> ->]|(c & b' & s' & SC & -> & -> & E)]; try (split; [constructor|reflexivity]).
  - exfalso. pose proof (utf8_char_ne c). destruct (utf8_char c); [congruence|]. cbn in L. lia.
  - rewrite app_length in L. pose proof (utf8_char_ne c). destruct (utf8_char c) as [|w t] eqn:U; [congruence|]. cbn [length] in L. destruct (IH b' s') as [F ->]; [lia|exact E|]. split; [constructor; assumption|]. cbn [flat_map]. rewrite U. reflexivity.
Qed.
Lemma decode_app p x s : utf8_decode p = Some s -> utf8_decode (p ++ x) = option_map (app s) (utf8_decode x).
Proof.
  intros E. destruct (decoded (length p) p s (le_n _) E) as [F ->]. clear E. induction F as [|c s H F IH]; cbn [flat_map app].
  - destruct (utf8_decode x); reflexivity.
  - rewrite <- app_assoc, decode_char by exact H. rewrite IH. destruct (utf8_decode x); reflexivity.
Qed.
(** bytes of ASCII characters *)
Lemma char_ascii c : (c < 128)%N -> utf8_char c = [c].
Proof. intros L. unfold utf8_char. destruct (N.ltb_spec c 128); [reflexivity|lia]. Qed.
Lemma encode_ascii s : Forall (fun c => (c < 128)%N) s -> flat_map utf8_char s = s.
Proof. induction 1 as [|c s H F IH]; [reflexivity|]. cbn [flat_map]. rewrite char_ascii, IH by exact H. reflexivity. Qed.
Lemma char_high c w : In w (utf8_char c) -> (w < 128)%N -> w = c.
Proof.
  unfold utf8_char. destruct (N.ltb_spec c 128); [intros [<-|[]]; reflexivity|]. destruct (N.ltb_spec c 2048); [|destruct (N.ltb_spec c 65536)]; intros I L; cbn [In] in I;
    repeat (destruct I as [I|I]; [exfalso; lia|]); destruct I.
Qed.
Lemma In_encode w s : (w < 128)%N -> In w (flat_map utf8_char s) <-> In w s.
Proof.
  intros L. rewrite in_flat_map. split.
  - intros (c & I & J). rewrite (char_high c w J L). exact I.
  - intros I. exists w. split; [exact I|]. rewrite char_ascii by exact L. left. reflexivity.
Qed.
Lemma contains_encode t s : Forall (fun c => (c < 128)%N) t -> contains t s = true -> contains t (flat_map utf8_char s) = true.
Proof.
  intros A C. apply contains_spec in C as (a & b & ->). apply contains_spec. exists (flat_map utf8_char a), (flat_map utf8_char b). rewrite !flat_map_app, (encode_ascii t) by exact A. reflexivity.
Qed.
Lemma ascii_text s : forallb (fun c => c <? 128)%N s = true -> Forall (fun c => (c < 128)%N) s.
Proof. intros H. apply Forall_forall. intros c I. rewrite forallb_forall in H. apply N.ltb_lt. apply H, I. Qed.

(** ** names *)
Lemma split_some c s : exists p q, split_char c s = p :: q.
Proof. destruct s as [|x l]; cbn [split_char]; [eauto|]. destruct (eqb x c); [eauto|]. destruct (split_char c l); eauto. Qed.
Lemma split_one c s : ~ In c s -> split_char c s = [s].
Proof. induction s as [|x s IH]; intros N; [reflexivity|]. cbn [split_char]. rewrite neq_eqb by (intros ->; apply N; left; reflexivity). rewrite IH; [reflexivity|]. intros I. apply N. right. exact I. Qed.
Lemma split_end c a t : ~ In c t -> split_char c (a ++ c :: t) = split_char c a ++ [t].
Proof.
  intros N. induction a as [|x a IH]; cbn [app split_char]; [rewrite eqb_refl, split_one by exact N; reflexivity|]. rewrite IH. destruct (eqb x c); [reflexivity|]. destruct (split_some c a) as (p & q & ->). reflexivity.
Qed.
Lemma join_split c s : join [c] (split_char c s) = s.
Proof.
  induction s as [|x s IH]; [reflexivity|]. cbn [split_char]. destruct (split_some c s) as (p & q & Q). rewrite Q in *. destruct (eqb_spec x c) as [->|N].
  - change (c :: join [c] (p :: q) = c :: s). rewrite IH. reflexivity.
  - destruct q as [|q r]; [cbn [join] in *; rewrite IH; reflexivity|]. change (x :: join [c] (p :: q :: r) = x :: s). rewrite IH. reflexivity.
Qed.
Lemma stem_of dir stem suffix : stem <> [] -> (forall t, stem <> $"." ++ t) -> ~ In 47%N stem -> ~ In 47%N suffix -> ~ In 46%N suffix ->
  path_name (dir ++ $"/" ++ stem ++ $"." ++ suffix) = stem.
Proof.
  intros NE ND NS NS2 ND2. unfold path_name. change ($"/" ++ stem ++ $"." ++ suffix) with (47%N :: stem ++ 46%N :: suffix). rewrite split_end.
  - rewrite last_last. unfold splitext. destruct stem as [|x stem]; [congruence|]. assert (NX : x <> 46%N) by (intros ->; apply (ND stem); reflexivity). cbn [app lead_dots]. rewrite neq_eqb by exact NX. cbn [skipn firstn app].
    assert (M : mem 46%N (x :: stem ++ 46%N :: suffix) = true) by (apply mem_In; right; apply in_or_app; right; left; reflexivity). rewrite M.
    change (x :: stem ++ 46%N :: suffix) with ((x :: stem) ++ 46%N :: suffix). rewrite split_end, removelast_last by exact ND2. apply join_split.
  - rewrite in_app_iff. intros [I|[I|I]]; [exact (NS I)|discriminate|exact (NS2 I)].
Qed.
Lemma split_free c s p : In p (split_char c s) -> ~ In c p.
Proof.
  revert p. induction s as [|x s IH]; intros p; [intros [<-|[]] []|]. cbn [split_char]. destruct (eqb_spec x c) as [->|N].
  - intros [<-|I]; [intros []|exact (IH p I)].
  - destruct (split_some c s) as (q & r & Q). rewrite Q in *. intros [<-|I]; [|apply IH; right; exact I]. intros [E|I]; [exact (N E)|]. exact (IH q (or_introl eq_refl) I).
Qed.
