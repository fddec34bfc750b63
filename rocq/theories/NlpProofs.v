(** Proofs for C65 - C67. *)
From Coq Require Import List ZArith Lia Bool Arith.
From Coq Require Import String.
From Verif Require Import Base PyStr JournalModel JournalProofs TextModel NlpModel NlpSpec.
Import ListNotations.
Local Open Scope list_scope.

(** ** replacing *)
Lemma replace_fuel (old new : str) : old <> [] -> forall n m s, length s <= n -> length s <= m -> replace_from n old new s = replace_from m old new s.
Proof.
  intros NE. induction n as [|n IH]; intros m s A B.
  - destruct s; [|cbn in A; lia]. destruct m; reflexivity.
  - destruct s as [|c s]; [destruct m; reflexivity|]. destruct m as [|m]; [cbn in B; lia|]. cbn [replace_from length] in *.
    destruct (starts_with old (c :: s)).
    + f_equal. destruct old as [|o old]; [congruence|]. cbn [length skipn]. apply IH; rewrite skipn_length; lia.
    + f_equal. apply IH; lia.
Qed.
Lemma replace_hit (old new s : str) : old <> [] -> s <> [] -> starts_with old s = true -> replace_all old new s = new ++ replace_all old new (skipn (length old) s).
Proof.
  intros NE NS ST. unfold replace_all. destruct s as [|c s]; [congruence|]. cbn [length replace_from]. rewrite ST. f_equal. apply replace_fuel; [exact NE| |lia].
  destruct old; [congruence|]. cbn [length skipn]. rewrite skipn_length. lia.
Qed.
Lemma replace_miss (old new s : str) c : starts_with old (c :: s) = false -> replace_all old new (c :: s) = c :: replace_all old new s.
Proof. intros ST. unfold replace_all. cbn [length replace_from]. rewrite ST. reflexivity. Qed.

(** ** dropping words *)
Definition framed (ws : list str) : str := flat_map (cons sp) ws ++ [sp].
Lemma framed_cons w ws : framed (w :: ws) = sp :: w ++ framed ws.
Proof. unfold framed. cbn. rewrite <- app_assoc. reflexivity. Qed.
Lemma framed_sp ws : exists r, framed ws = sp :: r.
Proof. destruct ws; [exists []; reflexivity|]. rewrite framed_cons. eexists. reflexivity. Qed.
Lemma framed_join ws : ws <> [] -> sp :: join [sp] ws ++ [sp] = framed ws.
Proof.
  induction ws as [|w ws IH]; [congruence|]. intros _. rewrite framed_cons. f_equal. destruct ws as [|v ws]; [reflexivity|].
  rewrite <- IH by discriminate. cbn [join]. rewrite <- !app_assoc. reflexivity.
Qed.
Lemma first_space (a b r q : str) : ~ In sp a -> ~ In sp b -> a ++ sp :: r = b ++ sp :: q -> a = b /\ r = q.
Proof.
  revert b. induction a as [|x a IH]; intros b NA NB E; destruct b as [|y b]; cbn in E.
  - injection E. auto.
  - injection E as E1 E2. exfalso. apply NB. left. congruence.
  - injection E as E1 E2. exfalso. apply NA. left. congruence.
  - injection E as -> E2. destruct (IH b) as [-> ->]; auto; intros X; [apply NA|apply NB]; right; exact X.
Qed.
Section Drop.
Variable w : str.
Hypothesis NW : ~ In sp w.
Definition mark : str := sp :: w ++ [sp].
Lemma replace_word y l : ~ In sp y -> replace_all mark [sp] (y ++ l) = y ++ replace_all mark [sp] l.
Proof using.
  induction y as [|c y IH]; intros NY; [reflexivity|]. cbn [app]. rewrite replace_miss; [rewrite IH; [reflexivity|]|].
  - intros X. apply NY. right. exact X.
  - apply not_true_is_false. intros X. apply starts_with_spec in X. destruct X as [t X]. cbn in X. injection X as X _. apply NY. left. exact X.
Qed.
Lemma replace_framed : forall n ws, length ws <= n -> Forall (fun x => ~ In sp x) ws -> replace_all mark [sp] (framed ws) = framed (thinned w ws).
Proof.
  induction n as [|n IH]; intros ws LE F.
  - destruct ws; [|cbn in LE; lia]. change (framed (thinned w [])) with [sp]. change (framed []) with [sp]. rewrite replace_miss; [reflexivity|]. unfold mark. destruct w; reflexivity.
  - destruct ws as [|x ws]; [apply IH; [cbn; lia|constructor]|]. inversion F as [|? ? NX F']; subst. cbn [thinned]. cbn [length] in LE.
    rewrite framed_cons. destruct (list_eq_dec N.eq_dec x w) as [->|NE].
    + destruct ws as [|y ws].
      * rewrite replace_hit; [|discriminate|discriminate|].
        -- unfold mark at 2. change (sp :: w ++ framed []) with (sp :: w ++ [sp]). rewrite skipn_all2 by (cbn; lia). reflexivity.
        -- apply starts_with_spec. exists []. rewrite app_nil_r. reflexivity.
      * inversion F' as [|? ? NY F'']; subst. rewrite !framed_cons. rewrite replace_hit; [|discriminate|discriminate|].
        -- replace (sp :: w ++ sp :: y ++ framed ws) with (mark ++ y ++ framed ws) by (unfold mark; cbn; rewrite <- app_assoc; reflexivity).
           rewrite skipn_app, skipn_all, Nat.sub_diag. cbn [skipn app]. f_equal. rewrite replace_word by exact NY. f_equal. apply IH; [cbn in LE; lia|exact F''].
        -- apply starts_with_spec. exists (y ++ framed ws). unfold mark. cbn. rewrite <- app_assoc. reflexivity.
    + rewrite replace_miss.
      * rewrite framed_cons. f_equal. rewrite replace_word by exact NX. f_equal. apply IH; [lia|exact F'].
      * apply not_true_is_false. intros X. apply starts_with_spec in X. destruct X as [t X]. destruct (framed_sp ws) as [r FR]. rewrite FR in X. unfold mark in X. cbn in X. rewrite <- app_assoc in X. injection X as X.
        apply NE. destruct (first_space x w r t NX NW X). assumption.
Qed.
End Drop.
Lemma thinned_in w x : forall n ws, length ws <= n -> In x (thinned w ws) -> In x ws.
Proof.
  induction n as [|n IH]; intros ws LE I; destruct ws as [|y ws]; [destruct I|cbn in LE; lia|destruct I|]. cbn in I, LE. destruct (list_eq_dec N.eq_dec y w).
  - destruct ws as [|z ws]; [destruct I|]. destruct I as [->|I]; [right; left; reflexivity|]. right. right. apply IH; [cbn in LE; lia|exact I].
  - destruct I as [->|I]; [left; reflexivity|]. right. apply IH; [lia|exact I].
Qed.
Lemma drop_words_spec drop ws : ws <> [] -> Forall (fun x => ~ In sp x) drop -> Forall (fun x => ~ In sp x) ws ->
  drop_words drop (join [sp] ws) = join [sp] (fold_left (fun ws w => thinned w ws) drop ws).
Proof.
  intros NE FD FW. unfold drop_words. rewrite framed_join by exact NE.
  assert (G : forall drop, Forall (fun x => ~ In sp x) drop -> forall ws, Forall (fun x => ~ In sp x) ws -> fold_left (fun s w => replace_all (sp :: w ++ [sp]) [sp] s) drop (framed ws) = framed (fold_left (fun ws w => thinned w ws) drop ws)).
  { clear. induction drop as [|w drop IH]; intros FD ws FW; [reflexivity|]. inversion FD; subst. cbn [fold_left]. change (sp :: w ++ [sp]) with (mark w). rewrite (replace_framed w) with (n := length ws) by auto.
    apply IH; [assumption|]. apply Forall_forall. intros x I. rewrite Forall_forall in FW. apply FW. apply (thinned_in w x (length ws)); auto. }
  rewrite G by assumption. generalize (fold_left (fun ws w => thinned w ws) drop ws). clear. intros [|v l]; [reflexivity|]. rewrite <- framed_join by discriminate. unfold inside. cbn [tl]. apply removelast_last.
Qed.

(** ** when no two dropped words are neighbours *)
Lemma thinned_apart w : forall n ws, length ws <= n -> no_neighbours (fun x => eqb x w) ws -> thinned w ws = filter (fun x => negb (eqb x w)) ws.
Proof.
  induction n as [|n IH]; intros ws LE N; destruct ws as [|x ws]; [reflexivity|cbn in LE; lia|reflexivity|]. cbn [thinned filter length] in *.
  destruct (list_eq_dec N.eq_dec x w) as [->|NE].
  - rewrite eqb_refl. cbn [negb]. destruct ws as [|y ws]; [reflexivity|]. cbn in N. destruct N as [N1 N2]. rewrite eqb_refl in N1. cbn in N1. cbn [filter]. rewrite N1. cbn [negb]. f_equal. apply IH; [cbn in LE; lia|].
    destruct ws; [exact Logic.I|]. apply N2.
  - replace (eqb x w) with false by (symmetry; apply neq_eqb, NE). cbn [negb]. f_equal. apply IH; [lia|]. destruct ws; [exact Logic.I|]. apply N.
Qed.
Lemma apart_mono {A} (p q : A -> bool) : (forall x, q x = true -> p x = true) -> forall l, no_neighbours p l -> no_neighbours q l.
Proof.
  intros M. induction l as [|x [|y l] IH]; intros N; [exact Logic.I|exact Logic.I|]. cbn in N |- *. destruct N as [N1 N2]. split; [|apply IH, N2].
  destruct (q x) eqn:X; [|reflexivity]. destruct (q y) eqn:Y; [|reflexivity]. rewrite (M _ X), (M _ Y) in N1. discriminate.
Qed.
(** taking away some of the elements of the kind keeps the rest apart *)
Lemma apart_filter {A} (p q : A -> bool) : (forall x, q x = true -> p x = true) -> forall l, no_neighbours p l -> no_neighbours p (filter (fun x => negb (q x)) l).
Proof.
  intros M.
  assert (G : forall n l, length l <= n -> no_neighbours p l -> no_neighbours p (filter (fun x => negb (q x)) l)); [|intros l; apply (G (length l)), le_n].
  induction n as [|n IH]; intros l LE N; destruct l as [|x l]; [exact Logic.I|cbn in LE; lia|exact Logic.I|]. cbn [length] in LE.
  assert (NT : no_neighbours p l) by (destruct l; [exact Logic.I|apply N]). cbn [filter]. destruct (q x) eqn:X; cbn [negb]; [apply IH; [lia|exact NT]|].
  destruct l as [|y l]; [exact Logic.I|]. cbn [filter length] in *. destruct (q y) eqn:Y; cbn [negb].
  - destruct N as [_ N2]. destruct l as [|z l]; [exact Logic.I|]. cbn [filter length] in *. destruct N2 as [N3 N4]. rewrite (M _ Y) in N3. cbn in N3.
    assert (QZ : q z = false) by (apply not_true_is_false; intros Q; apply M in Q; congruence). rewrite QZ. cbn [negb].
    assert (R : no_neighbours p (filter (fun x => negb (q x)) (z :: l))) by (apply IH; [cbn; lia|exact N4]). cbn [filter] in R. rewrite QZ in R. cbn [negb] in R.
    split; [|exact R]. rewrite N3. apply andb_false_r.
  - destruct N as [N1 N2]. assert (R : no_neighbours p (filter (fun x => negb (q x)) (y :: l))) by (apply IH; [cbn; lia|exact N2]). cbn [filter] in R. rewrite Y in R. cbn [negb] in R. split; [exact N1|exact R].
Qed.
Lemma drops_apart (drop : list str) : forall ws, no_neighbours (fun x => mem x drop) ws -> fold_left (fun ws w => thinned w ws) drop ws = filter (fun x => negb (mem x drop)) ws.
Proof.
  assert (G : forall todo ws, (forall x, In x todo -> In x drop) -> no_neighbours (fun x => mem x drop) ws -> fold_left (fun ws w => thinned w ws) todo ws = filter (fun x => negb (mem x todo)) ws).
  { induction todo as [|w todo IH]; intros ws SUB N; cbn [fold_left].
    - unfold mem. cbn. clear. induction ws; cbn; congruence.
    - assert (WD : forall x : str, eqb x w = true -> mem x drop = true) by (intros x E; apply eqb_eq in E; subst; apply mem_In, SUB; left; reflexivity).
      rewrite (thinned_apart w (length ws)); [|apply le_n|exact (apart_mono _ _ WD _ N)].
      rewrite IH; [|intros x I; apply SUB; right; exact I|apply (apart_filter _ _ WD), N].
      clear. induction ws as [|x ws IH]; [reflexivity|]. cbn [filter]. unfold mem at 2. cbn [existsb]. destruct (eqb x w); cbn [negb orb filter]; [exact IH|]. fold (mem x todo). destruct (mem x todo); cbn [negb]; [exact IH|f_equal; exact IH]. }
  intros ws N. apply G; auto.
Qed.

(** ** spaces *)
Section Spaces.
Variable iss : char -> bool.
Lemma squeeze_run w s : forallb iss w = true -> squeeze iss true (w ++ s) = squeeze iss true s.
Proof using. induction w as [|c w IH]; intros F; [reflexivity|]. cbn in F |- *. apply andb_true_iff in F. destruct F as [-> F]. exact (IH F). Qed.
Lemma squeeze_head b s : match s with [] => True | c :: _ => iss c = false end -> squeeze iss b s = squeeze iss false s.
Proof using. destruct s as [|c s]; [reflexivity|]. intros E. cbn. rewrite E. reflexivity. Qed.
Lemma spaced_squeeze s t : spaced iss s t -> t = squeeze iss false s.
Proof using.
  induction 1 as [|c s t E _ IH|w s t NE F HD _ IH].
  - reflexivity.
  - cbn. rewrite E, IH. reflexivity.
  - destruct w as [|c w]; [congruence|]. cbn in F |- *. apply andb_true_iff in F. destruct F as [-> F]. rewrite squeeze_run by exact F. rewrite squeeze_head by exact HD. congruence.
Qed.
Lemma run_split s : exists w r, s = w ++ r /\ forallb iss w = true /\ match r with [] => True | c :: _ => iss c = false end.
Proof using.
  induction s as [|c s (w & r & -> & F & H)]; [exists [], []; cbn; auto|]. destruct (iss c) eqn:E.
  - exists (c :: w), r. cbn. rewrite E. auto.
  - exists [], (c :: w ++ r). cbn. auto.
Qed.
Lemma squeeze_spaced s : spaced iss s (squeeze iss false s).
Proof using.
  assert (G : forall n s, length s <= n -> spaced iss s (squeeze iss false s)); [|apply (G (length s)), le_n].
  induction n as [|n IH]; intros s' LE; destruct s' as [|c s']; [constructor|cbn in LE; lia|constructor|]. cbn [length] in LE. destruct (iss c) eqn:E.
  - destruct (run_split s') as (w & r & -> & F & HD). cbn. rewrite E. rewrite squeeze_run by exact F. rewrite (squeeze_head true) by exact HD.
    change (c :: w ++ r) with ((c :: w) ++ r). constructor; [discriminate|cbn; rewrite E; exact F|exact HD|]. apply IH. rewrite app_length in LE. lia.
  - cbn. rewrite E. constructor; [exact E|]. apply IH. lia.
Qed.
Lemma spaced_kept s t : spaced iss s t -> iss sp = true -> filter (fun c => negb (iss c)) t = filter (fun c => negb (iss c)) s.
Proof using.
  intros X IS. induction X as [|c s t E _ IH|w s t NE F HD _ IH]; [reflexivity| |].
  - cbn. rewrite E. cbn. rewrite IH. reflexivity.
  - rewrite filter_app. cbn. rewrite IS. cbn. rewrite IH. replace (filter (fun c => negb (iss c)) w) with (@nil char); [reflexivity|].
    symmetry. clear -F. induction w as [|c w IH]; [reflexivity|]. cbn in F |- *. apply andb_true_iff in F. destruct F as [-> F]. exact (IH F).
Qed.
Lemma spaced_apart s t : spaced iss s t -> iss sp = true -> no_neighbours iss t /\ (forall c, In c t -> iss c = true -> c = sp).
Proof using.
  intros X IS. induction X as [|c s t E X IH|w s t NE F HD X IH].
  - split; [exact Logic.I|intros c []].
  - destruct IH as [A B]. split.
    + destruct t; [exact Logic.I|]. split; [rewrite E; reflexivity|exact A].
    + intros d [<-|I] J; [congruence|]. auto.
  - destruct IH as [A B]. split.
    + destruct t as [|d t]; [exact Logic.I|]. split; [|exact A]. inversion X as [|? ? ? E0|w' ? ? NE' F']; subst.
      * rewrite E0. apply andb_false_r.
      * exfalso. destruct w' as [|e w']; [congruence|]. cbn in F', HD. rewrite HD in F'. discriminate.
    + intros d [<-|I] J; [reflexivity|auto].
Qed.
End Spaces.

(** ** splitting commutes with keeping the spaces *)
Lemma split_filter (f : char -> bool) : f sp = true -> forall s, split_char sp (filter f s) = map (filter f) (split_char sp s).
Proof.
  intros K. induction s as [|c s IH]; [reflexivity|]. cbn [filter split_char]. destruct (eqb_spec c sp) as [->|N].
  - rewrite K. cbn [split_char]. rewrite eqb_refl, IH. reflexivity.
  - destruct (f c) eqn:E.
    + cbn [split_char]. rewrite (neq_eqb N), IH. destruct (split_char sp s); cbn; rewrite E; reflexivity.
    + rewrite IH. destruct (split_char sp s) as [|v l] eqn:Q; [|cbn; rewrite E; reflexivity]. exfalso. destruct s as [|d s]; [discriminate|]. cbn in Q. destruct (eqb d sp); [discriminate|]. destruct (split_char sp s); discriminate.
Qed.
Lemma split_words s : join [sp] (split_char sp s) = s /\ (forall w, In w (split_char sp s) -> ~ In sp w) /\ split_char sp s <> [].
Proof.
  induction s as [|c s (A & B & C)]; [cbn; split; [reflexivity|split; [intros w [<-|[]] []|discriminate]]|]. cbn [split_char]. destruct (eqb_spec c sp) as [->|N].
  - split; [|split; [intros w [<-|I]; [intros []|auto]|discriminate]]. destruct (split_char sp s) as [|v l]; [congruence|]. cbn [join app] in *. rewrite A. reflexivity.
  - destruct (split_char sp s) as [|v l]; [congruence|]. split; [|split; [|discriminate]].
    + destruct l; cbn [join app] in *; rewrite <- A; reflexivity.
    + intros w [<-|I]; [intros [X|X]; [congruence|apply (B v); [left; reflexivity|exact X]]|apply B; right; exact I].
Qed.
Lemma split_drop drop s : Forall (fun x => ~ In sp x) drop -> drop_words drop s = join [sp] (fold_left (fun ws w => thinned w ws) drop (split_char sp s)).
Proof. intros FD. destruct (split_words s) as (A & B & C). rewrite <- A at 1. apply drop_words_spec; [exact C|exact FD|]. apply Forall_forall, B. Qed.
