(** The citation pattern reads a string from left to right, without going back. *)
From Coq Require Import String.
From Verif Require Import Base PyStr PyInt Span Regex RegexFacts CsvProofs DecFacts CitationModel CitationSpec.
Set Implicit Arguments.

Definition with_cap (n : nat) (v : option str) (c : caps) : caps := match v with Some a => set_cap n a c | None => c end.
Definition sep_cap (n : nat) (s : str) (c : caps) : caps := if starts_with $", " s then set_cap n $", " c else c.

Section Stages.
Context {X : Type}.
Notation Takes := (@Takes X).
Notation Fails := (@Fails X).
Lemma split_with t s : starts_with t s = true -> s = t ++ skipn (length t) s.
Proof. intros H. apply starts_with_spec in H as [r ->]. rewrite skipn_app, skipn_all, Nat.sub_diag. reflexivity. Qed.

Lemma take_author s c : Takes (ropt (RGrp 1 (RCat (RCls (fun x => negb (digit09 x) && not_comma x)) (rplus (RCls not_comma))))) s c
  (snd (read_author s)) (with_cap 1 (fst (read_author s)) c).
Proof.
  assert (F : forall x s, negb (digit09 x) && not_comma x = false -> Fails (RGrp 1 (RCat (RCls (fun x => negb (digit09 x) && not_comma x)) (rplus (RCls not_comma)))) (x :: s) c).
  { intros x t E. apply Fails_grp, Fails_cat, Fails_cls. exact E. }
  assert (G : forall x s, tw not_comma s = [] -> Fails (RGrp 1 (RCat (RCls (fun x => negb (digit09 x) && not_comma x)) (rplus (RCls not_comma)))) (x :: s) c).
  { intros x t E. apply Fails_grp. intros k. cbn [rmatch]. destruct (negb (digit09 x) && not_comma x); [|reflexivity].
    apply Fails_plus. exact E. }
  unfold read_author. destruct s as [|x [|y s]].
  - apply Skips_opt. intros k. reflexivity.
  - apply Skips_opt. apply G. reflexivity.
  - change (is_09 x) with (digit09 x). change (is_comma x) with (x =? comma)%N. change (is_comma y) with (y =? comma)%N.
    destruct (digit09 x) eqn:D; [apply Skips_opt, F; rewrite D; reflexivity|].
    destruct (x =? comma)%N eqn:Cx; [apply Skips_opt, F; unfold not_comma; rewrite Cx; apply andb_false_r|].
    destruct (y =? comma)%N eqn:Cy; [apply Skips_opt, G; cbn [tw]; unfold not_comma; rewrite Cy; reflexivity|].
    cbn [orb fst snd with_cap].
    apply Takes_opt.
    + unfold from_comma. change (fun x => negb (is_comma x)) with not_comma. cbn [dw]. unfold not_comma at 1 2. rewrite Cx, Cy. cbn [negb].
      rewrite (tw_dw not_comma s) at 2. cbn [length]. rewrite app_length. lia.
    + apply Takes_grp; [apply tw_dw|]. eapply Takes_cat.
      * apply Takes_cls. unfold not_comma. rewrite D, Cx. reflexivity.
      * unfold from_comma. change (fun x => negb (is_comma x)) with not_comma.
        replace (dw not_comma (x :: y :: s)) with (dw not_comma (y :: s)) by (cbn [dw]; unfold not_comma at 3; rewrite Cx; reflexivity).
        apply Takes_plus. cbn [tw]. unfold not_comma at 1. rewrite Cy. discriminate.
Qed.
Lemma take_sep n s c : Takes (ropt (RGrp n (rtext $", "))) s c (skip_separator s) (sep_cap n s c).
Proof.
  unfold skip_separator, sep_cap. destruct (starts_with $", " s) eqn:E.
  - apply split_with in E. change (length $", ") with 2 in E. apply Takes_opt.
    + rewrite E at 2. rewrite app_length. cbn [length]. change (length $", ") with 2. lia.
    + apply Takes_grp; [exact E|]. rewrite E at 1. apply Takes_text.
  - apply Skips_opt, Fails_grp, Fails_text, E.
Qed.
Lemma take_year s c : Takes (ropt (RGrp 3 (RCat (ropt (rchar 45%N)) (RRep true 1 (Some 5) (RCls digit09))))) s c
  (snd (read_year s)) (with_cap 3 (fst (read_year s)) c).
Proof.
  unfold read_year. change is_09 with digit09.
  assert (T : forall s, (match s with x :: _ => (x =? 45)%N | [] => false end) = false ->
    Takes (ropt (RGrp 3 (RCat (ropt (rchar 45%N)) (RRep true 1 (Some 5) (RCls digit09))))) s c
      (snd (match twn 5 digit09 s with [] => (None, s) | ds => (Some ds, dwn 5 digit09 s) end))
      (with_cap 3 (fst (match twn 5 digit09 s with [] => (None, s) | ds => (Some ds, dwn 5 digit09 s) end)) c)).
  { intros t H. assert (FM : Fails (rchar 45%N) t c).
    { apply Fails_cls. destruct t as [|x t]; [exact Logic.I|]. rewrite N.eqb_sym. exact H. }
    pose proof (@twn_dwn char digit09 5 t) as SP. destruct (twn 5 digit09 t) as [|d ds] eqn:E.
    - apply Skips_opt, Fails_grp. intros k. cbn [rmatch]. 
      assert (FR : Fails (RRep true 1 (Some 5) (RCls digit09)) t c) by (apply Fails_some; exact E).
      unfold ropt. cbn [rmatch rep]. rewrite (FM _). cbn [orelse Nat.eqb]. apply FR.
    - cbn [fst snd with_cap]. apply Takes_opt.
      + rewrite SP at 2. rewrite app_length. cbn [length]. lia.
      + apply Takes_grp; [exact SP|]. eapply Takes_cat; [apply Skips_opt, FM|]. apply Takes_some. rewrite E. discriminate. }
  destruct s as [|x s]; [apply (T []); reflexivity|].
  destruct (N.eqb_spec x 45) as [->|N]; [|apply (T (x :: s)); apply N.eqb_neq; exact N].
  pose proof (@twn_dwn char digit09 5 s) as SP. destruct (twn 5 digit09 s) as [|d ds] eqn:E.
  - apply Skips_opt, Fails_grp. intros k.
    assert (FR : Fails (RRep true 1 (Some 5) (RCls digit09)) s c) by (apply Fails_some; exact E).
    assert (FR' : Fails (RRep true 1 (Some 5) (RCls digit09)) (45%N :: s) c) by (apply Fails_some; reflexivity).
    cbn [fst snd with_cap]. rewrite rmatch_cat. unfold rchar. rewrite opt_cls. cbn [N.eqb Pos.eqb]. rewrite (FR k). exact (FR' k).
  - cbn [fst snd with_cap]. apply Takes_opt.
    + rewrite SP at 2. cbn [length]. rewrite app_length. cbn [length]. lia.
    + apply Takes_grp; [cbn [app]; f_equal; exact SP|]. eapply Takes_cat.
      * apply Takes_opt; [|apply Takes_cls; reflexivity]. cbn [length]. lia.
      * apply Takes_some. rewrite E. discriminate.
Qed.
Lemma take_journal s c : Takes (ropt (RGrp 5 (rplus (RCls not_comma)))) s c (snd (read_journal s)) (with_cap 5 (fst (read_journal s)) c).
Proof.
  unfold read_journal, up_to_comma, from_comma. change (fun x => negb (is_comma x)) with not_comma.
  pose proof (tw_dw not_comma s) as SP. destruct (tw not_comma s) as [|x t] eqn:E.
  - apply Skips_opt, Fails_grp, Fails_plus, E.
  - cbn [fst snd with_cap]. apply Takes_opt.
    + rewrite SP at 2. rewrite app_length. cbn [length]. lia.
    + apply Takes_grp; [exact SP|]. apply Takes_plus. rewrite E. discriminate.
Qed.
Definition marked_cap (n m : nat) (v : option str) (c : caps) : caps :=
  match v with Some a => set_cap n ($", " ++ a)%list (set_cap m a c) | None => c end.
Lemma take_marked n m x s c : Takes (ropt (RGrp n (RCat (rtext $", ") (RGrp m (RCat (rtext [x]) (rplus (RCls not_comma))))))) s c
  (snd (read_marked x s)) (marked_cap n m (fst (read_marked x s)) c).
Proof.
  unfold read_marked, up_to_comma, from_comma. change (fun x => negb (is_comma x)) with not_comma.
  destruct (starts_with ($", " ++ [x]) s) eqn:E.
  - apply split_with in E. change (length ($", " ++ [x])) with 3 in E.
    pose proof (tw_dw not_comma (skipn 3 s)) as SP. destruct (tw not_comma (skipn 3 s)) as [|y t] eqn:T.
    + apply Skips_opt, Fails_grp. rewrite E, <- app_assoc. apply Fails_text_then, Fails_grp, Fails_text_then, Fails_plus, T.
    + cbn [fst snd marked_cap]. apply Takes_opt.
      * rewrite E at 2. rewrite SP at 2. rewrite !app_length. cbn [length]. lia.
      * apply Takes_grp; [rewrite E at 1; rewrite SP at 1; rewrite <- !app_assoc; reflexivity|].
        rewrite E at 1. rewrite <- app_assoc. eapply Takes_cat; [apply Takes_text|].
        apply Takes_grp; [rewrite SP at 1; reflexivity|]. eapply Takes_cat; [apply Takes_text|]. apply Takes_plus. rewrite T. discriminate.
  - apply Skips_opt, Fails_grp. destruct (starts_with $", " s) eqn:E2; [|apply Fails_cat, Fails_text, E2].
    apply split_with in E2. change (length $", ") with 2 in E2. rewrite E2. apply Fails_text_then, Fails_grp, Fails_cat, Fails_text.
    destruct (starts_with [x] (skipn 2 s)) eqn:E3; [|reflexivity]. exfalso.
    apply starts_with_spec in E3 as [r E3]. assert (starts_with ($", " ++ [x]) s = true); [|congruence].
    apply starts_with_spec. exists r. rewrite E2, E3, <- app_assoc. reflexivity.
Qed.
Lemma not_nl : (fun x => negb (x =? nl)%N) = (fun x => negb (x =? 10)%N).
Proof. reflexivity. Qed.
Definition end_rx : rx := RGrp 10 (ROr REol
           (ROr (RCat (rtext $", DOI ") (RGrp 11 (rplus rdot)))
                (RGrp 12 (RCat (RGrp 13 (rplus_lazy rdot)) (ropt (RGrp 14 (RCat (rtext $", DOI ") (RGrp 15 (rplus rdot))))))))).
(** a DOI can be read, or not *)
Lemma take_doi n s c : match read_doi s with
  | Some d => exists r, s = $", DOI " ++ d ++ r /\ d <> [] /\ Takes (RCat (rtext $", DOI ") (RGrp n (rplus rdot))) s c r (set_cap n d c)
  | None => Fails (RCat (rtext $", DOI ") (RGrp n (rplus rdot))) s c
  end.
Proof.
  unfold read_doi. destruct (starts_with $", DOI " s) eqn:E; [|apply Fails_cat, Fails_text, E].
  apply split_with in E. change (length $", DOI ") with 6 in E. change rdot with (RCls (fun x => negb (x =? 10)%N)). set (p := fun x => negb (x =? 10)%N).
  pose proof (tw_dw p (skipn 6 s)) as SP. destruct (tw p (skipn 6 s)) as [|x t] eqn:T.
  - rewrite E. apply Fails_text_then, Fails_grp, Fails_plus, T.
  - exists (dw p (skipn 6 s)). split; [rewrite E at 1; f_equal; exact SP|]. split; [discriminate|].
    rewrite E at 1. eapply Takes_cat; [apply Takes_text|]. apply Takes_grp; [exact SP|]. apply Takes_plus. intros B. discriminate (eq_trans (eq_sym T) B).
Qed.
(** what is left starts with a comma, if there is anything *)
Definition at_comma (s : str) : Prop := match s with [] => True | x :: _ => x = comma end.
Lemma take_end s c : at_comma s -> exists r c', Takes end_rx s c r c' /\
  (forall n, n < 10 -> c' n = c n) /\
  (forall d m, read_end s = (d, m) -> c 11 = None -> c 12 = None -> c 15 = None -> c' 12 = m /\ match m with Some _ => c' 15 | None => c' 11 end = d).
Proof.
  intros AC. unfold end_rx, read_end. destruct s as [|x t].
  - exists [], (set_cap 10 [] c). split; [|split].
    + apply (@Takes_grp X 10 _ [] c [] [] c); [reflexivity|]. apply Takes_or_l, Takes_eol.
    + intros n L. unfold set_cap. destruct (Nat.eqb_spec n 10); [lia|reflexivity].
    + intros d m E A B C. injection E as <- <-. cbn. auto.
  - cbn [at_comma] in AC. subst x. assert (FE : Fails REol (comma :: t) c) by (apply Fails_eol; discriminate).
    pose proof (take_doi 11 (comma :: t) c) as D. destruct (read_doi (comma :: t)) as [d|] eqn:RD.
    + destruct D as [r [S [NE T]]]. eexists r, _. split; [|split].
      * eapply Takes_grp; [rewrite S, app_assoc; reflexivity|]. apply Takes_or_r; [exact FE|]. apply Takes_or_l. exact T.
      * intros n L. unfold set_cap. destruct (Nat.eqb_spec n 10); [lia|]. destruct (Nat.eqb_spec n 11); [lia|reflexivity].
      * intros d' m E A B C. injection E as <- <-. cbn. auto.
    + pose proof (take_doi 15 t (set_cap 13 [comma] c)) as D2. destruct (read_doi t) as [d|] eqn:RD2.
      * destruct D2 as [r [S [NE T]]]. eexists r, _. split; [|split].
        -- eapply Takes_grp; [rewrite S; change (comma :: $", DOI " ++ d ++ r) with (([comma] ++ $", DOI ") ++ d ++ r); rewrite app_assoc; reflexivity|].
           apply Takes_or_r; [exact FE|]. apply Takes_or_r; [exact D|].
           eapply Takes_grp; [rewrite S; change (comma :: $", DOI " ++ d ++ r) with (([comma] ++ $", DOI ") ++ d ++ r); rewrite app_assoc; reflexivity|].
           eapply Takes_cat; [apply Takes_grp with (a := [comma]); [reflexivity|]; apply Takes_lazy; reflexivity|].
           apply Takes_opt; [|eapply Takes_grp; [rewrite S, app_assoc; reflexivity|exact T]].
           rewrite S, !app_length. change (length $", DOI ") with 6. lia.
        -- intros n L. unfold set_cap. repeat match goal with |- context [Nat.eqb n ?m] => destruct (Nat.eqb_spec n m); [lia|] end. reflexivity.
        -- intros d' m E A B C. injection E as <- <-. cbn. auto.
      * exists t. eexists. split; [|split].
        -- apply Takes_grp with (a := [comma]); [reflexivity|]. apply Takes_or_r; [exact FE|]. apply Takes_or_r; [exact D|].
           apply Takes_grp with (a := [comma]); [reflexivity|].
           eapply Takes_cat; [apply Takes_grp with (a := [comma]); [reflexivity|]; apply Takes_lazy; reflexivity|].
           apply Skips_opt, Fails_grp, D2.
        -- intros n L. unfold set_cap. repeat match goal with |- context [Nat.eqb n ?m] => destruct (Nat.eqb_spec n m); [lia|] end. reflexivity.
        -- intros d' m E A B C. injection E as <- <-. cbn. auto.
Qed.
End Stages.

Lemma at_comma_dw s : at_comma (from_comma s).
Proof.
  unfold from_comma, at_comma. pose proof (dw_head (fun x => negb (is_comma x)) s) as H. destruct (dw _ s); [exact H|].
  apply negb_false_iff in H. apply N.eqb_eq in H. exact H.
Qed.
Lemma read_journal_comma s : at_comma (snd (read_journal s)).
Proof.
  unfold read_journal. destruct (up_to_comma s) eqn:E; [|apply at_comma_dw]. cbn [snd].
  pose proof (at_comma_dw s) as H. replace s with (from_comma s); [exact H|].
  rewrite (tw_dw (fun x => negb (is_comma x)) s) at 2. unfold up_to_comma in E. rewrite E. reflexivity.
Qed.
Lemma read_marked_comma m s : at_comma s -> at_comma (snd (read_marked m s)).
Proof.
  intros H. unfold read_marked. destruct (starts_with _ s); [|exact H]. destruct (up_to_comma _); [exact H|]. apply at_comma_dw.
Qed.
Lemma p_left_comma s : at_comma (p_left (read s)).
Proof.
  unfold read. destruct (read_author s) as [a s1]. destruct (read_year _) as [y s2].
  destruct (read_journal (skip_separator s2)) as [j s3] eqn:J. destruct (read_marked 86%N s3) as [v s4] eqn:V. destruct (read_marked 80%N s4) as [p s5] eqn:P.
  cbn [p_left]. change s5 with (snd (p, s5)). rewrite <- P. apply read_marked_comma. change s4 with (snd (v, s4)). rewrite <- V. apply read_marked_comma.
  change s3 with (snd (j, s3)). rewrite <- J. apply read_journal_comma.
Qed.

(** the groups of the pattern *)
Theorem regex_reads s : exists g, re_match wos_cite_regex s = Some g /\
  g 1 = p_author (read s) /\ g 3 = p_year (read s) /\ g 5 = p_journal (read s) /\ g 7 = p_volume (read s) /\ g 9 = p_page (read s) /\
  g 12 = snd (read_end (p_left (read s))) /\
  match snd (read_end (p_left (read s))) with Some _ => g 15 | None => g 11 end = fst (read_end (p_left (read s))).
Proof.
  pose proof (p_left_comma s) as LC. unfold read in *.
  pose proof (@take_author caps s no_caps) as T1.
  destruct (read_author s) as [a s1]. cbn [fst snd] in T1. set (c1 := with_cap 1 a no_caps) in *.
  pose proof (@take_sep caps 2 s1 c1) as T2. set (c2 := sep_cap 2 s1 c1) in *.
  pose proof (@take_year caps (skip_separator s1) c2) as T3. destruct (read_year (skip_separator s1)) as [y s2]. cbn [fst snd] in T3. set (c3 := with_cap 3 y c2) in *.
  pose proof (@take_sep caps 4 s2 c3) as T4. set (c4 := sep_cap 4 s2 c3) in *.
  pose proof (@take_journal caps (skip_separator s2) c4) as T5. destruct (read_journal (skip_separator s2)) as [j s3]. cbn [fst snd] in T5. set (c5 := with_cap 5 j c4) in *.
  pose proof (@take_marked caps 6 7 86%N s3 c5) as T6. destruct (read_marked 86%N s3) as [v s4]. cbn [fst snd] in T6. set (c6 := marked_cap 6 7 v c5) in *.
  pose proof (@take_marked caps 8 9 80%N s4 c6) as T7. destruct (read_marked 80%N s4) as [p s5]. cbn [fst snd] in T7. set (c7 := marked_cap 8 9 p c6) in *.
  cbn [p_left p_author p_year p_journal p_volume p_page] in *.
  destruct (@take_end caps s5 c7 LC) as [r [c8 [T8 [LOW HIGH]]]].
  assert (OUT : forall n, 9 < n -> c7 n = None).
  { intros n L. unfold c7, c6, c5, c4, c3, c2, c1, marked_cap, with_cap, sep_cap, set_cap, no_caps.
    destruct a, y, j, v, p, (starts_with $", " s1), (starts_with $", " s2);
    repeat match goal with |- context [Nat.eqb n ?m] => destruct (Nat.eqb_spec n m); [lia|] end; reflexivity. }
  exists c8. split.
  - unfold re_match. assert (T : @Takes caps wos_cite_regex s no_caps r c8).
    { unfold wos_cite_regex. cbn [rseq]. fold end_rx.
      repeat (eapply Takes_cat; [eassumption|]). exact T8. }
    apply (T (fun _ c => Some c)). reflexivity.
  - destruct (read_end s5) as [d m] eqn:RE. destruct (HIGH d m eq_refl) as [M D]; [apply OUT; lia | apply OUT; lia | apply OUT; lia |].
    cbn [fst snd]. rewrite !LOW by lia.
    repeat split; try assumption;
      unfold c7, c6, c5, c4, c3, c2, c1, marked_cap, with_cap, sep_cap, set_cap, no_caps;
      destruct a, y, j, v, p, (starts_with $", " s1), (starts_with $", " s2); reflexivity.
Qed.
(** the year is a number *)
Lemma read_year_number s t : fst (read_year s) = Some t -> py_int t = Some (number t).
Proof.
  unfold read_year.
  assert (D : forall u, Forall is_digit (twn 5 is_09 u)).
  { intros u. eapply Forall_impl; [|apply twn_all]. intros x H. unfold is_09 in H. apply andb_prop in H as [A B].
    apply N.leb_le in A. apply N.leb_le in B. split; assumption. }
  destruct (match s with x :: s' => if (x =? 45)%N then ([x], s') else ([], s) | [] => ([], s) end) as [sign u] eqn:E.
  specialize (D u). destruct (twn 5 is_09 u) as [|d ds] eqn:T; [discriminate|]. cbn [fst]. intros H. injection H as <-.
  assert (sign = [] \/ sign = [45%N]) as [-> | ->].
  { destruct s as [|x s]; [injection E as <- <-; auto|]. destruct (N.eqb_spec x 45) as [->|]; injection E as <- <-; auto. }
  - cbn [app]. rewrite py_int_digits; [|discriminate|exact D]. unfold number. inversion D as [|? ? DD _]; subst.
    destruct (N.eqb_spec d 45) as [->|]; [unfold is_digit in DD; lia|]. reflexivity.
  - cbn [app]. rewrite py_int_minus; [|discriminate|exact D]. reflexivity.
Qed.
Lemma p_year_number s t : p_year (read s) = Some t -> py_int t = Some (number t).
Proof.
  unfold read. destruct (read_author s) as [a s1]. destruct (read_year (skip_separator s1)) as [y s2] eqn:Y.
  destruct (read_journal _) as [j s3]. destruct (read_marked 86%N s3) as [v s4]. destruct (read_marked 80%N s4) as [p s5].
  cbn [p_year]. intros ->. apply (read_year_number (skip_separator s1)). rewrite Y. reflexivity.
Qed.
