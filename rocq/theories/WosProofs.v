From Coq Require Import String Ascii.
From Verif Require Import Base PyStr WosModel.

(** ** one record *)
(** lines of a field and of a record *)
Definition field_lines (e : str * list str) : list str :=
  match snd e with
  | [] => []
  | v :: vs => (fst e ++ [sp] ++ v ++ [nl]) :: map (fun w => $"   " ++ w ++ [nl]) vs
  end.
Definition er_line : str := $"ER" ++ [nl].
Definition rec_lines (d : fields) : list str := concat (map field_lines d) ++ [er_line].

Lemma concat_field_lines e : concat (field_lines e) = write_field e.
Proof.
  destruct e as [t [|v vs]]; [reflexivity|]. unfold field_lines, write_field; cbn [fst snd concat].
  rewrite <- !app_assoc. reflexivity.
Qed.
Lemma concat_rec_lines d : concat (rec_lines d) = write_fields d.
Proof.
  unfold rec_lines, write_fields. rewrite concat_app. f_equal.
  induction d as [|e d IH]; [reflexivity|]. cbn [map concat]. rewrite concat_app, concat_field_lines, IH; reflexivity.
Qed.

Definition clean (s : str) : Prop := ~ In nl s /\ ~ In cr s.
Definition tag_ok (t : str) : Prop := length t = 2 /\ t <> [sp; sp] /\ t <> $"ER" /\ clean t.
Definition field_ok (e : str * list str) : Prop := tag_ok (fst e) /\ snd e <> [] /\ Forall clean (snd e).
Definition fields_ok (d : fields) : Prop := Forall field_ok d /\ NoDup (dkeys d).
(* the first line of the record, as the file loop sees it *)
Definition head_ok (d : fields) : Prop :=
  match concat (map field_lines d) with
  | [] => False
  | l :: _ => isspace l = false /\ starts_with $"EF" l = false
  end.

Lemma fold_dset_NoDup {K V} `{EqDec K} (l : list (K * V)) :
  NoDup (map fst l) -> fold_left (fun d e => dset (fst e) (snd e) d) l [] = l.
Proof.
  assert (G : forall l (d : dict K V), NoDup (dkeys d ++ map fst l) ->
    fold_left (fun d e => dset (fst e) (snd e) d) l d = d ++ l).
  { clear. induction l as [|[k v] l IH]; intros d N; cbn [fold_left]; [rewrite app_nil_r; reflexivity|].
    cbn [map fst snd] in *. assert (E : dset k v d = d ++ [(k, v)]).
    { assert (NI : ~ In k (dkeys d)).
      { apply NoDup_remove_2 in N. intros I; apply N; apply in_or_app; left; exact I. }
      clear - NI. induction d as [|[k' v'] d IH]; [reflexivity|]. cbn [dset app].
      rewrite neq_eqb by (intros ->; apply NI; left; reflexivity). rewrite IH; [reflexivity|].
      intros I; apply NI; right; exact I. }
    rewrite E, IH; [rewrite <- app_assoc; reflexivity|].
    unfold dkeys in *; rewrite map_app, <- app_assoc; exact N. }
  intros N; apply (G l []); exact N.
Qed.
Lemma fold_dset_length {K V} `{EqDec K} (l : list (K * V)) :
  length (fold_left (fun d e => dset (fst e) (snd e) d) l []) = length l -> NoDup (map fst l).
Proof.
  assert (G : forall l (d : dict K V), NoDup (dkeys d) ->
    length (fold_left (fun d e => dset (fst e) (snd e) d) l d) <= length d + length l /\
    (length (fold_left (fun d e => dset (fst e) (snd e) d) l d) = length d + length l -> NoDup (dkeys d ++ map fst l))).
  { clear. induction l as [|[k v] l IH]; intros d N; cbn [fold_left length map fst snd].
    - split; [lia|]. rewrite app_nil_r; auto.
    - destruct (mem k (dkeys d)) eqn:M.
      + apply mem_In in M. assert (L : length (dset k v d) = length d).
        { clear - M. induction d as [|[k' v'] d IH]; [destruct M|]. cbn [dset].
          destruct (eqb_spec k k') as [->|NK]; [reflexivity|]. cbn [length]. rewrite IH; [reflexivity|].
          destruct M as [M|M]; [cbn in M; congruence | assumption]. }
        destruct (IH (dset k v d) (NoDup_dset k v d N)) as [A _]. rewrite L in A. split; lia.
      + apply mem_not_In in M. assert (E : dset k v d = d ++ [(k, v)]).
        { clear - M. induction d as [|[k' v'] d IH]; [reflexivity|]. cbn [dset app].
          rewrite neq_eqb by (intros ->; apply M; left; reflexivity). rewrite IH; [reflexivity|].
          intros I; apply M; right; exact I. }
        destruct (IH (dset k v d) (NoDup_dset k v d N)) as [A B]. rewrite E in A, B |- *. rewrite app_length in A, B; cbn [length] in A, B.
        split; [lia|]. intros Q. unfold dkeys in *. rewrite map_app, <- app_assoc in B. apply B; lia. }
  intros L; apply (G l [] (NoDup_nil _)); exact L.
Qed.

Lemma not_In_app {A} (x : A) l m : ~ In x l -> ~ In x m -> ~ In x (l ++ m).
Proof. intros A1 A2 I; apply in_app_or in I as [I|I]; auto. Qed.

Lemma init_snoc {A} (l : list A) x : init_ (l ++ [x]) = l.
Proof. unfold init_; apply removelast_last. Qed.

Lemma len2 (t : str) : length t = 2 -> exists a b, t = [a; b].
Proof. destruct t as [|a [|b [|c t]]]; cbn; intros; try lia. exists a, b; reflexivity. Qed.

Lemma rparse_tag t v rest tl : tag_ok t ->
  rparse ((t ++ [sp] ++ v ++ [nl]) :: rest) tl = rparse rest ((t, [v]) :: tl).
Proof.
  intros (L & NS & NE & _). destruct (len2 t L) as (a & b & ->).
  cbn [rparse app length nth skipn firstn].
  replace (S (S (S (length (v ++ [nl])))) <? 3) with false by (symmetry; apply Nat.ltb_ge; lia).
  replace (starts_with $"ER" (a :: b :: sp :: v ++ [nl])) with false.
  2:{ cbn. destruct (@eqb_spec char _ 69%N a) as [<-|]; [|reflexivity].
      destruct (@eqb_spec char _ 82%N b) as [<-|]; [|reflexivity]. exfalso; apply NE; reflexivity. }
  rewrite eqb_refl; cbn [negb].
  replace (starts_with [sp; sp; sp] (a :: b :: sp :: v ++ [nl])) with false.
  2:{ cbn. destruct (eqb_spec sp a) as [<-|]; [|reflexivity]. destruct (eqb_spec sp b) as [<-|]; [|reflexivity].
      exfalso; apply NS; reflexivity. }
  rewrite init_snoc. reflexivity.
Qed.
Lemma rparse_cont w rest t vs tl :
  rparse (($"   " ++ w ++ [nl]) :: rest) ((t, vs) :: tl) = rparse rest ((t, vs ++ [w]) :: tl).
Proof.
  change ($"   ") with [sp; sp; sp]. cbn [rparse app length nth skipn firstn].
  replace (S (S (S (length (w ++ [nl])))) <? 3) with false by (symmetry; apply Nat.ltb_ge; lia).
  replace (starts_with $"ER" (sp :: sp :: sp :: w ++ [nl])) with false by reflexivity.
  rewrite eqb_refl; cbn [negb].
  replace (starts_with [sp; sp; sp] (sp :: sp :: sp :: w ++ [nl])) with true by reflexivity.
  rewrite init_snoc; reflexivity.
Qed.
Lemma rparse_conts ws rest t vs tl :
  rparse (map (fun w => $"   " ++ w ++ [nl]) ws ++ rest) ((t, vs) :: tl) = rparse rest ((t, vs ++ ws) :: tl).
Proof.
  revert vs; induction ws as [|w ws IH]; intros vs; cbn [map app]; [rewrite app_nil_r; reflexivity|].
  change (_ :: _ :: _ :: w ++ [nl]) with ($"   " ++ w ++ [nl]). rewrite rparse_cont, IH, <- app_assoc. reflexivity.
Qed.
Lemma rparse_field e rest tl : field_ok e ->
  rparse (field_lines e ++ rest) tl = rparse rest (e :: tl).
Proof.
  destruct e as [t [|v vs]]; intros (T & NE & _); cbn [fst snd] in *; [congruence|].
  unfold field_lines; cbn [fst snd]. rewrite <- app_comm_cons. rewrite (rparse_tag _ _ _ _ T), rparse_conts. reflexivity.
Qed.
Lemma rparse_fields d rest tl : Forall field_ok d ->
  rparse (concat (map field_lines d) ++ rest) tl = rparse rest (rev d ++ tl).
Proof.
  intros F; revert tl; induction F as [|e d E F IH]; intros tl; cbn [map concat rev]; [reflexivity|].
  rewrite <- app_assoc, rparse_field, IH by assumption. rewrite <- app_assoc. reflexivity.
Qed.
Lemma rparse_er rest tl : NoDup (map fst (rev tl)) -> rparse (er_line :: rest) tl = (Ok (rev tl), rest).
Proof.
  intros N. cbn [rparse]. change (length er_line <? 3) with false. change (starts_with $"ER" er_line) with true. cbn iota.
  cbv zeta. rewrite fold_dset_NoDup by assumption. rewrite Nat.eqb_refl; reflexivity.
Qed.
(** writing then reading *)
Lemma rparse_rec_lines d rest : fields_ok d -> rparse (rec_lines d ++ rest) [] = (Ok d, rest).
Proof.
  intros [F N]. unfold rec_lines. rewrite <- app_assoc, rparse_fields by assumption.
  cbn [app]. rewrite app_nil_r, rparse_er; rewrite rev_involutive; [reflexivity | exact N].
Qed.

(** reading then writing *)
Definition lines_of_tl (tl : list (str * list str)) : list str := concat (map field_lines (rev tl)).
Lemma lines_of_tl_cons e tl : lines_of_tl (e :: tl) = lines_of_tl tl ++ field_lines e.
Proof. unfold lines_of_tl; cbn [rev]. rewrite map_app, concat_app; cbn. rewrite app_nil_r; reflexivity. Qed.

Lemma starts_with_firstn p l : starts_with p l = true -> firstn (length p) l = p.
Proof. intros H; apply starts_with_spec in H as (t & ->). rewrite firstn_app, Nat.sub_diag, firstn_all; cbn. apply app_nil_r. Qed.

Lemma rparse_sound ls tl d rest :
  file_lines ls -> (forall l, In l ls -> ~ In cr l) -> Forall field_ok tl ->
  rparse ls tl = (Ok d, rest) ->
  exists body er, ls = body ++ er :: rest /\ starts_with $"ER" er = true /\
    lines_of_tl tl ++ body = concat (map field_lines d) /\ fields_ok d.
Proof.
  revert tl; induction ls as [|l ls IH]; intros tl FL NCR OK H; cbn [rparse] in H; [discriminate|].
  destruct (length l <? 3) eqn:L3; [discriminate|]. apply Nat.ltb_ge in L3.
  destruct (starts_with $"ER" l) eqn:ER.
  - cbv zeta in H. destruct (length _ =? length _) eqn:LE; [|discriminate]. apply Nat.eqb_eq in LE.
    apply fold_dset_length in LE. inversion H; subst; clear H.
    exists [], l. rewrite fold_dset_NoDup by assumption.
    split; [reflexivity|]. split; [assumption|]. split; [rewrite app_nil_r; reflexivity|].
    split; [apply Forall_rev; assumption | assumption].
  - destruct (eqb_spec (nth 2 l nl) sp) as [SP|]; [cbn [negb] in H | discriminate].
    destruct ls as [|x ls].
    { (* the last line: no ER follows *)
      destruct (starts_with [sp; sp; sp] l); [destruct tl as [|[t vs] tl]|]; cbn in H; discriminate. }
    assert (FULL := @file_lines_full _ _ _ FL). destruct FULL as (b & QL & NB).
    assert (CRL : ~ In cr l) by (apply NCR; left; reflexivity).
    assert (exists p v, l = p ++ [sp] ++ v ++ [nl] /\ length p = 2 /\ clean p /\ clean v) as (p & v & Ql & Lp & Cp & Cv).
    { subst l. destruct b as [|b0 [|b1 [|b2 b]]]; cbn in L3, SP; try lia; try discriminate SP.
      subst b2. exists [b0; b1], b. split; [reflexivity|]. split; [reflexivity|]. unfold clean.
      repeat split; intros I.
      - apply NB; cbn in *; tauto.
      - apply CRL; cbn in *; tauto.
      - apply NB; cbn in *; tauto.
      - apply CRL. cbn. rewrite in_app_iff. tauto. }
    destruct (len2 p Lp) as (p0 & p1 & ->).
    assert (QS : init_ (skipn 3 l) = v) by (rewrite Ql; cbn [skipn app]; apply init_snoc).
    assert (QF : firstn 2 l = [p0; p1]) by (rewrite Ql; reflexivity).
    destruct (starts_with [sp; sp; sp] l) eqn:CONT.
    + destruct tl as [|[t vs] tl]; [discriminate|].
      apply Forall_cons_iff in OK as [(T & NE & C) OK']; cbn [fst snd] in *.
      rewrite QS in H. destruct (IH ((t, vs ++ [v]) :: tl)) as (body & er & Q1 & Q2 & Q3 & Q4); try assumption.
      * eapply file_lines_tl; eassumption.
      * intros z I; apply NCR; right; exact I.
      * constructor; [|assumption]. split; [assumption|]. cbn [snd]. split; [|apply Forall_app; auto].
        intros Z; apply app_eq_nil in Z as [_ Z]; discriminate.
      * exists (l :: body), er. rewrite Q1. split; [reflexivity|]. split; [assumption|]. split; [|assumption].
        rewrite <- Q3. rewrite !lines_of_tl_cons, <- !app_assoc. f_equal.
        destruct vs as [|v0 vs]; [congruence|]. unfold field_lines; cbn [fst snd app]. rewrite map_app, <- app_assoc. cbn [map app].
        f_equal. f_equal. f_equal.
        apply starts_with_spec in CONT as (z & Qz). rewrite Ql in Qz; cbn in Qz. inversion Qz; subst p0 p1. rewrite Ql. reflexivity.
    + rewrite QF, QS in H. destruct (IH (([p0; p1], [v]) :: tl)) as (body & er & Q1 & Q2 & Q3 & Q4); try assumption.
      * eapply file_lines_tl; eassumption.
      * intros z I; apply NCR; right; exact I.
      * constructor; [|assumption]. split; [|split; [discriminate | constructor; [assumption|constructor]]]. cbn [fst].
        split; [reflexivity|]. split; [|split; [|assumption]].
        -- intros Z; inversion Z; subst. rewrite Ql in CONT; cbn in CONT. discriminate.
        -- intros Z; inversion Z; subst. rewrite Ql in ER; cbn in ER. discriminate.
      * exists (l :: body), er. rewrite Q1. split; [reflexivity|]. split; [assumption|]. split; [|assumption].
        rewrite <- Q3, lines_of_tl_cons, <- app_assoc. unfold field_lines; cbn [fst snd map app]. rewrite Ql. reflexivity.
Qed.

(** the parser consumes at least a line *)
Lemma rparse_rest ls tl r rest : rparse ls tl = (r, rest) -> exists pre, ls = pre ++ rest /\ (ls <> [] -> pre <> []).
Proof.
  revert tl; induction ls as [|l ls IH]; intros tl H; cbn [rparse] in H.
  - inversion H; subst; exists []; split; [reflexivity | congruence].
  - assert (STOP : rest = ls -> exists pre, l :: ls = pre ++ rest /\ (l :: ls <> [] -> pre <> [])).
    { intros ->; exists [l]; split; [reflexivity | discriminate]. }
    destruct (length l <? 3); [apply STOP; congruence|].
    destruct (starts_with $"ER" l); [apply STOP; congruence|].
    destruct (negb _); [apply STOP; congruence|].
    destruct (starts_with _ l).
    + destruct tl as [|[t vs] tl]; [apply STOP; congruence|].
      apply IH in H as (pre & -> & _). exists (l :: pre); split; [reflexivity | discriminate].
    + apply IH in H as (pre & -> & _). exists (l :: pre); split; [reflexivity | discriminate].
Qed.
Lemma wos_record_rest ls r rest : wos_record ls = (r, rest) -> exists pre, ls = pre ++ rest /\ (ls <> [] -> pre <> []).
Proof.
  unfold wos_record. destruct (rparse ls []) as [[d|e] rest'] eqn:Q; intros H.
  - inversion H; subst. eapply rparse_rest; eassumption.
  - destruct e; inversion H; subst; eapply rparse_rest; eassumption.
Qed.

(** ** the file loop *)
Definition good_rec (r : wrec) : Prop :=
  fields_ok (wfields r) /\ head_ok (wfields r) /\ (exists vs, dget $"UT" (wfields r) = Some (wid r :: vs)) /\
  wbad r = false /\ werr r = None.

Lemma starts_false_app p l m : starts_with p l = false -> length p <= length l -> starts_with p (l ++ m) = false.
Proof.
  revert l; induction p as [|a p IH]; intros [|b l]; cbn; try (intros; try discriminate; lia).
  intros H L. apply andb_false_iff in H as [H|H]; [rewrite H; reflexivity|]. rewrite IH; [apply andb_false_r | assumption | lia].
Qed.

(* a good record the loop accepts is well formed, and its text is in the file *)
Lemma wos_record_good l rest0 r rest :
  file_lines (l :: rest0) -> (forall x, In x (l :: rest0) -> ~ In cr x) ->
  isspace l = false -> starts_with $"EF" l = false ->
  wos_record (l :: rest0) = (Ok r, rest) -> wbad r = false ->
  good_rec r /\ exists er, l :: rest0 = concat (map field_lines (wfields r)) ++ er :: rest /\ starts_with $"ER" er = true.
Proof.
  intros FL NCR SP EF H B. unfold wos_record in H.
  destruct (rparse (l :: rest0) []) as [[d|e] rest'] eqn:Q.
  2:{ destruct e; inversion H; subst; cbn in B; discriminate. }
  inversion H as [[R E]]; subst rest'; clear H.
  unfold rec_of_fields in R. destruct (dget $"UT" d) as [[|u us]|] eqn:UT; inversion R; subst r; [|discriminate].
  destruct (rparse_sound _ _ _ _ FL NCR (Forall_nil _) Q) as (body & er & Q1 & Q2 & Q3 & OK).
  cbn in Q3. cbn [wfields]. rewrite <- Q3. split; [|exists er; auto].
  split; [assumption|]. split.
  - unfold head_ok; cbn [wfields]. rewrite <- Q3. destruct body as [|l' body].
    + exfalso. destruct d as [|e d]; [discriminate|]. destruct OK as [OK _]. inversion OK as [|? ? (T & NE & C) _]; subst.
      destruct e as [t [|v vs]]; cbn in *; [congruence|discriminate].
    + cbn in Q1; inversion Q1; subst. auto.
  - split; [exists us; cbn; assumption | cbn; auto].
Qed.

Definition from_file (ls : list str) (r : wrec) : Prop :=
  exists pre er post, ls = pre ++ concat (map field_lines (wfields r)) ++ er :: post /\ starts_with $"ER" er = true.

Lemma In_radd r x s : In x (radd r s) -> x = r \/ In x s.
Proof. unfold radd; destruct (mem _ _); [auto|]. rewrite in_app_iff; cbn; intuition congruence. Qed.

Lemma skip_to_ER_suffix ls rest : skip_to_ER ls = Some rest -> exists pre, ls = pre ++ rest.
Proof.
  induction ls as [|l ls IH]; cbn; [discriminate|]. destruct (eqb _ _).
  - intros Q; inversion Q; subst; exists [l]; reflexivity.
  - intros Q; apply IH in Q as (pre & ->); exists (l :: pre); reflexivity.
Qed.
Lemma skip_header_suffix ls rest : skip_header ls = Some rest -> exists pre, ls = pre ++ rest.
Proof.
  induction ls as [|l ls IH]; cbn [skip_header]; [discriminate|]. destruct (contains _ _).
  - intros Q; inversion Q; subst; exists [l]; reflexivity.
  - intros Q; apply IH in Q as (pre & ->); exists (l :: pre); reflexivity.
Qed.

Lemma wos_loop_good (all : list str) f ls plst recs err :
  file_lines ls -> (forall x, In x ls -> ~ In cr x) -> (exists pre, all = pre ++ ls) ->
  (forall r, In r plst -> wbad r = false -> good_rec r /\ from_file all r) ->
  wos_loop f ls plst = (recs, err) ->
  forall r, In r recs -> wbad r = false -> good_rec r /\ from_file all r.
Proof.
  revert ls plst; induction f as [|f IH]; intros ls plst FL NCR SUF INV H; cbn [wos_loop] in H.
  - inversion H; subst; assumption.
  - destruct ls as [|l ls]; [inversion H; subst; assumption|].
    destruct SUF as (pre & QA).
    destruct (isspace l) eqn:SP.
    + apply (IH ls plst); [eapply file_lines_tl; eassumption | intros x I; apply NCR; right; exact I | | assumption | assumption].
      exists (pre ++ [l]); rewrite <- app_assoc; assumption.
    + destruct (starts_with $"EF" l) eqn:EF; [inversion H; subst; assumption|].
      destruct (wos_record (l :: ls)) as [[r0|e] rest] eqn:W.
      * assert (SUF2 := wos_record_rest _ _ _ W). destruct SUF2 as (p2 & Q2 & _).
        apply (IH rest (radd r0 plst)); [| | | |assumption].
        -- rewrite Q2 in FL; eapply file_lines_skip; eassumption.
        -- intros x I; apply NCR; rewrite Q2; apply in_or_app; right; exact I.
        -- exists (pre ++ p2). rewrite QA, Q2, app_assoc; reflexivity.
        -- intros x I B. apply In_radd in I as [->|I]; [|apply INV; assumption].
           destruct (wos_record_good _ _ _ _ FL NCR SP EF W B) as (G & er & QE & SE).
           split; [assumption|]. exists pre, er, rest. rewrite QA, QE. auto.
      * destruct e; try (inversion H; subst; assumption).
        assert (SUF2 := wos_record_rest _ _ _ W). destruct SUF2 as (p2 & Q2 & _).
        destruct (skip_to_ER rest) as [rest''|] eqn:SK.
        -- apply skip_to_ER_suffix in SK as (p3 & Q3).
           apply (IH rest'' plst); [| | |assumption|assumption].
           ++ rewrite Q2, Q3, app_assoc in FL. eapply file_lines_skip; eassumption.
           ++ intros x I; apply NCR. rewrite Q2, Q3, !in_app_iff; auto.
           ++ exists (pre ++ p2 ++ p3). rewrite QA, Q2, Q3, !app_assoc; reflexivity.
        -- apply (IH [] plst); [constructor | intros x [] | exists all; rewrite app_nil_r; reflexivity | assumption | assumption].
Qed.

Lemma read_lines_ok c : file_lines (read_lines c) /\ forall l, In l (read_lines c) -> ~ In cr l.
Proof.
  unfold read_lines; split; [apply lines_file_lines|]. intros l I J. apply (translate_no_cr (strip_bom c)).
  eapply In_lines; eassumption.
Qed.

Lemma wos_parse_good c recs err : wos_parse c = (recs, err) ->
  forall r, In r recs -> wbad r = false -> good_rec r /\ from_file (read_lines c) r.
Proof.
  unfold wos_parse. destruct (skip_header (read_lines c)) as [ls|] eqn:SH; intros H.
  - apply skip_header_suffix in SH as (pre & Q). destruct (read_lines_ok c) as [FL NCR].
    eapply (wos_loop_good (read_lines c) _ ls []); [| | |intros r []|exact H].
    + rewrite Q in FL; eapply file_lines_skip; eassumption.
    + intros x I; apply NCR; rewrite Q; apply in_or_app; right; exact I.
    + exists pre; assumption.
  - inversion H; subst; intros r [].
Qed.

(** keys of the result are distinct *)
Lemma radd_NoDup r s : NoDup (map rkey s) -> NoDup (map rkey (radd r s)).
Proof.
  unfold radd; intros N. destruct (mem (rkey r) (map rkey s)) eqn:M; [assumption|].
  apply mem_not_In in M. rewrite map_app; cbn. apply NoDup_Add with (a := rkey r) (l := map rkey s); [|split; assumption].
  rewrite <- (app_nil_r (map rkey s)) at 1. apply Add_app.
Qed.
Lemma wos_loop_NoDup f ls plst recs err : NoDup (map rkey plst) -> wos_loop f ls plst = (recs, err) -> NoDup (map rkey recs).
Proof.
  revert ls plst; induction f as [|f IH]; intros ls plst N H; cbn [wos_loop] in H; [inversion H; subst; assumption|].
  destruct ls as [|l ls]; [inversion H; subst; assumption|].
  destruct (isspace l); [eapply IH; eassumption|].
  destruct (starts_with _ l); [inversion H; subst; assumption|].
  destruct (wos_record (l :: ls)) as [[r0|e] rest]; [eapply IH; [apply radd_NoDup|]; eassumption|].
  destruct e; try (inversion H; subst; assumption).
  destruct (skip_to_ER rest); eapply IH; eassumption.
Qed.
Lemma wos_parse_NoDup c recs err : wos_parse c = (recs, err) -> NoDup (map rkey recs).
Proof.
  unfold wos_parse; destruct (skip_header _); intros H; [eapply wos_loop_NoDup; [|exact H]; constructor|].
  inversion H; constructor.
Qed.

(** the bound on iterations is never reached *)
Lemma wos_loop_fuel f ls plst recs err : length ls < f -> wos_loop f ls plst = (recs, err) -> err <> Some OutOfFuel.
Proof.
  revert ls plst; induction f as [|f IH]; intros ls plst L H; cbn [wos_loop] in H; [lia|].
  destruct ls as [|l ls]; [inversion H; discriminate|]. cbn [length] in L.
  destruct (isspace l); [eapply IH; [|eassumption]; lia|].
  destruct (starts_with _ l); [inversion H; destruct ls; discriminate|].
  destruct (wos_record (l :: ls)) as [[r0|e] rest] eqn:W.
  - destruct (wos_record_rest _ _ _ W) as (pre & Q & NP). eapply IH; [|eassumption].
    assert (pre <> []) by (apply NP; discriminate). apply (f_equal (@length _)) in Q. rewrite app_length in Q; cbn in Q.
    destruct pre; [congruence|cbn in Q; lia].
  - destruct (wos_record_rest _ _ _ W) as (pre & Q & NP).
    assert (pre <> []) by (apply NP; discriminate). apply (f_equal (@length _)) in Q. rewrite app_length in Q; cbn in Q.
    assert (LR : length rest < f) by (destruct pre; [congruence|cbn in Q; lia]).
    destruct e; try (inversion H; subst; discriminate).
    destruct (skip_to_ER rest) as [rest''|] eqn:SK.
    + apply skip_to_ER_suffix in SK as (p3 & Q3). apply (f_equal (@length _)) in Q3. rewrite app_length in Q3.
      eapply IH; [|eassumption]; lia.
    + eapply IH; [|eassumption]; cbn; lia.
Qed.
Lemma wos_fuel c : snd (wos_parse c) <> Some OutOfFuel.
Proof.
  unfold wos_parse. destruct (skip_header _) as [ls|]; [|discriminate].
  destruct (wos_loop (S (length ls)) ls []) as [recs err] eqn:H. apply wos_loop_fuel in H; [assumption|lia].
Qed.

(** ** writing a collection and reading it back *)
Definition body_lines (rs : list wrec) : list str := concat (map (fun r => rec_lines (wfields r) ++ [[nl]]) rs).

Lemma full_tag t v : clean t -> clean v -> full_line (t ++ [sp] ++ v ++ [nl]).
Proof.
  intros [A _] [B _]. exists (t ++ [sp] ++ v). split; [rewrite <- !app_assoc; reflexivity|].
  apply not_In_app; [assumption|]. intros [Q|I]; [discriminate Q|auto].
Qed.
Lemma full_field e : field_ok e -> Forall full_line (field_lines e).
Proof.
  destruct e as [t [|v vs]]; intros ((_ & _ & _ & Ct) & NE & C); cbn [fst snd] in *; [constructor|].
  inversion C as [|? ? Cv Cvs]; subst. unfold field_lines; cbn [fst snd]. constructor; [apply full_tag; assumption|].
  apply Forall_map. eapply Forall_impl; [|exact Cvs]. intros w Cw. change ($"   ") with ([sp; sp] ++ [sp]). rewrite <- app_assoc.
  apply full_tag; [split; cbn; intuition discriminate | assumption].
Qed.
Lemma full_rec d : fields_ok d -> Forall full_line (rec_lines d).
Proof.
  intros [F _]. unfold rec_lines. apply Forall_app; split.
  - apply Forall_concat. apply Forall_map. eapply Forall_impl; [|exact F]. intros e; apply full_field.
  - constructor; [|constructor]. exists ($"ER"); split; [reflexivity | cbn; intuition discriminate].
Qed.
Lemma full_body rs : Forall good_rec rs -> Forall full_line (body_lines rs).
Proof.
  intros G. unfold body_lines. apply Forall_concat, Forall_map. eapply Forall_impl; [|exact G].
  intros r (F & _). apply Forall_app; split; [apply full_rec; assumption|].
  constructor; [|constructor]. exists []; split; [reflexivity | intros []].
Qed.
Lemma write_all_ok rs : Forall good_rec rs -> write_all rs = Ok (concat (body_lines rs)).
Proof.
  induction 1 as [|r rs (F & _ & _ & B & _) G IH]; [reflexivity|].
  cbn [write_all]. unfold write_record. rewrite B; cbn [bind]. rewrite IH; cbn [bind].
  unfold body_lines; cbn [map concat]. rewrite !concat_app, concat_rec_lines. cbn [concat app]. rewrite <- app_assoc. reflexivity.
Qed.
Definition header_lines : list str := [$"FN Thomson Reuters Web of Science" ++ [8482%N; nl]; $"VR 1.0" ++ [nl]].
Lemma write_file_ok rs : rs <> [] -> Forall good_rec rs ->
  write_file [$"WOSRecord"] rs = Ok (bom :: concat (header_lines ++ body_lines rs ++ [$"EF"])).
Proof.
  intros NE G. unfold write_file. destruct rs as [|r rs]; [congruence|]. cbn [length Nat.ltb Nat.leb andb].
  rewrite (write_all_ok _ G); cbn [bind]. rewrite eqb_refl. f_equal.
  rewrite !concat_app. reflexivity.
Qed.
Lemma file_lines_written rs : Forall good_rec rs -> file_lines (header_lines ++ body_lines rs ++ [$"EF"]).
Proof.
  intros G. rewrite app_assoc. apply file_lines_app; [apply Forall_app; split|].
  - constructor; [|constructor; [|constructor]].
    + exists ($"FN Thomson Reuters Web of Science" ++ [8482%N]). split; [reflexivity|]. apply mem_not_In; vm_compute; reflexivity.
    + exists ($"VR 1.0"). split; [reflexivity|]. apply mem_not_In; vm_compute; reflexivity.
  - apply full_body; assumption.
  - constructor. split; [discriminate|]. apply mem_not_In; vm_compute; reflexivity.
Qed.
Lemma clean_field e x : field_ok e -> In x (field_lines e) -> ~ In cr x.
Proof.
  destruct e as [t [|v vs]]; intros ((_ & _ & _ & Ct) & NE & C); cbn [fst snd] in *; [intros []|].
  inversion C as [|? ? Cv Cvs]; subst. unfold field_lines; cbn [fst snd]. intros [<-|I].
  - apply not_In_app; [apply Ct|]. apply not_In_app; [intros [Q|[]]; discriminate Q|].
    apply not_In_app; [apply Cv | intros [Q|[]]; discriminate Q].
  - apply in_map_iff in I as (w & <- & I). rewrite Forall_forall in Cvs. specialize (Cvs w I).
    apply not_In_app; [apply mem_not_In; reflexivity|].
    apply not_In_app; [apply Cvs | intros [Q|[]]; discriminate Q].
Qed.
Lemma cr_free rs : Forall good_rec rs -> ~ In cr (concat (header_lines ++ body_lines rs ++ [$"EF"])).
Proof.
  intros G. rewrite !concat_app. apply not_In_app; [apply mem_not_In; vm_compute; reflexivity|].
  apply not_In_app; [|apply mem_not_In; vm_compute; reflexivity].
  intros I. apply in_concat in I as (l & I & J). unfold body_lines in I. apply in_concat in I as (b & I & K).
  apply in_map_iff in I as (r & <- & I). rewrite Forall_forall in G. destruct (G r I) as ((F & _) & _).
  apply in_app_or in K as [K|[<-|[]]]; [|destruct J as [Q|[]]; discriminate Q].
  unfold rec_lines in K. apply in_app_or in K as [K|[<-|[]]].
  - apply in_concat in K as (fl & K & M). apply in_map_iff in K as (e & <- & K). rewrite Forall_forall in F.
    eapply clean_field; [apply F; exact K | exact M | exact J].
  - revert J. apply mem_not_In; vm_compute; reflexivity.
Qed.
Lemma read_written rs : Forall good_rec rs ->
  read_lines (bom :: concat (header_lines ++ body_lines rs ++ [$"EF"])) = header_lines ++ body_lines rs ++ [$"EF"].
Proof.
  intros G. unfold read_lines, strip_bom. rewrite eqb_refl, translate_id by (apply cr_free; assumption).
  apply lines_of_file_lines, file_lines_written; assumption.
Qed.

(** reading one good record at the front of the lines *)
Lemma wos_record_written r rest : good_rec r -> wos_record (rec_lines (wfields r) ++ rest) = (Ok r, rest).
Proof.
  intros (F & H & (vs & UT) & B & E). unfold wos_record. rewrite rparse_rec_lines by assumption.
  unfold rec_of_fields. rewrite UT. destruct r as [i d b e]; cbn in *. subst. reflexivity.
Qed.
Lemma head_lines r : good_rec r -> exists l ls, rec_lines (wfields r) = l :: ls /\ isspace l = false /\ starts_with $"EF" l = false.
Proof.
  intros (F & H & _). unfold head_ok in H. unfold rec_lines. destruct (concat _) as [|l ls]; [destruct H|].
  exists l, (ls ++ [er_line]). auto.
Qed.
Lemma radd_new r s : ~ In (rkey r) (map rkey s) -> radd r s = s ++ [r].
Proof. unfold radd; intros N; apply mem_not_In in N; rewrite N; reflexivity. Qed.

Lemma loop_written_tail rs t : Forall good_rec rs -> forall f plst,
  length (body_lines rs) + length t < f -> NoDup (map rkey (plst ++ rs)) ->
  exists f', length t < f' /\ wos_loop f (body_lines rs ++ t) plst = wos_loop f' t (plst ++ rs).
Proof.
  induction 1 as [|r rs G GS IH]; intros f plst L N.
  - exists f. rewrite app_nil_r. split; [cbn in L; lia | reflexivity].
  - unfold body_lines in *; cbn [map concat] in *.
    destruct (head_lines r G) as (l & ls & Q & SP & EF).
    assert (NI : ~ In (rkey r) (map rkey plst)).
    { rewrite map_app in N; cbn in N. apply NoDup_remove_2 in N. intros I; apply N; apply in_or_app; left; exact I. }
    rewrite !app_length in L; cbn [length] in L.
    assert (L1 : 1 <= length (rec_lines (wfields r))) by (rewrite Q; cbn; lia).
    set (B := concat (map (fun r0 => rec_lines (wfields r0) ++ [[nl]]) rs)) in *.
    replace (((rec_lines (wfields r) ++ [[nl]]) ++ B) ++ t) with (rec_lines (wfields r) ++ [nl] :: (B ++ t))
      by (rewrite <- !app_assoc; reflexivity).
    assert (W := wos_record_written r ([nl] :: (B ++ t)) G).
    destruct f as [|f]; [lia|].
    rewrite Q in W |- *. cbn [app wos_loop] in W |- *. rewrite SP, EF. rewrite W.
    destruct f as [|f]; [lia|]. cbn [wos_loop]. change (isspace [nl]) with true. cbn iota.
    rewrite radd_new by assumption.
    destruct (IH f (plst ++ [r])) as (f' & L' & E); [lia | rewrite <- app_assoc; assumption|].
    exists f'; split; [assumption|]. rewrite E, <- app_assoc. reflexivity.
Qed.
Lemma loop_written rs : Forall good_rec rs -> forall f plst,
  length (body_lines rs) + 1 < f -> NoDup (map rkey (plst ++ rs)) ->
  wos_loop f (body_lines rs ++ [$"EF"]) plst = (plst ++ rs, None).
Proof.
  intros G f plst L N. destruct (loop_written_tail rs [$"EF"] G f plst L N) as ([|f'] & L' & ->); [lia|]. reflexivity.
Qed.

Lemma roundtrip rs : rs <> [] -> Forall good_rec rs -> NoDup (map rkey rs) ->
  exists txt, write_file [$"WOSRecord"] rs = Ok txt /\ is_wos_file txt = true /\ wos_parse txt = (rs, None).
Proof.
  intros NE G N. eexists; split; [apply write_file_ok; assumption|].
  unfold is_wos_file, wos_parse. rewrite read_written by assumption. split; [reflexivity|].
  change (skip_header (header_lines ++ body_lines rs ++ [$"EF"])) with (Some (body_lines rs ++ [$"EF"])). cbn iota.
  rewrite loop_written with (plst := []); [reflexivity | assumption | rewrite app_length; cbn; lia | assumption].
Qed.

(** ** a file cut short *)
Lemma starts_prefix p q x : length p <= length q -> starts_with p (q ++ x) = starts_with p q.
Proof.
  revert q; induction p as [|a p IH]; intros [|b q] L; cbn in *; try reflexivity; [lia|]. rewrite IH by lia; reflexivity.
Qed.
Lemma nth2_prefix (q x : str) d : 3 <= length q -> nth 2 (q ++ x) d = nth 2 q d.
Proof. intros L; apply app_nth1; lia. Qed.

(* a truncated tail of a record: BadWOSRecord, nothing left *)
Definition tagline (l : str) : Prop :=
  3 <= length l /\ starts_with $"ER" l = false /\ nth 2 l nl = sp /\ starts_with [sp; sp; sp] l = false.
Definition contline (l : str) : Prop :=
  3 <= length l /\ starts_with $"ER" l = false /\ nth 2 l nl = sp /\ starts_with [sp; sp; sp] l = true.
Inductive shape : list str -> Prop :=     (* lines of a record after at least one tag was seen *)
| sh_er : shape [er_line]
| sh_line l ls : tagline l \/ contline l -> shape ls -> shape (l :: ls).

Lemma rparse_line_shape l ls e tl : tagline l \/ contline l -> exists e' tl', rparse (l :: ls) (e :: tl) = rparse ls (e' :: tl').
Proof.
  intros [(L & ER & SP & C)|(L & ER & SP & C)]; cbn [rparse]; apply Nat.ltb_ge in L; rewrite L, ER, SP, C, eqb_refl; cbn [negb].
  - eexists _, _; reflexivity.
  - destruct e as [t vs]; eexists _, _; reflexivity.
Qed.
Lemma rparse_part_shape q x e tl : tagline (q ++ x) \/ contline (q ++ x) -> rparse [q] (e :: tl) = (Raise BadWOSRecord, []).
Proof.
  intros H. cbn [rparse]. destruct (length q <? 3) eqn:L; [reflexivity|]. apply Nat.ltb_ge in L.
  assert (A : starts_with $"ER" q = false /\ nth 2 q nl = sp).
  { destruct H as [(_ & ER & SP & C)|(_ & ER & SP & C)]; rewrite starts_prefix in ER by (cbn; lia); rewrite nth2_prefix in SP by lia; auto. }
  destruct A as [-> ->]. rewrite eqb_refl; cbn [negb]. destruct (starts_with [sp; sp; sp] q); [destruct e|]; reflexivity.
Qed.
Lemma rparse_trunc ls p e tl : shape ls -> Trunc ls p -> rparse p (e :: tl) = (Raise BadWOSRecord, []).
Proof.
  intros S; revert p e tl; induction S as [|l ls LT S IH]; intros p e tl T.
  - inversion T as [|? q x ? Q NQ NX NN|? ? ? T']; subst.
    + reflexivity.
    + cbn [rparse]. assert (length q < 3).
      { apply (f_equal (@length _)) in Q. rewrite app_length in Q; cbn in Q. destruct x; [congruence|cbn in Q; lia]. }
      replace (length q <? 3) with true by (symmetry; apply Nat.ltb_lt; assumption). reflexivity.
    + inversion T'.
  - inversion T as [|? q x ? Q NQ NX NN|? ? ? T']; subst.
    + reflexivity.
    + eapply rparse_part_shape; eassumption.
    + destruct (rparse_line_shape l ps e tl LT) as (e' & tl' & ->). apply IH; assumption.
Qed.

Lemma tagline_ok t v : tag_ok t -> tagline (t ++ [sp] ++ v ++ [nl]).
Proof.
  intros (L & NS & NE & _). destruct (len2 t L) as (a & b & ->). unfold tagline. cbn [app length nth].
  split; [lia|]. split; [|split; [reflexivity|]].
  - cbn. destruct (@eqb_spec char _ 69%N a) as [<-|]; [|reflexivity].
    destruct (@eqb_spec char _ 82%N b) as [<-|]; [|reflexivity]. exfalso; apply NE; reflexivity.
  - cbn. destruct (eqb_spec sp a) as [<-|]; [|reflexivity]. destruct (eqb_spec sp b) as [<-|]; [|reflexivity].
    exfalso; apply NS; reflexivity.
Qed.
Lemma contline_ok w : contline ($"   " ++ w ++ [nl]).
Proof. unfold contline. change ($"   ") with [sp; sp; sp]. cbn [app length nth]. split; [lia|]. split; [reflexivity|]. split; reflexivity. Qed.
Lemma field_shape e ls : field_ok e -> shape ls -> shape (field_lines e ++ ls).
Proof.
  destruct e as [t [|v vs]]; intros (T & NE & C) S; cbn [fst snd] in *; [assumption|].
  unfold field_lines; cbn [fst snd]. rewrite <- app_comm_cons. constructor; [left; apply tagline_ok; assumption|].
  clear - S. induction vs as [|w vs IH]; cbn [map app]; [assumption|].
  change (_ :: _ :: _ :: w ++ [nl]) with ($"   " ++ w ++ [nl]). constructor; [right; apply contline_ok | assumption].
Qed.
Lemma rec_shape d : Forall field_ok d -> shape (rec_lines d).
Proof.
  intros F. unfold rec_lines. induction F as [|e d E F IH]; cbn [map concat]; [constructor|].
  rewrite <- app_assoc. apply field_shape; assumption.
Qed.
(* the first line of a record is a tag line *)
Lemma rec_head_tag d : fields_ok d -> d <> [] -> exists l ls, rec_lines d = l :: ls /\ tagline l /\ shape ls.
Proof.
  intros [F _] NE. destruct d as [|[t [|v vs]] d]; [congruence| |].
  - inversion F as [|? ? (_ & N & _) _]; subst; cbn in N; congruence.
  - inversion F as [|? ? (T & _ & C) F']; subst; cbn [fst snd] in *.
    unfold rec_lines; cbn [map concat]. unfold field_lines at 1; cbn [fst snd]. rewrite <- !app_comm_cons.
    eexists _, _; split; [reflexivity|]. split; [apply tagline_ok; assumption|].
    assert (S := rec_shape _ F'). unfold rec_lines in S. rewrite <- app_assoc.
    clear - S. induction vs as [|w vs IH]; cbn [map app]; [assumption|].
    change (_ :: _ :: _ :: w ++ [nl]) with ($"   " ++ w ++ [nl]). constructor; [right; apply contline_ok | assumption].
Qed.

Lemma wos_record_trunc r l p : good_rec r -> Trunc (rec_lines (wfields r)) (l :: p) ->
  wos_record (l :: p) = (rec_of_fields [], []).
Proof.
  intros (F & H & (vs & UT) & _) T. destruct (rec_head_tag _ F) as (l0 & ls & Q & TL & SH).
  { intros Z; rewrite Z in UT; discriminate. }
  rewrite Q in T. unfold wos_record.
  assert (R : rparse (l :: p) [] = (Raise BadWOSRecord, [])).
  { inversion T as [|? q x ? QX NQ NX NN|? ? ? T']; subst.
    - cbn [rparse]. destruct (length l <? 3) eqn:L; [reflexivity|]. apply Nat.ltb_ge in L.
      destruct TL as (_ & ER & SP & C). rewrite starts_prefix in ER by (cbn; lia). rewrite nth2_prefix in SP by lia.
      rewrite starts_prefix in C by (cbn; lia). rewrite ER, SP, C, eqb_refl. reflexivity.
    - destruct TL as (L & ER & SP & C). cbn [rparse]. apply Nat.ltb_ge in L. rewrite L, ER, SP, C, eqb_refl; cbn [negb].
      eapply rparse_trunc; eassumption. }
  rewrite R. reflexivity.
Qed.

Lemma loop_trunc rs : Forall good_rec rs -> forall f plst p,
  length p < f -> Trunc (body_lines rs ++ [$"EF"]) p -> snd (wos_loop f p plst) <> None.
Proof.
  induction 1 as [|r rs G GS IH]; intros f plst p L T.
  - cbn in T. destruct f as [|f]; [lia|]. inversion T as [|? q x ? Q NQ NX NN|? ? ? T']; subst; [discriminate| |inversion T'].
    assert (q = $"E").
    { destruct q as [|a [|b q]]; [congruence| |].
      - cbn in Q; inversion Q; reflexivity.
      - cbn in Q. inversion Q. destruct q; [|discriminate]. cbn in *; congruence. }
    subst q. destruct f as [|f]; [cbn in L; lia|]. vm_compute. discriminate.
  - unfold body_lines in T; cbn [map concat] in T. rewrite <- !app_assoc in T.
    change (concat (map (fun r0 => rec_lines (wfields r0) ++ [[nl]]) rs)) with (body_lines rs) in T.
    apply Trunc_app in T as [T|(p' & -> & [T|[_ []]])].
    + destruct p as [|l p]; [destruct f; [lia|discriminate]|].
      destruct f as [|f]; [lia|]. cbn [wos_loop]. destruct (isspace l) eqn:SP.
      { (* the cut line is blank: it must be the last one *)
        destruct p as [|l2 p]; [destruct f as [|f]; [cbn in L; lia | discriminate]|].
        destruct (head_lines r G) as (l0 & ls0 & Q & SP0 & EF0). rewrite Q in T. inversion T; subst. congruence. }
      destruct (starts_with $"EF" l) eqn:EF.
      { exfalso. destruct (head_lines r G) as (l0 & ls0 & Q & SP0 & EF0). rewrite Q in T. inversion T; subst; [|congruence].
        apply starts_with_spec in EF as (z & ->). rewrite <- app_assoc in EF0. cbn in EF0. discriminate. }
      rewrite (wos_record_trunc r l p G T). cbn.
      destruct f as [|f]; [cbn in L; lia|]. cbn. discriminate.
    + destruct (head_lines r G) as (l0 & ls0 & Q & SP & EF).
      destruct f as [|f]; [lia|].
      assert (W := wos_record_written r p' G).
      rewrite app_length in L. rewrite Q in W, L |- *. cbn [app wos_loop length] in W, L |- *. rewrite SP, EF, W.
      inversion T as [|? q x ? QX NQ NX NN|? ? p2 T']; subst.
      * destruct f; discriminate.
      * exfalso. destruct q as [|a q]; [congruence|]. destruct x as [|b x]; [congruence|].
        apply (f_equal (@length _)) in QX. cbn in QX. rewrite app_length in QX; cbn in QX; lia.
      * cbn [length] in L. destruct f as [|f]; [lia|]. cbn [wos_loop]. change (isspace [nl]) with true. cbn iota.
        apply IH; [lia|assumption].
Qed.

Lemma cut_file rs txt p x : rs <> [] -> Forall good_rec rs -> write_file [$"WOSRecord"] rs = Ok txt ->
  txt = p ++ x -> x <> [] -> snd (wos_parse p) <> None.
Proof.
  intros NE G W Q NX. rewrite write_file_ok in W by assumption.
  assert (NCR := cr_free rs G). assert (FL := file_lines_written rs G).
  assert (QT : forall T, Ok (bom :: T) = Ok txt -> bom :: T = p ++ x) by (intros T QT; congruence).
  apply QT in W. clear QT Q.
  unfold wos_parse. destruct p as [|c p]; [discriminate|].
  assert (Q1 : c = bom /\ concat (header_lines ++ body_lines rs ++ [$"EF"]) = p ++ x).
  { revert W. generalize (concat (header_lines ++ body_lines rs ++ [$"EF"])). cbn [app]. intros T W; inversion W; auto. }
  destruct Q1 as [-> Q2]. unfold read_lines, strip_bom. rewrite eqb_refl.
  rewrite translate_id by (intros I; apply NCR; rewrite Q2; apply in_or_app; left; exact I).
  assert (T := lines_prefix p FL Q2 NX).
  destruct (skip_header (lines p)) as [ls'|] eqn:SH; [|discriminate].
  assert (E : ls' = [] \/ Trunc (body_lines rs ++ [$"EF"]) ls').
  { clear - T SH. revert T SH. generalize (lines p). intros P T SH.
    unfold header_lines in T. cbn [app] in T.
    inversion T as [l0 l1|l0 q y l1 QQ NQ NY NN|l0 l1 p1 T1]; subst P.
    - discriminate.
    - exfalso. cbn [skip_header] in SH. destruct (contains $"VR 1.0" q) eqn:C; [|discriminate].
      apply contains_spec in C as (a & b & ->).
      assert (X : contains $"VR 1.0" ($"FN Thomson Reuters Web of Science" ++ [8482%N; nl]) = true).
      { apply contains_spec. exists a, (b ++ y). etransitivity; [exact QQ|]. rewrite <- !app_assoc; reflexivity. }
      vm_compute in X; discriminate.
    - change (skip_header p1 = Some ls') in SH.
      inversion T1 as [l2 l3|l2 q y l3 QQ NQ NY NN|l2 l3 p2 T2]; subst p1.
      + discriminate.
      + cbn [skip_header] in SH. destruct (contains $"VR 1.0" q); inversion SH; left; reflexivity.
      + change (Some p2 = Some ls') in SH. inversion SH; subst; right; assumption. }
  destruct E as [->|T2]; [discriminate|]. eapply loop_trunc; [exact G | | exact T2]. lia.
Qed.

(** ** text after EF *)
Lemma translate_app_nl a s : ~ In cr a -> translate (a ++ s) = a ++ translate s.
Proof.
  induction a as [|c a IH]; intros N; [reflexivity|]. cbn [app translate].
  rewrite neq_eqb by (intros ->; apply N; left; reflexivity). rewrite IH; [reflexivity|]. intros I; apply N; right; exact I.
Qed.
Lemma lines_nonempty s : s <> [] -> lines s <> [].
Proof. destruct s as [|c s]; [congruence|]. intros _. cbn [lines]. destruct (eqb c nl); [discriminate|]. destruct (lines s); discriminate. Qed.
Lemma after_EF rs txt extra : rs <> [] -> Forall good_rec rs -> NoDup (map rkey rs) ->
  write_file [$"WOSRecord"] rs = Ok txt -> extra <> [] ->
  wos_parse (txt ++ nl :: extra) = (rs, Some EFNotAtEnd).
Proof.
  intros NE G N W NX. rewrite write_file_ok in W by assumption.
  assert (NCR := cr_free rs G). assert (FL := file_lines_written rs G).
  assert (QT : forall T, Ok (bom :: T) = Ok txt -> bom :: T = txt) by (intros T QT; congruence).
  apply QT in W. clear QT. subst txt.
  unfold wos_parse, read_lines. cbn [app strip_bom]. rewrite eqb_refl.
  change (nl :: extra) with ([nl] ++ extra). rewrite app_assoc, translate_app_nl.
  2:{ apply not_In_app; [assumption | intros [Q|[]]; discriminate Q]. }
  assert (E : lines ((concat (header_lines ++ body_lines rs ++ [$"EF"]) ++ [nl]) ++ translate extra)
    = header_lines ++ body_lines rs ++ ($"EF" ++ [nl]) :: lines (translate extra)).
  { replace (concat (header_lines ++ body_lines rs ++ [$"EF"]) ++ [nl]) with (concat (header_lines ++ body_lines rs ++ [$"EF" ++ [nl]])).
    2:{ rewrite !concat_app; cbn [concat]. rewrite !app_nil_r, <- !app_assoc. reflexivity. }
    rewrite lines_app_full; [rewrite <- !app_assoc; reflexivity|].
    apply Forall_app; split; [|apply Forall_app; split; [apply full_body; assumption|]].
    - constructor; [|constructor; [|constructor]].
      + exists ($"FN Thomson Reuters Web of Science" ++ [8482%N]). split; [reflexivity|]. apply mem_not_In; vm_compute; reflexivity.
      + exists ($"VR 1.0"). split; [reflexivity|]. apply mem_not_In; vm_compute; reflexivity.
    - constructor; [|constructor]. exists ($"EF"); split; [reflexivity|]. apply mem_not_In; vm_compute; reflexivity. }
  rewrite E. clear E. set (t := ($"EF" ++ [nl]) :: lines (translate extra)).
  change (skip_header (header_lines ++ body_lines rs ++ t)) with (Some (body_lines rs ++ t)). cbn iota.
  destruct (loop_written_tail rs t G (S (length (body_lines rs ++ t))) []) as (f' & L' & ->); [rewrite app_length; lia | exact N|].
  destruct f' as [|f']; [lia|]. subst t. cbn [wos_loop].
  change (isspace ($"EF" ++ [nl])) with false. change (starts_with $"EF" ($"EF" ++ [nl])) with true. cbn iota.
  assert (NL : lines (translate extra) <> []).
  { apply lines_nonempty. destruct extra as [|c extra]; [congruence|]. cbn [translate]. destruct (eqb c cr); discriminate. }
  destruct (lines (translate extra)); [congruence|]. reflexivity.
Qed.
Lemma fields_roundtrip d : fields_ok d -> rparse (lines (write_fields d)) [] = (Ok d, []).
Proof.
  intros F. rewrite <- concat_rec_lines.
  rewrite <- (app_nil_r (concat (rec_lines d))), lines_app_full by (apply full_rec; assumption).
  apply rparse_rec_lines; assumption.
Qed.
(** ** a record with a malformed line in the middle of a file *)
Lemma skip_to_ER_app ls er t : Forall (fun s => firstn 2 s <> $"ER") ls -> firstn 2 er = $"ER" ->
  skip_to_ER (ls ++ er :: t) = Some t.
Proof.
  induction 1 as [|l ls N F IH]; intros E; cbn [app skip_to_ER]; [rewrite E, eqb_refl; reflexivity|].
  rewrite neq_eqb by assumption. apply IH; assumption.
Qed.
Lemma malformed_dropped d l ls er t f plst :
  Forall field_ok d -> 3 <= length l -> starts_with $"ER" l = false -> nth 2 l nl <> sp ->
  (forall h m, concat (map field_lines d) ++ [l] = h :: m -> isspace h = false /\ starts_with $"EF" h = false) ->
  Forall (fun s => firstn 2 s <> $"ER") ls -> firstn 2 er = $"ER" ->
  wos_loop (S f) (concat (map field_lines d) ++ l :: ls ++ er :: t) plst = wos_loop f t plst.
Proof.
  intros F L ER SP H NE E.
  assert (R : rparse (concat (map field_lines d) ++ l :: ls ++ er :: t) [] = (Raise BadWOSFile, ls ++ er :: t)).
  { rewrite rparse_fields by assumption. cbn [rparse]. apply Nat.ltb_ge in L. rewrite L, ER, neq_eqb by assumption. reflexivity. }
  assert (exists h m, concat (map field_lines d) ++ [l] = h :: m) as (h & m & Q).
  { destruct (concat (map field_lines d) ++ [l]) as [|h m] eqn:Q; [apply app_eq_nil in Q as [_ Q]; discriminate | exists h, m; reflexivity]. }
  destruct (H h m Q) as [S1 S2].
  replace (concat (map field_lines d) ++ l :: ls ++ er :: t) with (h :: m ++ ls ++ er :: t) in *.
  2:{ rewrite app_comm_cons, <- Q, <- app_assoc. reflexivity. }
  cbn [wos_loop]. rewrite S1, S2. unfold wos_record. rewrite R. rewrite skip_to_ER_app by assumption. reflexivity.
Qed.
