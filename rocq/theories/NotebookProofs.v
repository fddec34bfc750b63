(** Proofs for C81. *)
From Coq Require Import List ZArith Lia Bool Arith.
From Coq Require Import String.
From Verif Require Import Base PyStr Regex CitationModel NotebookModel NotebookSpec.
Import ListNotations.
Local Open Scope list_scope.

Definition plain (c : char) : Prop := (32 <= c /\ c <> 92)%N.
Definition no_nl (s : str) : Prop := ~ In nl s.
Lemma plain_no_nl s : Forall plain s -> no_nl s.
Proof. intros F J. rewrite Forall_forall in F. destruct (F _ J) as [H _]. unfold nl in H. lia. Qed.
Definition unlines (ls : list str) : str := concat (map (fun l => l ++ [nl]) ls).
Lemma unlines_app a b : unlines (a ++ b) = unlines a ++ unlines b.
Proof. unfold unlines. rewrite map_app, concat_app. reflexivity. Qed.
Lemma unlines_one l : unlines [l] = l ++ [nl].
Proof. unfold unlines. cbn. apply app_nil_r. Qed.

(** ** The texts of a cell *)
Fixpoint srcs (ls : list str) : list str :=
  match ls with [] => [[]] | [l] => [l] | l :: ls' => (l ++ [nl]) :: srcs ls' end.
Lemma srcs_cons l m ls : srcs (l :: m :: ls) = (l ++ [nl]) :: srcs (m :: ls).
Proof. reflexivity. Qed.
Lemma concat_srcs ls : concat (srcs ls) = join [nl] ls.
Proof. induction ls as [|l [|m ls] IH]; [reflexivity|cbn; apply app_nil_r|]. rewrite srcs_cons. cbn [concat]. rewrite IH. rewrite <- app_assoc. reflexivity. Qed.
Definition esc (s : str) : str := replace_char quote [92%N; 34%N] s.
Lemma replace_app c t a b : replace_char c t (a ++ b) = replace_char c t a ++ replace_char c t b.
Proof. apply flat_map_app. Qed.
Lemma replace_none c t s : ~ In c s -> replace_char c t s = s.
Proof. induction s as [|x s IH]; intros N; [reflexivity|]. cbn in *. rewrite neq_eqb by (intros ->; apply N; left; reflexivity). cbn. unfold replace_char in IH. rewrite IH by tauto. reflexivity. Qed.
Lemma lstrip_unlines ls : Forall no_nl ls -> lstrip_nl (unlines ls) = unlines (no_blank_first ls).
Proof.
  induction ls as [|l ls IH]; intros F; [reflexivity|]. inversion F as [|? ? H F']; subst. destruct l as [|c l].
  - cbn. apply IH, F'.
  - cbn. rewrite neq_eqb; [reflexivity|]. intros ->. apply H. left. reflexivity.
Qed.
Lemma esc_no_nl l : no_nl l -> no_nl (esc l).
Proof.
  intros H J. unfold esc, replace_char in J. apply in_flat_map in J. destruct J as (x & J & K). destruct (eqb_spec x quote).
  - cbn in K. unfold nl in K. intuition discriminate.
  - cbn in K. destruct K as [->|[]]. contradiction.
Qed.
Lemma replaced_unlines ls : Forall no_nl ls -> replace_char nl between (replace_char quote $"\""" (unlines ls)) = concat (map (fun l => esc l ++ between) ls).
Proof.
  change $"\""" with [92%N; 34%N]. fold (esc (unlines ls)). induction ls as [|l ls IH]; intros F; [reflexivity|]. inversion F as [|? ? H F']; subst. change (unlines (l :: ls)) with ((l ++ [nl]) ++ unlines ls). unfold esc in *. rewrite !replace_app.
  rewrite IH by exact F'. cbn [map concat]. f_equal. rewrite replace_none by (apply esc_no_nl, H). f_equal.
Qed.
Lemma firstn_exact {A} (a b : list A) n : length b = n -> firstn (length (a ++ b) - n) (a ++ b) = a.
Proof. intros <-. rewrite app_length, Nat.add_sub, firstn_app, Nat.sub_diag, firstn_all. cbn. apply app_nil_r. Qed.
Lemma prepared_unlines ls : Forall no_nl ls -> prepared (unlines ls) = join between (map esc (no_blank_first ls)).
Proof.
  intros F. unfold prepared. rewrite lstrip_unlines by exact F. assert (F' : Forall no_nl (no_blank_first ls)).
  { clear - F. induction ls as [|[|c l] ls IH]; [constructor| |exact F]. cbn. apply IH. inversion F; assumption. }
  rewrite replaced_unlines by exact F'. generalize (no_blank_first ls). clear. intros ls. assert (X : forall l ls, concat (map (fun l => esc l ++ between) (l :: ls)) = join between (map esc (l :: ls)) ++ between).
  { clear. intros l ls. revert l. induction ls as [|m ls IH]; intros l; [cbn [map concat join]; apply app_nil_r|]. change (concat (map (fun l0 => esc l0 ++ between) (l :: m :: ls))) with ((esc l ++ between) ++ concat (map (fun l0 => esc l0 ++ between) (m :: ls))).
    rewrite IH. change (join between (map esc (l :: m :: ls))) with (esc l ++ between ++ join between (map esc (m :: ls))). rewrite <- !app_assoc. reflexivity. }
  destruct ls as [|l ls]; [reflexivity|]. rewrite X. apply firstn_exact. reflexivity.
Qed.

(** ** Reading *)
Lemma lex_app T s : forall ts p, fold_left lex_step s (T ++ ts, p) = (T ++ fst (fold_left lex_step s (ts, p)), snd (fold_left lex_step s (ts, p))).
Proof.
  induction s as [|c s IH]; intros ts p; [reflexivity|]. cbn [fold_left].
  assert (E : exists ts' p', lex_step (ts, p) c = (ts', p') /\ lex_step (T ++ ts, p) c = (T ++ ts', p')).
  { unfold lex_step, from_between. rewrite <- ?app_assoc.
    repeat match goal with |- context [match ?x with _ => _ end] => destruct x end; rewrite <- ?app_assoc; eauto. }
  destruct E as (ts' & p' & -> & ->). apply IH.
Qed.
Lemma lex_two T s ts p : fold_left lex_step s ([], Between) = (ts, p) -> fold_left lex_step s (T, Between) = (T ++ ts, p).
Proof. intros E. rewrite <- (app_nil_r T) at 1. rewrite lex_app, E. reflexivity. Qed.
Lemma lex_plain l : Forall plain l -> forall ts t, fold_left lex_step (esc l) (ts, InText t) = (ts, InText (t ++ l)).
Proof.
  induction l as [|c l IH]; intros F ts t; [cbn; rewrite app_nil_r; reflexivity|]. inversion F as [|? ? [H1 H2] F']; subst. change (esc (c :: l)) with ((if eqb c quote then [92%N; 34%N] else [c]) ++ esc l). rewrite fold_left_app.
  replace (fold_left lex_step (if eqb c quote then [92%N; 34%N] else [c]) (ts, InText t)) with (ts, InText (t ++ [c])).
  - rewrite IH by exact F'. rewrite <- app_assoc. reflexivity.
  - destruct (eqb_spec c quote) as [->|N]; [reflexivity|]. cbn [fold_left lex_step]. destruct (N.eqb_spec c 34); [contradiction|]. destruct (N.eqb_spec c 92); [contradiction|]. destruct (N.ltb_spec c 32); [lia|reflexivity].
Qed.
Fixpoint ttoks (xs : list str) : list token := match xs with [] => [] | [x] => [TText x] | x :: xs' => TText x :: TSign 44%N :: ttoks xs' end.
Lemma ttoks_cons x xs : xs <> [] -> ttoks (x :: xs) = TText x :: TSign 44%N :: ttoks xs.
Proof. destruct xs; [congruence|reflexivity]. Qed.
Lemma lex_source ls : Forall (Forall plain) ls -> forall ts, fold_left lex_step (join between (map esc ls) ++ [quote]) (ts, InText []) = (ts ++ ttoks (srcs ls), Between).
Proof.
  induction ls as [|l [|m ls] IH]; intros F ts; [reflexivity| |].
  - cbn [map join]. rewrite fold_left_app, lex_plain by (inversion F; assumption). reflexivity.
  - inversion F as [|? ? H F']; subst. change (join between (map esc (l :: m :: ls))) with (esc l ++ between ++ join between (map esc (m :: ls))). rewrite <- !app_assoc, fold_left_app, lex_plain by exact H. rewrite fold_left_app.
    replace (fold_left lex_step between (ts, InText ([] ++ l))) with (ts ++ [TText (l ++ [nl]); TSign 44%N], InText []) by (cbn; rewrite <- app_assoc; reflexivity).
    rewrite IH by exact F'. rewrite srcs_cons. assert (N : srcs (m :: ls) <> []) by (destruct ls; discriminate). rewrite (ttoks_cons _ _ N), <- app_assoc. reflexivity.
Qed.
Lemma parse_source xs : xs <> [] -> forall vs st w, w = WFirst \/ w = WValue -> fold_left parse_step (ttoks xs ++ [TSign 93%N]) (FList vs :: st, w) = put (JList (vs ++ map JText xs)) st.
Proof.
  induction xs as [|x [|y xs] IH]; intros N vs st w Hw; [congruence|destruct Hw as [-> | ->]; reflexivity|].
  change (ttoks (x :: y :: xs)) with (TText x :: TSign 44%N :: ttoks (y :: xs)). cbn [app fold_left].
  replace (parse_step (parse_step (FList vs :: st, w) (TText x)) (TSign 44%N)) with (FList (vs ++ [JText x]) :: st, WValue) by (destruct Hw as [-> | ->]; reflexivity).
  rewrite IH by (auto; discriminate). rewrite <- app_assoc. reflexivity.
Qed.
Definition md_head : list token := [TSign 123%N; TText $"cell_type"; TSign 58%N; TText $"markdown"; TSign 44%N; TText $"metadata"; TSign 58%N; TSign 123%N; TSign 125%N; TSign 44%N; TText $"source"; TSign 58%N; TSign 91%N].
Definition py_head : list token := [TSign 123%N; TText $"cell_type"; TSign 58%N; TText $"code"; TSign 44%N; TText $"execution_count"; TSign 58%N; TWord $"null"; TSign 44%N;
  TText $"metadata"; TSign 58%N; TSign 123%N; TText $"collapsed"; TSign 58%N; TWord $"false"; TSign 125%N; TSign 44%N; TText $"outputs"; TSign 58%N; TSign 91%N; TSign 93%N; TSign 44%N; TText $"source"; TSign 58%N; TSign 91%N].
Definition is_py (k : kind) : bool := match k with Py => true | Md => false end.
Definition cell_toks (k : kind) (ls : list str) : list token := (match k with Md => md_head | Py => py_head end) ++ (ttoks (srcs (no_blank_first ls)) ++ [TSign 93%N]) ++ [TSign 125%N].
Lemma plain_first ls : Forall (Forall plain) ls -> Forall (Forall plain) (no_blank_first ls).
Proof. induction ls as [|[|c l] ls IH]; intros F; [constructor| |exact F]. cbn. apply IH. inversion F; assumption. Qed.
Definition tail_str : str := $"
   ]
  }".
Lemma lex_cell k ls T : Forall (Forall plain) ls -> fold_left lex_step (write_cell k (unlines ls)) (T, Between) = (T ++ cell_toks k ls, Between).
Proof.
  intros F. apply lex_two. assert (FN : Forall no_nl ls) by (eapply Forall_impl; [apply plain_no_nl|exact F]). assert (G := plain_first _ F).
  assert (X : exists a b, write_cell k (unlines ls) = a ++ (join between (map esc (no_blank_first ls)) ++ [quote]) ++ b
    /\ fold_left lex_step a ([], Between) = ((match k with Md => md_head | Py => py_head end), InText []) /\ fold_left lex_step b ([], Between) = ([TSign 93%N; TSign 125%N], Between)).
  { destruct k; cbn [write_cell]; unfold md_cell, py_cell; rewrite prepared_unlines by exact FN; eexists; exists tail_str; rewrite <- (app_assoc (join between (map esc (no_blank_first ls))) [quote] tail_str); (split; [reflexivity|]); split; vm_compute; reflexivity. }
  destruct X as (a & b & -> & A & B). rewrite fold_left_app, A. rewrite fold_left_app. rewrite lex_source by exact G. rewrite (lex_two _ _ _ _ B). unfold cell_toks. rewrite <- !app_assoc. reflexivity.
Qed.
Lemma parse_cell k ls st w : w = WFirst \/ w = WValue -> fold_left parse_step (cell_toks k ls) (st, w) = put (cell_json (is_py k, srcs (no_blank_first ls))) st.
Proof.
  intros Hw. unfold cell_toks. rewrite fold_left_app. rewrite fold_left_app. assert (N : srcs (no_blank_first ls) <> []) by (destruct (no_blank_first ls) as [|? [|? ?]]; discriminate).
  destruct k.
  - replace (fold_left parse_step md_head (st, w)) with (FList [] :: FDict [($"cell_type", JText $"markdown"); ($"metadata", JDict [])] $"source" :: st, WFirst) by (destruct Hw as [-> | ->]; reflexivity).
    rewrite parse_source by auto. reflexivity.
  - replace (fold_left parse_step py_head (st, w)) with (FList [] :: FDict [($"cell_type", JText $"code"); ($"execution_count", JNull); ($"metadata", JDict [($"collapsed", JBool false)]); ($"outputs", JList [])] $"source" :: st, WFirst) by (destruct Hw as [-> | ->]; reflexivity).
    rewrite parse_source by auto. reflexivity.
Qed.
Fixpoint cells_toks (cs : list (kind * list str)) : list token := match cs with [] => [] | [c] => cell_toks (fst c) (snd c) | c :: cs' => cell_toks (fst c) (snd c) ++ TSign 44%N :: cells_toks cs' end.
Definition written (cs : list (kind * list str)) : list str := map (fun c => write_cell (fst c) (unlines (snd c))) cs.
Lemma lex_cells cs : Forall (fun c => Forall (Forall plain) (snd c)) cs -> forall T, fold_left lex_step (join $",
  " (written cs)) (T, Between) = (T ++ cells_toks cs, Between).
Proof.
  induction cs as [|[k l] [|d cs] IH]; intros F T; [cbn; rewrite app_nil_r; reflexivity| |].
  - cbn [written map join fst snd cells_toks]. apply lex_cell. inversion F; assumption.
  - inversion F as [|? ? H F']; subst. change (join _ (written ((k, l) :: d :: cs))) with (write_cell k (unlines l) ++ $",
  " ++ join $",
  " (written (d :: cs))). rewrite !fold_left_app, lex_cell by exact H.
    replace (fold_left lex_step $",
  " (T ++ cell_toks k l, Between)) with ((T ++ cell_toks k l) ++ [TSign 44%N], Between) by (symmetry; apply lex_two; reflexivity).
    rewrite IH by exact F'. change (cells_toks ((k, l) :: d :: cs)) with (cell_toks k l ++ [TSign 44%N] ++ cells_toks (d :: cs)). rewrite <- !app_assoc. reflexivity.
Qed.
Definition as_cell (c : kind * list str) : cell := (is_py (fst c), srcs (no_blank_first (snd c))).
Lemma parse_cells cs : cs <> [] -> forall vs st w, w = WFirst \/ w = WValue -> fold_left parse_step (cells_toks cs) (FList vs :: st, w) = (FList (vs ++ map (fun c => cell_json (as_cell c)) cs) :: st, WNext).
Proof.
  induction cs as [|[k l] [|d cs] IH]; intros N vs st w Hw; [congruence| |].
  - cbn [cells_toks fst snd]. rewrite parse_cell by exact Hw. reflexivity.
  - change (cells_toks ((k, l) :: d :: cs)) with (cell_toks k l ++ [TSign 44%N] ++ cells_toks (d :: cs)). rewrite !fold_left_app, parse_cell by exact Hw.
    replace (fold_left parse_step [TSign 44%N] (put (cell_json (is_py k, srcs (no_blank_first l))) (FList vs :: st))) with (FList (vs ++ [cell_json (as_cell (k, l))]) :: st, WValue) by reflexivity.
    rewrite IH by (auto; discriminate). rewrite <- app_assoc. reflexivity.
Qed.
Lemma read_written cs : Forall (fun c => Forall (Forall plain) (snd c)) cs -> read_json (start_string ++ join $",
  " (written cs) ++ end_string) = Some (notebook (map as_cell cs)).
Proof.
  intros F. unfold read_json, tokens. rewrite !fold_left_app.
  assert (S : fold_left lex_step start_string ([], Between) = ([TSign 123%N; TText $"cells"; TSign 58%N; TSign 91%N], Between)) by (vm_compute; reflexivity).
  destruct (fold_left lex_step end_string ([], Between)) as [E p] eqn:EE. assert (P : p = Between) by (vm_compute in EE; congruence). subst p.
  rewrite S, lex_cells by exact F. rewrite (lex_two _ _ _ _ EE). rewrite !fold_left_app.
  replace (fold_left parse_step [TSign 123%N; TText $"cells"; TSign 58%N; TSign 91%N] ([], WValue)) with ([FList []; FDict [] $"cells"], WFirst) by reflexivity.
  destruct cs as [|c cs].
  - cbn [cells_toks fold_left]. vm_compute in EE. injection EE as <-. vm_compute. reflexivity.
  - rewrite parse_cells by (auto; discriminate). cbn [app]. set (l := map (fun c0 => cell_json (as_cell c0)) (c :: cs)). unfold notebook. rewrite map_map. fold l. vm_compute in EE. injection EE as <-. reflexivity.
Qed.

(** ** The lines *)
Lemma digits_app n t : Forall (fun c => 48 <= c <= 57)%N n -> (forall c s, t = c :: s -> digit09 c = false) -> digits_then (n ++ t) = (n, t).
Proof.
  intros F Ht. induction F as [|c n H F IH]; cbn.
  - destruct t as [|c s]; [reflexivity|]. cbn. rewrite (Ht c s eq_refl). reflexivity.
  - replace (digit09 c) with true; [rewrite IH; reflexivity|]. symmetry. unfold digit09, in_range. apply andb_true_intro. split; apply N.leb_le; lia.
Qed.
Lemma digits_spec s : s = fst (digits_then s) ++ snd (digits_then s) /\ Forall (fun c => 48 <= c <= 57)%N (fst (digits_then s)).
Proof.
  induction s as [|c s [E F]]; [split; [reflexivity|constructor]|]. cbn. destruct (digit09 c) eqn:D; [|split; [reflexivity|constructor]]. cbn [fst snd app]. split; [congruence|]. constructor; [|exact F].
  unfold digit09, in_range in D. apply andb_prop in D. destruct D as [D1 D2]. apply N.leb_le in D1, D2. lia.
Qed.
Lemma to_newline_line t : no_nl t -> to_newline (t ++ [nl]) = t.
Proof. induction t as [|c t IH]; intros H; [reflexivity|]. cbn. rewrite neq_eqb by (intros ->; apply H; left; reflexivity). rewrite IH; [reflexivity|]. intros J. apply H. right. exact J. Qed.
Lemma code_line n t : Forall (fun c => 48 <= c <= 57)%N n -> code_match ($"[" ++ n ++ $"]" ++ t) = Some (n, to_newline t).
Proof. intros F. cbn [app code_match]. change ($"[" ++ n ++ $"]" ++ t) with (91%N :: n ++ 93%N :: t). unfold code_match. rewrite eqb_refl. rewrite digits_app by (auto; intros c s E; injection E as <- _; reflexivity). cbn [fst snd]. rewrite eqb_refl. reflexivity. Qed.
Lemma line_match s c : no_nl s -> line_is s c -> code_match (s ++ [nl]) = c.
Proof.
  intros H L. destruct L as [n t F|s N].
  - replace (($"[" ++ n ++ $"]" ++ t) ++ [nl]) with ($"[" ++ n ++ $"]" ++ (t ++ [nl])) by (rewrite <- !app_assoc; reflexivity). rewrite code_line by exact F. rewrite to_newline_line; [reflexivity|]. intros J. apply H. apply in_or_app. right. apply in_or_app. right. apply in_or_app. right. exact J.
  - destruct (code_match (s ++ [nl])) as [[n t]|] eqn:E; [|reflexivity]. exfalso. apply N. destruct s as [|c s]; [discriminate|]. cbn [app code_match] in E. destruct (eqb_spec c 91%N) as [->|]; [|discriminate].
    destruct (digits_spec (s ++ [nl])) as [X F]. destruct (snd (digits_then (s ++ [nl]))) as [|c2 t2]; [discriminate|]. destruct (eqb_spec c2 93%N) as [->|]; [|discriminate]. clear E N H.
    revert X F. generalize (fst (digits_then (s ++ [nl]))). intros d X F. destruct (exists_last (l := t2)) as (t3 & x & ->).
    { intros ->. pose proof (f_equal (fun l => last l 0%N) X) as Y. cbv beta in Y. rewrite !last_last in Y. discriminate. }
    exists d, t3. split; [exact F|]. assert (Y : s ++ [nl] = (d ++ 93%N :: t3) ++ [x]) by (rewrite X, <- app_assoc; reflexivity). apply app_inj_tail in Y. destruct Y as [-> _]. reflexivity.
Qed.
Lemma line_total s : exists c, line_is s c.
Proof.
  destruct s as [|c s]; [exists None; constructor; intros (n & t & _ & E); discriminate|]. destruct (N.eq_dec c 91) as [->|N]; [|exists None; constructor; intros (n & t & _ & E); injection E as E; contradiction].
  destruct (digits_spec s) as [X F]. destruct (snd (digits_then s)) as [|c2 t2] eqn:E2; [|destruct (N.eq_dec c2 93) as [->|N]].
  - exists None. constructor. intros (n & t & Fn & E). injection E as E. subst s. cbn in E2. rewrite digits_app in E2 by (auto; intros c s E; injection E as <- _; reflexivity). discriminate.
  - exists (Some (fst (digits_then s), t2)). rewrite X at 1. apply (is_code _ t2 F).
  - exists None. constructor. intros (n & t & Fn & E). injection E as E. subst s. cbn in E2. rewrite digits_app in E2 by (auto; intros c s E; injection E as <- _; reflexivity). injection E2 as <- _. contradiction.
Qed.

(** ** The cells as lists of lines *)
Inductive cur := Idle | InMd (ls : list str) | InPy (n : str) (ls : list str).
Definition astep (st : cur * list (kind * list str)) (sc : str * option (str * str)) : cur * list (kind * list str) :=
  let (q, o) := st in let (s, c) := sc in
  match q, c with
  | Idle, Some (n, t) => (InPy n [t], o)
  | Idle, None => (InMd [s], o)
  | InPy n ls, Some (n', t) => if eqb n n' then (InPy n (ls ++ [t]), o) else (InPy n' [t], o ++ [(Py, ls)])
  | InPy n ls, None => (InMd [s], o ++ [(Py, ls)])
  | InMd ls, Some (n, t) => (InPy n [t], o ++ [(Md, ls)])
  | InMd ls, None => if eqb s [] && (2 <=? length ls) && eqb (last ls [nl]) [] then (Idle, o ++ [(Md, removelast ls)]) else (InMd (ls ++ [s]), o)
  end.
Definition afinish (st : cur * list (kind * list str)) : list (kind * list str) := match fst st with Idle => snd st | InMd ls => snd st ++ [(Md, ls)] | InPy _ ls => snd st ++ [(Py, ls)] end.
Definition good (ls : list str) : Prop := Forall (Forall plain) ls.
Inductive rel : buffer -> cur * list (kind * list str) -> Prop :=
| rel_idle m t cs : Forall (fun c => good (snd c)) cs -> rel {| num := m; type := t; buf := []; out := written cs |} (Idle, cs)
| rel_md m ls cs : Forall (fun c => good (snd c)) cs -> ls <> [] -> good ls -> rel {| num := m; type := Some Md; buf := unlines ls; out := written cs |} (InMd ls, cs)
| rel_py n ls cs : Forall (fun c => good (snd c)) cs -> ls <> [] -> good ls -> rel {| num := Some n; type := Some Py; buf := unlines ls; out := written cs |} (InPy n ls, cs).
Lemma unlines_ne ls : ls <> [] -> eqb (unlines ls) [] = false.
Proof. intros N. apply neq_eqb. destruct ls as [|l ls]; [congruence|]. unfold unlines. cbn. destruct l; discriminate. Qed.
Lemma ends_two a x y : ends_blank (a ++ [x; y]) = eqb [x; y] [nl; nl].
Proof. unfold ends_blank. rewrite app_length, Nat.add_sub, skipn_app, skipn_all, Nat.sub_diag. reflexivity. Qed.
Lemma ends_unlines ls : ls <> [] -> good ls -> ends_blank (unlines ls) = (2 <=? length ls) && eqb (last ls [nl]) [].
Proof.
  intros N G. destruct (exists_last N) as (l0 & l & ->). rewrite unlines_app, unlines_one, last_last, app_length. cbn [length]. destruct l as [|c l].
  - rewrite eqb_refl, andb_true_r. destruct l0 as [|x l0]; [reflexivity|]. destruct (exists_last (l := x :: l0)) as (l1 & y & E); [discriminate|]. rewrite E. rewrite unlines_app, unlines_one, <- !app_assoc. rewrite app_assoc. cbn [app]. rewrite ends_two, app_length.
    cbn [length]. rewrite eqb_refl. symmetry. apply Nat.leb_le. lia.
  - destruct (exists_last (l := c :: l)) as (l1 & y & E); [discriminate|]. rewrite E. rewrite <- app_assoc, app_assoc. cbn [app]. rewrite ends_two. assert (Y : y <> nl).
    { unfold good in G. rewrite Forall_app in G. destruct G as [_ G]. inversion G as [|? ? P _]; subst. apply plain_no_nl in P. intros ->. apply P. rewrite E. apply in_or_app. right. left. reflexivity. }
    replace (eqb (l1 ++ [y]) []) with false by (symmetry; apply neq_eqb; destruct l1; discriminate). rewrite andb_false_r. apply neq_eqb. congruence.
Qed.
Lemma written_app a k ls : written a ++ [write_cell k (unlines ls)] = written (a ++ [(k, ls)]).
Proof. unfold written. rewrite map_app. reflexivity. Qed.
Lemma rel_step b st (s : str) c : rel b st -> Forall plain s -> line_is s c -> rel (md_step b (s ++ [nl])) (astep st (s, c)).
Proof.
  intros R P L. unfold md_step. rewrite (line_match s c (plain_no_nl _ P) L). assert (PT : forall n t, c = Some (n, t) -> Forall plain t).
  { intros n t ->. inversion L; subst. rewrite !Forall_app in P. tauto. }
  assert (G1 : forall l, Forall plain l -> good [l]) by (intros l H; constructor; [exact H|constructor]).
  assert (GA : forall (cs : list (kind * list str)) k ls, Forall (fun c => good (snd c)) cs -> good ls -> Forall (fun c => good (snd c)) (cs ++ [(k, ls)])) by (intros cs k ls A B; apply Forall_app; split; [exact A|constructor; [exact B|constructor]]).
  destruct R as [m t cs F|m ls cs F N G|n ls cs F N G]; cbn [buf type num out].
  - rewrite eqb_refl. destruct c as [[n' t']|]; cbn [astep]; rewrite <- unlines_one; constructor; auto; try discriminate; try (apply G1, (PT _ _ eq_refl)).
  - rewrite unlines_ne by exact N. destruct c as [[n' t']|]; cbn [astep].
    + rewrite <- unlines_one. change (md_cell (unlines ls)) with (write_cell Md (unlines ls)). rewrite written_app. constructor; auto; try discriminate. apply G1, (PT _ _ eq_refl).
    + rewrite ends_unlines by assumption. assert (E0 : @eqb str _ (s ++ [nl]) [nl] = @eqb str _ s []).
      { destruct (eqb_spec s []) as [->|X]; [apply eqb_refl|]. apply neq_eqb. intros Y. apply X. change [nl] with ([] ++ [nl]) in Y at 2. apply app_inj_tail in Y. apply Y. }
      rewrite E0. rewrite <- andb_assoc. destruct (eqb s [] && _) eqn:B.
      * destruct (exists_last N) as (l0 & l & ->). rewrite last_last in B. apply andb_prop in B. destruct B as [_ B]. apply andb_prop in B. destruct B as [_ B]. apply eqb_eq in B. subst l.
        rewrite unlines_app, unlines_one. cbn [app]. rewrite !removelast_last. change (md_cell (unlines l0)) with (write_cell Md (unlines l0)). rewrite written_app. constructor. apply GA; [exact F|]. unfold good in *. rewrite Forall_app in G. tauto.
      * rewrite <- unlines_one, <- unlines_app. constructor; auto; [destruct ls; discriminate|]. apply Forall_app. split; [exact G|apply G1, P].
  - rewrite unlines_ne by exact N. destruct c as [[n' t']|]; cbn [astep].
    + destruct (eqb_spec n n') as [<-|X].
      * rewrite eqb_refl. rewrite <- unlines_one, <- unlines_app. constructor; auto; [destruct ls; discriminate|]. apply Forall_app. split; [exact G|apply G1, (PT _ _ eq_refl)].
      * rewrite neq_eqb by congruence. rewrite <- unlines_one. change (py_cell (unlines ls)) with (write_cell Py (unlines ls)). rewrite written_app. constructor; auto; try discriminate. apply G1, (PT _ _ eq_refl).
    + rewrite <- unlines_one. change (py_cell (unlines ls)) with (write_cell Py (unlines ls)). rewrite written_app. constructor; auto; try discriminate.
Qed.
Lemma rel_run : forall ls cs b st, rel b st -> good ls -> Forall2 line_is ls cs -> rel (fold_left md_step (map (fun s => s ++ [nl]) ls) b) (fold_left astep (combine ls cs) st).
Proof.
  induction ls as [|l ls IH]; intros cs b st R G L; inversion L; subst; [exact R|]. inversion G; subst. cbn [map fold_left combine]. apply IH; [apply rel_step; assumption|assumption|assumption].
Qed.
Definition abstract_cells (ls : list str) (cs : list (option (str * str))) : list (kind * list str) := afinish (fold_left astep (combine ls cs) (Idle, [])).
Lemma cells_written ls cs : good ls -> Forall2 line_is ls cs -> md_cells (map (fun s => s ++ [nl]) ls) = written (abstract_cells ls cs) /\ Forall (fun c => good (snd c)) (abstract_cells ls cs).
Proof.
  intros G L. unfold md_cells, abstract_cells. assert (R0 : rel {| num := None; type := None; buf := []; out := [] |} (Idle, [])) by (apply (rel_idle None None []); constructor).
  pose proof (rel_run ls cs _ _ R0 G L) as R. destruct (fold_left astep _ _) as [q o]. inversion R as [m t c F E1 E2|m l c F N Gl E1 E2|n l c F N Gl E1 E2]; subst; cbn [buf out type afinish fst snd].
  - rewrite eqb_refl. split; [reflexivity|exact F].
  - rewrite unlines_ne by exact N. split; [apply (written_app o Md)|]. apply Forall_app. split; [exact F|]. constructor; [exact Gl|constructor].
  - rewrite unlines_ne by exact N. split; [apply (written_app o Py)|]. apply Forall_app. split; [exact F|]. constructor; [exact Gl|constructor].
Qed.
(** what the cells hold *)
Definition full (p : bool * str) : bool := negb (eqb (snd p) []).
Definition held (cs : list (kind * list str)) : list (bool * str) := flat_map (fun c => filter full (map (pair (is_py (fst c))) (snd c))) cs.
Lemma held_app a b : held (a ++ b) = held a ++ held b.
Proof. apply flat_map_app. Qed.
Lemma held_one k ls : held [(k, ls)] = filter full (map (pair (is_py k)) ls).
Proof. unfold held. cbn. apply app_nil_r. Qed.
Lemma held_step st s c : held (afinish (astep st (s, c))) = held (afinish st) ++ filter full [shown s c].
Proof.
  destruct st as [[|ls|n ls] o]; destruct c as [[n' t]|]; cbn [astep shown afinish fst snd].
  - rewrite held_app, held_one. reflexivity.
  - rewrite held_app, held_one. reflexivity.
  - rewrite held_app, held_app, !held_one. reflexivity.
  - destruct (eqb s [] && _ && _) eqn:B; cbn [afinish fst snd].
    + apply andb_prop in B. destruct B as [B B3]. apply andb_prop in B. destruct B as [B1 B2]. apply eqb_eq in B1, B3. subst s. change (filter full [(false, [])]) with (@nil (bool * str)). rewrite app_nil_r. destruct ls as [|x ls]; [discriminate|].
      destruct (exists_last (l := x :: ls)) as (l0 & l & E); [discriminate|]. rewrite E in *. rewrite last_last in B3. subst l. rewrite removelast_last. unfold afinish. cbn [fst snd]. rewrite !held_app, !held_one, map_app, filter_app. change (filter full (map (pair (is_py Md)) [[]])) with (@nil (bool * str)). rewrite app_nil_r. reflexivity.
    + unfold afinish; cbn [fst snd]; rewrite !held_app, !held_one, map_app, filter_app, app_assoc. reflexivity.
  - destruct (eqb n n'); cbn [afinish fst snd].
    + unfold afinish; cbn [fst snd]; rewrite !held_app, !held_one, map_app, filter_app, app_assoc. reflexivity.
    + unfold afinish; cbn [fst snd]; rewrite !held_app, !held_one. reflexivity.
  - rewrite !held_app, !held_one. reflexivity.
Qed.
Lemma held_run : forall ls st, held (afinish (fold_left astep ls st)) = held (afinish st) ++ filter full (map (fun p => shown (fst p) (snd p)) ls).
Proof.
  induction ls as [|[s c] ls IH]; intros st; [cbn; rewrite app_nil_r; reflexivity|]. cbn [fold_left]. rewrite IH, held_step, <- app_assoc. cbn [map fst snd]. f_equal. change (filter full [shown s c] ++ filter full (map (fun p => shown (fst p) (snd p)) ls)) with (filter full [shown s c] ++ filter full (map (fun p => shown (fst p) (snd p)) ls)). rewrite <- filter_app. reflexivity.
Qed.
(** the cells of code *)
Definition codes (cs : list (kind * list str)) : list (list str) := map snd (filter (fun c => is_py (fst c)) cs).
Lemma codes_app a b : codes (a ++ b) = codes a ++ codes b.
Proof. unfold codes. rewrite filter_app, map_app. reflexivity. Qed.
Definition again (n : str) (ls : list str) : list (option (str * str)) := map (fun t => Some (n, t)) ls.
Lemma runs_again n ls cs : ls <> [] -> (forall m t r, cs = Some (m, t) :: r -> n <> m) -> runs (again n ls ++ cs) = (n, ls) :: runs cs.
Proof.
  intros N H. induction ls as [|l [|m ls] IH]; [congruence| |].
  - cbn. destruct cs as [|[[m t]|] r]; [reflexivity| |reflexivity]. rewrite neq_eqb by (eapply H; reflexivity). reflexivity.
  - specialize (IH ltac:(discriminate)). change (again n (l :: m :: ls) ++ cs) with (Some (n, l) :: again n (m :: ls) ++ cs). cbn [runs]. rewrite IH. change (again n (m :: ls) ++ cs) with (Some (n, m) :: (again n ls ++ cs)). cbv iota. rewrite eqb_refl. reflexivity.
Qed.
Definition pending (q : cur) : list (option (str * str)) := match q with InPy n ls => again n ls | _ => [] end.
Definition open_ne (q : cur) : Prop := match q with InPy _ ls => ls <> [] | _ => True end.
Lemma codes_run : forall ps q o, open_ne q -> codes (afinish (fold_left astep ps (q, o))) = codes o ++ map snd (runs (pending q ++ map snd ps)).
Proof.
  induction ps as [|[s c] ps IH]; intros q o NE.
  - cbn [fold_left map]. destruct q as [|ls|n ls]; cbn [afinish fst snd pending app runs map].
    + symmetry. apply app_nil_r.
    + rewrite codes_app. reflexivity.
    + rewrite runs_again by (auto; discriminate). rewrite codes_app. reflexivity.
  - cbn [fold_left map snd]. destruct q as [|ls|n ls]; destruct c as [[n' t]|]; cbn [astep pending app].
    + rewrite IH by discriminate. reflexivity.
    + rewrite IH by exact Logic.I. reflexivity.
    + rewrite IH by discriminate. rewrite codes_app. cbn. rewrite app_nil_r. reflexivity.
    + destruct (_ && _ && _); rewrite IH by exact Logic.I; [rewrite codes_app; cbn; rewrite app_nil_r; reflexivity|reflexivity].
    + destruct (eqb_spec n n') as [<-|X].
      * rewrite IH by (cbn; destruct ls; discriminate). cbn [pending]. unfold again. rewrite map_app, <- app_assoc. reflexivity.
      * rewrite IH by discriminate. rewrite codes_app. rewrite runs_again; [|exact NE|intros m t0 r E; injection E as <- _ _; exact X]. cbn [map snd pending]. rewrite <- app_assoc. reflexivity.
    + rewrite IH by exact Logic.I. rewrite codes_app. rewrite runs_again; [|exact NE|discriminate]. cbn [map snd pending app]. rewrite <- app_assoc. reflexivity.
Qed.
(** pieces *)
Lemma cut_line l s : no_nl l -> cut (l ++ nl :: s) = l :: cut s.
Proof. induction l as [|c l IH]; intros H; [reflexivity|]. cbn. destruct (N.eqb_spec c 10) as [->|N]; [destruct H; left; reflexivity|]. rewrite IH; [reflexivity|]. intros J. apply H. right. exact J. Qed.
Lemma cut_plain l : no_nl l -> cut l = [l].
Proof. induction l as [|c l IH]; intros H; [reflexivity|]. cbn. destruct (N.eqb_spec c 10) as [->|N]; [destruct H; left; reflexivity|]. rewrite IH; [reflexivity|]. intros J. apply H. right. exact J. Qed.
Lemma pieces_join ls : Forall no_nl ls -> pieces (join [nl] ls) = filter (fun p => negb (eqb p [])) ls.
Proof.
  intros F. unfold pieces. destruct ls as [|l ls]; [reflexivity|]. f_equal. revert l F. induction ls as [|m ls IH]; intros l F; inversion F; subst.
  - cbn [join]. apply cut_plain. assumption.
  - change (join [nl] (l :: m :: ls)) with (l ++ nl :: join [nl] (m :: ls)). rewrite cut_line by assumption. rewrite IH by assumption. reflexivity.
Qed.
Lemma blank_first_filter ls : filter (fun p => negb (eqb p [])) (no_blank_first ls) = filter (fun p : str => negb (eqb p [])) ls.
Proof. induction ls as [|[|c l] ls IH]; [reflexivity| |reflexivity]. cbn [no_blank_first filter]. rewrite eqb_refl. exact IH. Qed.
