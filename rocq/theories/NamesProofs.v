(** Proofs about the table of names. *)
From Coq Require Import List ZArith Lia Bool Arith.
From Coq Require Import String.
From Verif Require Import Base PyStr CsvModel CsvProofs SeriesSpec RecordViewFacts AnalysisModel AnalysisProofs AnalysisProofs2 JournalProofs NamesModel NamesSpec.
Import ListNotations.
Local Open Scope list_scope.

(** ** the csv file *)
Lemma good_bare c x : good_cell c -> in_quotes c = false -> In x (content c) -> x <> nl /\ x <> cr /\ x <> quote /\ x <> comma /\ x <> 0%N.
Proof. intros (Z & C & _ & Q) N I. destruct (Q N) as (A & B & D). repeat split; intros ->; contradiction. Qed.
Lemma cell_comma c st fs t : good_cell c -> at_field st -> t <> [] -> loop (mkPs st [] fs) (cell_text c ++ comma :: t) = loop (mkPs StartField [] (fs ++ [content c])) t.
Proof.
  intros G A NE. pose proof G as (Z & C & L & _). unfold cell_text. destruct (in_quotes c) eqn:Q.
  - change ([34%N] ++ flat_map (fun x => if eqb x 34%N then [34%N; 34%N] else [x]) (content c) ++ [34%N]) with (quoted (content c)).
    rewrite loop_quoted by (auto; discriminate). apply loop_char; [discriminate|discriminate|exact NE|reflexivity].
  - destruct (content c) as [|x s] eqn:E.
    + cbn [app]. apply loop_char; [discriminate|discriminate|exact NE|]. destruct A as [->| ->]; reflexivity.
    + rewrite loop_bare; [|exact A|discriminate|split; [discriminate|intros y I; rewrite <- E in I; apply (good_bare c y G Q I)]|exact L].
      apply loop_char; [discriminate|discriminate|exact NE|reflexivity].
Qed.
Lemma cell_nl c fs t : good_cell c -> loop (mkPs StartField [] fs) (cell_text c ++ nl :: t) = let* r := loop ps0 t in Ok ((fs ++ [content c]) :: r).
Proof.
  intros G. pose proof G as (Z & C & L & _). unfold cell_text. destruct (in_quotes c) eqn:Q.
  - change ([34%N] ++ flat_map (fun x => if eqb x 34%N then [34%N; 34%N] else [x]) (content c) ++ [34%N]) with (quoted (content c)).
    rewrite loop_quoted by (try (right; reflexivity); auto; discriminate). erewrite loop_nl; [|reflexivity|reflexivity]. reflexivity.
  - destruct (content c) as [|x s] eqn:E.
    + cbn [app]. erewrite loop_nl; [|reflexivity|reflexivity]. reflexivity.
    + rewrite loop_bare; [|right; reflexivity|discriminate|split; [discriminate|intros y I; rewrite <- E in I; apply (good_bare c y G Q I)]|exact L].
      erewrite loop_nl; [|reflexivity|reflexivity]. reflexivity.
Qed.
Lemma cells_loop cs : forall c fs t, Forall good_cell (c :: cs) ->
  loop (mkPs StartField [] fs) (join $"," (map cell_text (c :: cs)) ++ nl :: t) = let* r := loop ps0 t in Ok ((fs ++ map content (c :: cs)) :: r).
Proof.
  induction cs as [|c' cs IH]; intros c fs t F; inversion F as [|? ? Fc Fs]; subst.
  - cbn [map join]. apply cell_nl, Fc.
  - change (join $"," (map cell_text (c :: c' :: cs))) with (cell_text c ++ [comma] ++ join $"," (map cell_text (c' :: cs))). rewrite <- !app_assoc. cbn [app].
    rewrite cell_comma; [|exact Fc|right; reflexivity|destruct (join $"," (map cell_text (c' :: cs))); discriminate]. rewrite IH by exact Fs. rewrite <- app_assoc. reflexivity.
Qed.
Lemma row_loop r t : good_row r -> loop ps0 (join $"," (map cell_text (cells r)) ++ nl :: t) = let* q := loop ps0 t in Ok (map content (cells r) :: q).
Proof.
  intros (L & F). destruct (cells r) as [|c [|c' cs]]; [cbn in L; lia|cbn in L; lia|]. inversion F as [|? ? Fc Fs]; subst.
  change (join $"," (map cell_text (c :: c' :: cs))) with (cell_text c ++ [comma] ++ join $"," (map cell_text (c' :: cs))). rewrite <- !app_assoc. cbn [app]. unfold ps0 at 1.
  rewrite cell_comma; [|exact Fc|left; reflexivity|destruct (join $"," (map cell_text (c' :: cs))); discriminate]. rewrite cells_loop by exact Fs. reflexivity.
Qed.
Lemma cells_no_cr cs : Forall good_cell cs -> ~ In cr (join $"," (map cell_text cs)).
Proof.
  intros F. apply (@join_no_cr (map cell_text cs)). apply Forall_map. eapply Forall_impl; [|exact F]. intros c (_ & C & _) I. unfold cell_text in I. destruct (in_quotes c); [|contradiction].
  apply in_app_iff in I. destruct I as [[I|[]]|I]; [discriminate I|]. apply in_app_iff in I. destruct I as [I|[I|[]]]; [|discriminate I].
  apply in_flat_map in I. destruct I as (x & J & I). destruct (eqb_spec x 34%N) as [->|N]; [destruct I as [I|[I|[]]]; discriminate I|]. destruct I as [->|[]]. contradiction.
Qed.
Lemma rows_read rows : Forall good_row rows -> csv_rows (flat_map row_text rows) = Ok (map (fun r => map content (cells r)) rows).
Proof.
  induction 1 as [|r rows G _ IH]; [reflexivity|]. cbn [flat_map map]. unfold csv_rows in *. unfold row_text at 1. rewrite <- app_assoc, translate_app by (apply cells_no_cr, G).
  assert (T : translate ((if windows r then [cr; nl] else [nl]) ++ flat_map row_text rows) = nl :: translate (flat_map row_text rows)) by (destruct (windows r); reflexivity).
  rewrite T. pose proof (row_loop r (translate (flat_map row_text rows)) G) as Q. unfold loop in Q. rewrite Q, IH. reflexivity.
Qed.

(** ** the dictionary *)
Section Names.
Variable title : str -> str.
Definition table_of (rows : list row) : table := fold_left (fun d r => dset (title (name_in r)) (gender_in r) d) rows [].
Lemma read_file heading rows : good_row heading -> Forall good_row rows -> read_names title (file_of heading rows) = Ok (table_of rows).
Proof.
  intros H F. unfold read_names, file_of. change (row_text heading ++ flat_map row_text rows) with (flat_map row_text (heading :: rows)).
  rewrite (rows_read (heading :: rows)) by (constructor; assumption). cbn [bind].
  assert (NE : forall rs, Forall good_row rs -> filter (fun r => negb (eqb r [])) (map (fun r => map content (cells r)) rs) = map (fun r => map content (cells r)) rs).
  { induction 1 as [|r rs (L & _) _ IH]; [reflexivity|]. cbn [map filter]. rewrite IH. destruct (cells r) as [|c cs]; [cbn in L; lia|]. reflexivity. }
  rewrite NE by (constructor; assumption). cbn [map]. f_equal. unfold table_of. clear NE H.
  assert (Q : forall d : table, fold_left (fun (d : table) (r : list str) => dset (title (hd [] r)) (nth_error r 4) d) (map (fun r => map content (cells r)) rows) d = fold_left (fun d r => dset (title (name_in r)) (gender_in r) d) rows d); [|apply (Q [])].
  induction F as [|r rs (L & _) _ IH]; intros d; [reflexivity|]. cbn [map fold_left]. rewrite IH. f_equal. f_equal.
  - unfold name_in. destruct (cells r); reflexivity.
  - unfold gender_in. destruct (cells r) as [|c1 [|c2 [|c3 [|c4 [|c5 cs]]]]]; reflexivity.
Qed.
Lemma table_get rows n : dget n (table_of rows) = match find (fun r => eqb (title (name_in r)) n) (rev rows) with Some r => Some (gender_in r) | None => None end.
Proof.
  induction rows as [|r rows IH] using rev_ind; [reflexivity|]. unfold table_of. rewrite fold_left_app, rev_app_distr. cbn [fold_left rev app find].
  rewrite dget_dset. fold (table_of rows). rewrite IH. rewrite (eqb_sym n). destruct (eqb (title (name_in r)) n); reflexivity.
Qed.
Lemma full_cut s first : full_name s first -> exists a given ws, cut2 44%N sp s = a :: given :: ws /\ hd [] (split_char sp given) = first.
Proof.
  intros (family & rest & -> & NL & NF & NS & RS). change ($", " ++ first ++ rest) with (44%N :: sp :: (first ++ rest)). rewrite cut2_first by exact NL.
  destruct (@cut2_word 44%N sp first rest NF) as (v & ws & -> & K).
  { destruct RS as [->|[(r & ->)|(r & ->)]]; [left; reflexivity|right; right; exists sp, r; split; [reflexivity|discriminate]|right; left; exists r; reflexivity]. }
  eexists _, _, _. split; [reflexivity|].
  assert (SC : split_char sp (first ++ v) = match v with [] => [first] | _ :: v' => first :: split_char sp v' end).
  { destruct K as [->|(c & v' & -> & w' & E & NC)].
    - rewrite app_nil_r. apply split_char_last, NS.
    - destruct RS as [->|[(r & ->)|(r & ->)]]; [discriminate| |]; injection E as <- <-; [|congruence]. apply split_char_line, NS. }
  rewrite SC. destruct v; reflexivity.
Qed.
Lemma look_up_spec rows given : look_up title (table_of rows) given = gender_of title rows (hd [] (split_char sp given)).
Proof. unfold look_up, gender_of. rewrite table_get. destruct (find _ (rev rows)); reflexivity. Qed.
End Names.

(** ** a dictionary of names *)
Lemma fold_answers (g : str -> answer) l : fold_left (fun d n => dset n (g n) d) l [] = map (fun n => (n, g n)) (first_seen l).
Proof.
  induction l as [|n l IH] using rev_ind; [reflexivity|]. rewrite fold_left_app. cbn [fold_left]. rewrite IH.
  assert (FS : first_seen (l ++ [n]) = if mem n (first_seen l) then first_seen l else first_seen l ++ [n]).
  { clear IH. revert n. induction l as [|x l IH]; intros n; [reflexivity|]. cbn [app first_seen]. rewrite IH.
    unfold mem in *. cbn [existsb]. destruct (eqb_spec n x) as [->|N]; cbn [orb].
    - f_equal. destruct (existsb (eqb x) (first_seen l)); [reflexivity|]. rewrite filter_app. cbn. rewrite eqb_refl. cbn. apply app_nil_r.
    - replace (existsb (eqb n) (filter (fun y => negb (eqb y x)) (first_seen l))) with (existsb (eqb n) (first_seen l)).
      + destruct (existsb (eqb n) (first_seen l)); [reflexivity|]. rewrite filter_app. cbn. rewrite (neq_eqb N). reflexivity.
      + clear IH. induction (first_seen l) as [|z zs IH]; [reflexivity|]. cbn. destruct (eqb_spec z x) as [->|N2]; cbn; [rewrite (neq_eqb N); exact IH|rewrite IH; reflexivity]. }
  rewrite FS. clear IH FS. pose proof (NoDup_first_seen l) as ND. induction (first_seen l) as [|x xs IH]; [reflexivity|]. cbn [map dset]. unfold mem in *. cbn [existsb].
  destruct (eqb_spec n x) as [->|N]; [reflexivity|]. cbn [orb]. apply NoDup_cons_iff in ND as [_ ND]. rewrite (IH ND). destruct (existsb (eqb n) xs); reflexivity.
Qed.

Lemma no_cut s : (forall a b, s <> a ++ $", " ++ b) -> cut2 44%N sp s = [s].
Proof.
  induction s as [|x s IH]; intros N; [reflexivity|]. cbn [cut2]. destruct s as [|y s]; [reflexivity|].
  destruct (eqb x 44%N && eqb y sp) eqn:E.
  - exfalso. apply andb_true_iff in E. destruct E as (A & B). apply eqb_eq in A; apply eqb_eq in B. subst. apply (N [] s). reflexivity.
  - rewrite IH; [reflexivity|]. intros a b Q. apply (N (x :: a) b). rewrite Q. reflexivity.
Qed.
(** for the examples *)
Definition good_cellb (c : cell) : bool :=
  negb (mem 0%N (content c)) && negb (mem cr (content c)) && (N.of_nat (length (content c)) <=? 131072)%N &&
  (in_quotes c || (negb (mem 44%N (content c)) && negb (mem 34%N (content c)) && negb (mem nl (content c)))).
Definition good_rowb (r : row) : bool := (2 <=? length (cells r)) && forallb good_cellb (cells r).
Lemma good_rowb_ok r : good_rowb r = true -> good_row r.
Proof.
  unfold good_rowb. rewrite andb_true_iff. intros (L & F). split; [apply Nat.leb_le, L|]. apply Forall_forall. intros c I. rewrite forallb_forall in F. specialize (F c I).
  unfold good_cellb in F. rewrite !andb_true_iff, orb_true_iff, !andb_true_iff, !negb_true_iff in F. destruct F as (((A & B) & C) & D).
  rewrite mem_not_In in A, B. split; [exact A|]. split; [exact B|]. split; [apply N.leb_le, C|]. intros Q. destruct D as [D|((D1 & D2) & D3)]; [congruence|]. rewrite mem_not_In in D1, D2, D3. auto.
Qed.
