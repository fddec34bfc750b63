(** C81: notebooks made of markdown files. *)
From Coq Require Import List ZArith Lia Bool Arith.
From Coq Require Import String.
From Verif Require Import Base PyStr NotebookModel NotebookSpec NotebookProofs.
Import ListNotations.
Local Open Scope list_scope.

(** Every line is either a line of code or not. *)
Theorem C81_lines : forall s, exists c, line_is s c /\ forall d, ~ In 10%N s -> line_is s d -> c = d.
Proof. intros s. destruct (line_total s) as [c L]. exists c. split; [exact L|]. intros d N D. rewrite <- (line_match s c N L). apply line_match; [exact N|exact D]. Qed.
Print Assumptions C81_lines.
(** If no line has a backslash or a control character and all of them are ended, the notebook can be read as JSON, its cells hold all lines that are not blank, in order and
    as what they are, and the cells of code are the runs of lines with the same number (without blank lines at the beginning). In the list of texts of a cell
    each one is a line, and all but the last are ended. *)
Theorem C81_notebook_partial : forall (lines : list str) cs,
  Forall (Forall (fun c => 32 <= c /\ c <> 92)%N) lines -> Forall2 line_is lines cs ->
  exists cells, read_json (convert_string (map (fun s => s ++ [10%N]) lines)) = Some (notebook cells) /\
    flat_map (fun c => map (pair (fst c)) (pieces (concat (snd c)))) cells = filter (fun p => negb (eqb (snd p) [])) (map (fun p => shown (fst p) (snd p)) (combine lines cs)) /\
    map (fun c => concat (snd c)) (filter fst cells) = map (fun r => join [10%N] (no_blank_first (snd r))) (runs cs) /\
    (forall c, In c cells -> exists ended last, snd c = map (fun s => s ++ [10%N]) ended ++ [last] /\ Forall (fun s => ~ In 10%N s) (ended ++ [last])).
Proof.
  intros ls cs G L. destruct (cells_written ls cs G L) as [E F]. exists (map as_cell (abstract_cells ls cs)). split; [|split; [|split]].
  - unfold convert_string. match goal with |- context [md_cells ?x] => replace (md_cells x) with (written (abstract_cells ls cs)) by (symmetry; exact E) end. apply read_written. exact F.
  - transitivity (held (abstract_cells ls cs)); [|apply (held_run (combine ls cs) (Idle, []))].
    revert F. generalize (abstract_cells ls cs). induction l as [|[k l1] l IH]; intros F; [reflexivity|]. inversion F as [|? ? H F']; subst. cbn [map flat_map]. rewrite IH by exact F'. change (held ((k, l1) :: l)) with (filter full (map (pair (is_py k)) l1) ++ held l). f_equal.
    cbn [as_cell fst snd]. rewrite concat_srcs, pieces_join.
    + rewrite blank_first_filter. clear. induction l1 as [|x l1 IH]; [reflexivity|]. cbn [map filter]. change (full (is_py k, x)) with (negb (eqb x [])). destruct (negb (eqb x [])); cbn [map]; rewrite IH; reflexivity.
    + eapply Forall_impl; [apply plain_no_nl|]. apply plain_first, H.
  - assert (C : codes (abstract_cells ls cs) = map snd (runs cs)).
    { unfold abstract_cells. rewrite codes_run by exact Logic.I. cbn [codes filter map app pending]. do 2 f_equal. clear - L. induction L as [|s c ls cs _ L IH]; [reflexivity|]. cbn. rewrite IH. reflexivity. }
    transitivity (map (fun ts => join [nl] (no_blank_first ts)) (codes (abstract_cells ls cs))); [|rewrite C, map_map; reflexivity].
    generalize (abstract_cells ls cs). clear. induction l as [|[[] l1] l IH]; [reflexivity|exact IH|]. cbn [map filter as_cell is_py fst snd]. unfold codes. cbn [filter is_py fst map snd]. rewrite concat_srcs. f_equal. exact IH.
  - intros c J. apply in_map_iff in J. destruct J as ([k l] & <- & J). rewrite Forall_forall in F. specialize (F _ J). apply plain_first in F. cbn [as_cell snd] in *. revert F. generalize (no_blank_first l). clear. intros l F.
    assert (FN : Forall no_nl l) by (eapply Forall_impl; [apply plain_no_nl|exact F]). clear F. destruct l as [|x l]; [exists [], []; split; [reflexivity|repeat constructor; intros []]|].
    revert x FN. induction l as [|y l IH]; intros x FN.
    + exists [], x. split; [reflexivity|exact FN].
    + inversion FN as [|? ? Hx Fy]; subst. destruct (IH y Fy) as (e & z & E & Fe). exists (x :: e), z. rewrite srcs_cons, E. split; [reflexivity|]. constructor; [exact Hx|exact Fe].
Qed.
Print Assumptions C81_notebook_partial.
Definition text (l : list str) : list str := map (fun s => s ++ [10%N]) l.
Example C81_ex : let lines := [$"# A ""title"""; $""; $"[1]x = 2"; $"[1]print(x)"; $"[2]y"; $""; $"End."; $""; $""; $"More"] in
  Forall (Forall (fun c => 32 <= c /\ c <> 92)%N) lines /\
  read_json (convert_string (text lines)) = Some (notebook [(false, [$"# A ""title"""++[10%N]; []]); (true, [$"x = 2" ++ [10%N]; $"print(x)"]); (true, [$"y"]); (false, [$"End."]); (false, [$"More"])]).
Proof. cbv zeta. split; [repeat constructor; discriminate|]. vm_compute. reflexivity. Qed.
(** A backslash is not escaped: the text is a different one, or cannot be read at all, and nor can it be with a tab. *)
Theorem C81_backslash_refuted :
  read_json (convert_string (text [$"[1]print('a\n')"])) = Some (notebook [(true, [$"print('a" ++ [10%N] ++ $"')"])]) /\
  read_json (convert_string (text [$"[1]re.match('\d')"])) = None /\ read_json (convert_string (text [$"[1]" ++ [9%N] ++ $"x"])) = None.
Proof. vm_compute. auto. Qed.
Print Assumptions C81_backslash_refuted.
(** A last line without its newline loses its last eleven characters if it is text. *)
Theorem C81_last_line_refuted : read_json (convert_string (text [$"Hello"] ++ [$"All that ends well"])) = Some (notebook [(false, [$"Hello" ++ [10%N]; $"All tha"])]).
Proof. vm_compute. reflexivity. Qed.
Print Assumptions C81_last_line_refuted.
