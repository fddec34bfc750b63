(** C26, C50, C71, C75, continued. *)
From Coq Require Import List ZArith Lia Bool Arith.
From Coq Require Import String.
From Verif Require Import Base PyStr PyInt JournalModel TextModel RecordModel ValuesModel ValuesProofs PropertiesValues FileModel FileProofs ProQuestModel ProQuestSpec ProQuestProofs PropertiesProQuest.
Import ListNotations.
Local Open Scope list_scope.

(** ** C26 *)
(** The white space that ends a line, or surrounds a text, is that of python: 29 characters. *)
Theorem C26_white : forall c, ws_char c = true <-> In c [9; 10; 11; 12; 13; 28; 29; 30; 31; 32; 133; 160; 5760; 8192; 8193; 8194; 8195; 8196; 8197; 8198; 8199; 8200; 8201; 8202; 8232; 8233; 8239; 8287; 12288]%N.
Proof.
  intros c. split.
  - unfold ws_char. intros W. repeat (apply orb_true_iff in W as [W|W]).
    all: try (apply N.eqb_eq in W; subst c; cbn; auto 40; fail).
    all: apply andb_true_iff in W as [A B]; apply N.leb_le in A; apply N.leb_le in B.
    + assert (Q : (c = 9 \/ c = 10 \/ c = 11 \/ c = 12 \/ c = 13)%N) by lia. destruct Q as [->|[->|[->|[->| ->]]]]; cbn; auto 40.
    + assert (Q : (c = 28 \/ c = 29 \/ c = 30 \/ c = 31 \/ c = 32)%N) by lia. destruct Q as [->|[->|[->|[->| ->]]]]; cbn; auto 40.
    + assert (Q : (c = 8192 \/ c = 8193 \/ c = 8194 \/ c = 8195 \/ c = 8196 \/ c = 8197 \/ c = 8198 \/ c = 8199 \/ c = 8200 \/ c = 8201 \/ c = 8202)%N) by lia.
      destruct Q as [->|[->|[->|[->|[->|[->|[->|[->|[->|[->| ->]]]]]]]]]]; cbn; auto 40.
  - intros I1. repeat (destruct I1 as [<-|I1]; [reflexivity|]). destruct I1.
Qed.
(** A line with a colon that is not followed by a blank is a tag without a value, although it may be part of the text before it. The tag has the end of the line in it. *)
Theorem C26_no_blank_refuted : exists d, rec_of [$"N"; $"Abstract: We meet at"; $"12:30 or so"; $"and part"] = Ok d /\ dget $"Abstract" d = Some [$"We meet at"] /\
  dget ($"12:30 or so" ++ [nl]) d = Some [[]; $"and part"].
Proof. eexists. split; [vm_compute; reflexivity|]. split; vm_compute; reflexivity. Qed.

(** ** C50 *)
(** A page on which the list does not begin ends the update with an error, whatever the other pages, and likewise one that cannot be fetched; nothing is stored then. *)
Lemma no_list ls : ~ In $"<DL>" ls -> skip_head ls = Raise IndexError.
Proof. induction ls as [|l ls IH]; intros N; [reflexivity|]. cbn [skip_head]. destruct (eqb_spec l $"<DL>") as [->|NE]; [exfalso; apply N; left; reflexivity|]. apply IH. intros I1. apply N. right. exact I1. Qed.
Theorem C50_no_list : forall before text after db, (forall x y : list char, text <> x ++ $"<DL>" ++ y) ->
  exists e, updatej9DB (before ++ Ok text :: after) db = Raise e.
Proof.
  intros before text after db N. assert (P : page_dict text = Raise IndexError).
  { unfold page_dict. rewrite no_list; [reflexivity|]. intros I1. apply in_split in I1 as (a & b & E). pose proof (join_split nl text) as J. rewrite E in J.
    assert (G : forall a b : list str, exists x y, join [nl] (a ++ $"<DL>" :: b) = x ++ $"<DL>" ++ y).
    { clear. induction a as [|w a IH]; intros b.
      - destruct b as [|w b]; [exists [], []; rewrite app_nil_r; reflexivity|]. exists [], ([nl] ++ join [nl] (w :: b)). reflexivity.
      - destruct (IH b) as (x & y & Q). assert (S1 : join [nl] ((w :: a) ++ $"<DL>" :: b) = w ++ [nl] ++ join [nl] (a ++ $"<DL>" :: b)) by (destruct a; reflexivity). rewrite S1, Q. exists (w ++ [nl] ++ x), y. rewrite <- !app_assoc. reflexivity. }
    destruct (G a b) as (x & y & Q). apply (N x y). rewrite <- J. exact Q. }
  unfold updatej9DB. assert (G : forall d, exists e, pages_dict (before ++ Ok text :: after) d = Raise e).
  { induction before as [|p before IH]; intros d; cbn [app pages_dict].
    - cbn [bind]. rewrite P. exists IndexError. reflexivity.
    - destruct p as [t|e]; [|exists e; reflexivity]. cbn [bind]. destruct (page_dict t) as [d'|e]; [|exists e; reflexivity]. cbn [bind]. destruct (length d' =? 0); [exists RuntimeError; reflexivity|apply IH]. }
  destruct (G []) as [e E]. exists e. rewrite E. reflexivity.
Qed.
Theorem C50_not_fetched : forall before e after db, exists e', updatej9DB (before ++ Raise e :: after) db = Raise e'.
Proof.
  intros before e after db. unfold updatej9DB. assert (G : forall d, exists e', pages_dict (before ++ Raise e :: after) d = Raise e').
  { induction before as [|p before IH]; intros d; cbn [app pages_dict]; [exists e; reflexivity|]. destruct p as [t|x]; [|exists x; reflexivity]. cbn [bind]. destruct (page_dict t) as [d'|x]; [|exists x; reflexivity]. cbn [bind].
    destruct (length d' =? 0); [exists RuntimeError; reflexivity|apply IH]. }
  destruct (G []) as [x E]. exists x. rewrite E. reflexivity.
Qed.
Example C50_no_list_ex : updatej9DB [Ok $"<HTML>gone</HTML>"] [($"BEES", $"Bees")] = Raise IndexError.
Proof. vm_compute. reflexivity. Qed.

(** ** C71 *)
(** If what stands before the first dash is no month, the month is what stands after the last: a name gives its number, digits are given as they are, anything else is a KeyError. *)
Theorem C71_month_after : forall upper lower title all_digits first middle last_ rest vs,
  ~ In 45%N first -> ~ In 45%N last_ -> ~ In sp first -> ~ In sp middle -> ~ In sp last_ -> (forall n, ~ In (upper first, n) months) -> middle = [] \/ (exists r, middle = 45%N :: r) -> rest = [] \/ (exists r, rest = sp :: r) ->
  let value := wos_value upper lower title all_digits $"PD" ((first ++ middle ++ $"-" ++ last_ ++ rest) :: vs) in
  (all_digits (upper last_) = true -> value = Ok (FText (upper last_))) /\
  (all_digits (upper last_) = false -> (forall n, In (upper last_, n) months -> value = Ok (FInt n)) /\ ((forall n, ~ In (upper last_, n) months) -> value = Raise KeyError)).
Proof.
  intros upper lower title all_digits first middle last_ rest vs NF NL SF SM SL NM M R value.
  assert (D : forall w, (forall n, In (w, n) months -> dget w month_dict = Some n) /\ ((forall n, ~ In (w, n) months) -> dget w month_dict = None)).
  { intros w. split.
    - intros n I1. repeat (destruct I1 as [I1|I1]; [injection I1 as <- <-; reflexivity|]). destruct I1.
    - intros N. destruct (dget w month_dict) as [n|] eqn:E; [|reflexivity]. exfalso. apply dget_In in E. apply (N n). unfold month_dict in E. cbn in E. cbn. decompose [or] E; try contradiction; match goal with H : _ = _ |- _ => rewrite H end; auto 20. }
  assert (V : value = month_value (get_month upper all_digits (first ++ middle ++ $"-" ++ last_))).
  { unfold value. transitivity (month_value (get_month upper all_digits (hd [] (split_char sp (first ++ middle ++ $"-" ++ last_ ++ rest))))); [reflexivity|].
    replace (first ++ middle ++ $"-" ++ last_ ++ rest) with ((first ++ middle ++ $"-" ++ last_) ++ rest) by (rewrite <- !app_assoc; reflexivity). rewrite split_char_hd; [reflexivity| |exact R].
    rewrite !in_app_iff. intros [I1|[I1|[[I1|[]]|I1]]]; [exact (SF I1)|exact (SM I1)|discriminate I1|exact (SL I1)]. }
  rewrite V. clear V value. assert (G : get_month upper all_digits (first ++ middle ++ $"-" ++ last_) = if all_digits (upper last_) then Ok (inr (upper last_)) else match dget (upper last_) month_dict with Some z => Ok (inl z) | None => Raise KeyError end).
  { unfold get_month. assert (H : hd [] (split_char 45%N (first ++ middle ++ $"-" ++ last_)) = first).
    { apply split_char_hd; [exact NF|]. right. destruct M as [->|[r ->]]; eexists; reflexivity. }
    assert (L : last (split_char 45%N (first ++ middle ++ $"-" ++ last_)) [] = last_).
    { rewrite app_assoc. change ($"-" ++ last_) with (45%N :: last_). rewrite split_end by exact NL. apply last_last. }
    cbv zeta. rewrite H, L. rewrite (proj2 (D (upper first)) NM). reflexivity. }
  rewrite G. split; intros A; rewrite A; [reflexivity|]. split.
  - intros n I1. rewrite (proj1 (D (upper last_)) n I1). reflexivity.
  - intros N. rewrite (proj2 (D (upper last_)) N). reflexivity.
Qed.
Example C71_month_after_ex : let value s := wos_value (fun s => s) (fun s => s) (fun s => s) (fun s => forallb (fun c => (48 <=? c) && (c <=? 57))%N s) $"PD" [s] in
  value $"EARLY-MAY 12" = Ok (FInt 5) /\ value $"1-X-12" = Ok (FText $"12") /\ value $"X-Y" = Raise KeyError /\ value $"JAN-FEB" = Ok (FInt 1).
Proof. repeat split; vm_compute; reflexivity. Qed.

(** ** C75 *)
(** Dots at the beginning of a file's name are part of the name of the collection and begin no extension. *)
Theorem C75_dots : forall alpha dir dots stem ext b c, (forall x, In x dots -> x = 46%N) -> ~ In 46%N stem -> ~ In 47%N stem ->
  (ext = [] \/ stem <> [] /\ exists e, ext = $"." ++ e /\ ~ In 46%N e /\ ~ In 47%N e) ->
  read_path alpha (dir ++ $"/" ++ dots ++ stem ++ ext) [] [] b = Ok c -> f_name c = dots ++ stem.
Proof.
  intros alpha dir dots stem ext b c DD ND NS X E.
  assert (P : path_name (dir ++ $"/" ++ dots ++ stem ++ ext) = dots ++ stem).
  { unfold path_name. change ($"/" ++ dots ++ stem ++ ext) with (47%N :: dots ++ stem ++ ext). rewrite split_end.
    - rewrite last_last. unfold splitext.
      assert (LD : lead_dots (dots ++ stem ++ ext) = length dots).
      { clear -DD ND X. induction dots as [|x dots IH].
        - destruct stem as [|y stem]; [destruct X as [->|[N _]]; [reflexivity|congruence]|]. cbn [app lead_dots length]. rewrite neq_eqb; [reflexivity|]. intros ->. apply ND. left. reflexivity.
        - cbn [app lead_dots length]. rewrite (DD x (or_introl eq_refl)), eqb_refl, IH; [reflexivity|]. intros y I1. apply DD. right. exact I1. }
      rewrite LD, skipn_app, skipn_all, Nat.sub_diag, firstn_app, firstn_all, Nat.sub_diag. cbn [skipn app firstn]. rewrite app_nil_r. f_equal. destruct X as [->|(NE & e & -> & ED & _)].
      + rewrite app_nil_r. destruct (mem 46%N stem) eqn:M; [apply mem_In in M; contradiction|reflexivity].
      + assert (M : mem 46%N (stem ++ $"." ++ e) = true) by (apply mem_In; rewrite !in_app_iff; right; left; left; reflexivity). rewrite M. change ($"." ++ e) with (46%N :: e). rewrite split_end by exact ED. rewrite removelast_last. apply join_split.
    - rewrite !in_app_iff. intros [I1|[I1|I1]]; [apply DD in I1; discriminate I1|exact (NS I1)|]. destruct X as [->|(_ & e & -> & _ & ES)]; [exact I1|]. destruct I1 as [I1|I1]; [discriminate I1|exact (ES I1)]. }
  unfold read_path in E. change (ends_in [] (dir ++ $"/" ++ dots ++ stem ++ ext)) with true in E. cbn [negb] in E. rewrite P in E. revert E. generalize handlers. intros hs. induction hs as [|k hs IH]; cbn [try_handlers]; [discriminate|].
  destruct (detector k b); [|exact IH]. destruct (processor alpha k b) as [[rs e]|]; [|discriminate]. intros E. injection E as <-. reflexivity.
Qed.
Example C75_dots_ex : path_name $"dir/..bees.txt" = $"..bees" /\ path_name $"dir/.txt" = $".txt" /\ path_name $"dir/..." = $"...".
Proof. repeat split; vm_compute; reflexivity. Qed.

Print Assumptions C26_white.
Print Assumptions C26_no_blank_refuted.
Print Assumptions C50_no_list.
Print Assumptions C50_not_fetched.
Print Assumptions C71_month_after.
Print Assumptions C75_dots.
