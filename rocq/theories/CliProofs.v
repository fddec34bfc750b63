(** Proofs about the command line dialogue: CliModel.v against CliSpec.v. *)
From Coq Require Import List ZArith Lia Bool Arith.
From Coq Require Import String.
From Verif Require Import Base PyStr Nx NxFacts GraphHelpersModel GraphHelpersSpec GraphHelpersProofs CliModel CliSpec.
Import ListNotations.
Local Open Scope list_scope.

(** ** Lines *)
Lemma skip_line (P : str -> Prop) x ls s r : ~ P x -> first_accepted P ls s r -> first_accepted P (x :: ls) s r.
Proof. intros N (b & -> & A & F). exists (x :: b). split; [reflexivity|]. split; [exact A|]. intros y [<-|I]; auto. Qed.
Lemma this_line (P : str -> Prop) x ls : P x -> first_accepted P (x :: ls) x ls.
Proof. intros A. exists []. split; [reflexivity|]. split; [exact A|]. intros y []. Qed.
Lemma first_same (P Q : str -> Prop) ls s r : (forall x, P x <-> Q x) -> first_accepted P ls s r -> first_accepted Q ls s r.
Proof. intros E (b & -> & A & F). exists b. split; [reflexivity|]. split; [apply E, A|]. intros x I Y. apply (F x I), E, Y. Qed.
Lemma first_unique (P : str -> Prop) ls s r s' r' : first_accepted P ls s r -> first_accepted P ls s' r' -> s' = s /\ r' = r.
Proof.
  intros (b & -> & A & F) (b' & E & A' & F'). revert b' E F F'. induction b as [|x b IH]; intros [|x' b'] E F F'; cbn in E.
  - injection E as -> ->. auto.
  - injection E as -> E. destruct (F' x' (or_introl eq_refl) A).
  - injection E as -> E. destruct (F s' (or_introl eq_refl) A').
  - injection E as -> E. apply (IH b' E); intros y I; [apply F|apply F']; right; exact I.
Qed.
Lemma first_shorter (P : str -> Prop) ls s r : first_accepted P ls s r -> length r < length ls.
Proof. intros (b & -> & _). rewrite app_length. cbn. lia. Qed.

Lemma menu_line_ok options ls : ~ In $"q" options -> ~ In $"i" options -> match menu_from options true ls with
  | (Selected k, r) => In k options /\ first_accepted (menu_line options) ls k r
  | (Leave, r) => first_accepted (menu_line options) ls $"q" r
  | (Console, r) => first_accepted (menu_line options) ls $"i" r
  | (NoMore, r) => r = [] /\ none_accepted (menu_line options) ls
  end.
Proof.
  intros NQ NI. induction ls as [|s ls IH]; cbn [menu_from]; [split; [reflexivity|intros x []]|]. unfold menu_line in *.
  destruct (mem s options) eqn:M. { apply mem_In in M. split; [exact M|]. apply this_line. auto. }
  apply mem_not_In in M. cbn [andb]. destruct (@eqb_spec str _ s $"q") as [->|N1]; [apply this_line; auto|].
  destruct (@eqb_spec str _ s $"i") as [->|N2]; [apply this_line; auto|].
  assert (NA : ~ (In s options \/ s = $"q" \/ s = $"i")) by tauto.
  destruct (menu_from options true ls) as [[k| | |] r].
  - destruct IH as [I F]. split; [exact I|]. apply skip_line; assumption.
  - apply skip_line; assumption.
  - apply skip_line; assumption.
  - destruct IH as (E & F). split; [exact E|]. intros x [<-|I]; [exact NA|apply F, I].
Qed.
Section Lines.
Variable upper : str -> str.
Lemma yes_no_line ls : match yes_no_from upper ls with
  | (Some b, r) => exists s, first_accepted (fun s => upper s = $"Y" \/ upper s = [] \/ upper s = $"N") ls s r /\ (b = true <-> upper s <> $"N")
  | (None, r) => r = [] /\ none_accepted (fun s => upper s = $"Y" \/ upper s = [] \/ upper s = $"N") ls
  end.
Proof.
  induction ls as [|s ls IH]; cbn [yes_no_from]; [split; [reflexivity|intros x []]|].
  destruct (@eqb_spec str _ (upper s) $"Y") as [E|N1]; cbn [orb].
  { exists s. split; [apply this_line; auto|]. rewrite E. split; [discriminate|reflexivity]. }
  destruct (@eqb_spec str _ (upper s) []) as [E|N2].
  { exists s. split; [apply this_line; auto|]. rewrite E. split; [discriminate|reflexivity]. }
  destruct (@eqb_spec str _ (upper s) $"N") as [E|N3].
  { exists s. split; [apply this_line; auto|]. rewrite E. split; [discriminate|congruence]. }
  assert (NA : ~ (upper s = $"Y" \/ upper s = [] \/ upper s = $"N")) by tauto.
  destruct (yes_no_from upper ls) as [[b|] r].
  - destruct IH as (x & F & B). exists x. split; [apply skip_line; assumption|exact B].
  - destruct IH as (E & F). split; [exact E|]. intros x [<-|I]; [exact NA|apply F, I].
Qed.
Variable tags : list str.
Lemma tag_line nmode ls : let ok := fun s => In (upper s) tags \/ (nmode = true /\ upper s = []) in match tag_from upper tags nmode ls with
  | (Some (Some t), r) => exists s, first_accepted ok ls s r /\ In (upper s) tags /\ t = upper s
  | (Some None, r) => exists s, first_accepted ok ls s r /\ ~ In (upper s) tags /\ upper s = []
  | (None, r) => r = [] /\ none_accepted ok ls
  end.
Proof.
  intros ok. subst ok. induction ls as [|s ls IH]; cbn [tag_from]; [split; [reflexivity|intros x []]|]. cbv beta.
  destruct (mem (upper s) tags) eqn:M. { apply mem_In in M. exists s. split; [apply this_line; auto|]. auto. }
  apply mem_not_In in M. destruct (nmode && eqb (upper s) []) eqn:B.
  { apply andb_true_iff in B as [-> B]. apply (proj1 (eqb_true _ _)) in B. exists s. split; [apply this_line; auto|]. auto. }
  assert (NA : ~ (In (upper s) tags \/ (nmode = true /\ upper s = []))).
  { intros [I|[-> E]]; [contradiction|]. rewrite E in B. discriminate. }
  destruct (tag_from upper tags nmode ls) as [[[t|]|] r].
  - destruct IH as (x & F & B'). exists x. split; [apply skip_line; assumption|exact B'].
  - destruct IH as (x & F & B'). exists x. split; [apply skip_line; assumption|exact B'].
  - destruct IH as (E & F). split; [exact E|]. intros x [<-|I]; [exact NA|apply F, I].
Qed.
End Lines.
Section Numbers.
Variable to_number : str -> option ext.
Lemma number_line ls : match number_from to_number ls with
  | (Some x, r) => typed_number to_number ls x r
  | (None, r) => r = [] /\ none_accepted (fun s => to_number s <> None) ls
  end.
Proof.
  induction ls as [|s ls IH]; cbn [number_from]; [split; [reflexivity|intros x []]|].
  destruct (to_number s) as [x|] eqn:E. { exists s. split; [apply this_line; rewrite E; discriminate|exact E]. }
  assert (NA : ~ (to_number s <> None)) by (rewrite E; tauto).
  destruct (number_from to_number ls) as [[x|] r].
  - destruct IH as (t & F & T). exists t. split; [apply skip_line; assumption|exact T].
  - destruct IH as (Q & F). split; [exact Q|]. intros x [<-|I]; [exact NA|apply F, I].
Qed.
End Numbers.

(** ** Steps of a session *)
(** nothing but lines is used up *)
Definition quiet {A} (m : io A) : Prop := forall w o w', m w = (o, w') -> files w' = files w /\ events w' = events w.
Lemma quiet_ret A (a : A) : quiet (ret a). Proof. intros w o w' E. injection E as <- <-. auto. Qed.
Lemma quiet_err A e : quiet (@err A e). Proof. intros w o w' E. injection E as <- <-. auto. Qed.
Lemma quiet_ask : quiet ask.
Proof. intros w o w' E. unfold ask in E. destruct (typed w); injection E as <- <-; auto. Qed.
Lemma quiet_then A B (m : io A) (k : A -> io B) : quiet m -> (forall a, quiet (k a)) -> quiet (andthen m k).
Proof.
  intros M K w o w' E. unfold andthen in E. destruct (m w) as [[a| |e] w1] eqn:X.
  - destruct (M _ _ _ X) as [F1 V1]. destruct (K a _ _ _ E) as [F2 V2]. split; congruence.
  - injection E as <- <-. exact (M _ _ _ X).
  - injection E as <- <-. exact (M _ _ _ X).
Qed.
Lemma quiet_turns A (f : nat -> io A) : (forall n, quiet (f n)) -> quiet (turns f).
Proof. intros F w o w' E. exact (F _ _ _ _ E). Qed.
Lemma quiet_menu options : quiet (menu options).
Proof. intros w o w' E. unfold menu in E. destruct (menu_from options true (typed w)) as [s r]. injection E as <- <-. auto. Qed.
Lemma quiet_tag upper tags nmode : quiet (tag_or_blank upper tags nmode).
Proof. intros w o w' E. unfold tag_or_blank in E. destruct (tag_from _ _ _ _) as [[t|] r]; injection E as <- <-; auto. Qed.
Lemma quiet_number to_number : quiet (number to_number).
Proof. intros w o w' E. unfold number in E. destruct (number_from _ _) as [[t|] r]; injection E as <- <-; auto. Qed.
Lemma quiet_files arg_files absolute : quiet (get_files arg_files absolute).
Proof.
  intros w o w' E. unfold get_files in E. destruct arg_files as [|f fs].
  - destruct (paths_from _ _ _) as [[p|] r]; [destruct (all_there _ _ _)|]; injection E as <- <-; auto.
  - destruct (all_there _ _ _); injection E as <- <-; auto.
Qed.
Lemma quiet_one_tag upper tags : quiet (tag upper tags).
Proof. apply quiet_then; [apply quiet_tag|]. intros [t|]; [apply quiet_ret|apply quiet_err]. Qed.
Lemma quiet_more upper tags n : quiet (more_tags upper tags n).
Proof.
  induction n as [|n IH]; cbn [more_tags]; [apply quiet_err|]. apply quiet_then; [apply quiet_tag|].
  intros [[|x t]|]; try apply quiet_ret. apply quiet_then; [exact IH|]. intros a. apply quiet_ret.
Qed.
Lemma quiet_request upper tags : quiet (get_request upper tags).
Proof.
  apply quiet_then; [apply quiet_menu|]. intros k.
  destruct (eqb k $"1"). { apply quiet_then; [apply quiet_one_tag|]. intros; apply quiet_ret. }
  destruct (eqb k $"2"). { apply quiet_then; [apply quiet_one_tag|]. intros t. apply quiet_then; [apply quiet_one_tag|]. intros; apply quiet_ret. }
  destruct (eqb k $"3"). { apply quiet_then; [apply quiet_one_tag|]. intros t. apply quiet_then; [apply quiet_turns, quiet_more|]. intros; apply quiet_ret. }
  destruct (eqb k $"4"); [apply quiet_ret|]. destruct (eqb k $"5"); apply quiet_ret.
Qed.
Lemma quiet_network upper tags make : quiet (get_network upper tags make).
Proof. apply quiet_then; [apply quiet_request|]. intros r. destruct (make r); [apply quiet_ret|apply quiet_err]. Qed.
Lemma quiet_lift o : quiet (lift o).
Proof. destruct o as [g [e|]]; [apply quiet_err|apply quiet_ret]. Qed.
Lemma quiet_thresholds to_number n : forall g, quiet (thresholds_loop to_number n g).
Proof.
  induction n as [|n IH]; intros g; cbn [thresholds_loop]; [apply quiet_err|]. apply quiet_then; [apply quiet_menu|]. intros k.
  destruct (eqb k $"0"); [apply quiet_ret|].
  destruct (eqb k $"1"). { apply quiet_then; [apply quiet_lift|]. exact IH. }
  destruct (eqb k $"2"). { apply quiet_then; [apply quiet_lift|]. exact IH. }
  destruct (eqb k $"3"). { apply quiet_then; [apply quiet_number|]. intros x. apply quiet_then; [apply quiet_lift|exact IH]. }
  destruct (eqb k $"4"). { apply quiet_then; [apply quiet_number|]. intros x. apply quiet_then; [apply quiet_lift|exact IH]. }
  destruct (eqb k $"5"); (apply quiet_then; [apply quiet_number|]; intros x; apply quiet_then; [apply quiet_lift|exact IH]).
Qed.

(** ** Files *)
Lemma snoc_case A (l : list A) e before x after : l ++ [e] = before ++ x :: after -> (after = [] /\ before = l /\ x = e) \/ (exists a', after = a' ++ [e] /\ l = before ++ x :: a').
Proof.
  intros E. destruct (@exists_last _ (x :: after) ltac:(discriminate)) as (l' & y & F). rewrite F, app_assoc in E. apply app_inj_tail in E as [-> ->].
  destruct l' as [|z l']; cbn in F; injection F as -> ->; [left; rewrite app_nil_r; auto|right; exists l'; auto].
Qed.
Lemma careful_snoc l e : careful l -> (forall k f, e = Wrote k f true -> confirmed l k f) -> careful (l ++ [e]).
Proof. intros C N before k f after E. apply snoc_case in E as [(-> & -> & E)|(a & -> & E)]; [apply N; congruence|exact (C _ _ _ _ E)]. Qed.
Definition knows (fs0 fs : list str) (l : list event) : Prop := forall f, In f fs <-> In f fs0 \/ written l f.
Definition sound (fs0 : list str) (w : world) : Prop := truthful fs0 (events w) /\ knows fs0 (files w) (events w).
Lemma written_snoc l e f : written (l ++ [e]) f <-> written l f \/ exists k o, e = Wrote k f o.
Proof.
  unfold written. split.
  - intros (k & o & I). apply in_app_iff in I as [I|[E|[]]]; [left; eauto|right; eauto].
  - intros [(k & o & I)|(k & o & ->)]; exists k, o; apply in_app_iff; [left; exact I|right; left; reflexivity].
Qed.
Lemma sound_other fs0 w w' e : (forall k f o, e <> Wrote k f o) -> sound fs0 w -> files w' = files w -> events w' = events w ++ [e] -> sound fs0 w'.
Proof.
  intros N [T K] F E. split; rewrite E.
  - intros before k f o after Q. apply snoc_case in Q as [(_ & _ & Q)|(a & -> & Q)]; [destruct (N k f o); congruence|exact (T _ _ _ _ _ Q)].
  - intros f. rewrite F, (K f), written_snoc. split; [tauto|]. intros [H|[H|(k & o & Q)]]; auto. destruct (N _ _ _ Q).
Qed.
Lemma sound_write fs0 w k f o w' : sound fs0 w -> write k f w = (o, w') -> sound fs0 w' /\ o = Ret tt /\ typed w' = typed w /\ exists b, events w' = events w ++ [Wrote k f b] /\ (b = true <-> In f (files w)).
Proof.
  intros [T K] E. unfold write in E. injection E as <- <-. cbn [files events typed]. split; [|split; [reflexivity|split; [reflexivity|exists (mem f (files w)); split; [reflexivity|apply mem_In]]]].
  split; cbn [files events].
  - intros before k' f' o' after Q. apply snoc_case in Q as [(_ & -> & Q)|(a & -> & Q)]; [|exact (T _ _ _ _ _ Q)]. injection Q as -> -> ->. rewrite mem_In. apply K.
  - intros f'. rewrite written_snoc. destruct (mem f (files w)) eqn:M.
    + apply mem_In in M. rewrite (K f'). split; [tauto|]. intros [H|[H|(k' & o' & Q)]]; auto. injection Q as _ -> _. apply K, M.
    + rewrite in_app_iff, (K f'). cbn [In]. split.
      * intros [[H|H]|[->|[]]]; eauto.
      * intros [H|[H|(k' & o' & Q)]]; auto. injection Q as _ -> _. auto.
Qed.
Definition good (fs0 : list str) (w : world) : Prop := sound fs0 w /\ careful (events w).
(** a step that keeps the log good *)
Definition keeps fs0 {A} (m : io A) : Prop := forall w o w', m w = (o, w') -> good fs0 w -> good fs0 w'.
Lemma keeps_quiet fs0 A (m : io A) : quiet m -> keeps fs0 m.
Proof. intros Q w o w' E [[T K] C]. destruct (Q _ _ _ E) as [F V]. split; [split|]; rewrite ?F, ?V; assumption. Qed.
Lemma keeps_then fs0 A B (m : io A) (k : A -> io B) : keeps fs0 m -> (forall a, keeps fs0 (k a)) -> keeps fs0 (andthen m k).
Proof.
  intros M K w o w' E G. unfold andthen in E. destruct (m w) as [[a| |e] w1] eqn:X.
  - exact (K a _ _ _ E (M _ _ _ X G)).
  - injection E as <- <-. exact (M _ _ _ X G).
  - injection E as <- <-. exact (M _ _ _ X G).
Qed.
Lemma keeps_turns fs0 A (f : nat -> io A) : (forall n, keeps fs0 (f n)) -> keeps fs0 (turns f).
Proof. intros F w o w' E. exact (F _ _ _ _ E). Qed.
Lemma good_other fs0 w w' e : (forall k f o, e <> Wrote k f o) -> good fs0 w -> files w' = files w -> events w' = events w ++ [e] -> good fs0 w'.
Proof. intros N [S C] F E. split; [exact (sound_other _ _ _ _ N S F E)|]. rewrite E. apply careful_snoc; [exact C|]. intros k f Q. destruct (N _ _ _ Q). Qed.
Lemma yes_no_ends upper q w o w' : yes_no upper q w = (o, w') -> files w' = files w /\
  ((exists b, o = Ret b /\ events w' = events w ++ [Asked q b]) \/ (o = Err EOFError /\ events w' = events w)).
Proof. intros E. unfold yes_no in E. destruct (yes_no_from upper (typed w)) as [[b|] r]; injection E as <- <-; cbn; eauto. Qed.
Lemma keeps_yes_no fs0 upper q : keeps fs0 (yes_no upper q).
Proof.
  intros w o w' E G. destruct (yes_no_ends _ _ _ _ _ E) as (F & [(b & _ & V)|(_ & V)]).
  - exact (good_other fs0 w w' (Asked q b) ltac:(discriminate) G F V).
  - destruct G as [[T K] C]. split; [split|]; rewrite ?F, ?V; assumption.
Qed.
Lemma keeps_note fs0 e : (forall k f o, e <> Wrote k f o) -> keeps fs0 (note e).
Proof. intros N w o w' E G. unfold note in E. injection E as <- <-. exact (good_other fs0 w (World (typed w) (files w) (events w ++ [e])) e N G eq_refl eq_refl). Qed.

Section Whole.
Variable upper : str -> str.
(** the name that is asked for belongs to no file or the user has said yes *)
Lemma name_ok fs0 suffix n : forall checking w o w', name_loop upper None suffix n checking w = (o, w') -> good fs0 w -> good fs0 w' /\
  match o with Ret f => checking = true -> ~ In f (files w') \/ exists l, events w' = l ++ [Asked (overwrite_question f) true] | _ => True end.
Proof.
  induction n as [|n IH]; intros checking w o w' E G; cbn [name_loop] in E; [injection E as <- <-; auto|].
  unfold andthen in E. destruct (ask w) as [[s| |e] w1] eqn:A; [|injection E as <- <-; split; [exact (keeps_quiet fs0 _ _ quiet_ask _ _ _ A G)|auto]|injection E as <- <-; split; [exact (keeps_quiet fs0 _ _ quiet_ask _ _ _ A G)|auto]].
  pose proof (keeps_quiet fs0 _ _ quiet_ask _ _ _ A G) as G1.
  assert (X : forall (f : str) w2, (match f with [] => name_loop upper None suffix n true | _ :: _ => fun w => match there f w with (Ret a, w') => (if a && checking then fun w => match yes_no upper (f ++ $" already exists overwrite (y/n)? ") w with (Ret a, w') => (if a then ret f else name_loop upper None suffix n true) w' | (Quit, w') => (Quit, w') | (Err e, w') => (Err e, w') end else ret f) w' | (Quit, w') => (Quit, w') | (Err e, w') => (Err e, w') end end) w2 = (o, w') -> good fs0 w2 -> good fs0 w' /\
    match o with Ret f => checking = true -> ~ In f (files w') \/ exists l, events w' = l ++ [Asked (overwrite_question f) true] | _ => True end).
  { intros f w2 Q G2. destruct f as [|c f].
    - destruct (IH _ _ _ _ Q G2) as [H1 H2]. split; [exact H1|]. destruct o; auto.
    - unfold there in Q. destruct (@mem str _ (c :: f) (files w2)) eqn:M; cbn [andb] in Q.
      + destruct checking.
        * destruct (yes_no _ _ w2) as [o3 w3] eqn:Y. pose proof (keeps_yes_no fs0 _ _ _ _ _ Y G2) as G3. destruct (yes_no_ends _ _ _ _ _ Y) as (F & [(b & -> & V)|(-> & V)]).
          -- destruct b.
             ++ unfold ret in Q. injection Q as <- <-. split; [exact G3|]. intros _. right. exists (events w2). exact V.
             ++ destruct (IH _ _ _ _ Q G3) as [H1 H2]. split; [exact H1|]. destruct o; auto.
          -- injection Q as <- <-. auto.
        * unfold ret in Q. injection Q as <- <-. split; [exact G2|discriminate].
      + unfold ret in Q. injection Q as <- <-. split; [exact G2|]. intros _. left. apply mem_not_In, M. }
  exact (X (s ++ suffix) w1 E G1).
Qed.
Lemma keeps_name fs0 suffix checking : keeps fs0 (output_name upper None suffix checking).
Proof. intros w o w' E G. exact (proj1 (name_ok _ _ _ _ _ _ _ E G)). Qed.
(** a file is written under that name *)
Lemma keeps_write_named fs0 suffix k : keeps fs0 (andthen (output_name upper None suffix true) (fun f => write k f)).
Proof.
  intros w o w' E G. unfold andthen in E. destruct (output_name upper None suffix true w) as [o1 w1] eqn:N. destruct (name_ok _ _ _ _ _ _ _ N G) as [[S C] P].
  destruct o1 as [f| |e]; [|injection E as <- <-; split; assumption|injection E as <- <-; split; assumption].
  destruct (sound_write _ _ _ _ _ _ S E) as (S2 & _ & _ & b & V & B). split; [exact S2|]. rewrite V. apply careful_snoc; [exact C|]. intros k' f' Q. injection Q as -> <- Q.
  destruct (P eq_refl) as [NI|(l & L)]; [destruct (NI (proj1 B Q))|]. exists l. left. exact L.
Qed.
Lemma keeps_write_named' fs0 suffix k A (a : A) : keeps fs0 (andthen (output_name upper None suffix true) (fun f => andthen (write k f) (fun _ => ret a))).
Proof.
  intros w o w' E G. assert (X : exists o', andthen (output_name upper None suffix true) (fun f => write k f) w = (o', w')).
  { unfold andthen in *. destruct (output_name upper None suffix true w) as [[f| |e] w1]; [|injection E as <- <-; eauto|injection E as <- <-; eauto].
    destruct (write k f w1) as [[u| |e] w2]; unfold ret in E; injection E as <- <-; eauto. }
  destruct X as [o' X]. exact (keeps_write_named _ _ _ _ _ _ X G).
Qed.
Section Over.
Variable cite : Type.
Variable journal : cite -> option str.
Variable in_db excluded : str -> list event -> cite -> bool.
Lemma keeps_over fs0 db cs : keeps fs0 (go_over upper _ journal in_db excluded db cs).
Proof.
  induction cs as [|c cs IH]; cbn [go_over]; [apply keeps_quiet, quiet_ret|]. destruct (journal c) as [j|]; [|exact IH].
  intros w o w' E G. destruct (in_db _ _ _); [exact (IH _ _ _ E G)|]. destruct (excluded _ _ _); [exact (IH _ _ _ E G)|]. revert E G. refine (keeps_then fs0 _ _ _ _ (keeps_yes_no _ _ _) _ w o w').
  intros b. apply keeps_then; [apply keeps_note; destruct b; discriminate|]. intros _. exact IH.
Qed.
Lemma keeps_what fs0 cites : keeps fs0 (what_to_do upper None _ journal in_db excluded cites).
Proof.
  unfold what_to_do. apply keeps_then; [apply keeps_quiet, quiet_menu|]. intros k.
  destruct (eqb k $"1"); [apply keeps_quiet, quiet_ret|].
  destruct (eqb k $"2" || eqb k $"3"); [apply keeps_write_named'|].
  destruct (eqb k $"4" || eqb k $"5"); [apply keeps_write_named'|].
  destruct (eqb k $"6"). { apply keeps_then; [apply keeps_yes_no|]. intros _. apply keeps_write_named'. }
  apply keeps_then; [apply keeps_quiet, quiet_ask|]. intros db. apply keeps_then; [apply keeps_over|]. intros _. apply keeps_quiet, quiet_ret.
Qed.
End Over.
(** the two files of a graph *)
Lemma graph_new fs0 s w o w' : write_graph s false w = (o, w') -> good fs0 w -> good fs0 w'.
Proof.
  intros E [S C]. unfold write_graph, andthen, there, ret in E. destruct (mem (graph_name $"edgeList" s) (files w)) eqn:M1; [injection E as <- <-; split; assumption|].
  destruct (mem (graph_name $"nodeAttributes" s) (files w)) eqn:M2; [injection E as <- <-; split; assumption|]. cbn [negb orb andb] in E.
  destruct (write EdgeFile _ w) as [o1 w1] eqn:W1. destruct (sound_write _ _ _ _ _ _ S W1) as (S1 & -> & T1 & b1 & V1 & B1).
  destruct (write NodeFile _ w1) as [o2 w2] eqn:W2. destruct (sound_write _ _ _ _ _ _ S1 W2) as (S2 & -> & T2 & b2 & V2 & B2). injection E as <- <-.
  split; [exact S2|]. apply mem_not_In in M1. apply mem_not_In in M2. rewrite V2, V1. apply careful_snoc; [apply careful_snoc; [exact C|]|].
  - intros k f Q. injection Q as _ _ Q. destruct (M1 (proj1 B1 Q)).
  - intros k f Q. injection Q as <- <- Q. exfalso. apply B2 in Q. destruct S1 as [_ K1]. destruct S as [_ K]. apply K1 in Q. rewrite V1, written_snoc in Q.
    destruct Q as [Q|[Q|(k' & o' & Q)]]; [apply M2, K; auto|apply M2, K; auto|]. injection Q as _ Q _. revert Q. unfold graph_name. set (p := normpath s).
    destruct (last (split_char 47%N p) []) as [|c l]; intros Q; apply app_inv_head in Q; discriminate.
Qed.
Lemma graph_over fs0 s w o w' l : write_graph s true w = (o, w') -> good fs0 w -> events w = l ++ [Asked graph_question true] -> good fs0 w'.
Proof.
  intros E [S C] L. unfold write_graph, andthen, there, ret in E. cbn [negb andb] in E.
  destruct (write EdgeFile _ w) as [o1 w1] eqn:W1. destruct (sound_write _ _ _ _ _ _ S W1) as (S1 & -> & T1 & b1 & V1 & B1).
  destruct (write NodeFile _ w1) as [o2 w2] eqn:W2. destruct (sound_write _ _ _ _ _ _ S1 W2) as (S2 & -> & T2 & b2 & V2 & B2). injection E as <- <-.
  split; [exact S2|]. rewrite V2, V1. apply careful_snoc; [apply careful_snoc; [exact C|]|].
  - intros k f Q. injection Q as <- <- Q. exists l. right. left. split; [reflexivity|exact L].
  - intros k f Q. injection Q as <- <- Q. exists l. right. right. split; [reflexivity|]. eexists _, _. rewrite L, <- app_assoc. reflexivity.
Qed.
Lemma keeps_graph_out fs0 n : keeps fs0 (graph_out upper None n).
Proof.
  induction n as [|n IH]; cbn [graph_out]; [apply keeps_quiet, quiet_err|]. apply keeps_then; [apply keeps_name|]. intros f. apply keeps_then; [intros w o w'; apply graph_new|].
  intros [u|e]; [apply keeps_quiet, quiet_ret|]. intros w o w' E G. unfold andthen in E at 1. destruct (yes_no upper _ w) as [o1 w1] eqn:Y. pose proof (keeps_yes_no fs0 _ _ _ _ _ Y G) as G1.
  destruct (yes_no_ends _ _ _ _ _ Y) as (F & [(b & -> & V)|(-> & V)]); [|injection E as <- <-; exact G1].
  destruct b; [|exact (IH _ _ _ E G1)]. unfold andthen in E. destruct (write_graph f true w1) as [o2 w2] eqn:W. pose proof (graph_over _ _ _ _ _ _ W G1 V) as G2. destruct o2; unfold ret in E; injection E as <- <-; exact G2.
Qed.
Lemma keeps_output fs0 contour n : keeps fs0 (output_loop upper None contour n).
Proof.
  induction n as [|n IH]; cbn [output_loop]; [apply keeps_quiet, quiet_err|]. apply keeps_then; [apply keeps_quiet, quiet_menu|]. intros k.
  destruct (eqb k $"0"). { apply keeps_then; [apply keeps_note; discriminate|]. intros _. exact IH. }
  destruct (eqb k $"1"); [apply keeps_turns, keeps_graph_out|]. destruct (eqb k $"2"); [apply keeps_write_named|]. destruct (eqb k $"3"); apply keeps_write_named.
Qed.
End Whole.

(** ** Filters *)
Lemma scan_ints (V : Type) (E : EqDec V) lo hi k es l : drop_edges_scan (V:=V) lo hi k false es = Ok l -> forall u v a, In (u, v, a) es -> exists z, int_attr k a z.
Proof.
  revert l. induction es as [|[[u v] a] es IH]; intros l; cbn [drop_edges_scan]; [intros _ u v a []|]. destruct (dget k a) as [x|] eqn:K; [|discriminate]. destruct (as_int x) as [z|] eqn:A; [|discriminate].
  destruct (drop_edges_scan lo hi k false es) as [r|] eqn:S; [|discriminate]. intros _ u' v' a' [Q|I]; [injection Q as <- <- <-; exists z, x; auto|exact (IH r eq_refl u' v' a' I)].
Qed.
Lemma edges_from_ok x (g g' : graph str) : WF g -> by_edge x false g = (g', None) -> WF g' /\ gdir g' = gdir g /\ as_announced (EdgesFrom x) g g'.
Proof.
  intros W Q. destruct (drop_edges_ok x PInf $"weight" false false W Q) as (W' & D & N & E). split; [exact W'|]. split; [exact D|]. split; [intros n; unfold nd; rewrite N; reflexivity|].
  intros NX u v a. rewrite E. unfold kept, weighs. split.
  - intros (H & _ & [[H1 _]|[H1|H1]]); [contradiction| |auto]. exfalso. unfold by_edge, drop_edges in Q. cbv zeta in Q. replace (negb (eqb x MInf) || negb (eqb PInf PInf)) with true in Q by (rewrite (neq_eqb NX); reflexivity).
    destruct (drop_edges_scan x PInf $"weight" false (edges g)) as [l|] eqn:S; [|discriminate]. destruct (@edges_complete str _ g u v a W H) as [I|[_ I]];
      destruct (scan_ints _ _ _ _ _ _ _ S _ _ _ I) as (z & y & Y & _); congruence.
  - intros (H & H1). split; [exact H|]. split; [discriminate|auto].
Qed.
Lemma no_loops_ok (g g' : graph str) : WF g -> by_edge MInf true g = (g', None) -> WF g' /\ gdir g' = gdir g /\ as_announced NoLoops g g'.
Proof.
  intros W Q. destruct (drop_edges_ok MInf PInf $"weight" false true W Q) as (W' & D & N & E). split; [exact W'|]. split; [exact D|]. split; [intros n; unfold nd; rewrite N; reflexivity|].
  intros u v a. rewrite E. unfold kept. split; [intros (H & H1 & _); auto|]. intros (H & H1). split; [exact H|]. split; [auto|]. left. auto.
Qed.
Lemma nodes_from_ok x (g g' : graph str) : WF g -> by_degree x g = (g', None) -> WF g' /\ gdir g' = gdir g /\ (gdir g = false -> as_announced (NodesFrom x) g g').
Proof.
  intros W Q. destruct (drop_nodes_by_degree_ok x PInf true $"weight" true W Q) as (W' & D & N & E). split; [exact W'|]. split; [exact D|]. intros UD.
  assert (X : forall n, weighted_degree g n = deg true $"weight" g n) by (intros n; unfold weighted_degree, deg; rewrite UD; reflexivity).
  split; [intros n a; rewrite X; apply N|intros u v a; rewrite !X; apply E].
Qed.
Lemma zsum_pos (l : list Z) : (forall z, In z l -> (1 <= z)%Z) -> (0 <= zsum l)%Z /\ (l <> [] -> (1 <= zsum l)%Z).
Proof.
  induction l as [|x l IH]; intros H; cbn [zsum]; [split; [lia|congruence]|]. destruct (IH (fun z I => H z (or_intror I))) as [A _]. pose proof (H x (or_introl eq_refl)). split; [lia|intros _; lia].
Qed.
Lemma no_isolates_ok (g g' : graph str) : WF g -> gdir g = false -> by_degree (Fin 1) g = (g', None) -> as_announced NoIsolates g g'.
Proof.
  intros W UD Q. destruct (nodes_from_ok _ _ _ W Q) as (_ & _ & H). specialize (H UD). cbn [as_announced] in *. intros P.
  assert (X : forall n, in_range (Fin 1) (weighted_degree g n) PInf <-> exists e, In e (edges g) /\ touches n e = true).
  { intros n. unfold weighted_degree, in_range. remember (filter (touches n) (edges g)) as l eqn:HL.
    assert (A : forall z, In z (map (weight_or_1 $"weight") l) -> (1 <= z)%Z) by (intros z I; apply in_map_iff in I as (e & <- & I); rewrite HL in I; apply filter_In in I as [I _]; apply P, I).
    destruct (zsum_pos _ A) as [_ B]. split.
    - intros [L _]. destruct l as [|e l']; [cbn in L; lia|]. exists e. apply (proj1 (filter_In (touches n) e (edges g))). rewrite <- HL. left. reflexivity.
    - intros (e & I). apply (proj2 (filter_In (touches n) e (edges g))) in I. rewrite <- HL in I. split; [|exact Logic.I]. apply B. destruct l; [destruct I|cbn; discriminate]. }
  destruct H as [H1 H2]. split; [intros n a; rewrite H1, X; reflexivity|]. intros u v a. rewrite (H2 u v a), !X. reflexivity.
Qed.

Section Filters.
Variable to_number : str -> option ext.
Lemma filter_menu w k w' : menu filter_options w = (Ret k, w') -> In k filter_options /\ first_accepted (menu_line filter_options) (typed w) k (typed w').
Proof.
  intros E. unfold menu in E. pose proof (menu_line_ok filter_options (typed w) ltac:(apply mem_not_In; reflexivity) ltac:(apply mem_not_In; reflexivity)) as M.
  destruct (menu_from filter_options true (typed w)) as [[k'| | |] r]; injection E as E1 E2; try discriminate. subst. exact M.
Qed.
Lemma number_ok w x w' : number to_number w = (Ret x, w') -> typed_number to_number (typed w) x (typed w').
Proof.
  intros E. unfold number in E. pose proof (number_line to_number (typed w)) as M. destruct (number_from to_number (typed w)) as [[y|] r]; injection E as E1 E2; try discriminate. subst. exact M.
Qed.
Lemma lift_ok o w g w' : lift o w = (Ret g, w') -> o = (g, None) /\ w' = w.
Proof. destruct o as [g1 [e|]]; intros E; unfold lift, err, ret in E; [discriminate|]. injection E as -> ->. auto. Qed.
Lemma then_ok A B (m : io A) (k : A -> io B) w b w' : andthen m k w = (Ret b, w') -> exists a w1, m w = (Ret a, w1) /\ k a w1 = (Ret b, w').
Proof. intros E. unfold andthen in E. destruct (m w) as [[a| |e] w1]; [eauto|discriminate|discriminate]. Qed.
Lemma thresholds_ok n : forall g w g' w', WF g -> gdir g = false -> thresholds_loop to_number n g w = (Ret g', w') ->
  exists fs, asks_for to_number (typed w) fs (typed w') /\ (Forall (fun f => ~ a_maximum f) fs -> one_after_another fs g g').
Proof.
  induction n as [|n IH]; intros g w g' w' W UD E; cbn [thresholds_loop] in E; [discriminate|]. apply then_ok in E as (k & w1 & M & E). apply filter_menu in M as [IK F].
  destruct (@eqb_spec str _ k $"0") as [->|N0]. { unfold ret in E. injection E as <- <-. exists []. split; [apply a_end, F|]. intros _. reflexivity. }
  destruct (@eqb_spec str _ k $"1") as [->|N1].
  { apply then_ok in E as (g1 & w2 & L & E). apply lift_ok in L as [L ->]. destruct (nodes_from_ok _ _ _ W L) as (W1 & D1 & _). destruct (IH g1 w1 g' w' W1 ltac:(congruence) E) as (fs & A & O).
    exists (NoIsolates :: fs). split; [exact (a_isolates _ _ _ _ _ F A)|]. intros NF. inversion NF; subst. exists g1. split; [apply no_isolates_ok; assumption|auto]. }
  destruct (@eqb_spec str _ k $"2") as [->|N2].
  { apply then_ok in E as (g1 & w2 & L & E). apply lift_ok in L as [L ->]. destruct (no_loops_ok _ _ W L) as (W1 & D1 & P). destruct (IH g1 w1 g' w' W1 ltac:(congruence) E) as (fs & A & O).
    exists (NoLoops :: fs). split; [exact (a_loops _ _ _ _ _ F A)|]. intros NF. inversion NF; subst. exists g1. split; [exact P|auto]. }
  destruct (@eqb_spec str _ k $"3") as [->|N3].
  { apply then_ok in E as (x & w2 & Y & E). apply number_ok in Y. apply then_ok in E as (g1 & w3 & L & E). apply lift_ok in L as [L ->]. destruct (edges_from_ok _ _ _ W L) as (W1 & D1 & P). destruct (IH g1 w2 g' w' W1 ltac:(congruence) E) as (fs & A & O).
    exists (EdgesFrom x :: fs). split; [exact (a_edges_from _ _ _ _ _ _ _ F Y A)|]. intros NF. inversion NF; subst. exists g1. split; [exact P|auto]. }
  destruct (@eqb_spec str _ k $"4") as [->|N4].
  { apply then_ok in E as (x & w2 & Y & E). apply number_ok in Y. apply then_ok in E as (g1 & w3 & L & E). apply lift_ok in L as [L ->]. destruct (edges_from_ok _ _ _ W L) as (W1 & D1 & P). destruct (IH g1 w2 g' w' W1 ltac:(congruence) E) as (fs & A & O).
    exists (EdgesTo x :: fs). split; [exact (a_edges_to _ _ _ _ _ _ _ F Y A)|]. intros NF. inversion NF; subst. cbn [a_maximum] in *. tauto. }
  destruct (@eqb_spec str _ k $"5") as [->|N5].
  { apply then_ok in E as (x & w2 & Y & E). apply number_ok in Y. apply then_ok in E as (g1 & w3 & L & E). apply lift_ok in L as [L ->]. destruct (nodes_from_ok _ _ _ W L) as (W1 & D1 & P). destruct (IH g1 w2 g' w' W1 ltac:(congruence) E) as (fs & A & O).
    exists (NodesFrom x :: fs). split; [exact (a_nodes_from _ _ _ _ _ _ _ F Y A)|]. intros NF. inversion NF; subst. exists g1. split; [exact (P UD)|auto]. }
  assert (K6 : k = $"6") by (cbn [filter_options In] in IK; intuition congruence). subst k.
  apply then_ok in E as (x & w2 & Y & E). apply number_ok in Y. apply then_ok in E as (g1 & w3 & L & E). apply lift_ok in L as [L ->]. destruct (nodes_from_ok _ _ _ W L) as (W1 & D1 & P). destruct (IH g1 w2 g' w' W1 ltac:(congruence) E) as (fs & A & O).
  exists (NodesTo x :: fs). split; [exact (a_nodes_to _ _ _ _ _ _ _ F Y A)|]. intros NF. inversion NF; subst. cbn [a_maximum] in *. tauto.
Qed.
(** every dialogue that asks for filters ends, if the weights are numbers *)
Definition number_weights (g : graph str) : Prop := forall u v a, ed g u v = Some a -> exists z, int_attr $"weight" a z.
Lemma by_edge_runs x loops (g : graph str) : WF g -> number_weights g -> exists g', by_edge x loops g = (g', None) /\ WF g' /\ number_weights g'.
Proof.
  intros W NW. destruct (@drop_edges_total str _ x PInf $"weight" false loops g W (fun u v a H => or_intror (NW u v a H))) as [g' Q]. exists g'. split; [exact Q|].
  destruct (drop_edges_ok x PInf $"weight" false loops W Q) as (W' & D & N & E). split; [exact W'|]. intros u v a H. apply E in H as [H _]. exact (NW _ _ _ H).
Qed.
Lemma by_degree_runs x (g : graph str) : WF g -> number_weights g -> exists g', by_degree x g = (g', None) /\ WF g' /\ number_weights g'.
Proof.
  intros W NW. destruct (@drop_nodes_by_degree_total str _ x PInf true $"weight" true g W (fun _ u v a H => or_intror (NW u v a H))) as [g' Q]. exists g'. split; [exact Q|].
  destruct (drop_nodes_by_degree_ok x PInf true $"weight" true W Q) as (W' & D & N & E). split; [exact W'|]. intros u v a H. apply E in H as [H _]. exact (NW _ _ _ H).
Qed.
Lemma menu_runs options ls k r fs ev : ~ In $"q" options -> ~ In $"i" options -> In k options -> first_accepted (menu_line options) ls k r -> menu options (World ls fs ev) = (Ret k, World r fs ev).
Proof.
  intros NQ NI I F. unfold menu. cbn [typed files events]. pose proof (menu_line_ok options ls NQ NI) as M. destruct (menu_from options true ls) as [[k'| | |] r'].
  - destruct M as [_ M]. destruct (first_unique _ _ _ _ _ _ F M) as [-> ->]. reflexivity.
  - destruct (first_unique _ _ _ _ _ _ F M) as [<- _]. contradiction.
  - destruct (first_unique _ _ _ _ _ _ F M) as [<- _]. contradiction.
  - destruct M as [_ M]. destruct F as (b & -> & A & _). destruct (M k); [apply in_app_iff; right; left; reflexivity|exact A].
Qed.
Lemma number_runs ls x r fs ev : typed_number to_number ls x r -> number to_number (World ls fs ev) = (Ret x, World r fs ev).
Proof.
  intros (s & F & T). unfold number. cbn [typed files events]. pose proof (number_line to_number ls) as M. destruct (number_from to_number ls) as [[y|] r'].
  - destruct M as (s' & F' & T'). destruct (first_unique _ _ _ _ _ _ F F') as [-> ->]. congruence.
  - destruct M as [_ M]. destruct F as (b & -> & A & _). destruct (M s); [apply in_app_iff; right; left; reflexivity|exact A].
Qed.
Lemma thresholds_run ls fs rest : asks_for to_number ls fs rest -> forall n g fl ev, length ls < n -> WF g -> number_weights g ->
  exists g', thresholds_loop to_number n g (World ls fl ev) = (Ret g', World rest fl ev).
Proof.
  assert (SH : forall ls x r, typed_number to_number ls x r -> length r < length ls) by (intros l x r (s & F & _); exact (first_shorter _ _ _ _ F)).
  assert (MR : forall ls k r fl ev, In k filter_options -> first_accepted (menu_line filter_options) ls k r -> menu [$"0"; $"1"; $"2"; $"3"; $"4"; $"5"; $"6"] (World ls fl ev) = (Ret k, World r fl ev)) by (intros; apply (menu_runs filter_options); try assumption; apply mem_not_In; reflexivity).
  induction 1; intros [|n] g fl ev L W NW; try (exfalso; lia); cbn [thresholds_loop]; unfold andthen at 1;
    (match type of H with first_accepted _ ?l ?k ?r => assert (IK : In k filter_options) by (unfold filter_options, In; tauto); rewrite (MR l k r fl ev IK H) end);
    match goal with F : first_accepted _ _ _ _ |- _ => pose proof (first_shorter _ _ _ _ F) end.
  - exists g. reflexivity.
  - destruct (by_degree_runs (Fin 1) g W NW) as (g1 & Q & W1 & N1). destruct (IHasks_for n g1 fl ev ltac:(lia) W1 N1) as [g' E]. exists g'. transitivity (thresholds_loop to_number n g1 (World r fl ev)); [|exact E].
    change (eqb $"1" $"0") with false. change (eqb $"1" $"1") with true. cbv iota. unfold andthen. rewrite Q. reflexivity.
  - destruct (by_edge_runs MInf true g W NW) as (g1 & Q & W1 & N1). destruct (IHasks_for n g1 fl ev ltac:(lia) W1 N1) as [g' E]. exists g'. transitivity (thresholds_loop to_number n g1 (World r fl ev)); [|exact E].
    change (eqb $"2" $"0") with false. change (eqb $"2" $"1") with false. change (eqb $"2" $"2") with true. cbv iota. unfold andthen. rewrite Q. reflexivity.
  - destruct (by_edge_runs x false g W NW) as (g1 & Q & W1 & N1). pose proof (SH _ _ _ H0). destruct (IHasks_for n g1 fl ev ltac:(lia) W1 N1) as [g' E]. exists g'. transitivity (thresholds_loop to_number n g1 (World r' fl ev)); [|exact E].
    change (eqb $"3" $"0") with false. change (eqb $"3" $"1") with false. change (eqb $"3" $"2") with false. change (eqb $"3" $"3") with true. cbv iota. unfold andthen. rewrite (number_runs _ _ _ fl ev H0), Q. reflexivity.
  - destruct (by_edge_runs x false g W NW) as (g1 & Q & W1 & N1). pose proof (SH _ _ _ H0). destruct (IHasks_for n g1 fl ev ltac:(lia) W1 N1) as [g' E]. exists g'. transitivity (thresholds_loop to_number n g1 (World r' fl ev)); [|exact E].
    change (eqb $"4" $"0") with false. change (eqb $"4" $"1") with false. change (eqb $"4" $"2") with false. change (eqb $"4" $"3") with false. change (eqb $"4" $"4") with true. cbv iota. unfold andthen. rewrite (number_runs _ _ _ fl ev H0), Q. reflexivity.
  - destruct (by_degree_runs x g W NW) as (g1 & Q & W1 & N1). pose proof (SH _ _ _ H0). destruct (IHasks_for n g1 fl ev ltac:(lia) W1 N1) as [g' E]. exists g'. transitivity (thresholds_loop to_number n g1 (World r' fl ev)); [|exact E].
    change (eqb $"5" $"0") with false. change (eqb $"5" $"1") with false. change (eqb $"5" $"2") with false. change (eqb $"5" $"3") with false. change (eqb $"5" $"4") with false. change (eqb $"5" $"5") with true. cbv iota. unfold andthen. rewrite (number_runs _ _ _ fl ev H0), Q. reflexivity.
  - destruct (by_degree_runs x g W NW) as (g1 & Q & W1 & N1). pose proof (SH _ _ _ H0). destruct (IHasks_for n g1 fl ev ltac:(lia) W1 N1) as [g' E]. exists g'. transitivity (thresholds_loop to_number n g1 (World r' fl ev)); [|exact E].
    change (eqb $"6" $"0") with false. change (eqb $"6" $"1") with false. change (eqb $"6" $"2") with false. change (eqb $"6" $"3") with false. change (eqb $"6" $"4") with false. change (eqb $"6" $"5") with false. cbv iota. unfold andthen. rewrite (number_runs _ _ _ fl ev H0), Q. reflexivity.
Qed.
End Filters.

(** ** The network that is asked for *)
Section Requests.
Variable upper : str -> str.
Variable tags : list str.
Lemma tag_ok w t w' : tag upper tags w = (Ret t, w') -> typed_tag upper tags (typed w) t (typed w').
Proof.
  intros E. apply then_ok in E as (o & w1 & E & Q). unfold tag_or_blank in E. pose proof (tag_line upper tags false (typed w)) as T. cbv zeta in T. destruct (tag_from upper tags false (typed w)) as [[[x|]|] r]; [| |discriminate].
  - injection E as <- <-. injection Q as <- <-. destruct T as (s & F & _ & ->). exists s. split; [|reflexivity]. cbn [typed]. revert F. apply first_same. intros y. split; [intros [I|[X _]]; [exact I|discriminate]|auto].
  - injection E as <- <-. discriminate.
Qed.
Lemma more_ok n : forall w ts w', more_tags upper tags n w = (Ret ts, w') -> typed_tags upper tags (typed w) ts (typed w').
Proof.
  induction n as [|n IH]; intros w ts w' E; cbn [more_tags] in E; [discriminate|]. apply then_ok in E as (o & w1 & E & Q). unfold tag_or_blank in E. pose proof (tag_line upper tags true (typed w)) as T. cbv zeta in T.
  destruct (tag_from upper tags true (typed w)) as [[[x|]|] r]; [| |discriminate]; injection E as <- <-.
  - destruct T as (s & F & I & ->). apply (first_same _ (fun s => In (upper s) tags \/ upper s = [])) in F; [|intros y; tauto]. destruct (upper s) as [|c u] eqn:U.
    + injection Q as <- <-. exact (t_end _ _ _ _ _ F U).
    + apply then_ok in Q as (ts' & w2 & Q & R). injection R as <- <-. rewrite <- U. exact (t_more _ _ _ s _ _ _ F ltac:(congruence) (IH _ _ _ Q)).
  - destruct T as (s & F & _ & U). apply (first_same _ (fun s => In (upper s) tags \/ upper s = [])) in F; [|intros y; tauto]. injection Q as <- <-. exact (t_end _ _ _ _ _ F U).
Qed.
Lemma request_ok w r w' : get_request upper tags w = (Ret r, w') -> asks_for_network upper tags (typed w) r (typed w').
Proof.
  intros E. apply then_ok in E as (k & w1 & M & E). unfold menu in M. pose proof (menu_line_ok request_options (typed w) ltac:(apply mem_not_In; reflexivity) ltac:(apply mem_not_In; reflexivity)) as L. fold request_options in M.
  destruct (menu_from request_options true (typed w)) as [[k'| | |] r1]; try discriminate. injection M as <- <-. destruct L as [IK F]. 
  destruct (@eqb_spec str _ k' $"1") as [->|N1]. { apply then_ok in E as (t & w2 & T & E). injection E as <- <-. apply tag_ok in T. exact (n_one _ _ _ _ _ _ F T). }
  destruct (@eqb_spec str _ k' $"2") as [->|N2]. { apply then_ok in E as (t & w2 & T & E). apply then_ok in E as (t2 & w3 & T2 & E). injection E as <- <-. apply tag_ok in T. apply tag_ok in T2. exact (n_two _ _ _ _ _ _ _ _ F T T2). }
  destruct (@eqb_spec str _ k' $"3") as [->|N3]. { apply then_ok in E as (t & w2 & T & E). apply then_ok in E as (ts & w3 & T2 & E). injection E as <- <-. apply tag_ok in T. apply more_ok in T2. exact (n_multi _ _ _ _ _ _ _ _ F T T2). }
  destruct (@eqb_spec str _ k' $"4") as [->|N4]. { injection E as <- <-. exact (n_cite _ _ _ _ F). }
  destruct (@eqb_spec str _ k' $"5") as [->|N5]. { injection E as <- <-. exact (n_cocite _ _ _ _ F). }
  injection E as <- <-. assert (K6 : k' = $"6") by (cbn [request_options In] in IK; intuition congruence). subst k'. exact (n_coauth _ _ _ _ F).
Qed.
End Requests.

(** ** What a session writes *)
Lemma written_app l l' : files_written (l ++ l') = files_written l ++ files_written l'.
Proof. apply flat_map_app. Qed.
(** a step after which the files of [l] have been written, beside those before *)
Definition adds (w w' : world) (l : list (kind * str)) : Prop := files_written (events w') = files_written (events w) ++ l.
Lemma adds_quiet A (m : io A) w o w' : quiet m -> m w = (o, w') -> adds w w' [].
Proof. intros Q E. destruct (Q _ _ _ E) as [_ V]. unfold adds. rewrite V, app_nil_r. reflexivity. Qed.
Lemma adds_trans w w1 w2 l l' : adds w w1 l -> adds w1 w2 l' -> adds w w2 (l ++ l').
Proof. unfold adds. intros A B. rewrite B, A, app_assoc. reflexivity. Qed.
Lemma adds_write k f w o w' : write k f w = (o, w') -> adds w w' [(k, f)].
Proof. unfold write. intros E. injection E as _ <-. unfold adds. cbn [events]. rewrite written_app. reflexivity. Qed.
Lemma adds_yes_no upper q w o w' : yes_no upper q w = (o, w') -> adds w w' [].
Proof. intros E. destruct (yes_no_ends _ _ _ _ _ E) as (_ & [(b & _ & V)|(_ & V)]); unfold adds; rewrite V, ?written_app, ?app_nil_r; reflexivity. Qed.
Lemma adds_name upper arg suffix n : forall checking w f w', name_loop upper arg suffix n checking w = (Ret f, w') -> adds w w' [] /\ named_after suffix f.
Proof.
  destruct arg as [nm|]. { intros checking w f w' E. destruct n; cbn [name_loop] in E; injection E as <- <-; (split; [unfold adds; rewrite app_nil_r; reflexivity|exists nm; reflexivity]). }
  induction n as [|n IH]; intros checking w f w' E; cbn [name_loop] in E; [discriminate|]. apply then_ok in E as (s & w1 & A & E). pose proof (adds_quiet _ _ _ _ _ quiet_ask A) as A1.
  assert (X : forall (t : str) w2, named_after suffix t -> (match t with [] => name_loop upper None suffix n true | _ :: _ => andthen (there t) (fun e => if e && checking then andthen (yes_no upper (t ++ $" already exists overwrite (y/n)? ")) (fun b => if b then ret t else name_loop upper None suffix n true) else ret t) end) w2 = (Ret f, w') -> adds w2 w' [] /\ named_after suffix f).
  { intros t w2 NA Q. destruct t as [|c t]; [exact (IH _ _ _ _ Q)|]. apply then_ok in Q as (e & w3 & T & Q). unfold there in T. injection T as <- <-. destruct (_ && checking).
    - apply then_ok in Q as (b & w4 & Y & Q). apply adds_yes_no in Y. destruct b; [injection Q as <- <-; split; [exact Y|exact NA]|]. destruct (IH _ _ _ _ Q) as [B N]. split; [exact (adds_trans _ _ _ _ _ Y B)|exact N].
    - injection Q as <- <-. split; [unfold adds; rewrite app_nil_r; reflexivity|exact NA]. }
  destruct (X (s ++ suffix) w1 (ex_intro _ s eq_refl) E) as [B N]. split; [exact (adds_trans _ _ _ _ _ A1 B)|exact N].
Qed.
Lemma adds_named upper arg suffix k w o w' : andthen (output_name upper arg suffix true) (fun f => write k f) w = (Ret o, w') -> exists f, named_after suffix f /\ adds w w' [(k, f)].
Proof. intros E. apply then_ok in E as (f & w1 & N & E). apply adds_name in N as [A N]. apply adds_write in E. exists f. split; [exact N|exact (adds_trans _ _ _ _ _ A E)]. Qed.
Lemma adds_over upper cite journal in_db excluded db cs : forall w o w', go_over upper cite journal in_db excluded db cs w = (o, w') -> adds w w' [].
Proof.
  induction cs as [|c cs IH]; intros w o w' E; cbn [go_over] in E; [injection E as _ <-; unfold adds; rewrite app_nil_r; reflexivity|]. destruct (journal c) as [j|]; [|exact (IH _ _ _ E)].
  destruct (in_db _ _ _); [exact (IH _ _ _ E)|]. destruct (excluded _ _ _); [exact (IH _ _ _ E)|]. unfold andthen in E. destruct (yes_no upper _ w) as [o1 w1] eqn:Y. apply adds_yes_no in Y.
  destruct o1 as [b| |e]; [|injection E as _ <-; exact Y|injection E as _ <-; exact Y]. unfold note in E. apply IH in E. refine (adds_trans w w1 w' [] [] Y _). refine (adds_trans w1 _ w' [] [] _ E).
  unfold adds. cbn [events]. rewrite written_app. destruct b; reflexivity.
Qed.
Lemma task_ok upper arg cite journal in_db excluded cites w b w' : what_to_do upper arg cite journal in_db excluded cites w = (Ret b, w') ->
  exists k rest l, first_accepted (menu_line task_options) (typed w) k rest /\ first_files k l /\ adds w w' l /\ (b = true <-> k = $"1" \/ k = $"3" \/ k = $"5").
Proof.
  intros E. apply then_ok in E as (k & w1 & M & E). pose proof (adds_quiet _ _ _ _ _ (quiet_menu _) M) as A1. unfold menu in M. fold task_options in M. pose proof (menu_line_ok task_options (typed w) ltac:(apply mem_not_In; reflexivity) ltac:(apply mem_not_In; reflexivity)) as L.
  destruct (menu_from task_options true (typed w)) as [[k'| | |] r1]; try discriminate. injection M as <- <-. destruct L as [IK F]. exists k', r1.
  assert (NW : forall suffix kd (v : bool), andthen (output_name upper arg suffix true) (fun f => andthen (write kd f) (fun _ => ret v)) (World r1 (files w) (events w)) = (Ret b, w') -> b = v /\ exists f, named_after suffix f /\ adds w w' [(kd, f)]).
  { intros suffix kd v Q. apply then_ok in Q as (f & w2 & N & Q). apply then_ok in Q as (u & w3 & W & Q). injection Q as <- <-. apply adds_name in N as [A N]. apply adds_write in W. split; [reflexivity|]. exists f. split; [exact N|]. exact (adds_trans _ _ _ _ _ A1 (adds_trans _ _ _ _ _ A W)). }
  unfold first_files. destruct (@eqb_spec str _ k' $"1") as [->|N1]. { injection E as <- <-. exists []. split; [exact F|]. split; [auto|]. split; [exact A1|]. tauto. }
  destruct (@eqb_spec str _ k' $"2") as [->|N2]. { apply NW in E as (-> & f & N & A). exists [(RecordsFile, f)]. split; [exact F|]. split; [right; left; split; [auto|exists f; auto]|]. split; [exact A|]. split; [discriminate|]. intros [Q|[Q|Q]]; discriminate. }
  cbn [orb] in E. destruct (@eqb_spec str _ k' $"3") as [->|N3]. { apply NW in E as (-> & f & N & A). exists [(RecordsFile, f)]. split; [exact F|]. split; [right; left; split; [auto|exists f; auto]|]. split; [exact A|]. split; [auto|reflexivity]. }
  destruct (@eqb_spec str _ k' $"4") as [->|N4]. { apply NW in E as (-> & f & N & A). exists [(TableFile, f)]. split; [exact F|]. split; [right; right; left; split; [auto|exists f; auto]|]. split; [exact A|]. split; [discriminate|]. intros [Q|[Q|Q]]; discriminate. }
  cbn [orb] in E. destruct (@eqb_spec str _ k' $"5") as [->|N5]. { apply NW in E as (-> & f & N & A). exists [(TableFile, f)]. split; [exact F|]. split; [right; right; left; split; [auto|exists f; auto]|]. split; [exact A|]. split; [auto|reflexivity]. }
  destruct (@eqb_spec str _ k' $"6") as [->|N6].
  { apply then_ok in E as (d & w2 & Y & E). apply adds_yes_no in Y. apply then_ok in E as (f & w3 & N & E). apply then_ok in E as (u & w4 & W & E). injection E as <- <-. apply adds_name in N as [A N]. apply adds_write in W. exists [(CitesFile, f)]. split; [exact F|].
    split; [right; right; right; left; split; [auto|exists f; auto]|]. split; [exact (adds_trans _ _ _ _ _ A1 (adds_trans _ _ _ _ _ Y (adds_trans _ _ _ _ _ A W)))|]. split; [discriminate|]. intros [Q|[Q|Q]]; discriminate. }
  assert (K7 : k' = $"7") by (cbn [task_options In] in IK; intuition congruence). subst k'. apply then_ok in E as (d & w2 & Y & E). apply (adds_quiet _ _ _ _ _ quiet_ask) in Y. apply then_ok in E as (u & w3 & G & E). injection E as <- <-. apply adds_over in G. exists []. split; [exact F|].
  split; [auto 6|]. split; [exact (adds_trans _ _ _ _ _ A1 (adds_trans _ _ _ _ _ Y G))|]. split; [discriminate|]. intros [Q|[Q|Q]]; discriminate.
Qed.
Lemma adds_graph s over w r w' : write_graph s over w = (Ret r, w') -> (r = Ok tt /\ adds w w' [(EdgeFile, graph_name $"edgeList" s); (NodeFile, graph_name $"nodeAttributes" s)]) \/ (r = Raise OSError /\ adds w w' [] /\ over = false).
Proof.
  intros E. unfold write_graph in E. apply then_ok in E as (te & w1 & T & E). injection T as <- <-. apply then_ok in E as (tn & w2 & T & E). injection T as <- <-. destruct (negb over && _) eqn:O.
  - injection E as <- <-. right. split; [reflexivity|]. split; [unfold adds; rewrite app_nil_r; reflexivity|]. destruct over; [discriminate|reflexivity].
  - left. apply then_ok in E as (u & w3 & W1 & E). apply then_ok in E as (u2 & w4 & W2 & E). injection E as <- <-. split; [reflexivity|]. exact (adds_trans _ _ _ _ _ (adds_write _ _ _ _ _ W1) (adds_write _ _ _ _ _ W2)).
Qed.
Lemma adds_graph_out upper arg n : forall w w', graph_out upper arg n w = (Ret tt, w') -> exists s, adds w w' [(EdgeFile, graph_name $"edgeList" s); (NodeFile, graph_name $"nodeAttributes" s)].
Proof.
  induction n as [|n IH]; intros w w' E; cbn [graph_out] in E; [discriminate|]. apply then_ok in E as (f & w1 & N & E). apply adds_name in N as [A N]. apply then_ok in E as (r & w2 & G & E). apply adds_graph in G as [[-> G]|(-> & G & _)].
  - injection E as <-. exists f. exact (adds_trans _ _ _ _ _ A G).
  - pose proof (adds_trans _ _ _ _ _ A G) as A2. destruct arg as [nm|].
    + apply then_ok in E as (r & w3 & G2 & E). injection E as <-. apply adds_graph in G2 as [[-> G2]|(_ & _ & Q)]; [|discriminate]. exists f. exact (adds_trans _ _ _ _ _ A2 G2).
    + apply then_ok in E as (b & w3 & Y & E). apply adds_yes_no in Y. pose proof (adds_trans _ _ _ _ _ A2 Y) as A3. destruct b.
      * apply then_ok in E as (r & w4 & G2 & E). injection E as <-. apply adds_graph in G2 as [[-> G2]|(_ & _ & Q)]; [|discriminate]. exists f. exact (adds_trans _ _ _ _ _ A3 G2).
      * destruct (IH _ _ E) as [s B]. exists s. exact (adds_trans _ _ _ _ _ A3 B).
Qed.
Lemma adds_output upper arg contour n : forall w w', output_loop upper arg contour n w = (Ret tt, w') -> exists k rest l, chosen_output contour (typed w) k rest /\ last_files k l /\ adds w w' l.
Proof.
  induction n as [|n IH]; intros w w' E; cbn [output_loop] in E; [discriminate|]. apply then_ok in E as (k & w1 & M & E). pose proof (adds_quiet _ _ _ _ _ (quiet_menu _) M) as A1. unfold menu in M.
  remember ((if contour then [$"0"] else []) ++ [$"1"; $"2"; $"3"; $"4"]) as options eqn:HO.
  pose proof (menu_line_ok options (typed w) ltac:(rewrite HO; destruct contour; apply mem_not_In; reflexivity) ltac:(rewrite HO; destruct contour; apply mem_not_In; reflexivity)) as L.
  destruct (menu_from options true (typed w)) as [[k'| | |] r1]; try discriminate. injection M as <- <-. destruct L as [IK F]. unfold last_files.
  destruct (@eqb_spec str _ k' $"0") as [->|N0].
  { destruct contour; [|subst options; cbn in IK; intuition discriminate]. apply then_ok in E as (u & w2 & S & E). unfold note in S. injection S as _ <-. destruct (IH _ _ E) as (k & rest & l & C & LF & A). exists k, rest, l. split; [|split; [exact LF|]].
    - apply (o_show true _ r1); [reflexivity| |exact C]. rewrite HO in F. exact F.
    - apply (adds_trans _ _ _ [] l A1). unfold adds in *. cbn [events] in *. rewrite A, written_app. cbn. rewrite app_nil_r. reflexivity. }
  assert (C : chosen_output contour (typed w) k' r1) by (apply o_last; [exact N0|rewrite HO in F; exact F]).
  destruct (@eqb_spec str _ k' $"1") as [->|N1]. { apply adds_graph_out in E as [s A]. eexists _, _, _. split; [exact C|]. split; [|exact (adds_trans _ _ _ _ _ A1 A)]. left. split; [reflexivity|]. exists s. reflexivity. }
  destruct (@eqb_spec str _ k' $"2") as [->|N2]. { apply adds_named in E as (f & N & A). eexists _, _, _. split; [exact C|]. split; [|exact (adds_trans _ _ _ _ _ A1 A)]. right. left. split; [reflexivity|]. exists f. auto. }
  destruct (@eqb_spec str _ k' $"3") as [->|N3]. { apply adds_named in E as (f & N & A). eexists _, _, _. split; [exact C|]. split; [|exact (adds_trans _ _ _ _ _ A1 A)]. right. right. left. split; [reflexivity|]. exists f. auto. }
  assert (K4 : k' = $"4") by (subst options; destruct contour; cbn [app In] in IK; intuition congruence). subst k'.
  apply adds_named in E as (f & N & A). eexists _, _, _. split; [exact C|]. split; [|exact (adds_trans _ _ _ _ _ A1 A)]. right. right. right. split; [reflexivity|]. exists f. auto.
Qed.
