(** C65 - C67: cleaned texts, the table of words and the table of abstracts. *)
From Coq Require Import List ZArith Lia Bool Arith.
From Coq Require Import String.
From Verif Require Import Base PyStr TextModel NlpModel NlpSpec NlpProofs NlpProofs2.
From Verif Require FileProofs.
Import ListNotations.
Local Open Scope list_scope.

(** ** C65 *)
(** What is asked for, in order: each longest run of white space becomes one space, the text is made lower case, and all numbers
    and all characters that belong to no word are deleted except spaces. For every text, whatever the kinds of characters and
    lower case are. *)
Definition cleaned (iss isw isd : char -> bool) (lower : str -> str) (o : opts) (s r : str) : Prop :=
  exists t u f, (if o_white o then spaced iss s t else t = s) /\ u = (if o_lower o then lower t else t) /\
    (forall c, f c = true <-> c = sp \/ ~ unwanted isw isd (o_numbers o) (o_nonwords o) c) /\ r = filter f u.
Lemma others_spec iss isw isd lower o s : cleaned iss isw isd lower o s (others isw isd o (let s := if o_white o then squeeze iss false s else s in if o_lower o then lower s else s)).
Proof.
  exists (if o_white o then squeeze iss false s else s). eexists. exists (fun c => negb (other isw isd o c) || eqb c sp).
  split; [destruct (o_white o); [apply squeeze_spaced|reflexivity]|]. split; [reflexivity|]. split; [|reflexivity].
  intros c. rewrite orb_true_iff, negb_true_iff. assert (EQ : eqb c sp = true <-> c = sp) by (split; [intros E; apply eqb_eq in E; exact E|intros ->; apply eqb_refl]). rewrite EQ. unfold other, unwanted. destruct (o_numbers o), (o_nonwords o); try rewrite orb_false_iff, negb_false_iff; try rewrite negb_false_iff; destruct (isw c), (isd c); intuition discriminate.
Qed.
Theorem C65_burst : forall iss isw isd lower o s, o_drop o = None -> cleaned iss isw isd lower o s (burst_text iss isw isd lower o s).
Proof. intros iss isw isd lower o s D. unfold burst_text. rewrite D. apply others_spec. Qed.
Theorem C65_abstract : forall iss isw isd lower o s, o_drop o = None ->
  snd (abstract_text iss isw isd lower o false None s) = [] /\ cleaned iss isw isd lower o s (fst (abstract_text iss isw isd lower o false None s)).
Proof. intros iss isw isd lower o s D. unfold abstract_text. rewrite D. cbn [fst snd]. split; [reflexivity|]. apply others_spec. Qed.
(** ... and there is only one such text. *)
Theorem C65_one : forall iss isw isd lower o s r r', cleaned iss isw isd lower o s r -> cleaned iss isw isd lower o s r' -> r = r'.
Proof.
  intros iss isw isd lower o s r r' (t & u & f & A & -> & F & ->) (t' & u' & f' & A' & -> & F' & ->).
  assert (TT : t = t') by (destruct (o_white o); [rewrite (spaced_squeeze iss s t A); symmetry; apply spaced_squeeze, A'|congruence]). subst t'.
  apply filter_ext. intros c. apply eq_true_iff_eq. rewrite F, F'. reflexivity.
Qed.
(** With the lower case off, no character that is neither white space nor unwanted is lost or moved, and only those are left besides spaces. *)
Theorem C65_letters : forall iss isw isd lower o s f, o_drop o = None -> o_lower o = false -> iss sp = true ->
  (forall c, f c = true <-> iss c = false /\ ~ unwanted isw isd (o_numbers o) (o_nonwords o) c) ->
  filter (fun c => negb (iss c)) (burst_text iss isw isd lower o s) = filter f s.
Proof.
  intros iss isw isd lower o s f D L IS F. destruct (C65_burst iss isw isd lower o s D) as (t & u & g & A & U & G & ->). rewrite L in U. subst u.
  assert (FF : forall l, filter (fun c => negb (iss c)) (filter g l) = filter g (filter (fun c => negb (iss c)) l)).
  { induction l as [|c l IH]; [reflexivity|]. cbn. destruct (g c) eqn:E, (iss c) eqn:E2; cbn; rewrite ?E, ?E2; cbn; congruence. }
  rewrite FF. assert (K : filter (fun c => negb (iss c)) t = filter (fun c => negb (iss c)) s) by (destruct (o_white o); [apply spaced_kept; assumption|congruence]). rewrite K.
  clear -F G IS. induction s as [|c s IH]; [reflexivity|]. cbn [filter]. destruct (iss c) eqn:E; cbn [negb].
  - replace (f c) with false; [exact IH|]. symmetry. apply not_true_is_false. intros X. apply F in X. destruct X. congruence.
  - cbn [filter]. replace (g c) with (f c); [rewrite IH; reflexivity|]. apply eq_true_iff_eq. rewrite F, G. split; [tauto|]. intros [->|X]; [congruence|tauto].
Qed.
(** White space alone: all of it becomes spaces, no two of them next to each other. *)
Theorem C65_spaces : forall iss s t, iss sp = true -> spaced iss s t -> no_neighbours iss t /\ (forall c, In c t -> iss c = true -> c = sp).
Proof. intros iss s t IS X. apply (spaced_apart iss s t X IS). Qed.
(** With the copyright statements looked for, they are cut off the text with its white space changed (C44 says what is cut off) before its case is changed, and given as they are. *)
Theorem C65_copyright : forall iss isw isd lower o s, o_drop o = None ->
  exists t body statement u f, (if o_white o then spaced iss s t else t = s) /\ find_copyright isd t = (body, statement) /\
    snd (abstract_text iss isw isd lower o true None s) = statement /\ u = (if o_lower o then lower body else body) /\
    (forall c, f c = true <-> c = sp \/ ~ unwanted isw isd (o_numbers o) (o_nonwords o) c) /\ fst (abstract_text iss isw isd lower o true None s) = filter f u.
Proof.
  intros iss isw isd lower o s D. unfold abstract_text. rewrite D. cbv zeta. set (t := if o_white o then squeeze iss false s else s). exists t. destruct (find_copyright isd t) as [body st] eqn:FC. exists body, st. cbn [fst snd].
  destruct (others_spec iss isw isd lower (Build_opts (o_drop o) (o_lower o) (o_numbers o) (o_nonwords o) false) body) as (t' & u & f & T & U & F & E). cbn [o_white o_lower o_numbers o_nonwords] in T, U, F. subst t'.
  exists u, f. split; [unfold t; destruct (o_white o); [apply squeeze_spaced|reflexivity]|]. split; [reflexivity|]. split; [reflexivity|]. split; [exact U|]. split; [exact F|]. exact E.
Qed.
(** With a stemmer, it is applied to each of the words between spaces of the finished text. *)
Theorem C65_stemmer : forall iss isw isd lower o copyright stem s,
  snd (abstract_text iss isw isd lower o copyright (Some stem) s) = snd (abstract_text iss isw isd lower o copyright None s) /\
  exists ws, ws <> [] /\ (forall w, In w ws -> ~ In sp w) /\ fst (abstract_text iss isw isd lower o copyright None s) = join [sp] ws /\
    fst (abstract_text iss isw isd lower o copyright (Some stem) s) = join [sp] (map stem ws).
Proof.
  intros iss isw isd lower o copyright stem s. unfold abstract_text. cbv zeta. destruct (if copyright then _ else _) as [t cr]. cbn [fst snd]. split; [reflexivity|]. set (x := others _ _ _ _). exists (split_char sp x).
  split; [destruct (FileProofs.split_some sp x) as (p & q & ->); discriminate|]. split; [intros w; apply FileProofs.split_free|]. split; [symmetry; apply FileProofs.join_split|reflexivity].
Qed.
(** Dropping words comes first, exactly so: of the words between spaces each of those to be dropped is dropped in turn, but one that
    follows one just dropped stays. For abstracts the ends of lines count as spaces. *)
Lemma drop_first iss isw isd lower o s drop : o_drop o = Some drop ->
  cleaned iss isw isd lower o (drop_words drop s) (burst_text iss isw isd lower o s) /\
  cleaned iss isw isd lower o (drop_words drop (no_lines s)) (fst (abstract_text iss isw isd lower o false None s)).
Proof. intros D. unfold burst_text, abstract_text. rewrite D. split; apply others_spec. Qed.
Theorem C65_drop_partial : forall iss isw isd lower o drop s ws, o_drop o = Some drop -> Forall (fun w => ~ In sp w) drop ->
  ws <> [] -> Forall (fun w => ~ In sp w) ws ->
  (s = join [sp] ws ->
   cleaned iss isw isd lower o (join [sp] (fold_left (fun ws w => thinned w ws) drop ws)) (burst_text iss isw isd lower o s)) /\
  (map (fun c => if N.eq_dec c nl then sp else c) s = join [sp] ws ->
   cleaned iss isw isd lower o (join [sp] (fold_left (fun ws w => thinned w ws) drop ws)) (fst (abstract_text iss isw isd lower o false None s))).
Proof.
  intros iss isw isd lower o drop s ws D FD NE FW. destruct (drop_first iss isw isd lower o s drop D) as [A B]. rewrite <- (drop_words_spec drop ws NE FD FW). split; intros E; rewrite <- E; [exact A|].
  replace (map (fun c => if N.eq_dec c nl then sp else c) s) with (no_lines s); [exact B|]. apply map_ext. intros c. destruct (N.eq_dec c nl) as [->|N]; [rewrite eqb_refl; reflexivity|rewrite (neq_eqb N); reflexivity].
Qed.
(** So all are dropped, and nothing else, if no two of them are neighbours. *)
Theorem C65_drop_apart : forall iss isw isd lower o drop s ws f, o_drop o = Some drop -> Forall (fun w => ~ In sp w) drop ->
  ws <> [] -> Forall (fun w => ~ In sp w) ws -> (forall w, f w = true <-> In w drop) -> no_neighbours f ws ->
  (s = join [sp] ws -> cleaned iss isw isd lower o (join [sp] (filter (fun w => negb (f w)) ws)) (burst_text iss isw isd lower o s)) /\
  (map (fun c => if N.eq_dec c nl then sp else c) s = join [sp] ws ->
   cleaned iss isw isd lower o (join [sp] (filter (fun w => negb (f w)) ws)) (fst (abstract_text iss isw isd lower o false None s))).
Proof.
  intros iss isw isd lower o drop s ws f D FD NE FW F N. pose proof (C65_drop_partial iss isw isd lower o drop s ws D FD NE FW) as P.
  assert (FM : forall w, f w = mem w drop) by (intros w; apply eq_true_iff_eq; rewrite F, mem_In; reflexivity).
  rewrite drops_apart in P; [|apply (apart_mono f); [intros w; rewrite FM; auto|exact N]].
  replace (filter (fun w => negb (f w)) ws) with (filter (fun x => negb (mem x drop)) ws); [exact P|]. apply filter_ext. intros w. rewrite FM. reflexivity.
Qed.
(** What is said of the list of dropped words does not hold of repeated words: the second of two stays. *)
Definition ascii_space (c : char) : bool := eqb c sp || ((9 <=? c) && (c <=? 13))%N.
Definition ascii_digit (c : char) : bool := ((48 <=? c) && (c <=? 57))%N.
Definition ascii_word (c : char) : bool := ascii_digit c || ((97 <=? c) && (c <=? 122))%N || ((65 <=? c) && (c <=? 90))%N || eqb c 95%N.
Definition ascii_lower (s : str) : str := map (fun c => if ((65 <=? c) && (c <=? 90))%N then (c + 32)%N else c) s.
Definition all_on (drop : option (list str)) : opts := {| o_drop := drop; o_lower := true; o_numbers := true; o_nonwords := true; o_white := true |}.
Theorem C65_drop_refuted : ~ forall drop ws, ws <> [] -> Forall (fun w => ~ In sp w) drop -> Forall (fun w => ~ In sp w) ws ->
  cleaned ascii_space ascii_word ascii_digit ascii_lower (all_on (Some drop)) (join [sp] (filter (fun w => if in_dec (list_eq_dec N.eq_dec) w drop then false else true) ws))
    (burst_text ascii_space ascii_word ascii_digit ascii_lower (all_on (Some drop)) (join [sp] ws)).
Proof.
  intros H. specialize (H [$"a"] [$"a"; $"a"; $"cat"] ltac:(discriminate)).
  assert (F1 : Forall (fun w : str => ~ In sp w) [$"a"]) by (repeat constructor; vm_compute; intuition discriminate).
  assert (F2 : Forall (fun w : str => ~ In sp w) [$"a"; $"a"; $"cat"]) by (repeat constructor; vm_compute; intuition discriminate).
  specialize (H F1 F2). pose proof (others_spec ascii_space ascii_word ascii_digit ascii_lower (all_on (Some [$"a"])) $"cat") as Q.
  match type of H with cleaned _ _ _ _ _ ?x _ => replace x with $"cat" in H by (vm_compute; reflexivity) end.
  pose proof (C65_one _ _ _ _ _ _ _ _ H Q) as E. vm_compute in E. discriminate E.
Qed.
(** White space does not end up as single spaces when characters between are deleted. *)
Theorem C65_spaces_refuted : ~ forall s, no_neighbours ascii_space (burst_text ascii_space ascii_word ascii_digit ascii_lower (all_on None) s).
Proof. intros H. specialize (H $"a - b"). vm_compute in H. destruct H as (_ & H & _). discriminate. Qed.
Example C65_ex : burst_text ascii_space ascii_word ascii_digit ascii_lower (all_on (Some [$"a"; $"the"])) $"a Cat, the  Dog 1990" = $"cat dog "
  /\ abstract_text ascii_space ascii_word ascii_digit ascii_lower (all_on (Some [$"a"])) true None ($"We see" ++ [nl] ++ $"a Cat. (c) 2001 X") = ($"we see cat", $" (c) 2001 X").
Proof. vm_compute. auto. Qed.
Example C65_ex_apart : no_neighbours (fun w => mem w [$"a"; $"the"]) [$"a"; $"cat"; $"the"; $"dog"]
  /\ burst_text ascii_space ascii_word ascii_digit ascii_lower (all_on (Some [$"a"; $"the"])) $"a cat the dog" = $"cat dog".
Proof. vm_compute. auto 10. Qed.

(** ** C66 *)
(** The two columns are those of one list of pairs: for each record with a year and the tag, in order, the words of its text with its year. *)
Theorem C66_rows : forall {R Y} iss isw isd lower (year : R -> option Y) value o stemmer rs,
  for_burst iss isw isd lower year value o stemmer rs [] [] =
    let pairs := flat_map (fun r => match year r, value r with
                                    | Some y, Some v => map (fun w => (y, w)) (burst_words iss isw isd lower o stemmer match v with BTexts l => join [sp] l | BText s => s end)
                                    | _, _ => []
                                    end) rs in
    (map fst pairs, map snd pairs).
Proof. intros. rewrite burst_ok. reflexivity. Qed.
(** The words of a text are what stands between the spaces of the cleaned text, each made its stem. *)
Theorem C66_words : forall iss isw isd lower o stemmer s, exists ws, burst_words iss isw isd lower o stemmer s = map (match stemmer with Some f => f | None => fun w => w end) ws /\
  join [sp] ws = burst_text iss isw isd lower o s /\ (forall w, In w ws -> ~ In sp w) /\ ws <> [].
Proof.
  intros iss isw isd lower o stemmer s. exists (split_char sp (burst_text iss isw isd lower o s)). split; [unfold burst_words; destruct stemmer; [reflexivity|symmetry; apply map_id]|]. apply split_words.
Qed.
(** Each comes from one word of the text as it is after the white space and the case were changed. *)
Theorem C66_tokens : forall iss isw isd lower o s, o_drop o = None -> exists t u f,
  (if o_white o then spaced iss s t else t = s) /\ u = (if o_lower o then lower t else t) /\
  (forall c, f c = true <-> c = sp \/ ~ unwanted isw isd (o_numbers o) (o_nonwords o) c) /\
  burst_words iss isw isd lower o None s = map (filter f) (split_char sp u).
Proof.
  intros iss isw isd lower o s D. destruct (C65_burst iss isw isd lower o s D) as (t & u & f & A & U & F & E). exists t, u, f. split; [exact A|]. split; [exact U|]. split; [exact F|].
  unfold burst_words. rewrite E. apply split_filter. apply F. left. reflexivity.
Qed.
(** Not every row has a word: what is deleted between two spaces leaves an empty one. *)
Theorem C66_empty_refuted : ~ forall s, s <> [] -> ~ In [] (burst_words ascii_space ascii_word ascii_digit ascii_lower (all_on None) None s).
Proof. intros H. apply (H $"in 1990 we"); [discriminate|]. vm_compute. auto. Qed.
Example C66_ex : for_burst ascii_space ascii_word ascii_digit ascii_lower (fun r : nat => if r =? 1 then None else Some r) (fun r => if r =? 2 then None else Some (if r =? 3 then BTexts [$"X y"; $"z"] else BText $"The cat")) (all_on None) None [0; 1; 2; 3] [] []
  = ([0; 0; 3; 3; 3], [$"the"; $"cat"; $"x"; $"y"; $"z"]).
Proof. vm_compute. reflexivity. Qed.

(** ** C67 *)
(** what is shown of a field in an extra column *)
Definition extra_shown {X} (v : option (@nfield X)) : @nfield X :=
  match v with None => FOne (NText []) | Some (FList l) => FOne (NText (join $"|" l)) | Some (FOne c) => FOne c end.
(** If the extra columns are different, and none is called copyright when there is such a column, then the table has the five
    columns, the copyright if asked for, and the extra columns that are none of these, and the n-th cell of each comes from the n-th
    record. *)
Theorem C67_table_partial : forall {R X} iss isw isd lower (ident : R -> @ncell X) get o copyright stemmer extra rs,
  NoDup extra -> (copyright = true -> ~ In $"copyright" extra) ->
  let own := [$"id"; $"year"; $"title"; $"keywords"; $"abstract"] in
  let more := filter (fun k => if in_dec (list_eq_dec N.eq_dec) k own then false else true) extra in
  let text r := abstract_text iss isw isd lower o copyright stemmer (get_text get r $"AB") in
  exists t left, for_nlp iss isw isd lower ident get o copyright stemmer extra rs = (Ok t, left) /\ left = more /\
    dkeys t = own ++ (if copyright then [$"copyright"] else []) ++ more /\
    dget $"id" t = Some (map (fun r => FOne (ident r)) rs) /\
    dget $"year" t = Some (map (fun r => match get r $"year" with Some v => v | None => FOne (NText []) end) rs) /\
    dget $"title" t = Some (map (fun r => match get r $"title" with Some v => v | None => FOne (NText []) end) rs) /\
    dget $"keywords" t = Some (map (fun r => FOne (NText (join $"|" match get r $"keywords" with Some (FList l) => l | _ => [] end))) rs) /\
    dget $"abstract" t = Some (map (fun r => FOne (NText (fst (text r)))) rs) /\
    (copyright = true -> dget $"copyright" t = Some (map (fun r => FOne (NText (snd (text r)))) rs)) /\
    (forall k, In k more -> dget k t = Some (map (fun r => extra_shown (get r k)) rs)).
Proof.
  intros R X iss isw isd lower ident get o copyright stemmer extra rs ND NC own more text.
  assert (EL : extra_left extra = more).
  { rewrite extra_left_filter by exact ND. apply filter_ext. intros k. destruct (in_dec (list_eq_dec N.eq_dec) k own) as [I|N].
    - rewrite (proj2 (mem_In _ _) I). reflexivity.
    - apply negb_true_iff, not_true_is_false. intros M. apply mem_In in M. exact (N M). }
  destruct (nlp_ok iss isw isd lower ident get o copyright stemmer extra rs) as (t & A & B & C). rewrite EL in *. exists t, more. split; [exact A|]. split; [reflexivity|].
  assert (NDC : NoDup (columns_of copyright more)).
  { unfold columns_of. assert (NM : NoDup more) by (apply NoDup_filter, ND).
    assert (DJ : forall k, In k more -> ~ In k (builtins ++ if copyright then [$"copyright"] else [])).
    { intros k I J. apply filter_In in I. destruct I as [I Q]. destruct (in_dec (list_eq_dec N.eq_dec) k own) as [|NO]; [discriminate|]. apply in_app_or in J. destruct J as [J|J]; [contradiction|].
      destruct copyright; [|destruct J]. destruct J as [<-|[]]. exact (NC eq_refl I). }
    assert (NB : NoDup (builtins ++ if copyright then [$"copyright"] else [])) by (destruct copyright; apply nodupb_NoDup; reflexivity).
    rewrite app_assoc. revert DJ NB. generalize (builtins ++ if copyright then [$"copyright"] else []). intros l DJ NB. clear -NM DJ NB. induction l as [|x l IH]; [exact NM|]. inversion NB; subst. cbn. constructor.
    - intros I. apply in_app_or in I. destruct I as [I|I]; [contradiction|]. apply (DJ x I). left. reflexivity.
    - apply IH; [|assumption]. intros k I J. apply (DJ k I). right. exact J. }
  split; [exact (C NDC)|].
  assert (G : forall k (g : R -> @nfield X), In k (columns_of copyright more) -> (forall r, In (k, g r) (nlp_row iss isw isd lower ident get o copyright stemmer more r)) -> dget k t = Some (map g rs)).
  { intros k g I J. rewrite (B k I). f_equal. apply flat_once; [|exact J]. intros r. rewrite row_keys. exact NDC. }
  repeat split; intros.
  1-5: apply G; [unfold columns_of; cbn; auto 10|]; intros r; unfold nlp_row, text; destruct (abstract_text iss isw isd lower o copyright stemmer (get_text get r $"AB")); cbn; auto 10.
  - subst copyright. apply G; [unfold columns_of; cbn; auto 10|]. intros r. unfold nlp_row, text. destruct (abstract_text iss isw isd lower o true stemmer (get_text get r $"AB")). cbn. auto 10.
  - apply G; [unfold columns_of; apply in_or_app; right; apply in_or_app; right; assumption|]. intros r. unfold nlp_row. destruct (abstract_text iss isw isd lower o copyright stemmer (get_text get r $"AB")).
    apply in_or_app. right. apply in_or_app. right. apply in_map_iff. exists k. split; [|assumption]. f_equal. unfold extra_cell, extra_shown. destruct (get r k) as [[l|c]|]; reflexivity.
Qed.
(** Otherwise the columns can have different lengths, ... *)
Definition plain : opts := {| o_drop := None; o_lower := false; o_numbers := false; o_nonwords := false; o_white := false |}.
Definition one (r : unit) (k : str) : option (@nfield Z) := if eqb k $"AB" then Some (FOne (NText $"x")) else Some (FOne (NText k)).
Theorem C67_ragged_refuted : ~ forall copyright extra t left,
  for_nlp ascii_space ascii_word ascii_digit ascii_lower (fun _ => NText $"1") one plain copyright None extra [tt] = (Ok t, left) -> forall k c, dget k t = Some c -> length c = 1.
Proof. intros H. specialize (H false [$"DT"; $"DT"] _ _ eq_refl $"DT" _ eq_refl). vm_compute in H. discriminate. Qed.
(** ... and the list that the caller gave is another one after the call. *)
Theorem C67_caller_refuted : ~ forall extra t left,
  for_nlp ascii_space ascii_word ascii_digit ascii_lower (fun _ => NText $"1") one plain false None extra [tt] = (Ok t, left) -> left = extra.
Proof. intros H. specialize (H [$"title"; $"DT"] _ _ eq_refl). vm_compute in H. discriminate. Qed.
Example C67_ex : for_nlp ascii_space ascii_word ascii_digit ascii_lower (fun _ => NText $"1") one (all_on None) true None [$"DT"; $"year"] [tt; tt] =
  (Ok [($"id", [FOne (NText $"1"); FOne (NText $"1")]); ($"year", [FOne (NText $"year"); FOne (NText $"year")]); ($"title", [FOne (NText $"title"); FOne (NText $"title")]);
       ($"keywords", [FOne (NText []); FOne (NText [])]); ($"abstract", [FOne (NText $"x"); FOne (NText $"x")]); ($"copyright", [FOne (NText []); FOne (NText [])]);
       ($"DT", [FOne (NText $"DT"); FOne (NText $"DT")])], [$"DT"]).
Proof. vm_compute. reflexivity. Qed.
Print Assumptions C65_burst.
Print Assumptions C65_abstract.
Print Assumptions C65_copyright.
Print Assumptions C65_stemmer.
Print Assumptions C65_one.
Print Assumptions C65_letters.
Print Assumptions C65_spaces.
Print Assumptions C65_drop_partial.
Print Assumptions C65_drop_apart.
Print Assumptions C65_drop_refuted.
Print Assumptions C65_spaces_refuted.
Print Assumptions C66_rows.
Print Assumptions C66_words.
Print Assumptions C66_tokens.
Print Assumptions C66_empty_refuted.
Print Assumptions C67_table_partial.
Print Assumptions C67_ragged_refuted.
Print Assumptions C67_caller_refuted.
