(** Proofs about Medline records. *)
From Coq Require Import List Lia Bool Arith.
From Coq Require Import String.
From Verif Require Import Base PyStr JournalModel JournalProofs WosProofs TextProofs DiffusionProofs2 MedlineModel MedlineSpec.
Import ListNotations.
Local Open Scope list_scope.

(** ** Texts *)
Lemma cut_first sep a b : sep <> [] -> contains sep (a ++ removelast sep) = false -> cut sep (a ++ sep ++ b) = Some (a, b).
Proof.
  intros NE. induction a as [|x a IH]; intros C.
  - cbn [app]. destruct sep as [|y sep]; [congruence|]. change (cut (y :: sep) ((y :: sep) ++ b)) with (if starts_with (y :: sep) ((y :: sep) ++ b) then Some (@nil char, skipn (length (y :: sep)) ((y :: sep) ++ b)) else match cut (y :: sep) (sep ++ b) with Some (a, b) => Some (y :: a, b) | None => None end).
    replace (starts_with (y :: sep) ((y :: sep) ++ b)) with true by (symmetry; apply starts_with_spec; eexists; reflexivity). rewrite skipn_app_exact. reflexivity.
  - cbn [app contains] in C |- *. apply orb_false_iff in C as [C1 C2].
    change (cut sep (x :: a ++ sep ++ b)) with (if starts_with sep (x :: a ++ sep ++ b) then Some (@nil char, skipn (length sep) (x :: a ++ sep ++ b)) else match cut sep (a ++ sep ++ b) with Some (a, b) => Some (x :: a, b) | None => None end).
    assert (E : x :: a ++ sep ++ b = (x :: a ++ removelast sep) ++ ([last sep 0%N] ++ b)).
    { rewrite (app_removelast_last 0%N NE) at 1. cbn [app]. rewrite <- !app_assoc. reflexivity. }
    rewrite E, starts_prefix.
    + rewrite C1. rewrite (IH C2). reflexivity.
    + cbn [length]. rewrite app_length. pose proof (f_equal (@length _) (app_removelast_last 0%N NE)) as L. rewrite app_length in L. change (length [last sep 0%N]) with 1 in L. unfold str, char in *. lia.
Qed.
Lemma colon_split_mark a w : contains $" : " (a ++ $" :") = false -> colon_split (a ++ $" : " ++ w) = (a, w).
Proof. intros C. unfold colon_split. rewrite (cut_first $" : " a w); [reflexivity|discriminate|exact C]. Qed.
Lemma lstrip_spaces n s : lstrip (repeat sp n ++ s) = lstrip s.
Proof. induction n as [|n IH]; [reflexivity|]. cbn. exact IH. Qed.
Lemma rstrip_pad t n : (forall c, In c t -> ws_char c = false) -> rstrip (t ++ repeat sp n) = t.
Proof.
  intros NW. unfold rstrip. rewrite rev_app_distr. replace (rev (repeat sp n)) with (repeat sp n).
  - rewrite lstrip_spaces. destruct (rev t) as [|c r] eqn:E; [rewrite <- (rev_involutive t), E; reflexivity|]. cbn [lstrip]. rewrite NW by (apply in_rev; rewrite E; left; reflexivity). rewrite <- E. apply rev_involutive.
  - induction n as [|n IH]; [reflexivity|]. cbn [repeat rev]. rewrite <- IH. apply repeat_cons.
Qed.

(** ** The lines of an entry *)
Definition tag_line (t v : str) : str := t ++ repeat sp (4 - length t) ++ $"- " ++ v ++ [nl].
Definition cont_line (w : str) : str := six ++ w ++ [nl].
Fixpoint first_line (v : str) : str * option str :=
  match v with
  | [] => ([], None)
  | c :: v' => if eqb c nl then ([], Some v') else (c :: fst (first_line v'), snd (first_line v'))
  end.
Lemma first_line_length v w : snd (first_line v) = Some w -> length w < length v.
Proof. induction v as [|c v IH]; cbn; [discriminate|]. destruct (eqb c nl); [intros [= <-]; lia|]. cbn. intros E. apply IH in E. lia. Qed.
(** continuation lines of a value *)
Fixpoint conts (v : str) : list str :=   (* the parts after the first newline *)
  match v with
  | [] => []
  | c :: v' => if eqb c nl then fst (first_line v') :: conts v' else conts v'
  end.
Definition entry_lines (t v : str) : list str := tag_line t (fst (first_line v)) :: map cont_line (conts v).
Lemma indent_lines v : indent v ++ [nl] = fst (first_line v) ++ [nl] ++ concat (map cont_line (conts v)).
Proof.
  induction v as [|c v IH]; [reflexivity|]. change (indent (c :: v)) with ((if eqb c nl then nl :: six else [c]) ++ indent v). rewrite <- app_assoc, IH. cbn [first_line conts]. destruct (eqb c nl) eqn:E.
  - apply eqb_eq in E. subst c. cbn [fst map concat]. unfold cont_line. cbn [app]. rewrite <- ?app_assoc. reflexivity.
  - cbn [fst]. reflexivity.
Qed.
Lemma entry_concat t v : entry t v = concat (entry_lines t v).
Proof. unfold entry, entry_lines. cbn [concat]. unfold tag_line. rewrite indent_lines. rewrite <- !app_assoc. reflexivity. Qed.
Lemma value_lines v : v = fst (first_line v) ++ concat (map (fun w => nl :: w) (conts v)).
Proof.
  induction v as [|c v IH]; [reflexivity|]. cbn [first_line conts]. destruct (eqb c nl) eqn:E.
  - apply eqb_eq in E. subst c. cbn. f_equal. exact IH.
  - cbn [fst app]. f_equal. exact IH.
Qed.
Lemma first_line_clean v : ~ In nl (fst (first_line v)).
Proof. induction v as [|c v IH]; [intros []|]. cbn. destruct (@eqb_spec char _ c nl) as [->|N]; [intros []|]. cbn. intros [E|I1]; [congruence|tauto]. Qed.
Lemma conts_clean v w : In w (conts v) -> ~ In nl w.
Proof. induction v as [|c v IH]; [intros []|]. cbn. destruct (eqb c nl); [intros [<-|I1]; [apply first_line_clean|tauto]|exact IH]. Qed.
Lemma first_line_whole v : ~ In nl v -> fst (first_line v) = v /\ conts v = [].
Proof.
  induction v as [|c v IH]; [auto|]. intros N. cbn. destruct (@eqb_spec char _ c nl) as [->|NE]; [exfalso; apply N; left; reflexivity|]. destruct IH as [A B]; [intros I1; apply N; right; exact I1|]. cbn. rewrite A, B. auto.
Qed.
Lemma In_first_line c v : In c (fst (first_line v)) -> In c v.
Proof. intros I1. rewrite (value_lines v). apply in_or_app. left. exact I1. Qed.
Lemma In_conts c w v : In w (conts v) -> In c w -> In c v.
Proof. intros I1 I2. rewrite (value_lines v). apply in_or_app. right. apply in_concat. exists (nl :: w). split; [apply in_map_iff; eauto|right; exact I2]. Qed.

(** ** Reading entries *)
Section Alpha.
Variable alpha : char -> bool.
Hypothesis AL : letters alpha.

Lemma put_get t v d t' : dget t' (put t v d) = if eqb t t' then Some (values t d ++ [v]) else dget t' d.
Proof.
  unfold put, values. destruct (@eqb_spec str _ t t') as [<-|N]; [rewrite dget_dset_same; destruct (dget t d); reflexivity|]. apply dget_dset_other. congruence.
Qed.
Lemma dset_dset {K V} `{EqDec K} (k : K) (x y : V) d : dset k x (dset k y d) = dset k x d.
Proof.
  induction d as [|[k' v'] d IH]; cbn; [rewrite eqb_refl; reflexivity|]. destruct (eqb k k') eqn:E; cbn; rewrite E; [reflexivity|]. rewrite IH. reflexivity.
Qed.
Lemma more_put t v w d : more t w (put t v d) = Ok (put t (v ++ nl :: w) d).
Proof.
  unfold more. rewrite put_get, eqb_refl. destruct (values t d ++ [v]) as [|x l] eqn:E; [destruct (values t d); discriminate|]. rewrite <- E. rewrite removelast_last, last_last. unfold put at 1. rewrite dset_dset. unfold put, values. f_equal. f_equal. destruct (dget t d); reflexivity.
Qed.
Lemma mparse_conts t au d : forall ws rest v, mparse alpha (map cont_line ws ++ rest) t au (put t v d) = mparse alpha rest t au (put t (v ++ concat (map (fun w => nl :: w) ws)) d).
Proof using.
  clear AL. induction ws as [|w ws IH]; intros rest v; [cbn; rewrite app_nil_r; reflexivity|]. cbn [map app]. cbn [mparse].
  change (firstn 4 (cont_line w)) with (repeat sp 4). change (rstrip (repeat sp 4)) with (@nil char). cbn [isalpha].
  change (firstn 6 (cont_line w)) with six. rewrite eqb_refl. change (skipn 6 (cont_line w)) with (w ++ [nl]). rewrite init_snoc, more_put. rewrite IH. cbn [map concat]. rewrite <- !app_assoc. reflexivity.
Qed.
Definition full_value (t v : str) (au : option str) : str := if mem t author_tags then (match au with Some a => a | None => $"None" end) ++ $" : " ++ v else v.
Definition next_author (t v : str) (au : option str) : option str := if eqb t $"AU" then Some (fst (first_line v)) else au.
Lemma mparse_entry t v rest tag au d : good_tag alpha t -> mparse alpha (entry_lines t v ++ rest) tag au d = mparse alpha rest t (next_author t v au) (put t (full_value t v (next_author t v au)) d).
Proof.
  intros (NE & L4 & LT). unfold entry_lines. cbn [app mparse].
  assert (F4 : firstn 4 (tag_line t (fst (first_line v))) = t ++ repeat sp (4 - length t)).
  { unfold tag_line. rewrite app_assoc, firstn_app. rewrite app_length, repeat_length. replace (4 - (length t + (4 - length t))) with 0 by lia. rewrite firstn_O, app_nil_r. apply firstn_all2. rewrite app_length, repeat_length. lia. }
  rewrite F4, rstrip_pad by (intros c I1; apply AL, LT, I1).
  replace (isalpha alpha t) with true by (symmetry; unfold isalpha; destruct t; [congruence|apply forallb_forall; exact LT]).
  assert (N4 : nth_error (tag_line t (fst (first_line v))) 4 = Some 45%N).
  { unfold tag_line. rewrite app_assoc, nth_error_app2 by (rewrite app_length, repeat_length; lia). rewrite app_length, repeat_length. replace (4 - (length t + (4 - length t))) with 0 by lia. reflexivity. }
  rewrite N4. rewrite eqb_refl.
  assert (S6 : skipn 6 (tag_line t (fst (first_line v))) = fst (first_line v) ++ [nl]).
  { unfold tag_line. replace (t ++ repeat sp (4 - length t) ++ $"- " ++ fst (first_line v) ++ [nl]) with ((t ++ repeat sp (4 - length t) ++ $"- ") ++ fst (first_line v) ++ [nl]) by (rewrite <- !app_assoc; reflexivity).
    replace 6 with (length (t ++ repeat sp (4 - length t) ++ $"- ")) by (rewrite !app_length, repeat_length; change (length $"- ") with 2; lia). apply skipn_app_exact. }
  rewrite S6, init_snoc. rewrite (mparse_conts t (next_author t v au)). unfold full_value. f_equal. f_equal. fold (next_author t v au).
  destruct (mem t author_tags); [rewrite <- !app_assoc; do 2 f_equal|]; symmetry; apply value_lines.
Qed.
(** all entries *)
Fixpoint run (evs : list (str * str)) (tag : str) (au : option str) (d : mfields) : str * option str * mfields :=
  match evs with
  | [] => (tag, au, d)
  | (t, v) :: evs' => run evs' t (next_author t v au) (put t (full_value t v (next_author t v au)) d)
  end.
Definition ev_lines (evs : list (str * str)) : list str := flat_map (fun '(t, v) => entry_lines t v) evs.
Lemma mparse_events : forall evs rest tag au d, (forall t v, In (t, v) evs -> good_tag alpha t) ->
  mparse alpha (ev_lines evs ++ rest) tag au d = let '(tag', au', d') := run evs tag au d in mparse alpha rest tag' au' d'.
Proof.
  induction evs as [|[t v] evs IH]; intros rest tag au d G; [reflexivity|]. cbn [ev_lines flat_map]. fold (ev_lines evs). rewrite <- app_assoc, mparse_entry by (apply (G t v); left; reflexivity). cbn [run]. apply IH. intros t' v' I1. apply (G t' v'). right. exact I1.
Qed.
(** what the entries add to a field *)
Fixpoint contribs (t : str) (au : option str) (evs : list (str * str)) : list str :=
  match evs with
  | [] => []
  | (t', v) :: evs' => (if eqb t' t then [full_value t' v (next_author t' v au)] else []) ++ contribs t (next_author t' v au) evs'
  end.
Lemma run_get t : forall evs tag au d, dget t (snd (run evs tag au d)) = match contribs t au evs with [] => dget t d | c => Some (values t d ++ c) end.
Proof using.
  clear AL. induction evs as [|[t' v] evs IH]; intros tag au d; [reflexivity|]. cbn [run contribs]. rewrite IH. unfold values at 1. rewrite put_get. destruct (@eqb_spec str _ t' t) as [->|N].
  - cbn [app]. destruct (contribs t _ evs); [reflexivity|]. rewrite <- app_assoc. reflexivity.
  - cbn [app]. reflexivity.
Qed.
Fixpoint au_after (au : option str) (evs : list (str * str)) : option str :=
  match evs with [] => au | (t, v) :: evs' => au_after (next_author t v au) evs' end.
Lemma contribs_app t : forall a b au, contribs t au (a ++ b) = contribs t au a ++ contribs t (au_after au a) b.
Proof using. clear AL. induction a as [|[t' v] a IH]; intros b au; [reflexivity|]. cbn. rewrite IH, app_assoc. reflexivity. Qed.
Lemma contribs_plain t : mem t author_tags = false -> forall evs au, contribs t au evs = map snd (filter (fun e => eqb (fst e) t) evs).
Proof using.
  clear AL. intros M. induction evs as [|[t' v] evs IH]; intros au; [reflexivity|]. cbn [contribs filter fst]. rewrite IH. destruct (@eqb_spec str _ t' t) as [->|N]; [|reflexivity]. unfold full_value. rewrite M. reflexivity.
Qed.
End Alpha.

(** ** What is written *)
Definition mark (a w : str) : str := a ++ $" : " ++ w.
Section Written.
Variable g : str -> str -> list str.
Definition aev (a : str) : list (str * str) := flat_map (fun t => map (pair t) (g t a)) author_tags.
Definition fev (e : str * list str) : list (str * str) :=
  if mem (fst e) author_tags then [] else flat_map (fun v => (fst e, v) :: if eqb (fst e) $"AU" then aev v else []) (snd e).
Definition events (d : mfields) : list (str * str) := flat_map fev d.
Definition getl (a : str) (m : dict str (list str)) : list str := match dget a m with Some l => l | None => [] end.
Lemma group_get a : forall (L : list (str * str)) (m : dict str (list str)),
  getl a (fold_left (fun m tv => let '(a, w) := colon_split (snd tv) in dset a (match dget a m with Some ls => ls ++ [entry (fst tv) w] | None => [entry (fst tv) w] end) m) L m)
  = getl a m ++ map (fun tv => entry (fst tv) (snd (colon_split (snd tv)))) (filter (fun tv => eqb (fst (colon_split (snd tv))) a) L).
Proof.
  induction L as [|[t v] L IH]; intros m; [cbn; rewrite app_nil_r; reflexivity|]. cbn [fold_left filter snd]. rewrite IH. destruct (colon_split v) as [a' w] eqn:C. cbn [fst]. unfold getl at 1. destruct (@eqb_spec str _ a' a) as [->|N].
  - rewrite dget_dset_same. cbn [map fst snd]. rewrite C. cbn [snd]. unfold getl. destruct (dget a m); [rewrite <- app_assoc|]; reflexivity.
  - rewrite dget_dset_other by congruence. reflexivity.
Qed.
Lemma sel (h : str -> list str) a : forall l, NoDup l -> (forall a', In a' l -> h a' <> [] -> contains $" : " (a' ++ $" :") = false) ->
  filter (fun v => eqb (fst (colon_split v)) a) (flat_map (fun a' => map (mark a') (h a')) l) = if mem a l then map (mark a) (h a) else [].
Proof.
  induction l as [|x l IH]; intros ND M; [reflexivity|]. inversion ND as [|? ? NI ND']; subst. cbn [flat_map]. rewrite filter_app, IH by (auto; intros a' I1; apply M; right; exact I1).
  assert (F : filter (fun v => eqb (fst (colon_split v)) a) (map (mark x) (h x)) = if eqb x a then map (mark x) (h x) else []).
  { assert (MX : forall w, In w (h x) -> fst (colon_split (mark x w)) = x).
    { intros w I1. unfold mark. rewrite colon_split_mark; [reflexivity|]. apply M; [left; reflexivity|]. intros E. rewrite E in I1. destruct I1. }
    revert MX. induction (h x) as [|w ws IHw]; intros MX; [destruct (eqb x a); reflexivity|]. cbn [map filter]. rewrite MX by (left; reflexivity). rewrite IHw by (intros w' I1; apply MX; right; exact I1). destruct (eqb x a); reflexivity. }
  rewrite F. cbn [mem existsb]. change (existsb (eqb a) l) with (mem a l). rewrite (eqb_sym a x). destruct (@eqb_spec str _ x a) as [->|N].
  - replace (mem a l) with false by (symmetry; apply mem_not_In; exact NI). cbn. apply app_nil_r.
  - reflexivity.
Qed.
Definition fits (d : mfields) : Prop := forall t, In t author_tags ->
  values t d = flat_map (fun a => map (mark a) (g t a)) (authors d) /\ forall a, In a (authors d) -> g t a <> [] -> ~ In nl a /\ contains $" : " (a ++ $" :") = false.
Lemma author_lines_get d a : NoDup (authors d) -> fits d -> In a (authors d) -> concat (getl a (author_lines d)) = concat (map (fun '(t, v) => entry t v) (aev a)).
Proof.
  intros ND F IA. unfold author_lines. rewrite group_get. cbn [getl dget app]. unfold aev.
  assert (G : forall ts, (forall t, In t ts -> In t author_tags) ->
    concat (map (fun tv => entry (fst tv) (snd (colon_split (snd tv)))) (filter (fun tv => eqb (fst (colon_split (snd tv))) a) (flat_map (fun t => map (pair t) (match dget t d with Some vs => vs | None => [] end)) ts)))
    = concat (map (fun '(t, v) => entry t v) (flat_map (fun t => map (pair t) (g t a)) ts))); [|exact (G author_tags (fun t I1 => I1))].
  induction ts as [|t ts IH]; intros TS; [reflexivity|]. cbn [flat_map]. rewrite filter_app, !map_app, !concat_app, IH by (intros t' I1; apply TS; right; exact I1). f_equal. clear IH.
  destruct (F t (TS t (or_introl eq_refl))) as [V M]. change (match dget t d with Some vs => vs | None => [] end) with (values t d).
  replace (filter (fun tv => eqb (fst (colon_split (snd tv))) a) (map (pair t) (values t d))) with (map (pair t) (filter (fun v => eqb (fst (colon_split v)) a) (values t d))).
  - rewrite V, (sel (g t) a) by (auto; intros a' I1 N; apply M; assumption). replace (mem a (authors d)) with true by (symmetry; apply mem_In; exact IA). rewrite !map_map. f_equal. apply map_ext_in. intros w I1. cbn [fst snd]. unfold mark. rewrite colon_split_mark; [reflexivity|]. apply M; [exact IA|]. intros E. rewrite E in I1. destruct I1.
  - clear V. induction (values t d) as [|v vs IHv]; [reflexivity|]. cbn [map filter snd]. destruct (eqb _ a); cbn [map]; rewrite IHv; reflexivity.
Qed.
Lemma AU_values d vs : NoDup (map fst d) -> In ($"AU", vs) d -> vs = authors d.
Proof. intros ND I1. unfold authors, values. rewrite (In_dget _ _ _ ND I1). reflexivity. Qed.
Lemma write_events d : NoDup (map fst d) -> NoDup (authors d) -> fits d -> write_medline d = concat (map (fun '(t, v) => entry t v) (events d)).
Proof.
  intros NK ND F. unfold write_medline, events.
  assert (G : forall e, (forall x, In x e -> In x d) -> concat (map (fun '(t, vs) => if mem t author_tags then [] else concat (map (fun v => entry t v ++ (if eqb t $"AU" then concat (match dget v (author_lines d) with Some ls => ls | None => [] end) else [])) vs)) e)
     = concat (map (fun '(t, v) => entry t v) (flat_map fev e))); [|apply G; auto].
  induction e as [|[t vs] e IH]; intros SUB; [reflexivity|]. cbn [map concat flat_map]. rewrite map_app, concat_app, IH by (intros x I1; apply SUB; right; exact I1). f_equal. clear IH. unfold fev. cbn [fst snd]. destruct (mem t author_tags); [reflexivity|].
  assert (IV : t = $"AU" -> forall v, In v vs -> In v (authors d)).
  { intros -> v I1. rewrite <- (AU_values d vs NK) by (apply SUB; left; reflexivity). exact I1. }
  clear SUB. induction vs as [|v vs IHv]; [reflexivity|]. cbn [map concat flat_map]. cbn [app map concat]. rewrite map_app, concat_app, IHv by (intros E w I1; apply (IV E); right; exact I1). rewrite <- app_assoc. f_equal. f_equal. destruct (@eqb_spec str _ t $"AU") as [E|N]; [|reflexivity]. apply (author_lines_get d v ND F). apply IV; [exact E|left; reflexivity].
Qed.
(** what reading gives for each tag *)
Lemma plain_values d t : mem t author_tags = false -> NoDup (map fst d) -> map snd (filter (fun e => eqb (fst e) t) (events d)) = values t d.
Proof.
  intros M. unfold events, values. induction d as [|[t' vs] d IH]; intros ND; [reflexivity|]. cbn [map fst] in ND. inversion ND as [|? ? NI ND']; subst. cbn [flat_map]. rewrite filter_app, map_app, IH by assumption. clear IH.
  assert (AV : forall a, filter (fun e => eqb (fst e) t) (aev a) = []).
  { intros a. unfold aev. assert (G : forall ts, (forall x, In x ts -> In x author_tags) -> filter (fun e : str * str => eqb (fst e) t) (flat_map (fun t => map (pair t) (g t a)) ts) = []); [|apply G; auto].
    induction ts as [|x ts IHt]; intros TS; [reflexivity|]. cbn [flat_map]. rewrite filter_app, IHt by (intros y I1; apply TS; right; exact I1). rewrite app_nil_r. induction (g x a) as [|w ws IHw]; [reflexivity|]. cbn [map filter fst].
    replace (eqb x t) with false; [exact IHw|]. symmetry. apply neq_eqb. intros ->. apply mem_not_In in M. apply M, TS. left. reflexivity. }
  assert (FV : map snd (filter (fun e => eqb (fst e) t) (fev (t', vs))) = if eqb t' t then vs else []).
  { unfold fev. cbn [fst snd]. destruct (mem t' author_tags) eqn:M'.
    - destruct (@eqb_spec str _ t' t) as [->|N]; [congruence|reflexivity].
    - induction vs as [|v vs IHv]; [destruct (eqb t' t); reflexivity|]. cbn [flat_map app filter fst]. rewrite filter_app. replace (filter (fun e : str * str => eqb (fst e) t) (if eqb t' $"AU" then aev v else [])) with (@nil (str * str)) by (destruct (eqb t' $"AU"); [symmetry; apply AV|reflexivity]).
      cbn [app]. destruct (eqb t' t); cbn [map snd]; rewrite IHv; reflexivity. }
  rewrite FV. cbn [dget]. rewrite (eqb_sym t t'). destruct (@eqb_spec str _ t' t) as [->|N]; [|reflexivity].
  replace (dget t d) with (@None (list str)); [apply app_nil_r|]. symmetry. apply dget_None. exact NI.
Qed.
Lemma contribs_about t x : forall t' l, t' <> $"AU" -> In t' author_tags -> contribs t (Some x) (map (pair t') l) = (if eqb t' t then map (mark x) l else []) /\ au_after (Some x) (map (pair t') l) = Some x.
Proof.
  intros t' l NA IT. induction l as [|w l [IH1 IH2]]; [destruct (eqb t' t); auto|]. cbn [map contribs au_after]. unfold next_author. rewrite (neq_eqb NA). rewrite IH1, IH2. split; [|reflexivity]. destruct (eqb t' t); [|reflexivity].
  cbn [map app]. f_equal. unfold full_value. replace (mem t' author_tags) with true by (symmetry; apply mem_In; exact IT). reflexivity.
Qed.
Lemma contribs_author t x a : In t author_tags -> contribs t (Some x) (aev a) = map (mark x) (g t a).
Proof.
  intros IT. unfold aev, author_tags. cbn [flat_map]. rewrite app_nil_r, contribs_app.
  destruct (contribs_about t x $"AD" (g $"AD" a)) as [A1 A2]; [discriminate|left; reflexivity|]. destruct (contribs_about t x $"AUID" (g $"AUID" a)) as [B1 _]; [discriminate|right; left; reflexivity|].
  rewrite A1, A2, B1. destruct IT as [<-|[<-|[]]]; vm_compute eqb; cbv iota; [apply app_nil_r|reflexivity].
Qed.
Lemma author_values d t : In t author_tags -> NoDup (map fst d) -> (forall a, In a (authors d) -> g t a <> [] -> ~ In nl a) ->
  forall au, contribs t au (events d) = flat_map (fun a => map (mark a) (g t a)) (authors d).
Proof.
  intros IT. assert (TA : t <> $"AU") by (destruct IT as [<-|[<-|[]]]; discriminate).
  assert (FA : forall vs, (forall a, In a vs -> g t a <> [] -> ~ In nl a) -> forall au, contribs t au (fev ($"AU", vs)) = flat_map (fun a => map (mark a) (g t a)) vs).
  { unfold fev. cbn [fst snd]. change (mem $"AU" author_tags) with false. cbv iota. rewrite eqb_refl. induction vs as [|v vs IHv]; intros NN au; [reflexivity|]. cbn [flat_map app contribs]. rewrite (neq_eqb (not_eq_sym TA)). cbn [app].
    rewrite contribs_app, IHv by (intros a I1; apply NN; right; exact I1). f_equal. unfold next_author. rewrite eqb_refl, (contribs_author t _ v IT). destruct (g t v) eqn:G; [reflexivity|]. destruct (first_line_whole v) as [W _]; [apply NN; [left; reflexivity|congruence]|]. rewrite W. reflexivity. }
  assert (FO : forall t' vs au, t' <> $"AU" -> contribs t au (fev (t', vs)) = []).
  { intros t' vs au N. unfold fev. cbn [fst snd]. destruct (mem t' author_tags) eqn:M'; [reflexivity|]. rewrite (neq_eqb N). revert au. induction vs as [|v vs IHv]; intros au; [reflexivity|]. cbn [flat_map app contribs]. rewrite IHv. replace (eqb t' t) with false; [reflexivity|]. symmetry. apply neq_eqb. intros ->. apply mem_not_In in M'. contradiction. }
  unfold events, authors, values. induction d as [|[t' vs] d IH]; intros ND NN au; [reflexivity|]. cbn [map fst] in ND. inversion ND as [|? ? NI ND']; subst. cbn [flat_map dget] in *. rewrite contribs_app. destruct (@eqb_spec str _ $"AU" t') as [<-|N].
  - rewrite (FA vs NN). rewrite IH; [|exact ND'|].
    + replace (dget $"AU" d) with (@None (list str)) by (symmetry; apply dget_None; exact NI). apply app_nil_r.
    + intros a I1. replace (dget $"AU" d) with (@None (list str)) in I1 by (symmetry; apply dget_None; exact NI). destruct I1.
  - rewrite FO by congruence. cbn [app]. apply IH; assumption.
Qed.
Lemma same_after d : NoDup (map fst d) -> (forall t vs, In (t, vs) d -> vs <> []) -> fits d -> forall tag au, same_fields (snd (run (events d) tag au [])) d.
Proof.
  intros ND NE F tag au t. rewrite run_get. cbn [dget]. unfold values at 1. cbn [dget app].
  assert (C : contribs t au (events d) = values t d).
  { destruct (mem t author_tags) eqn:M.
    - apply mem_In in M. destruct (F t M) as [V NN]. rewrite V. apply author_values; [exact M|exact ND|]. intros a I1 N. apply NN; assumption.
    - rewrite contribs_plain by exact M. apply plain_values; assumption. }
  rewrite C. unfold values. destruct (dget t d) as [vs|] eqn:G; [|reflexivity]. apply dget_In in G. apply NE in G. destruct vs; [congruence|reflexivity].
Qed.
Lemma events_tags alpha d : fields_good alpha d -> fits d -> forall t v, In (t, v) (events d) -> good_tag alpha t.
Proof.
  intros [ND G] F t v I1. unfold events in I1. apply in_flat_map in I1 as ([t' vs] & I1 & I2). unfold fev in I2. cbn [fst snd] in I2. destruct (mem t' author_tags); [destruct I2|]. apply in_flat_map in I2 as (v' & I2 & I3). destruct I3 as [[= <- <-]|I3]; [apply (G t' vs I1)|].
  destruct (@eqb_spec str _ t' $"AU") as [->|N]; [|destruct I3]. unfold aev in I3. apply in_flat_map in I3 as (x & IX & I3). apply in_map_iff in I3 as (w & [= <- <-] & I3).
  destruct (F x IX) as [V _]. assert (IW : In (mark v' w) (values x d)).
  { rewrite V. apply in_flat_map. exists v'. split; [rewrite <- (AU_values d vs ND I1); exact I2|]. apply in_map. exact I3. }
  unfold values in IW. destruct (dget x d) as [l|] eqn:GX; [|destruct IW]. apply dget_In in GX. apply (G x l GX).
Qed.
End Written.

(** ** Round trip of fields *)
Lemma full_tag_line alpha t v : good_tag alpha t -> alpha nl = false -> ~ In nl v -> full_line (tag_line t v).
Proof.
  intros (_ & _ & G) NA NV. unfold tag_line. exists (t ++ repeat sp (4 - length t) ++ $"- " ++ v). split; [rewrite <- !app_assoc; reflexivity|].
  intros I1. repeat (apply in_app_or in I1 as [I1|I1]); [rewrite (G _ I1) in NA; discriminate|apply repeat_spec in I1; discriminate|cbn in I1; destruct I1 as [I1|[I1|[]]]; discriminate|contradiction].
Qed.
Lemma full_cont_line w : ~ In nl w -> full_line (cont_line w).
Proof.
  intros N. exists (six ++ w). split; [unfold cont_line; rewrite <- app_assoc; reflexivity|]. intros I1. apply in_app_or in I1 as [I1|I1]; [cbn in I1; repeat destruct I1 as [I1|I1]; try discriminate; destruct I1|contradiction].
Qed.
Lemma full_entry alpha t v : letters alpha -> good_tag alpha t -> Forall full_line (entry_lines t v).
Proof.
  intros AL G. constructor.
  - apply (full_tag_line alpha); [exact G| |apply first_line_clean]. destruct (alpha nl) eqn:E; [|reflexivity]. apply AL in E. discriminate.
  - apply Forall_forall. intros l I1. apply in_map_iff in I1 as (w & <- & I1). apply full_cont_line. apply (conts_clean v w I1).
Qed.
Lemma full_events alpha evs : letters alpha -> (forall t v, In (t, v) evs -> good_tag alpha t) -> Forall full_line (ev_lines evs).
Proof.
  intros AL G. unfold ev_lines. apply Forall_forall. intros l I1. apply in_flat_map in I1 as ([t v] & I1 & I2). pose proof (full_entry alpha t v AL (G t v I1)) as FE. rewrite Forall_forall in FE. apply FE, I2.
Qed.
Lemma concat_events evs : concat (map (fun '(t, v) => entry t v) evs) = concat (ev_lines evs).
Proof. unfold ev_lines. induction evs as [|[t v] evs IH]; [reflexivity|]. cbn [map concat flat_map]. rewrite concat_app, IH, entry_concat. reflexivity. Qed.
Lemma by_author_fits d : by_author d -> NoDup (authors d) /\ exists g, fits g d.
Proof. intros [ND (g & G)]. split; [exact ND|]. exists g. exact G. Qed.
(** the lines of a written record, followed by anything, are read back *)
Lemma written_lines alpha d : letters alpha -> fields_good alpha d -> by_author d ->
  exists ls, write_medline d = concat ls /\ Forall full_line ls /\ (forall l c, In l ls -> In c l -> c = nl \/ c = sp \/ c = 45%N \/ (exists t vs, In (t, vs) d /\ (In c t \/ exists v, In v vs /\ In c v)) \/ alpha c = true) /\
    exists d', same_fields d' d /\ exists tag au, forall rest, medline_parse alpha (ls ++ rest) = mparse alpha rest tag au d'.
Proof.
  intros AL FG BA. apply by_author_fits in BA as [NA (g & F)]. destruct FG as [ND G]. exists (ev_lines (events g d)). pose proof (events_tags g alpha d (conj ND G) F) as ET. split; [|split; [|split]].
  - rewrite (write_events g d ND NA F). apply concat_events.
  - apply (full_events alpha); assumption.
  - intros l c I1 IC. unfold ev_lines in I1. apply in_flat_map in I1 as ([t v] & I1 & I2). pose proof (ET t v I1) as (_ & _ & GT).
    assert (VC : In c v -> exists t vs, In (t, vs) d /\ exists v, In v vs /\ In c v).
    { intros ICV. unfold events in I1. apply in_flat_map in I1 as ([t' vs] & I1 & I3). unfold fev in I3. cbn [fst snd] in I3. destruct (mem t' author_tags); [destruct I3|]. apply in_flat_map in I3 as (v' & I3 & I4). destruct I4 as [[= <- <-]|I4]; [eauto 6|].
      destruct (@eqb_spec str _ t' $"AU") as [->|N]; [|destruct I4]. unfold aev in I4. apply in_flat_map in I4 as (x & IX & I4). apply in_map_iff in I4 as (w & [= <- <-] & I4).
      destruct (F x IX) as [V _]. assert (IW : In (mark v' w) (values x d)).
      { rewrite V. apply in_flat_map. exists v'. split; [rewrite <- (AU_values d vs ND I1); exact I3|]. apply in_map. exact I4. }
      unfold values in IW. destruct (dget x d) as [l'|] eqn:GX; [|destruct IW]. apply dget_In in GX. exists x, l'. split; [exact GX|]. exists (mark v' w). split; [exact IW|]. unfold mark. apply in_or_app. right. apply in_or_app. right. exact ICV. }
    assert (L : In c t \/ c = sp \/ c = 45%N \/ In c v \/ c = nl).
    { unfold entry_lines in I2. destruct I2 as [<-|I2].
      - unfold tag_line in IC. apply in_app_or in IC as [IC|IC]; [auto|]. apply in_app_or in IC as [IC|IC]; [apply repeat_spec in IC; auto|]. apply in_app_or in IC as [IC|IC]; [destruct IC as [<-|[<-|[]]]; auto|]. apply in_app_or in IC as [IC|[<-|[]]]; [|auto]. apply In_first_line in IC. auto.
      - apply in_map_iff in I2 as (w & <- & I2). unfold cont_line in IC. apply in_app_or in IC as [IC|IC]; [cbn in IC; repeat destruct IC as [IC|IC]; auto; destruct IC|]. apply in_app_or in IC as [IC|[<-|[]]]; [|auto]. pose proof (In_conts c w v I2 IC). auto. }
    destruct L as [L|[L|[L|[L|L]]]]; auto 10. apply VC in L as (t' & vs & A & B). right. right. right. left. exists t', vs. auto.
  - pose proof (same_after g d ND (fun t vs I1 => proj2 (G t vs I1)) F $"PMID" None) as SA. destruct (run (events g d) $"PMID" None []) as [[tag au] d'] eqn:R. exists d'. split; [exact SA|]. exists tag, au. intros rest. unfold medline_parse. rewrite (mparse_events alpha AL) by exact ET. rewrite R. reflexivity.
Qed.
