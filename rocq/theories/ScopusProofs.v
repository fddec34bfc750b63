(** Proofs about Scopus records. *)
From Coq Require Import List Lia Bool Arith.
From Coq Require Import String.
From Verif Require Import Base PyStr Regex RegexFacts CollectionProofs JournalModel JournalProofs WosProofs ScopusModel ScopusSpec.
Import ListNotations.
Local Open Scope list_scope.

(** ** The two expressions *)
Definition qs (n : nat) (t : str) : str := repeat quo n ++ t.
Section Pairs.
Variable r : rx.
Variable g : str -> bool.
Hypothesis G : forall s c (k : str -> caps -> option caps), (forall s c, k s c <> None) -> (rmatch r s c k <> None <-> g s = true).
Definition after_pairs : rx := RCat (rchar quo) (RGrp 2 r).
Definition f_ (s : str) : bool := match s with c :: s' => N.eqb quo c && g s' | [] => false end.
Lemma after_f s c (k : str -> caps -> option caps) : (forall s c, k s c <> None) -> (rmatch after_pairs s c k <> None <-> f_ s = true).
Proof using G.
  intros K. unfold after_pairs. cbn [rmatch rchar]. destruct s as [|x s]; cbn [f_]; [split; [congruence|discriminate]|]. destruct (N.eqb quo x); cbn [andb]; [|split; [congruence|discriminate]]. apply G. intros s' c'. apply K.
Qed.
Lemma rep_step fuel s c (k : str -> caps -> option caps) : rep (rmatch (RGrp 1 (rtext [quo; quo]))) true (S fuel) 0 None s c k
  = orelse (if starts_with [quo; quo] s then rep (rmatch (RGrp 1 (rtext [quo; quo]))) true fuel 0 None (skipn 2 s) (set_cap 1 (firstn (length s - length (skipn 2 s)) s) c) k else None) (k s c).
Proof.
  cbn [rep]. cbn [Nat.eqb pred option_map]. f_equal. change (rmatch (RGrp 1 (rtext [quo; quo]))) with (fun s c (k : str -> caps -> option caps) => rmatch (rtext [quo; quo]) s c (fun s' c' => k s' (set_cap 1 (firstn (length s - length s') s) c'))) at 1. cbv beta. rewrite rtext_eq. change (length [quo; quo]) with 2.
  destruct (starts_with [quo; quo] s) eqn:E; [|reflexivity]. apply starts_with_spec in E as [u ->]. cbn [app skipn length]. destruct (Nat.ltb_spec (length u) (S (S (length u)))); [reflexivity|lia].
Qed.
Lemma starts2 n t : starts_with [quo; quo] (qs (S (S n)) t) = true.
Proof. apply starts_with_spec. exists (qs n t). reflexivity. Qed.
Lemma orelse_none {X} (a b : option X) : orelse a b <> None <-> a <> None \/ b <> None.
Proof. destruct a, b; cbn; split; intros; try congruence; [left; congruence|left; congruence|right; congruence|tauto]. Qed.
Fixpoint pm (n : nat) (t : str) : bool := match n with 0 => false | 1 => g t | S (S n') => pm n' t || g (qs (S n') t) end.
Lemma pairs_match : forall n t fuel c, (forall t', t <> quo :: t') -> length (qs n t) < fuel ->
  (rep (rmatch (RGrp 1 (rtext [quo; quo]))) true fuel 0 None (qs n t) c (fun s c => rmatch after_pairs s c (fun _ c => Some c)) <> None <-> pm n t = true).
Proof using G.
  assert (K : forall (s : str) (c : caps), Some c <> None) by discriminate.
  fix IH 1. intros n t fuel c NT L. destruct fuel as [|fuel]; [lia|]. rewrite rep_step, orelse_none.
  rewrite (after_f _ c (fun _ c => Some c) K). destruct n as [|[|n]].
  - change (qs 0 t) with t. cbn [pm]. destruct t as [|x t]; [cbn; split; [intros [A|A]; [congruence|discriminate]|discriminate]|]. cbn [starts_with f_].
    assert (NX : quo <> x) by (intros <-; apply (NT t); reflexivity). unfold char in *. rewrite (neq_eqb NX). cbn [andb]. destruct (N.eqb_spec quo x) as [E|_]; [contradiction|]. cbn. split; [intros [A|A]; [congruence|discriminate]|discriminate].
  - change (qs 1 t) with (quo :: t). cbn [pm f_]. rewrite N.eqb_refl. cbn [andb].
    assert (ST : starts_with [quo; quo] (quo :: t) = false).
    { destruct t as [|x t]; [reflexivity|]. cbn [starts_with]. assert (NX : quo <> x) by (intros <-; apply (NT t); reflexivity). unfold char in *. rewrite (neq_eqb NX). apply andb_false_r. }
    rewrite ST. split; [intros [A|A]; [congruence|exact A]|auto].
  - rewrite starts2. change (skipn 2 (qs (S (S n)) t)) with (qs n t). rewrite IH; [|exact NT|unfold qs in *; cbn [repeat app length] in L |- *; unfold str, char in *; lia]. change (f_ (qs (S (S n)) t)) with (N.eqb quo quo && g (qs (S n) t)). rewrite N.eqb_refl. cbn [andb pm]. rewrite orb_true_iff. reflexivity.
Qed.
Lemma pairs_matches n t : (forall t', t <> quo :: t') -> matches (rx_pairs r) (qs n t) = pm n t.
Proof using G.
  intros NT. unfold matches, re_match, rx_pairs. change (RCat (rchar quo) (RGrp 2 r)) with after_pairs.
  change (rmatch (RCat (RRep true 0 None (RGrp 1 (rtext [quo; quo]))) after_pairs) (qs n t) no_caps (fun _ c => Some c)) with (rep (rmatch (RGrp 1 (rtext [quo; quo]))) true (S (length (qs n t))) 0 None (qs n t) no_caps (fun s c => rmatch after_pairs s c (fun _ c => Some c))).
  pose proof (pairs_match n t (S (length (qs n t))) no_caps NT (Nat.lt_succ_diag_r _)) as P. destruct (rep _ _ _ _ _ _ _ _).
  - symmetry. apply P. discriminate.
  - destruct (pm n t); [|reflexivity]. exfalso. apply P; reflexivity.
Qed.
End Pairs.
Definition g_first (s : str) : bool := match s with [] => false | c :: s' => negb (N.eqb c quo) || match s' with [] => true | [x] => N.eqb x nl | _ => false end end.
Definition g_inner (s : str) : bool := match s with [] => false | c :: _ => negb (N.eqb c quo || N.eqb c 124 || N.eqb c 36) end.
Lemma g_first_ok : forall s c (k : str -> caps -> option caps), (forall s c, k s c <> None) -> (rmatch (ROr (RCls (fun c => negb (N.eqb c quo))) (RCat (rchar quo) REol)) s c k <> None <-> g_first s = true).
Proof.
  intros s c k K. cbn [rmatch rchar]. rewrite orelse_none. destruct s as [|x s]; cbn [g_first]; [split; [intros [A|A]; congruence|discriminate]|]. rewrite (N.eqb_sym quo x). destruct (N.eqb x quo); cbn [negb orb].
  - destruct s as [|y [|z s]]; [split; [auto|intros _; right; apply K]| |split; [intros [A|A]; congruence|discriminate]]. destruct (N.eqb y nl); [split; [auto|intros _; right; apply K]|split; [intros [A|A]; congruence|discriminate]].
  - split; [auto|intros _; left; apply K].
Qed.
Lemma g_inner_ok : forall s c (k : str -> caps -> option caps), (forall s c, k s c <> None) -> (rmatch (RCls (fun c => negb (N.eqb c quo || N.eqb c 124 || N.eqb c 36))) s c k <> None <-> g_inner s = true).
Proof.
  intros s c k K. cbn [rmatch]. destruct s as [|x s]; cbn [g_inner]; [split; [congruence|discriminate]|]. destruct (negb _); [split; [auto|intros _; apply K]|split; [congruence|discriminate]].
Qed.
Lemma inner_odd : forall n t, (forall t', t <> quo :: t') -> matches inner_quoting (qs n t) = Nat.odd n && g_inner t.
Proof.
  intros n t NT. unfold inner_quoting. rewrite (pairs_matches _ g_inner g_inner_ok n t NT). clear NT. revert n. fix IH 1. intros [|[|n]]; [reflexivity|reflexivity|]. cbn [pm]. rewrite IH. change (g_inner (qs (S n) t)) with false. rewrite orb_false_r. reflexivity.
Qed.
Definition eol (t : str) : bool := match t with [] => true | [x] => N.eqb x nl | _ => false end.
Lemma first_parity : forall n t, (forall t', t <> quo :: t') -> matches first_quoting (qs n t) = if Nat.odd n then negb (eqb t []) else negb (n =? 0) && eol t.
Proof.
  intros n t NT. unfold first_quoting. rewrite (pairs_matches _ g_first g_first_ok n t NT).
  assert (G1 : g_first t = negb (eqb t [])).
  { destruct t as [|x t]; [reflexivity|]. cbn [g_first]. destruct (N.eqb_spec x quo) as [->|_]; [exfalso; apply (NT t); reflexivity|reflexivity]. }
  assert (G2 : forall m, g_first (qs (S m) t) = (m =? 0) && eol t).
  { intros [|m]; cbn [qs repeat app g_first Nat.eqb]; rewrite N.eqb_refl; cbn [negb orb].
    - destruct t as [|x [|y t]]; reflexivity.
    - destruct (repeat quo m ++ t); reflexivity. }
  clear NT. revert n. fix IH 1. intros [|[|n]]; [reflexivity|cbn [pm]; exact G1|]. cbn [pm]. rewrite IH, G2. change (Nat.odd (S (S n))) with (Nat.odd n). change (S (S n) =? 0) with false. destruct (Nat.odd n) eqn:O.
  - destruct n; [discriminate|]. cbn. apply orb_false_r.
  - destruct n as [|n]; cbn; [reflexivity|]. apply orb_false_r.
Qed.
Lemma lead_form (s : str) : exists t, s = qs (lead s) t /\ (forall t', t <> quo :: t') /\ t = skipn (lead s) s.
Proof.
  induction s as [|c s (t & E & N & K)]; [exists []; split; [reflexivity|split; [discriminate|reflexivity]]|]. destruct (N.eqb_spec c quo) as [->|NE].
  - exists t. change (lead (quo :: s)) with (S (lead s)). split; [cbn; f_equal; exact E|]. split; [exact N|exact K].
  - exists (c :: s). assert (L : lead (c :: s) = 0).
    { cbn [lead]. unfold quo in NE. repeat match goal with |- context [match ?x with _ => _ end] => destruct x; try reflexivity end. congruence. }
    rewrite L. split; [reflexivity|]. split; [congruence|reflexivity].
Qed.
Lemma lead_qs n t : (forall t', t <> quo :: t') -> lead (qs n t) = n.
Proof.
  intros NT. induction n as [|n IH]; [|cbn; f_equal; exact IH]. change (qs 0 t) with t. destruct (lead_form t) as (u & E & _ & _). destruct (lead t); [reflexivity|]. exfalso. apply (NT (qs n u)). exact E.
Qed.

(** ** Pieces between commas *)
Definition commas (p : str) (ps : list str) : str := p ++ concat (map (fun q => comma :: q) ps).
Lemma split_commas ps : forall p, ~ In comma p -> (forall q, In q ps -> ~ In comma q) -> split_char comma (commas p ps) = p :: ps.
Proof.
  unfold commas. induction ps as [|q ps IH]; intros p NP NS; cbn [map concat]; [rewrite app_nil_r; apply split_char_last, NP|].
  cbn [app]. rewrite split_char_line by exact NP. f_equal. apply IH; [apply NS; left; reflexivity|]. intros x I1. apply NS. right. exact I1.
Qed.
Lemma commas_form (v : str) : exists p ps, v = commas p ps /\ ~ In comma p /\ (forall q, In q ps -> ~ In comma q).
Proof.
  induction v as [|c v (p & ps & E & NP & NS)]; [exists [], []; split; [reflexivity|split; [intros []|intros q []]]|]. destruct (N.eqb_spec c comma) as [->|NE].
  - exists [], (p :: ps). split; [rewrite E; reflexivity|]. split; [intros []|]. intros q [<-|I1]; [exact NP|apply NS, I1].
  - exists (c :: p), ps. split; [rewrite E; reflexivity|]. split; [|exact NS]. intros [E1|I1]; [congruence|tauto].
Qed.
Lemma split_two (a b : str) : split_char comma (a ++ comma :: b) = split_char comma a ++ split_char comma b.
Proof.
  destruct (commas_form a) as (p & ps & -> & NP & NS). rewrite split_commas by assumption. revert p NP. induction ps as [|q ps IH]; intros p NP.
  - unfold commas. cbn [map concat]. rewrite app_nil_r. rewrite split_char_line by exact NP. reflexivity.
  - unfold commas. cbn [map concat]. rewrite <- app_assoc. cbn [app]. rewrite split_char_line by exact NP. f_equal. apply IH; [|apply NS; left; reflexivity]. intros x I1. apply NS. right. exact I1.
Qed.
Lemma split_texts : forall ts : list str, ts <> [] -> split_char comma (join [comma] ts) = flat_map (split_char comma) ts.
Proof.
  induction ts as [|t [|u ts] IH]; intros NE; [congruence|cbn; rewrite app_nil_r; reflexivity|]. change (join [comma] (t :: u :: ts)) with (t ++ comma :: join [comma] (u :: ts)). rewrite split_two, IH by discriminate. reflexivity.
Qed.
Lemma lead_before p (b : str) : ~ In quo (firstn 1 b) -> Nat.even (lead (p ++ b)) = Nat.even (lead p).
Proof.
  intros NB. destruct (lead_form p) as (t & E & NT & _). set (n := lead p) in *. rewrite E. unfold qs. rewrite <- app_assoc. change (repeat quo n ++ t ++ b) with (qs n (t ++ b)). rewrite lead_qs; [reflexivity|].
  intros t' E1. destruct t as [|x t]; cbn in E1; [destruct b; [discriminate|]; injection E1 as -> ->; apply NB; left; reflexivity|]. injection E1 as -> _. apply (NT t). reflexivity.
Qed.
Lemma even_pieces p ps : ~ In comma p -> even_parts (commas p ps) -> Nat.even (lead p) = true /\ forall q, In q ps -> Nat.even (lead q) = true.
Proof.
  intros NP [E0 E1]. split.
  - rewrite <- E0. symmetry. destruct ps as [|q ps]; [unfold commas; cbn; rewrite app_nil_r; reflexivity|]. apply lead_before. cbn. intros [E|[]]. discriminate.
  - intros q I1. apply in_split in I1 as (l1 & l2 & ->). assert (V : commas p (l1 ++ q :: l2) = commas p l1 ++ $"," ++ (q ++ concat (map (fun x => comma :: x) l2))).
    { unfold commas. rewrite map_app, concat_app. cbn [map concat]. rewrite <- app_assoc. reflexivity. }
    apply E1 in V. rewrite <- V. symmetry. destruct l2 as [|x l2]; [cbn; rewrite app_nil_r; reflexivity|]. apply lead_before. cbn. intros [E|[]]. discriminate.
Qed.
Lemma first_other_comma p q ps : ~ In comma p -> first_other (commas p (q :: ps)) = match first_other p with Some c => Some c | None => Some comma end.
Proof.
  intros NP. unfold first_other. destruct (lead_form p) as (t & E & NT & K). rewrite <- K. unfold commas. cbn [map concat].
  assert (L : lead (p ++ (comma :: q) ++ concat (map (fun x => comma :: x) ps)) = lead p).
  { rewrite E at 1. unfold qs. rewrite <- app_assoc. match goal with |- lead (repeat quo ?n ++ ?u) = _ => change (repeat quo n ++ u) with (qs n u) end. apply lead_qs. intros t' E1. destruct t as [|x t]; cbn in E1; [discriminate|]. injection E1 as -> _. apply (NT t). reflexivity. }
  rewrite L. rewrite E at 2. unfold qs. rewrite <- app_assoc. rewrite skipn_app, skipn_all2 by (rewrite repeat_length; lia). rewrite repeat_length, Nat.sub_diag. cbn [skipn app]. destruct t; reflexivity.
Qed.
Lemma last_quo (s : str) : last (s ++ [quo]) 0%N = quo.
Proof. apply last_last. Qed.
Lemma snoc_not_nil (s : str) c : @eqb str _ (s ++ [c]) [] = false.
Proof. destruct (@eqb_spec str _ (s ++ [c]) []) as [E|]; [apply app_eq_nil in E as [_ E]; discriminate|reflexivity]. Qed.
Lemma first_single (v : str) : Nat.even (lead v) = true -> matches first_quoting (quo :: v ++ [quo]) = true.
Proof.
  intros EV. destruct (lead_form v) as (t & E & NT & _). set (n := lead v) in *. destruct t as [|x t].
  - replace (quo :: v ++ [quo]) with (qs (S (S n)) []).
    + rewrite first_parity by discriminate. rewrite <- Nat.negb_even. change (Nat.even (S (S n))) with (Nat.even n). rewrite EV. reflexivity.
    + rewrite E. unfold qs. rewrite !app_nil_r. cbn [repeat]. f_equal. rewrite repeat_cons. reflexivity.
  - replace (quo :: v ++ [quo]) with (qs (S n) (x :: t ++ [quo])).
    + rewrite first_parity; [|intros t' E1; injection E1 as -> _; apply (NT t); reflexivity]. rewrite <- Nat.negb_even, Nat.even_succ, <- Nat.negb_even, EV. reflexivity.
    + rewrite E. unfold qs. rewrite <- app_assoc. reflexivity.
Qed.
Lemma first_last (q : str) : Nat.even (lead q) = true -> matches first_quoting (q ++ [quo]) = false.
Proof.
  intros EV. destruct (lead_form q) as (t & E & NT & _). set (n := lead q) in *. destruct t as [|x t].
  - replace (q ++ [quo]) with (qs (S n) []).
    + rewrite first_parity by discriminate. rewrite <- Nat.negb_even, Nat.even_succ, <- Nat.negb_even, EV. reflexivity.
    + rewrite E. unfold qs. rewrite !app_nil_r. cbn [repeat]. rewrite repeat_cons. reflexivity.
  - replace (q ++ [quo]) with (qs n (x :: t ++ [quo])).
    + rewrite first_parity; [|intros t' E1; injection E1 as -> _; apply (NT t); reflexivity]. rewrite <- Nat.negb_even, EV. cbn [negb]. replace (eol (x :: t ++ [quo])) with false; [apply andb_false_r|]. destruct t as [|y t]; reflexivity.
    + rewrite E. unfold qs. rewrite <- app_assoc. reflexivity.
Qed.
Lemma inner_middle (q : str) : Nat.even (lead q) = true -> matches inner_quoting q = false.
Proof. intros EV. destruct (lead_form q) as (t & E & NT & _). rewrite E, inner_odd by exact NT. rewrite <- Nat.negb_even, EV. reflexivity. Qed.
Lemma inner_first (p : str) : Nat.even (lead p) = true -> matches inner_quoting (quo :: p) = g_inner (skipn (lead p) p).
Proof.
  intros EV. destruct (lead_form p) as (t & E & NT & K). rewrite <- K. set (n := lead p) in *. replace (quo :: p) with (qs (S n) t) by (rewrite E; reflexivity). rewrite inner_odd by exact NT. rewrite <- Nat.negb_even, Nat.even_succ, <- Nat.negb_even, EV. reflexivity.
Qed.
Lemma gather_pieces p rest : matches inner_quoting (quo :: p) = true -> forall ms val, (forall q, In q ms -> Nat.even (lead q) = true) ->
  gather (rev ms ++ (quo :: p) :: rest) val = Some (commas p ms ++ val, rest).
Proof.
  intros M. induction ms as [|q ms IH] using rev_ind; intros val EV.
  - cbn [rev app gather]. rewrite M. unfold commas. cbn. rewrite app_nil_r. reflexivity.
  - rewrite rev_app_distr. cbn [rev app gather]. rewrite inner_middle by (apply EV, in_or_app; right; left; reflexivity). rewrite IH by (intros x I1; apply EV, in_or_app; left; exact I1). unfold commas. rewrite map_app, concat_app. cbn [map concat]. rewrite app_nil_r, <- !app_assoc. reflexivity.
Qed.
(** the pieces of a quoted cell *)
Lemma quoted_one p : ~ In comma p -> split_char comma ($"""" ++ p ++ $"""") = [quo :: p ++ [quo]].
Proof. intros N. apply split_char_last. change ($"""" ++ p ++ $"""") with (quo :: p ++ [quo]). cbn [In]. rewrite in_app_iff. cbn [In]. intros [E|[E|[E|[]]]]; try discriminate. contradiction. Qed.
Lemma quoted_many p ms q : ~ In comma p -> (forall x, In x (ms ++ [q]) -> ~ In comma x) ->
  split_char comma ($"""" ++ commas p (ms ++ [q]) ++ $"""") = (quo :: p) :: ms ++ [q ++ [quo]].
Proof.
  intros NP NS. replace ($"""" ++ commas p (ms ++ [q]) ++ $"""") with (commas (quo :: p) (ms ++ [q ++ [quo]])).
  - apply split_commas; [intros [E|I1]; [discriminate|contradiction]|]. intros x I1. apply in_app_or in I1 as [I1|[<-|[]]]; [apply NS, in_or_app; left; exact I1|]. rewrite in_app_iff. intros [I1|[E|[]]]; [|discriminate]. revert I1. apply NS, in_or_app. right. left. reflexivity.
  - unfold commas. rewrite !map_app, !concat_app. cbn [map concat]. rewrite !app_nil_r. change $"""" with [quo]. cbn [app]. rewrite <- !app_assoc. reflexivity.
Qed.
Lemma read_quoted k ks v rest d : value_ok v -> sloop (k :: ks) (rev (split_char comma ($"""" ++ v ++ $"""")) ++ rest) d = sloop ks rest (dset k v d).
Proof.
  intros [EP OW]. destruct (commas_form v) as (p & ps & E & NP & NS). rewrite E in EP. destruct (even_pieces p ps NP EP) as [E0 E1]. destruct ps as [|q ps _] using rev_ind.
  - assert (EV : v = p) by (rewrite E; unfold commas; cbn; apply app_nil_r). rewrite EV. rewrite quoted_one by exact NP. cbn [rev app sloop]. change (eqb (quo :: p ++ [quo]) []) with false. cbv iota.
    change (last (quo :: p ++ [quo]) 0%N) with (last ((quo :: p) ++ [quo]) 0%N). rewrite last_quo. change (eqb quo quo) with true. cbv iota. rewrite first_single by exact E0. cbn [skipn]. unfold init_. rewrite removelast_last. reflexivity.
  - assert (MI : matches inner_quoting (quo :: p) = true).
    { rewrite inner_first by exact E0. destruct OW as (c & FO & NI); [rewrite E; unfold commas; rewrite map_app, concat_app; cbn [map concat]; rewrite !in_app_iff; cbn; tauto|].
      assert (FP : first_other p = Some c).
      { rewrite E in FO. destruct ps as [|x ps]; cbn [app] in FO; rewrite first_other_comma in FO by exact NP; (destruct (first_other p); [exact FO|injection FO as <-; exfalso; apply NI; left; reflexivity]). }
      unfold first_other in FP. destruct (lead_form p) as (t & EP' & NT & K). rewrite <- K in *. destruct t as [|x t]; [discriminate|]. injection FP as ->. cbn [g_inner].
      destruct (N.eqb_spec c quo) as [->|_]; [exfalso; apply (NT t); reflexivity|]. destruct (N.eqb_spec c 124) as [->|_]; [exfalso; apply NI; right; left; reflexivity|]. destruct (N.eqb_spec c 36) as [->|_]; [exfalso; apply NI; right; right; left; reflexivity|]. reflexivity. }
    rewrite E. rewrite quoted_many by assumption. change ((quo :: p) :: ps ++ [q ++ [quo]]) with (((quo :: p) :: ps) ++ [q ++ [quo]]). rewrite rev_app_distr. cbn [rev app sloop]. rewrite snoc_not_nil, last_quo. change (eqb quo quo) with true. cbv iota.
    rewrite first_last by (apply E1, in_or_app; right; left; reflexivity). rewrite <- app_assoc. cbn [app]. rewrite gather_pieces; [|exact MI|intros x I1; apply E1, in_or_app; left; exact I1].
    unfold init_. rewrite removelast_last. f_equal. f_equal. unfold commas. rewrite map_app, concat_app. cbn [map concat]. rewrite app_nil_r, <- app_assoc. reflexivity.
Qed.
Lemma read_plain k ks s rest d : cell_ok (Plain s) -> sloop (k :: ks) (s :: rest) d = sloop ks rest (match cell_value (Plain s) with Some v => dset k v d | None => d end).
Proof.
  intros [NC NL]. cbn [sloop]. destruct s as [|x s]; [reflexivity|]. cbn [cell_value]. change (eqb (x :: s) []) with false. cbv iota.
  destruct (@eqb_spec char _ (last (x :: s) 0%N) quo) as [E|_]; [|reflexivity]. exfalso. apply (NL (removelast (x :: s))). change $"""" with [quo]. rewrite <- E. apply app_removelast_last. discriminate.
Qed.
Definition pieces (c : cell) : list str := rev (split_char comma (cell_text c)).
Definition store (k : str) (c : cell) (d : sfields) : sfields := match cell_value c with Some v => dset k v d | None => d end.
Lemma read_cell k ks c rest d : cell_ok c -> sloop (k :: ks) (pieces c ++ rest) d = sloop ks rest (store k c d).
Proof.
  intros O. destruct c as [s|v]; unfold pieces; cbn [cell_text].
  - rewrite split_char_last by apply O. cbn [rev app]. apply read_plain, O.
  - apply read_quoted, O.
Qed.
Fixpoint stores (ks : list str) (cs : list cell) (d : sfields) : sfields :=
  match ks, cs with k :: ks', c :: cs' => stores ks' cs' (store k c d) | _, _ => d end.
Lemma read_cells : forall cs ks rest d, Forall cell_ok cs -> length cs <= length ks -> sloop ks (flat_map pieces cs ++ rest) d = sloop (skipn (length cs) ks) rest (stores (firstn (length cs) ks) cs d).
Proof.
  induction cs as [|c cs IH]; intros ks rest d F L; [reflexivity|]. destruct ks as [|k ks]; [cbn in L; lia|]. inversion F; subst. cbn [flat_map]. rewrite <- app_assoc, read_cell by assumption. cbn [length skipn firstn stores]. apply IH; [assumption|cbn in L; lia].
Qed.
Lemma sloop_keep k : forall ks ps d d', sloop ks ps d = Ok d' -> ~ In k ks -> dget k d' = dget k d.
Proof.
  induction ks as [|k' ks IH]; intros ps d d' E N; [cbn in E; congruence|]. cbn [sloop] in E. destruct ps as [|p ps]; [discriminate|].
  assert (NK : k' <> k) by (intros ->; apply N; left; reflexivity). assert (N' : ~ In k ks) by (intros I1; apply N; right; exact I1).
  destruct (eqb p []); [eapply IH; eassumption|]. destruct (eqb (last p 0%N) quo).
  - destruct (matches first_quoting p); [rewrite (IH _ _ _ E N'); apply dget_dset_other; congruence|]. destruct (gather ps _) as [[v ps']|]; [|discriminate]. rewrite (IH _ _ _ E N'). apply dget_dset_other. congruence.
  - rewrite (IH _ _ _ E N'). apply dget_dset_other. congruence.
Qed.
Lemma store_get k c d k' : dget k' (store k c d) = if eq_dec k k' then match cell_value c with Some v => Some v | None => dget k' d end else dget k' d.
Proof.
  unfold store. destruct (eq_dec k k') as [<-|N]; destruct (cell_value c); try reflexivity; [apply dget_dset_same|apply dget_dset_other; congruence].
Qed.
Lemma stores_other k : forall ks cs d, ~ In k ks -> dget k (stores ks cs d) = dget k d.
Proof.
  induction ks as [|k' ks IH]; intros cs d N; [reflexivity|]. destruct cs as [|c cs]; [reflexivity|]. cbn [stores]. rewrite IH by (intros I1; apply N; right; exact I1). rewrite store_get. destruct (eq_dec k' k) as [->|]; [exfalso; apply N; left; reflexivity|reflexivity].
Qed.
Lemma stores_get : forall ks cs i k c, NoDup ks -> nth_error ks i = Some k -> nth_error cs i = Some c -> forall d, dget k d = None -> dget k (stores ks cs d) = cell_value c.
Proof.
  induction ks as [|k' ks IH]; intros cs i k c ND NK NC d DN; [destruct i; discriminate|]. inversion ND as [|? ? NI ND']; subst. destruct cs as [|c' cs]; [destruct i; discriminate|]. cbn [stores]. destruct i as [|i]; cbn in NK, NC.
  - injection NK as ->. injection NC as ->. rewrite stores_other by exact NI. rewrite store_get. destruct (eq_dec k k); [|congruence]. destruct (cell_value c); [reflexivity|exact DN].
  - eapply IH; [exact ND'|exact NK|exact NC|]. rewrite store_get. destruct (eq_dec k' k) as [->|]; [|exact DN]. exfalso. apply NI. eapply nth_error_In. exact NK.
Qed.
Lemma rev_flat {A B} (f : A -> list B) : forall l, rev (flat_map f l) = flat_map (fun x => rev (f x)) (rev l).
Proof. induction l as [|x l IH]; [reflexivity|]. cbn [flat_map rev]. rewrite rev_app_distr, IH, flat_map_app. cbn. rewrite app_nil_r. reflexivity. Qed.
Lemma line_pieces ts : ts <> [] -> rev (split_char comma (init_ (line_of ts))) = flat_map (fun t => rev (split_char comma t)) (rev ts).
Proof. intros NE. unfold line_of, init_. rewrite removelast_last. change $"," with [comma]. rewrite split_texts by exact NE. apply rev_flat. Qed.
Lemma nth_rev {A} (l : list A) i : i < length l -> nth_error (rev l) (length l - S i) = nth_error l i.
Proof.
  intros L. destruct (nth_error l i) as [x|] eqn:E; [|apply nth_error_None in E; lia]. destruct l as [|y l']; [cbn in L; lia|]. rewrite nth_error_nth' with (d := y) by (rewrite rev_length; lia). f_equal. rewrite rev_nth by lia. replace (length (y :: l') - S (length (y :: l') - S i)) with i by lia. apply nth_error_nth. exact E.
Qed.
Lemma texts_pieces cs : flat_map (fun t => rev (split_char comma t)) (rev (map cell_text cs)) = flat_map pieces (rev cs).
Proof. rewrite <- map_rev. induction (rev cs) as [|c l IH]; [reflexivity|]. cbn [map flat_map]. rewrite IH. reflexivity. Qed.
Lemma parse_cells hs extra cs : NoDup hs -> length cs = length hs -> Forall cell_ok cs ->
  exists d, sloop (rev hs) (rev (split_char comma (init_ (line_of (extra ++ map cell_text cs))))) [] = Ok d /\ has_cells hs cs d.
Proof.
  intros ND L F. destruct cs as [|c0 cs0] eqn:EC.
  - destruct hs; [|discriminate]. exists []. split; [reflexivity|]. split; [intros [|i]; discriminate|reflexivity].
  - rewrite <- EC in *. assert (NE : extra ++ map cell_text cs <> []) by (rewrite EC; destruct extra; discriminate). clear EC. rewrite line_pieces by exact NE. rewrite rev_app_distr, flat_map_app, texts_pieces.
    rewrite read_cells; [|apply Forall_rev; exact F|rewrite !rev_length; lia]. rewrite rev_length, L, <- (rev_length hs), skipn_all, firstn_all. eexists. split; [reflexivity|]. split.
    + intros i h c NH NC. assert (LI : i < length hs) by (apply nth_error_Some; congruence). apply (stores_get (rev hs) (rev cs) (length hs - S i)); [apply NoDup_rev; exact ND|rewrite nth_rev by exact LI; exact NH| |reflexivity].
      rewrite <- L. rewrite nth_rev by lia. exact NC.
    + intros h NI. rewrite stores_other; [reflexivity|]. rewrite <- in_rev. exact NI.
Qed.
Lemma parse_short hs cs : cs <> [] -> length cs < length hs -> Forall cell_ok cs -> sloop (rev hs) (rev (split_char comma (init_ (line_of (map cell_text cs))))) [] = Raise IndexError.
Proof.
  intros NE L F. rewrite line_pieces by (destruct cs; [congruence|discriminate]). rewrite texts_pieces, <- (app_nil_r (flat_map pieces (rev cs))). rewrite read_cells; [|apply Forall_rev; exact F|rewrite !rev_length; lia].
  rewrite rev_length. destruct (skipn (length cs) (rev hs)) as [|k ks] eqn:E; [|reflexivity]. pose proof (f_equal (@length _) E) as EL. rewrite skipn_length, rev_length in EL. cbn in EL. lia.
Qed.
Lemma gather_ends : forall ps val v rest, gather ps val = Some (v, rest) -> exists x, v = x ++ val.
Proof.
  induction ps as [|p ps IH]; intros val v rest E; [discriminate|]. cbn [gather] in E. destruct (matches inner_quoting p); [injection E as <- _; eauto|]. apply IH in E as [x ->]. exists (x ++ [comma] ++ p). rewrite <- !app_assoc. reflexivity.
Qed.
Lemma gather_passes p rest : matches inner_quoting (quo :: p) = false -> forall ms val, (forall q, In q ms -> Nat.even (lead q) = true) ->
  gather (rev ms ++ (quo :: p) :: rest) val = gather rest (comma :: (quo :: commas p ms) ++ val).
Proof.
  intros M. induction ms as [|q ms IH] using rev_ind; intros val EV.
  - cbn [rev app gather]. rewrite M. unfold commas. cbn. rewrite app_nil_r. reflexivity.
  - rewrite rev_app_distr. cbn [rev app gather]. rewrite inner_middle by (apply EV, in_or_app; right; left; reflexivity). rewrite IH by (intros x I1; apply EV, in_or_app; left; exact I1). unfold commas. rewrite map_app, concat_app. cbn [map concat app]. rewrite app_nil_r, <- !app_assoc. reflexivity.
Qed.
Lemma read_bad k ks v rest d d' : even_parts v -> ~ opens_well v -> ~ In k ks -> sloop (k :: ks) (rev (split_char comma ($"""" ++ v ++ $"""")) ++ rest) d = Ok d' -> exists x, dget k d' = Some (x ++ comma :: quo :: v).
Proof.
  intros EP OW NK. destruct (commas_form v) as (p & ps & E & NP & NS). rewrite E in EP. destruct (even_pieces p ps NP EP) as [E0 E1]. destruct ps as [|q ps _] using rev_ind.
  - exfalso. apply OW. intros I1. exfalso. rewrite E in I1. unfold commas in I1. cbn in I1. rewrite app_nil_r in I1. contradiction.
  - assert (MI : matches inner_quoting (quo :: p) = false).
    { rewrite inner_first by exact E0. destruct (g_inner (skipn (lead p) p)) eqn:GI; [|reflexivity]. exfalso. apply OW. intros _. unfold g_inner in GI. destruct (skipn (lead p) p) as [|c t] eqn:K; [discriminate|].
      exists c. split.
      - rewrite E. destruct ps as [|x ps]; cbn [app]; rewrite first_other_comma by exact NP; unfold first_other; rewrite K; reflexivity.
      - apply negb_true_iff in GI. rewrite !orb_false_iff in GI. destruct GI as [[G1 G2] G3]. intros [<-|[<-|[<-|[]]]]; [|discriminate|discriminate]. apply NP. rewrite <- (firstn_skipn (lead p) p), K. apply in_or_app. right. left. reflexivity. }
    rewrite E. rewrite quoted_many by assumption. change ((quo :: p) :: ps ++ [q ++ [quo]]) with (((quo :: p) :: ps) ++ [q ++ [quo]]). rewrite rev_app_distr. cbn [rev app sloop]. rewrite snoc_not_nil, last_quo. change (eqb quo quo) with true. cbv iota.
    rewrite first_last by (apply E1, in_or_app; right; left; reflexivity). rewrite <- app_assoc. cbn [app]. rewrite gather_passes; [|exact MI|intros x I1; apply E1, in_or_app; left; exact I1].
    destruct (gather rest _) as [[w ps']|] eqn:G; [|discriminate]. intros S1. apply gather_ends in G as [x ->]. apply (sloop_keep k) in S1; [|exact NK]. rewrite S1, dget_dset_same. exists x. f_equal. f_equal. unfold init_. rewrite removelast_last. cbn [app]. f_equal. f_equal. unfold commas. rewrite map_app, concat_app. cbn [map concat]. rewrite app_nil_r, <- app_assoc. reflexivity.
Qed.
Lemma parse_bad before k after ts v cs : NoDup (before ++ k :: after) -> length cs = length after -> Forall cell_ok cs -> even_parts v -> ~ opens_well v ->
  forall d, sloop (rev (before ++ k :: after)) (rev (split_char comma (init_ (line_of (ts ++ ($"""" ++ v ++ $"""") :: map cell_text cs))))) [] = Ok d -> exists x, dget k d = Some (x ++ $",""" ++ v).
Proof.
  intros ND L F EP OW d. rewrite line_pieces by (destruct ts; discriminate). rewrite !rev_app_distr. cbn [rev]. rewrite !flat_map_app, texts_pieces, <- !app_assoc.
  rewrite read_cells; [|apply Forall_rev; exact F|rewrite app_length, !rev_length; lia]. rewrite rev_length, L. rewrite <- (rev_length after). rewrite skipn_app, skipn_all, Nat.sub_diag. cbn [skipn app flat_map]. rewrite app_nil_r. intros S1.
  apply (read_bad k (rev before) v _ _ d EP OW) in S1 as [x S1]; [exists x; exact S1|]. rewrite <- in_rev. intros I1. apply NoDup_remove_2 in ND. apply ND, in_or_app. left. exact I1.
Qed.

(** ** Doubled quotes *)
Lemma doubled_lead (v : str) : doubled v -> Nat.even (lead v) = true.
Proof.
  induction 1 as [|c s N D IH|s D IH]; [reflexivity| |exact IH]. replace (lead (c :: s)) with 0; [reflexivity|]. symmetry. apply (lead_qs 0 (c :: s)). intros t' E. injection E as E _. apply N. exact E.
Qed.
Lemma doubled_after (v : str) : doubled v -> forall a b, v = a ++ $"," ++ b -> doubled b.
Proof.
  induction 1 as [|c s N D IH|s D IH]; intros a b E.
  - destruct a; discriminate.
  - destruct a as [|x a]; [injection E as _ ->; exact D|]. injection E as _ ->. eapply IH. reflexivity.
  - destruct a as [|x [|y a]]; [discriminate|discriminate|]. injection E as _ _ ->. eapply IH. reflexivity.
Qed.
Lemma doubled_parts (v : str) : doubled v -> even_parts v.
Proof. intros D. split; [apply doubled_lead, D|]. intros a b E. apply doubled_lead. eapply doubled_after; eassumption. Qed.
