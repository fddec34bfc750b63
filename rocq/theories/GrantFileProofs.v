From Coq Require Import List ZArith Lia Bool Arith.
From Coq Require Import String.
From Verif Require Import Base PyStr Nx CsvModel CsvProofs DecFacts GrantModel GrantFileModel GrantFileSpec.
Import ListNotations.
Local Open Scope list_scope.

(** ** Rows with the line they end in *)
Lemma step_end p p' : step p None = Ok p' -> pst p' = StartRecord \/ pst p' = InQuoted.
Proof. destruct p as [[] f fs]; cbn [step pst start_field]; intros E; injection E as <-; cbn; auto. Qed.
Lemma loop_some : forall ls p, ls <> [] -> csv_loop p ls <> Ok [].
Proof.
  induction ls as [|l ls IH]; intros p NE; [congruence|]. cbn [csv_loop]. destruct (mem 0%N l); [discriminate|]. destruct (steps p l) as [p1|]; cbn [bind]; [|discriminate].
  destruct (step p1 None) as [p2|] eqn:E; cbn [bind]; [|discriminate]. destruct (eqb_spec (pst p2) StartRecord) as [S1|S1].
  - destruct (csv_loop ps0 ls); cbn [bind]; discriminate.
  - destruct ls as [|l' ls]; [|apply IH; discriminate]. cbn [csv_loop]. destruct (step_end _ _ E) as [Q|Q]; [congruence|]. rewrite Q, eqb_refl, orb_true_r. discriminate.
Qed.
Lemma transfer eof (cells : list str) : forall ls1 p n lst,
  ls1 <> [] -> (forall t, csv_loop p (ls1 ++ lines t) = let* r := csv_loop ps0 (lines t) in Ok (cells :: r)) ->
  forall ls2, read_lines eof p n lst (ls1 ++ ls2) =
    let (r, e) := read_lines eof ps0 (n + N.of_nat (length ls1)) (last ls1 []) ls2 in (((n + N.of_nat (length ls1))%N, last ls1 [], cells) :: r, e).
Proof.
  induction ls1 as [|l ls1 IH]; intros p n lst NE H ls2; [congruence|]. pose proof (H []) as H0. cbn [lines app csv_loop] in H0. rewrite app_nil_r in H0.
  cbn [app read_lines]. destruct (mem 0%N l) eqn:Z; [discriminate H0|]. destruct (steps p l) as [p1|] eqn:S1; cbn [bind] in H0 |- *; [|discriminate H0].
  destruct (step p1 None) as [p2|] eqn:S2; cbn [bind] in H0 |- *; [|discriminate H0]. destruct (eqb_spec (pst p2) StartRecord) as [Q|Q].
  - destruct (csv_loop ps0 ls1) as [r|] eqn:L; cbn [bind] in H0; [|discriminate H0]. assert (R : pfields p2 = cells /\ r = []) by (cbn in H0; split; congruence). destruct R as [R1 R2]. subst r.
    destruct ls1 as [|l' ls1]; [|exfalso; revert L; apply loop_some; discriminate]. cbn [app length last]. rewrite R1. reflexivity.
  - assert (H' : forall t, csv_loop p2 (ls1 ++ lines t) = let* r := csv_loop ps0 (lines t) in Ok (cells :: r)).
    { intros t. specialize (H t). cbn [app csv_loop] in H. rewrite Z, S1 in H. cbn [bind] in H. rewrite S2 in H. cbn [bind] in H. rewrite (neq_eqb Q) in H. exact H. }
    destruct ls1 as [|l' ls1].
    + exfalso. destruct (step_end _ _ S2) as [Q'|Q']; [congruence|]. specialize (H' $"a"). destruct p2 as [st f fs]. cbn [pst] in Q'. subst st. cbn in H'.
      unfold put in H'. cbn [pfield pfields] in H'. destruct (field_limit <=? N.of_nat (length f))%N; cbn in H'; [discriminate H'|]. rewrite orb_true_r in H'. discriminate H'.
    + rewrite (IH p2 (n + 1)%N l ltac:(discriminate) H' ls2). replace (n + 1 + N.of_nat (length (l' :: ls1)))%N with (n + N.of_nat (length (l :: l' :: ls1)))%N by (cbn [length]; lia). reflexivity.
Qed.

(** ** The text of a row *)
Lemma limit_is : field_limit = 131072%N. Proof. reflexivity. Qed.
Lemma doubled_is v : doubled v = double_quotes v.
Proof. unfold doubled, double_quotes. induction v as [|c v IH]; [reflexivity|]. cbn [flat_map]. rewrite IH. destruct (eqb_spec c quote) as [->|NQ]; [reflexivity|]. destruct (N.eqb_spec c 34); [contradiction|reflexivity]. Qed.
Lemma loop_written st fs v s t : at_field st -> t <> [] -> written v s -> 
  (exists s1, (s1 = InField \/ s1 = QuoteInQuoted) /\ loop (mkPs st [] fs) (s ++ t) = loop (mkPs s1 v fs) t) \/ (v = [] /\ s = []).
Proof.
  intros A NE W. destruct W as [v F L|v C Z L].
  - destruct v as [|c v]; [right; auto|]. left. exists InField. split; [auto|]. apply loop_bare; [exact A|exact NE| |exact L]. split; [discriminate|]. intros d I1. specialize (F d I1).
    repeat split; intros ->; apply F; cbn; auto 8.
  - left. exists QuoteInQuoted. split; [auto|]. change ([34%N] ++ doubled v ++ [34%N]) with (quote :: doubled v ++ [quote]). rewrite doubled_is. apply (@loop_quoted st fs v t A NE Z L).
Qed.
Lemma app_end_ne {A} (a : list A) x b : a ++ x :: b <> [].
Proof. destruct a; discriminate. Qed.
Lemma loop_written_row t : forall vs ss v s st fs, at_field st -> Forall2 written (v :: vs) (s :: ss) -> st = StartField \/ join [comma] (s :: ss) <> [] ->
  loop (mkPs st [] fs) (join [comma] (s :: ss) ++ nl :: t) = let* r := loop ps0 t in Ok ((fs ++ v :: vs) :: r).
Proof.
  induction vs as [|w vs IH]; intros ss v s st fs A F NE; inversion F as [|? ? ? ? Fv Fs]; subst.
  - inversion Fs; subst. cbn [join] in *. destruct (loop_written st fs v s (nl :: t) A ltac:(discriminate) Fv) as [(s1 & S1 & ->)|[-> ->]].
    + destruct S1 as [-> | ->]; (erewrite loop_nl; [|reflexivity|reflexivity]); reflexivity.
    + destruct NE as [->|NE]; [|congruence]. cbn [app]. erewrite loop_nl; [|reflexivity|reflexivity]. reflexivity.
  - inversion Fs as [|? s' ? ss' Fw Fr]; subst. change (join [comma] (s :: s' :: ss')) with (s ++ [comma] ++ join [comma] (s' :: ss')). rewrite <- !app_assoc.
    assert (R : forall s1 u, loop (mkPs s1 u fs) ([comma] ++ join [comma] (s' :: ss') ++ nl :: t) = loop (mkPs StartField [] (fs ++ [v])) (join [comma] (s' :: ss') ++ nl :: t) ->
      loop (mkPs s1 u fs) ([comma] ++ join [comma] (s' :: ss') ++ nl :: t) = let* r := loop ps0 t in Ok ((fs ++ v :: w :: vs) :: r)).
    { intros s1 u ->. rewrite (IH ss' w s' StartField (fs ++ [v])); [|right; reflexivity|exact Fs|left; reflexivity]. rewrite <- app_assoc. reflexivity. }
    destruct (loop_written st fs v s ([comma] ++ join [comma] (s' :: ss') ++ nl :: t) A ltac:(discriminate) Fv) as [(s1 & S1 & ->)|[E1 ->]].
    + apply R. cbn [app]. apply loop_char; [discriminate|discriminate|apply app_end_ne|]. destruct S1 as [-> | ->]; reflexivity.
    + cbn [app]. apply R. cbn [app]. apply loop_char; [discriminate|discriminate|apply app_end_ne|]. subst v. destruct A as [-> | ->]; reflexivity.
Qed.
Lemma lines_two (a t : str) : lines (a ++ nl :: t) = lines (a ++ [nl]) ++ lines t.
Proof.
  induction a as [|c a IH]; [reflexivity|]. cbn [app lines]. rewrite IH. destruct (eqb c nl); [reflexivity|]. destruct (lines (a ++ [nl])) as [|l ls] eqn:E; [|reflexivity].
  exfalso. pose proof (lines_concat (a ++ [nl])) as C. rewrite E in C. destruct a; discriminate C.
Qed.
Lemma split_ne c (a : str) : split_char c a <> [].
Proof. destruct a as [|d a]; cbn; [discriminate|]. destruct (eqb d c); [discriminate|]. destruct (split_char c a); discriminate. Qed.
Lemma lines_split (a : str) : lines (a ++ [nl]) = map (fun w => w ++ [nl]) (split_char 10%N a).
Proof.
  induction a as [|c a IH]; [reflexivity|]. cbn [app lines split_char]. rewrite IH. change (eqb c nl) with (eqb c 10%N). destruct (eqb_spec c 10%N) as [->|N]; [reflexivity|].
  pose proof (split_ne 10%N a). destruct (split_char 10%N a); [congruence|reflexivity].
Qed.
Lemma split_length (a : str) : length (split_char 10%N a) = S (count 10%N a).
Proof.
  induction a as [|c a IH]; [reflexivity|]. cbn [split_char count]. rewrite (@eqb_sym N _ 10%N c). destruct (@eqb N _ c 10%N) eqn:E.
  - change (@eqb char _ c 10%N) with (@eqb N _ c 10%N). rewrite E. cbn [length]. rewrite IH. reflexivity.
  - change (@eqb char _ c 10%N) with (@eqb N _ c 10%N). rewrite E. pose proof (split_ne 10%N a). destruct (split_char 10%N a); [congruence|]. exact IH.
Qed.
Lemma last_map {A B} (f : A -> B) l d e : l <> [] -> last (map f l) d = f (last l e).
Proof. induction l as [|x l IH]; [congruence|]. intros _. destruct l as [|y l]; [reflexivity|]. exact (IH ltac:(discriminate)). Qed.
Lemma lines_body (a : str) : lines (a ++ [nl]) <> [] /\ N.of_nat (length (lines (a ++ [nl]))) = (breaks a + 1)%N /\ last (lines (a ++ [nl])) [] = last_line a.
Proof.
  rewrite lines_split, map_length, split_length. split; [intros E; apply map_eq_nil in E; exact (split_ne _ _ E)|]. split; [unfold breaks; change (@count char _ 10%N a) with (@count N _ 10%N a); lia|].
  rewrite (last_map _ _ _ []) by apply split_ne. reflexivity.
Qed.
Lemma written_no_cr v s : written v s -> ~ In cr s.
Proof.
  intros W I1. destruct W as [v F L|v C Z L]; [apply (F cr I1); cbn; auto|]. apply in_app_iff in I1 as [[I1|[]]|I1]; [discriminate|]. apply in_app_iff in I1 as [I1|[I1|[]]]; [|discriminate].
  unfold doubled in I1. apply in_flat_map in I1 as (c & I1 & I2). destruct (N.eqb c 34); [destruct I2 as [I2|[I2|[]]]; discriminate|]. destruct I2 as [I2|[]]. apply C. change 13%N with cr. rewrite <- I2. exact I1.
Qed.
Lemma body_no_cr r : row_written r -> ~ In cr (body r).
Proof. intros ((ts & F & ->) & _). apply (@join_no_cr ts). induction F as [|v s vs ss W _ IH]; constructor; [exact (written_no_cr _ _ W)|exact IH]. Qed.
Lemma translate_written r t : row_written r -> translate ((body r ++ eol r) ++ t) = body r ++ nl :: translate t.
Proof. intros W. rewrite <- app_assoc, translate_app by (apply body_no_cr; exact W). destruct W as (_ & _ & [-> | ->]); reflexivity. Qed.
(** reading one row *)
Lemma read_row eof r n lst ls : row_written r -> read_lines eof ps0 n lst (lines (body r ++ [nl]) ++ ls) =
  let (rs, e) := read_lines eof ps0 (n + breaks (body r) + 1) (last_line (body r)) ls in (((n + breaks (body r) + 1)%N, last_line (body r), values r) :: rs, e).
Proof.
  intros ((ts & F & E) & NE & _). destruct (lines_body (body r)) as (L1 & L2 & L3).
  rewrite (transfer eof (values r) (lines (body r ++ [nl])) ps0 n lst L1).
  - rewrite L2, L3, N.add_assoc. reflexivity.
  - intros t. rewrite <- lines_two. rewrite E in *. destruct F as [|v s vs ss Fv Fs]; [exfalso; apply NE; reflexivity|]. apply (loop_written_row t vs ss v s StartRecord []); [left; reflexivity|constructor; assumption|right; exact NE].
Qed.
Fixpoint tagged (n : N) (rs : list row) : list numbered :=
  match rs with [] => [] | r :: rs' => let k := (n + breaks (body r) + 1)%N in (k, last_line (body r), values r) :: tagged k rs' end.
Lemma read_written eof : forall rs n lst, Forall row_written rs -> read_lines eof ps0 n lst (lines (translate (written_out rs))) = (tagged n rs, eof).
Proof.
  induction rs as [|r rs IH]; intros n lst F; [destruct eof; reflexivity|]. inversion F as [|? ? W F']; subst. unfold written_out. cbn [map concat]. rewrite translate_written by exact W. rewrite lines_two, read_row by exact W.
  change (concat (map (fun r0 => body r0 ++ eol r0) rs)) with (written_out rs). rewrite IH by exact F'. reflexivity.
Qed.
Lemma tagged_places : forall rs n, map fst (tagged n rs) = row_ends n rs.
Proof. induction rs as [|r rs IH]; intros n; [reflexivity|]. cbn [tagged map row_ends]. rewrite IH. reflexivity. Qed.
Lemma tagged_values : forall rs n, map snd (tagged n rs) = map values rs.
Proof. induction rs as [|r rs IH]; intros n; [reflexivity|]. cbn [tagged map]. rewrite IH. reflexivity. Qed.
Lemma values_ne r : row_written r -> values r <> [].
Proof. intros ((ts & F & E) & NE & _) Q. rewrite Q in F. inversion F; subst. apply NE. exact E. Qed.
Lemma tagged_all : forall rs n, Forall row_written rs -> filter not_blank (tagged n rs) = tagged n rs.
Proof.
  induction rs as [|r rs IH]; intros n F; [reflexivity|]. inversion F as [|? ? W F']; subst. cbn [tagged filter]. unfold not_blank at 1. cbn [snd]. pose proof (values_ne r W). destruct (values r); [congruence|]. rewrite IH by exact F'. reflexivity.
Qed.
Lemma table_written eof n h rs : Forall row_written (h :: rs) -> table eof n (lines (translate (written_out (h :: rs)))) = (Some (values h), tagged (n + breaks (body h) + 1) rs, eof).
Proof. intros F. unfold table. rewrite read_written by exact F. cbn [tagged]. rewrite tagged_all by (inversion F; assumption). reflexivity. Qed.

(** ** The dictionary of a row *)
Lemma fields_keys : forall hs vs, dkeys (fields_of hs vs) = hs.
Proof. induction hs as [|h hs IH]; intros [|v vs]; [reflexivity|reflexivity| |]; cbn [fields_of dkeys map fst]; f_equal; apply IH. Qed.
Lemma row_dict_is hs r : NoDup hs -> row_dict hs r = fields_of hs (snd r).
Proof. intros ND. unfold row_dict. rewrite dupdate_fresh; [reflexivity|rewrite fields_keys; exact ND|intros k _ []]. Qed.
Lemma fields_get : forall hs vs i c, NoDup hs -> nth_error hs i = Some c -> dget c (fields_of hs vs) = Some (match nth_error vs i with Some v => GText v | None => GNone end).
Proof.
  induction hs as [|h hs IH]; intros vs i c ND E; [destruct i; discriminate E|]. inversion ND as [|? ? N1 N2]; subst. destruct i as [|i].
  - cbn in E. injection E as <-. destruct vs; cbn [fields_of dget nth_error]; rewrite eqb_refl; reflexivity.
  - cbn [nth_error] in E. assert (NC : c <> h) by (intros ->; apply N1; eapply nth_error_In; exact E).
    destruct vs as [|v vs]; cbn [fields_of dget nth_error]; rewrite (neq_eqb NC); rewrite (IH _ i c N2 E); [destruct i; reflexivity|reflexivity].
Qed.
Lemma row_has_values hs r : NoDup hs -> has_values hs (snd r) (row_dict hs r).
Proof. intros ND. rewrite row_dict_is by exact ND. split; [apply fields_keys|]. intros i c E. apply fields_get; assumption. Qed.

(** ** Identifiers *)
Lemma pad20_wide z : wide z (pad20 z).
Proof.
  unfold wide, pad20. destruct (z <? 0)%Z.
  - exists (repeat 48%N (19 - length (dec_N (Z.abs_N z)))). split; [intros c I1; apply repeat_spec in I1; exact I1|]. split; [reflexivity|]. rewrite !app_length, repeat_length. change (length $"-") with 1.
    destruct (le_lt_dec (length (dec_N (Z.abs_N z))) 19) as [L|L]; [left; unfold char in *; lia|right]. split; [unfold char in *; lia|]. replace (19 - length (dec_N (Z.abs_N z))) with 0 by lia. reflexivity.
  - exists (repeat 48%N (20 - length (dec_N (Z.abs_N z)))). split; [intros c I1; apply repeat_spec in I1; exact I1|]. split; [reflexivity|]. rewrite app_length, repeat_length.
    destruct (le_lt_dec (length (dec_N (Z.abs_N z))) 20) as [L|L]; [left; unfold char in *; lia|right]. split; [unfold char in *; lia|]. replace (20 - length (dec_N (Z.abs_N z))) with 0 by lia. reflexivity.
Qed.
Lemma before_dash : forall a b (x y : str), ~ In 45%N a -> ~ In 45%N b -> a ++ 45%N :: x = b ++ 45%N :: y -> a = b.
Proof.
  induction a as [|c a IH]; intros [|d b] x y NA NB E; [reflexivity| | |].
  - cbn in E. exfalso. apply NB. left. congruence.
  - cbn in E. exfalso. apply NA. left. congruence.
  - cbn in E. injection E as -> E. f_equal. apply (IH b x y); [intros J; apply NA; right; exact J|intros J; apply NB; right; exact J|exact E].
Qed.
Lemma dec_no_dash n : ~ In 45%N (dec_N n).
Proof. intros I1. apply dec_N_chars in I1. lia. Qed.
Lemma dec_N_inj a b : dec_N a = dec_N b -> a = b.
Proof. intros E. pose proof (dec_N_value a) as A. pose proof (dec_N_value b) as B. rewrite E in A. rewrite A in B. apply N2Z.inj. exact B. Qed.
Lemma line_id_inj base k1 k2 h1 h2 : line_id base k1 h1 = line_id base k2 h2 -> k1 = k2.
Proof.
  unfold line_id. intros E. apply app_inv_head in E. cbn in E. injection E as E. apply dec_N_inj. eapply before_dash; [apply dec_no_dash|apply dec_no_dash|exact E].
Qed.
Lemma tagged_later : forall rs n k, In k (map (fun r => fst (fst r)) (tagged n rs)) -> (n < k)%N.
Proof.
  induction rs as [|r rs IH]; intros n k I1; [destruct I1|]. cbn [tagged map fst] in I1. destruct I1 as [<-|I1]; [lia|]. apply IH in I1. lia.
Qed.
Lemma tagged_distinct : forall rs n, NoDup (map (fun r => fst (fst r)) (tagged n rs)).
Proof. induction rs as [|r rs IH]; intros n; [constructor|]. cbn [tagged map fst]. constructor; [|apply IH]. intros I1. apply tagged_later in I1. lia. Qed.

(** ** Names of files *)
Lemma name_is path name : file_name path name -> basename path = name.
Proof.
  intros [N [->|(d & ->)]]; unfold basename; cbn [app].
  - assert (E : split_char 47%N name = [name]); [|rewrite E; reflexivity]. induction name as [|c s IH]; [reflexivity|]. cbn [split_char]. rewrite neq_eqb by (intros ->; apply N; left; reflexivity). rewrite IH; [reflexivity|intros J; apply N; right; exact J].
  - assert (E : split_char 47%N name = [name]). { induction name as [|c s IH]; [reflexivity|]. cbn [split_char]. rewrite neq_eqb by (intros ->; apply N; left; reflexivity). rewrite IH; [reflexivity|intros J; apply N; right; exact J]. }
    assert (Q : forall d : str, split_char 47%N (d ++ 47%N :: name) = split_char 47%N d ++ [name]).
    { clear d. induction d as [|c d IH]; cbn [app split_char]; [rewrite E; reflexivity|]. rewrite IH. destruct (@eqb char _ c 47%N); [reflexivity|]. pose proof (split_ne 47%N d). destruct (split_char 47%N d); [congruence|reflexivity]. }
    rewrite Q, last_last. reflexivity.
Qed.
Lemma ends_in_iff t s : ends_in t s = true <-> ends_with t s.
Proof.
  unfold ends_in. rewrite starts_with_spec. split; intros [x E].
  - exists (rev x). rewrite <- (rev_involutive s), E, rev_app_distr, rev_involutive. reflexivity.
  - exists (rev x). rewrite E, rev_app_distr. reflexivity.
Qed.
Lemma ends_clash t u s : length t = length u -> t <> u -> ends_with t s -> ~ ends_with u s.
Proof. intros L N [a E] [b Q]. apply N. rewrite E in Q. apply (f_equal (@rev _)) in Q. rewrite !rev_app_distr in Q. apply (f_equal (firstn (length t))) in Q.
  rewrite !firstn_app, !rev_length, L, Nat.sub_diag in Q. cbn [firstn] in Q. rewrite !app_nil_r in Q. rewrite firstn_all2 in Q by (rewrite rev_length; lia). rewrite firstn_all2 in Q by (rewrite rev_length; lia). rewrite <- (rev_involutive t), Q, rev_involutive. reflexivity.
Qed.

(** ** Sets of grants of which some are bad *)
Definition good_ (g : grant) : bool := negb (g_bad g).
Definition gathered_in (gs : list grant) (s : gset) : Prop :=
  (forall m, In m s -> m_key m = gkey_of (m_grant m)) /\ (forall m, In m s -> In (m_grant m) gs) /\
  filter good_ (map m_grant s) = filter good_ gs /\
  (forall g, In g gs -> g_bad g = true -> exists m, In m s /\ g_bad (m_grant m) = true /\ g_data (m_grant m) = g_data g) /\
  NoDup (map g_data (filter g_bad (map m_grant s))).
Lemma same_fields (d e : gfields) : dkeys d = dkeys e -> dvals d = dvals e -> d = e.
Proof.
  revert e. induction d as [|[k v] d IH]; intros [|[k' v'] e] A B; cbn in A, B; [reflexivity|discriminate|discriminate|]. injection A as A1 A2. injection B as B1 B2. subst k' v'. f_equal. apply IH; assumption.
Qed.
Lemma gathered_add kind err columns gs s g : gathered_in gs s -> (forall x, In x (gs ++ [g]) -> g_kind x = kind /\ dkeys (g_data x) = columns /\ g_err x = if g_bad x then err else None) ->
  (forall x, In x gs -> g_id x <> g_id g) -> gathered_in (gs ++ [g]) (gadd g s).
Proof.
  intros (K & S1 & G & B & ND) U FR. destruct (U g ltac:(apply in_app_iff; right; left; reflexivity)) as (UK & UD & UE).
  assert (UG : forall x, In x gs -> g_kind x = kind /\ dkeys (g_data x) = columns /\ g_err x = if g_bad x then err else None) by (intros; apply U; apply in_app_iff; left; assumption).
  unfold gadd. destruct (gmem g s) eqn:M.
  - unfold gmem in M. apply existsb_exists in M as (m & I1 & M). unfold gfinds in M. apply andb_prop in M as [_ M]. apply eqb_eq in M. pose proof (S1 m I1) as I2. destruct (UG _ I2) as (VK & VD & VE).
    unfold gkey_of in M. destruct (g_bad (m_grant m)) eqn:BM; destruct (g_bad g) eqn:BG; try discriminate M.
    + injection M as _ M _. assert (D : g_data (m_grant m) = g_data g) by (apply same_fields; [congruence|exact M]).
      split; [exact K|]. split; [intros x J; apply in_app_iff; left; exact (S1 x J)|]. split; [rewrite filter_app; cbn [filter]; unfold good_ at 3; rewrite BG; cbn [negb]; rewrite app_nil_r; exact G|]. split; [|exact ND].
      intros x J BX. apply in_app_iff in J as [J|[<-|[]]]; [exact (B x J BX)|]. exists m. auto.
    + injection M as _ M. exfalso. exact (FR _ I2 M).
  - split; [intros m J; apply in_app_iff in J as [J|[<-|[]]]; [exact (K m J)|reflexivity]|].
    split; [intros m J; apply in_app_iff; apply in_app_iff in J as [J|[<-|[]]]; [left; exact (S1 m J)|right; left; reflexivity]|].
    rewrite map_app. cbn [map m_grant]. split; [rewrite !filter_app; f_equal; exact G|]. split.
    + intros x J BX. apply in_app_iff in J as [J|[<-|[]]]; [destruct (B x J BX) as (m & J1 & J2 & J3); exists m; split; [apply in_app_iff; left; exact J1|auto]|].
      eexists. split; [apply in_app_iff; right; left; reflexivity|]. split; [exact BX|reflexivity].
    + rewrite filter_app, map_app. cbn [filter]. destruct (g_bad g) eqn:BG; [|cbn; rewrite app_nil_r; exact ND]. cbn [map]. rewrite <- (app_nil_r [g_data g]). apply NoDup_Add with (1 := Add_app _ _ _). rewrite app_nil_r. split; [exact ND|].
      intros J. apply in_map_iff in J as (x & E & J). apply filter_In in J as [J BX]. apply in_map_iff in J as (m & Em & J). subst x.
      assert (Q : gmem g s = true); [|congruence]. unfold gmem. apply existsb_exists. exists m. split; [exact J|]. unfold gfinds. rewrite (K m J), andb_diag. apply eqb_true.
      destruct (UG _ (S1 m J)) as (VK & VD & VE). rewrite BX in VE. rewrite ?BG in UE. unfold gkey_of. rewrite BX, BG, VK, UK, E, VE, UE. reflexivity.
Qed.
Lemma gathered_all kind err columns (mk : N -> str -> gfields -> grant) : 
  (forall k l d, dkeys d = columns -> let x := mk k l d in g_kind x = kind /\ g_data x = d /\ g_err x = if g_bad x then err else None) ->
  (forall k1 l1 d1 k2 l2 d2, g_id (mk k1 l1 d1) = g_id (mk k2 l2 d2) -> k1 = k2) ->
  forall (rows before : list (N * str * gfields)) s, NoDup (map (fun r => fst (fst r)) (before ++ rows)) -> Forall (fun r => dkeys (snd r) = columns) (before ++ rows) ->
    let grants_of := map (fun r => mk (fst (fst r)) (snd (fst r)) (snd r)) in gathered_in (grants_of before) s ->
    gathered_in (grants_of (before ++ rows)) (fold_left (fun s r => gadd (mk (fst (fst r)) (snd (fst r)) (snd r)) s) rows s).
Proof.
  intros HK HI. induction rows as [|[[k l] d] rows IH]; intros before s ND F grants_of G; [rewrite app_nil_r; exact G|]. cbn [fold_left fst snd].
  replace (before ++ (k, l, d) :: rows) with ((before ++ [(k, l, d)]) ++ rows) in * by (rewrite <- app_assoc; reflexivity). apply IH; [exact ND|exact F|].
  unfold grants_of in *. rewrite map_app. cbn [map fst snd]. apply (gathered_add kind err columns); [exact G| |].
  - intros x I1. assert (I2 : In x (map (fun r => mk (fst (fst r)) (snd (fst r)) (snd r)) (before ++ [(k, l, d)]))) by (rewrite map_app; exact I1). apply in_map_iff in I2 as (r & <- & I2).
    assert (FD : dkeys (snd r) = columns) by (rewrite Forall_forall in F; apply F; apply in_app_iff; left; exact I2). destruct (HK (fst (fst r)) (snd (fst r)) (snd r) FD) as (A & B & C). rewrite B. auto.
  - intros x I1 E. apply in_map_iff in I1 as (r & <- & I1). apply HI in E. rewrite <- app_assoc, map_app in ND. cbn [app map fst] in ND. apply NoDup_remove_2 in ND. apply ND. apply in_app_iff. left. rewrite <- E. apply in_map_iff. exists r. auto.
Qed.
Lemma gathered_nil : gathered_in [] [].
Proof. split; [intros m []|]. split; [intros m []|]. split; [reflexivity|]. split; [intros g []|constructor]. Qed.
Lemma filter_same {A} (p : A -> bool) l : (forall x, In x l -> p x = true) -> filter p l = l.
Proof. induction l as [|x l IH]; intros H; [reflexivity|]. cbn [filter]. rewrite (H x) by (left; reflexivity). f_equal. apply IH. intros; apply H; right; assumption. Qed.
Lemma gathered_good gs s : gathered_in gs s -> (forall g, In g gs -> g_bad g = false) -> map m_grant s = gs.
Proof.
  intros (_ & S1 & G & _) B. rewrite (filter_same good_ gs) in G by (intros g I1; unfold good_; rewrite (B g I1); reflexivity). rewrite filter_same in G; [exact G|].
  intros g I1. apply in_map_iff in I1 as (m & <- & I1). unfold good_. rewrite (B _ (S1 m I1)). reflexivity.
Qed.

(** ** Detection *)
Lemma begins_iff p s : starts_with p s = true <-> begins_with p s.
Proof. unfold begins_with. apply starts_with_spec. Qed.
Lemma starts_no p s : ~ begins_with p s -> starts_with p s = false.
Proof. intros N. destruct (starts_with p s) eqn:E; [|reflexivity]. exfalso. apply N, begins_iff, E. Qed.
Lemma ends_no t s : ~ ends_with t s -> ends_in t s = false.
Proof. intros N. destruct (ends_in t s) eqn:E; [|reflexivity]. exfalso. apply N, ends_in_iff, E. Qed.
Lemma name_end path name e : file_name path name -> ends_with e name -> ends_with e path.
Proof. intros [_ [->|(d & ->)]] E; [exact E|]. destruct E as [b ->]. exists (d ++ [47%N] ++ b). rewrite <- !app_assoc. reflexivity. Qed.
Lemma good_rows columns h rs : good_table columns h rs -> Forall row_written (h :: rs).
Proof. intros (H & _ & _ & F). constructor; [exact H|]. eapply Forall_impl; [|exact F]. intros r [A _]. exact A. Qed.
Lemma no_long : forall rs n columns, Forall (fun r => row_written r /\ length (values r) <= length columns) rs -> existsb (too_long columns) (tagged n rs) = false.
Proof.
  induction rs as [|r rs IH]; intros n columns F; [reflexivity|]. inversion F as [|? ? [_ L] F']; subst. cbn [tagged existsb]. rewrite IH by exact F'. rewrite orb_false_r. unfold too_long. cbn [snd]. apply Nat.ltb_ge. exact L.
Qed.
Lemma tagged_length : forall rs n, length (tagged n rs) = length rs.
Proof. induction rs as [|r rs IH]; intros n; [reflexivity|]. cbn [tagged length]. rewrite IH. reflexivity. Qed.
Lemma some_rows rs n : rs <> [] -> negb (length (tagged n rs) <? 1) = true.
Proof. intros NE. rewrite tagged_length. destruct rs; [congruence|reflexivity]. Qed.
Lemma not_scopus columns : ~ of_scopus columns -> forallb (fun c => mem c columns) scopus_columns = false.
Proof. intros N. destruct (forallb _ _) eqn:E; [|reflexivity]. exfalso. apply N. intros c I1. rewrite forallb_forall in E. apply mem_In. apply E. exact I1. Qed.
Lemma reader_rows pep columns h rs n : good_table columns h rs ->
  lines_reader pep n (lines (translate (written_out (h :: rs)))) = (map (fun r => (fst r, row_dict columns r)) (tagged (n + breaks (body h) + 1) rs), eof_of_lines pep).
Proof. intros T. unfold lines_reader. rewrite table_written by (apply (good_rows columns); exact T). destruct T as (_ & -> & _). reflexivity. Qed.
Lemma each_tagged {B} (P : N * str -> row -> B -> Prop) (f : numbered -> B) : (forall k l r, P (k, l) r (f (k, l, values r))) -> forall rs n, one_for_each P (row_ends n rs) rs (map f (tagged n rs)).
Proof. intros H. induction rs as [|r rs IH]; intros n; [constructor|]. cbn [row_ends tagged map]. constructor; [apply H|apply IH]. Qed.
