(** Proofs for C71 to C74. *)
From Coq Require Import List ZArith Lia Bool Arith.
From Coq Require Import String.
From Verif Require Import Base PyStr PyInt CsvProofs DecFacts JournalModel JournalProofs MedlineProofs TextModel TextProofs CitationModel RecordModel GrantModel ValuesModel.
Import ListNotations.
Local Open Scope list_scope.

(** ** splitting *)
Lemma not_contains sep s : (forall a b, s <> a ++ sep ++ b) -> contains sep s = false.
Proof. intros N. destruct (contains sep s) eqn:E; [|reflexivity]. apply contains_spec in E as (a & b & E). destruct (N a b E). Qed.
Lemma contains_tail (x y : char) s : x <> y -> contains [x; y] s = false -> contains [x; y] (s ++ [x]) = false.
Proof.
  intros XY N. apply not_contains. intros a b E. destruct (@exists_last _ b) as (b' & c & ->).
  - intros ->. rewrite app_nil_r in E. change [x; y] with ([x] ++ [y]) in E. rewrite app_assoc in E. apply app_inj_tail in E as [_ E]. contradiction.
  - change ([x; y] ++ b' ++ [c]) with (([x; y] ++ b') ++ [c]) in E. rewrite app_assoc in E. apply app_inj_tail in E as [E _]. assert (C : contains [x; y] s = true) by (apply contains_spec; exists a, b'; exact E). congruence.
Qed.
Lemma split_general sep : sep <> [] -> forall ps fuel, ps <> [] -> Forall (fun p => contains sep p = false /\ contains sep (p ++ removelast sep) = false) ps -> length ps <= S fuel -> split_on fuel sep (join sep ps) = ps.
Proof.
  intros NS. induction ps as [|p ps IH]; intros fuel NE F L; [congruence|]. inversion F as [|? ? [Fp Fq] F']; subst. destruct ps as [|q ps].
  - cbn [join]. destruct fuel; cbn [split_on]; rewrite (cut_none _ _ Fp); reflexivity.
  - change (join sep (p :: q :: ps)) with (p ++ sep ++ join sep (q :: ps)). destruct fuel as [|fuel]; [cbn in L; lia|]. cbn [split_on]. rewrite (cut_first sep p) by assumption. rewrite IH; [reflexivity|discriminate|exact F'|cbn in *; lia].
Qed.
Lemma join_long sep (ps : list str) : sep <> [] -> length ps <= S (length (join sep ps)).
Proof. intros NS. assert (1 <= length sep) by (destruct sep; [congruence|cbn; lia]). induction ps as [|p [|q ps] IH]; [cbn; lia|cbn; lia|]. change (join sep (p :: q :: ps)) with (p ++ sep ++ join sep (q :: ps)). rewrite !app_length. cbn [length] in *. lia. Qed.
Lemma split_pair (x y : char) ps : x <> y -> ps <> [] -> (forall p, In p ps -> forall a b, p <> a ++ [x; y] ++ b) -> split_at [x; y] (join [x; y] ps) = ps.
Proof.
  intros XY NE F. unfold split_at. apply split_general; [discriminate|exact NE| |apply join_long; discriminate]. apply Forall_forall. intros p I. assert (C : contains [x; y] p = false) by (apply not_contains, F, I). split; [exact C|]. cbn [removelast]. apply contains_tail; assumption.
Qed.
Lemma split_single (x : char) ps : ps <> [] -> (forall p, In p ps -> ~ In x p) -> split_at [x] (join [x] ps) = ps.
Proof.
  intros NE F. unfold split_at. apply split_general; [discriminate|exact NE| |apply join_long; discriminate]. apply Forall_forall. intros p I. assert (C : contains [x] p = false) by (apply not_contains; intros a b ->; apply (F _ I), in_or_app; right; left; reflexivity). split; [exact C|]. cbn [removelast]. rewrite app_nil_r. exact C.
Qed.
Lemma split_after sep p rest : sep <> [] -> contains sep (p ++ removelast sep) = false -> join sep (tl (split_at sep (p ++ sep ++ rest))) = rest /\ hd [] (split_at sep (p ++ sep ++ rest)) = p.
Proof.
  intros NS C. unfold split_at. assert (L : exists n, length (p ++ sep ++ rest) = S n) by (destruct sep; [congruence|]; rewrite !app_length; cbn [length]; exists (length p + (length sep + length rest)); lia).
  destruct L as [n ->]. cbn [split_on]. rewrite (cut_first sep p) by assumption. cbn [tl hd]. split; [apply split_on_join|reflexivity].
Qed.
(** s.split(c)[0] *)
Lemma split_char_hd (c : char) a rest : ~ In c a -> rest = [] \/ (exists r, rest = c :: r) -> hd [] (split_char c (a ++ rest)) = a.
Proof. intros N [->|[r ->]]; [rewrite app_nil_r, split_char_last by exact N; reflexivity|rewrite split_char_line by exact N; reflexivity]. Qed.

(** ** numbers *)
Lemma number_bound s : Forall is_digit s -> forall a, (0 <= a -> 0 <= number_from a s < (a + 1) * 10 ^ Z.of_nat (length s))%Z.
Proof.
  induction s as [|c s IH]; intros F a A; [cbn; lia|]. inversion F as [|? ? D F']; subst. unfold is_digit in D. unfold number_from. cbn [fold_left]. fold (number_from (10 * a + (Z.of_N c - 48)) s).
  specialize (IH F' (10 * a + (Z.of_N c - 48))%Z ltac:(lia)). cbn [length]. rewrite Nat2Z.inj_succ, Z.pow_succ_r by lia. nia.
Qed.
Lemma four_digits y : (1000 <= y <= 9999)%Z -> length (dec_Z y) = 4.
Proof.
  intros Y. unfold dec_Z. destruct (Z.ltb_spec y 0); [lia|]. pose proof (dec_N_value (Z.to_N y)) as V. pose proof (number_bound _ (dec_N_digits (Z.to_N y)) 0%Z ltac:(lia)) as B. rewrite V in B. assert (AY : (Z.of_N (Z.to_N y) = y)%Z) by lia. assert (AN : (Z.to_N y < 10000)%N) by lia.
  pose proof (@dec_N_length 3 (Z.to_N y) ltac:(exact AN)) as U. destruct (Nat.lt_ge_cases (length (dec_N (Z.to_N y))) 4) as [L|L]; [|lia]. exfalso.
  assert (P : (10 ^ Z.of_nat (length (dec_N (Z.to_N y))) <= 10 ^ 3)%Z) by (apply Z.pow_le_mono_r; lia). change (10 ^ 3)%Z with 1000%Z in P. lia.
Qed.
Lemma dec_digits z : (0 <= z)%Z -> Forall is_digit (dec_Z z) /\ dec_Z z <> [].
Proof. intros Z0. unfold dec_Z. destruct (Z.ltb_spec z 0); [lia|]. split; [apply dec_N_digits|apply dec_N_ne]. Qed.
Lemma take_all : forall n s t, Forall is_digit s -> length s <= n -> match t with [] => True | c :: _ => digit09 c = false end -> take_digits n (s ++ t) = s.
Proof.
  induction n as [|n IH]; intros s t F L T; [destruct s; [reflexivity|cbn in L; lia]|]. destruct s as [|c s]; cbn [app take_digits].
  - destruct t as [|c t]; [reflexivity|]. rewrite T. reflexivity.
  - inversion F as [|? ? D F']; subst. assert (G : digit09 c = true) by (unfold digit09, is_digit, Regex.in_range in *; apply andb_true_intro; split; apply N.leb_le; lia). rewrite G. rewrite IH; [reflexivity|exact F'|cbn in L; lia|exact T].
Qed.
Lemma int_dash : forall s t b a, int_digits b a (s ++ 45%N :: t) = None.
Proof. induction s as [|c s IH]; intros t b a; cbn [app int_digits]; [destruct b; reflexivity|]. destruct (digit c); [apply IH|]. destruct ((c =? 95)%N && b); [apply IH|reflexivity]. Qed.
Lemma lstrip_stop c : ws_char c = false -> forall u v, lstrip (u ++ c :: v) = lstrip u ++ c :: v.
Proof. intros W. induction u as [|x u IH]; intros v; cbn [app lstrip]; [rewrite W; reflexivity|]. destruct (ws_char x); [apply IH|reflexivity]. Qed.
Lemma rstrip_stop c a t : ws_char c = false -> rstrip (a ++ c :: t) = a ++ c :: rstrip t.
Proof. intros W. unfold rstrip. rewrite rev_app_distr. cbn [rev]. rewrite <- app_assoc. cbn [app]. rewrite lstrip_stop by exact W. rewrite rev_app_distr. cbn [rev]. rewrite rev_involutive, <- app_assoc. reflexivity. Qed.
Lemma py_int_dash s t : Forall is_digit s -> s <> [] -> py_int (s ++ 45%N :: t) = None.
Proof.
  intros F NE. destruct s as [|c s]; [congruence|]. inversion F as [|? ? D F']; subst. unfold py_int, strip. cbn [app]. rewrite lstrip_keep by (apply digit_not_ws, D). change (c :: s ++ 45%N :: t) with ((c :: s) ++ 45%N :: t). rewrite rstrip_stop by reflexivity.
  cbn [app]. destruct (N.eqb_spec c 45) as [->|]; [unfold is_digit in D; lia|]. destruct (N.eqb_spec c 43) as [->|]; [unfold is_digit in D; lia|]. change (c :: s ++ 45%N :: rstrip t) with ((c :: s) ++ 45%N :: rstrip t). apply int_dash.
Qed.
Lemma search_digits s t : Forall is_digit s -> s <> [] -> length s <= 4 -> match t with [] => True | c :: _ => digit09 c = false end -> search_number (s ++ t) = Some s.
Proof.
  intros F NE L T. destruct s as [|c s]; [congruence|]. cbn [app search_number]. change (c :: s ++ t) with ((c :: s) ++ t). rewrite (take_all 4 (c :: s) t F L T). reflexivity.
Qed.
Lemma dec_length y : (0 <= y <= 9999)%Z -> length (dec_Z y) <= 4.
Proof. intros Y. unfold dec_Z. destruct (Z.ltb_spec y 0); [lia|]. apply (@dec_N_length 3). change (10 ^ N.of_nat 4)%N with 10000%N. lia. Qed.
Lemma no_space_digits s c : Forall is_digit s -> ~ is_digit c -> ~ In c s.
Proof. intros F N I. rewrite Forall_forall in F. exact (N (F c I)). Qed.

(** ** addresses and dictionaries of names *)
Lemma address_one a names addr : a = $"[" ++ names ++ $"] " ++ addr -> (forall x y, names <> x ++ $"] " ++ y) -> join $"] " (tl (split_at $"] " a)) = addr.
Proof.
  intros -> N. rewrite app_assoc. apply split_after; [discriminate|]. cbn [removelast]. apply contains_tail; [discriminate|]. apply not_contains. intros x y E. destruct x as [|c x]; [discriminate|]. cbn in E. injection E as _ E. exact (N x y E).
Qed.
Lemma colon_parts a t : ~ In 58%N a -> hd [] (split_at $" : " (a ++ $" : " ++ t)) = a /\ join $" : " (tl (split_at $" : " (a ++ $" : " ++ t))) = t.
Proof.
  intros N. destruct (split_after $" : " a t) as [A B]; [discriminate| |split; assumption]. apply not_contains. intros x y E.
  change (removelast $" : ") with ($" " ++ [58%N]) in E. rewrite app_assoc in E. destruct (@exists_last _ y) as (y' & c & ->).
  - intros ->. rewrite app_nil_r in E. change $" : " with ($" :" ++ [32%N]) in E. rewrite app_assoc in E. apply app_inj_tail in E as [_ E]. discriminate.
  - change ($" : " ++ y' ++ [c]) with (($" : " ++ y') ++ [c]) in E. rewrite app_assoc in E. apply app_inj_tail in E as [E _]. assert (I : In 58%N (x ++ $" : " ++ y')) by (rewrite !in_app_iff; right; left; right; left; reflexivity). pose proof (eq_ind_r (In 58%N) I E) as J. apply in_app_or in J as [J|[J|[]]]; [exact (N J)|discriminate].
Qed.
(** the last entry of a key wins *)
Lemma fold_dset_last {K V E} `{EqDec K} (key : E -> K) (value : E -> V) k : forall l (d : dict K V),
  dget k (fold_left (fun d e => dset (key e) (value e) d) l d) = match filter (fun e => eqb (key e) k) (rev l) with e :: _ => Some (value e) | [] => dget k d end.
Proof.
  induction l as [|e l IH]; intros d; cbn [fold_left rev filter]; [reflexivity|]. rewrite IH, filter_app. destruct (filter (fun e => eqb (key e) k) (rev l)) as [|x m]; [|reflexivity]. cbn [app filter].
  rewrite dget_dset. destruct (eqb_spec (key e) k) as [->|N]; [rewrite eqb_refl; reflexivity|]. rewrite neq_eqb by congruence. reflexivity.
Qed.
