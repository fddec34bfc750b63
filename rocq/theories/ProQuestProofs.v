(** Proofs about ProQuest records. *)
From Coq Require Import List ZArith Lia Bool Arith.
From Coq Require Import String.
From Verif Require Import Base PyStr PyInt JournalModel JournalProofs WosProofs TextSpec TextProofs MedlineProofs ProQuestModel ProQuestSpec.
Import ListNotations.
Local Open Scope list_scope.

Definition nb (l : str) : bool := if eq_dec l [nl] then false else true.
Lemma skip_blanks rest d' : forall ls st d, ~ In ruler ls -> pparse (filter nb ls ++ ruler :: rest) st d = (Ok d', rest) -> pparse (ls ++ ruler :: rest) st d = (Ok d', rest).
Proof.
  induction ls as [|l ls IH]; intros st d N E; [exact E|]. assert (N' : ~ In ruler ls) by (intros I1; apply N; right; exact I1). assert (NL : l <> ruler) by (intros ->; apply N; left; reflexivity). cbn [filter] in E. unfold nb at 1 in E. destruct (eq_dec l [nl]) as [->|NB].
  - cbn [app pparse]. change (eqb [nl] ruler) with false. rewrite eqb_refl. cbv iota. apply IH; assumption.
  - cbn [app pparse] in E |- *. rewrite (neq_eqb NL), (neq_eqb NB) in *. destruct st as [| | |t]; [apply IH; assumption|apply IH; assumption| |].
    + destruct (mem 58%N l && negb (starts_with $"http://" l)); [destruct (tag_split l); apply IH; assumption|discriminate].
    + destruct (mem 58%N l && negb (starts_with $"http://" l)); [destruct (tag_split l); apply IH; assumption|]. destruct (dget t d); [apply IH; assumption|discriminate].
Qed.
Definition addnl (s : str) : str := s ++ [nl].
Lemma addnl_ruler s : addnl s = ruler -> s = repeat 95%N 60.
Proof. unfold addnl, ruler. intros E. apply app_inj_tail in E as [E _]. exact E. Qed.
Lemma addnl_blank s : addnl s = [nl] -> s = [].
Proof. unfold addnl. intros E. destruct s as [|x [|y s]]; [reflexivity|discriminate|discriminate]. Qed.
Lemma rstrip_nl (s : str) : rstrip (s ++ [nl]) = rstrip s.
Proof. unfold rstrip. rewrite rev_app_distr. reflexivity. Qed.
Lemma tagged_line t v : good_ptag t -> tag_split (addnl (t ++ $": " ++ v)) = (t, v ++ [nl]) /\ mem 58%N (addnl (t ++ $": " ++ v)) && negb (starts_with $"http://" (addnl (t ++ $": " ++ v))) = true /\ addnl (t ++ $": " ++ v) <> ruler /\ addnl (t ++ $": " ++ v) <> [nl].
Proof.
  intros [G1 G2]. assert (IN : In 58%N (addnl (t ++ $": " ++ v))) by (unfold addnl; rewrite <- !app_assoc; apply in_or_app; right; left; reflexivity). split; [|split; [|split]].
  - unfold tag_split, addnl. rewrite <- !app_assoc. rewrite cut_first; [reflexivity|discriminate|]. change (removelast $": ") with $":". destruct (contains $": " (t ++ $":")) eqn:C; [|reflexivity]. apply contains_spec in C as (a & b & E). exfalso. apply (G1 a b E).
  - apply andb_true_iff. split; [apply mem_In; exact IN|]. apply negb_true_iff. destruct (starts_with $"http://" (addnl (t ++ $": " ++ v))) eqn:S1; [|reflexivity]. apply starts_with_spec in S1 as [u E]. exfalso. apply (G2 (v ++ [nl]) u). rewrite <- E. unfold addnl. rewrite <- !app_assoc. reflexivity.
  - intros E. rewrite E in IN. unfold ruler in IN. apply in_app_or in IN as [IN|[IN|[]]]; [apply repeat_spec in IN|]; discriminate.
  - intros E. rewrite E in IN. destruct IN as [IN|[]]. discriminate.
Qed.
Lemma untagged_line s : untagged s -> mem 58%N (addnl s) && negb (starts_with $"http://" (addnl s)) = false /\ addnl s <> ruler /\ addnl s <> [nl].
Proof.
  intros (NE & NR & O). split; [|split; [intros E; apply NR, addnl_ruler, E|intros E; apply NE, addnl_blank, E]]. destruct O as [O|[t ->]].
  - replace (mem 58%N (addnl s)) with false; [reflexivity|]. symmetry. apply mem_not_In. unfold addnl. rewrite in_app_iff. intros [I1|[E|[]]]; [contradiction|discriminate].
  - replace (starts_with $"http://" (addnl ($"http://" ++ t))) with true; [apply andb_false_r|]. symmetry. apply starts_with_spec. exists (t ++ [nl]). unfold addnl. rewrite <- app_assoc. reflexivity.
Qed.
Definition put_entry (d : pfields) (e : str * list str) : pfields := dset (fst e) (map rstrip (snd e)) d.
Lemma read_more t rest : forall more vs d, Forall untagged more -> pparse (map addnl more ++ rest) (AtTag t) (dset t (map rstrip vs) d) = pparse rest (AtTag t) (dset t (map rstrip (vs ++ more)) d).
Proof.
  induction more as [|s more IH]; intros vs d F; [rewrite app_nil_r; reflexivity|]. inversion F as [|? ? U F']; subst. destruct (untagged_line s U) as (A & B & C). cbn [map app pparse]. rewrite (neq_eqb B), (neq_eqb C), A. rewrite dget_dset_same, dset_dset.
  replace (map rstrip vs ++ [rstrip (addnl s)]) with (map rstrip (vs ++ [s])); [|rewrite map_app; cbn; unfold addnl; rewrite rstrip_nl; reflexivity]. rewrite IH by exact F'. rewrite <- app_assoc. reflexivity.
Qed.
Definition tag_state (st : entry_at) : Prop := match st with AtNone | AtTag _ => True | _ => False end.
Definition ent (x : said) : list (str * list str) := match x with Field t v more => [(t, v :: more)] | Author v link => [($"Author", [v]); ($"url", [link])] end.
Lemma read_tagged t v rest st d : good_ptag t -> tag_state st -> pparse (addnl (t ++ $": " ++ v) :: rest) st d = pparse rest (if eqb t $"Author" then AtUrl else AtTag t) (put_entry d (t, [v])).
Proof.
  intros G TS. destruct (tagged_line t v G) as (A & B & C & D). cbn [pparse]. rewrite (neq_eqb C), (neq_eqb D), B, A. unfold put_entry. cbn [fst snd map]. rewrite rstrip_nl. destruct st; [destruct TS|destruct TS|reflexivity|reflexivity].
Qed.
Lemma author_tag : good_ptag $"Author".
Proof.
  split.
  - intros a b E. assert (C : contains $": " ($"Author" ++ $":") = true) by (apply contains_spec; eauto). vm_compute in C. discriminate.
  - intros v u E. discriminate.
Qed.
Lemma read_said rest : forall xs st d, Forall said_ok xs -> tag_state st -> exists st', tag_state st' /\ pparse (map addnl (flat_map said_lines xs) ++ rest) st d = pparse rest st' (fold_left put_entry (flat_map ent xs) d).
Proof.
  induction xs as [|x xs IH]; intros st d F TS; [exists st; split; [exact TS|reflexivity]|]. inversion F as [|? ? O F']; subst. destruct x as [t v more|v link]; cbn [flat_map said_lines ent]; rewrite map_app, <- app_assoc; cbn [map app].
  - destruct O as (NA & G & U). rewrite read_tagged by assumption. rewrite (neq_eqb NA). unfold put_entry. cbn [fst snd]. rewrite read_more by exact U. destruct (IH (AtTag t) (dset t (map rstrip ([v] ++ more)) d) F' Logic.I) as (st' & TS' & E). exists st'. split; [exact TS'|]. exact E.
  - change (addnl ($"Author: " ++ v)) with (addnl ($"Author" ++ $": " ++ v)). rewrite read_tagged by (try exact author_tag; exact TS). change (eqb $"Author" $"Author") with true. cbv iota. destruct O as [NE NR].
    assert (B : addnl link <> ruler) by (intros E; apply NR, addnl_ruler, E). assert (C : addnl link <> [nl]) by (intros E; apply NE, addnl_blank, E). cbn [pparse]. rewrite (neq_eqb B), (neq_eqb C).
    destruct (IH AtNone (dset $"url" [rstrip (addnl link)] (put_entry d ($"Author", [v]))) F' Logic.I) as (st' & TS' & E). exists st'. split; [exact TS'|]. assert (RL : rstrip (addnl link) = rstrip link) by apply rstrip_nl. rewrite RL in E |- *. exact E.
Qed.
Lemma entries_ent name xs : entries name xs = ($"Name", [name]) :: flat_map ent xs.
Proof. reflexivity. Qed.
Lemma put_get_last t : forall es d, dget t (fold_left put_entry es d) = match last_entry t es with Some vs => Some (map rstrip vs) | None => dget t d end.
Proof.
  intros es. induction es as [|e es IH] using rev_ind; intros d; [reflexivity|]. rewrite fold_left_app. cbn [fold_left]. unfold last_entry. rewrite rev_app_distr. cbn [rev app find]. unfold put_entry at 1. destruct (eq_dec (fst e) t) as [<-|N].
  - rewrite dget_dset_same. reflexivity.
  - rewrite dget_dset_other by congruence. apply IH.
Qed.
Lemma rstrip_trimmed (s : str) : trimmed s (rstrip s).
Proof.
  destruct (rstrip_split s) as (w & E & B). exists w. split; [exact E|]. split; [exact B|]. intros c u' EU.
  unfold rstrip in EU. apply (f_equal (@rev _)) in EU. rewrite rev_involutive, rev_app_distr in EU. cbn in EU. revert EU. generalize (rev s). intros s0. induction s0 as [|x s0 IH]; cbn; [discriminate|]. destruct (ws_char x) eqn:W; [exact IH|]. intros [= -> _]. exact W.
Qed.
Lemma map_trimmed l : Forall2 trimmed l (map rstrip l).
Proof. induction l; constructor; [apply rstrip_trimmed|assumption]. Qed.
Lemma said_nonruler x s : said_ok x -> In s (said_lines x) -> addnl s <> ruler.
Proof.
  destruct x as [t v more|v link]; cbn [said_lines].
  - intros (_ & G & U) [<-|I1]; [apply (tagged_line t v G)|]. apply (untagged_line s). apply (proj1 (Forall_forall _ _) U s I1).
  - intros [NE NR] [<-|[<-|[]]]; [apply (tagged_line $"Author" v author_tag)|]. intros E. apply NR, addnl_ruler, E.
Qed.
Lemma read_doc ls name xs rest : any_text name -> Forall said_ok xs -> filter nb ls = map addnl (name :: flat_map said_lines xs) ->
  exists d, proquest_parse (ls ++ ruler :: rest) = (Ok d, rest) /\ forall t, dget t d = option_map (map rstrip) (last_entry t (entries name xs)).
Proof.
  intros [NE NR] F FL. exists (fold_left put_entry (entries name xs) []). split.
  - apply skip_blanks.
    + intros I1. assert (I2 : In ruler (filter nb ls)) by (apply filter_In; split; [exact I1|reflexivity]). rewrite FL in I2. apply in_map_iff in I2 as (s & E & [<-|I2]); [apply NR, addnl_ruler, E|]. apply in_flat_map in I2 as (x & IX & IS). apply (said_nonruler x s (proj1 (Forall_forall _ _) F x IX) IS E).
    + rewrite FL. cbn [map app pparse]. assert (B : addnl name <> ruler) by (intros E; apply NR, addnl_ruler, E). assert (C : addnl name <> [nl]) by (intros E; apply NE, addnl_blank, E). rewrite (neq_eqb B), (neq_eqb C).
      destruct (read_said (ruler :: rest) xs AtNone (dset $"Name" [rstrip (addnl name)] []) F Logic.I) as (st' & TS & E). rewrite E. cbn [pparse]. rewrite eqb_refl. unfold addnl. rewrite rstrip_nl. reflexivity.
  - intros t. rewrite put_get_last. destruct (last_entry t (entries name xs)); reflexivity.
Qed.

(** ** Files *)
Lemma cut_mark sep a b : sep <> [] -> (forall x y, a ++ removelast sep <> x ++ sep ++ y) -> cut sep (a ++ sep ++ b) = Some (a, b).
Proof.
  intros NE N. apply cut_first; [exact NE|]. destruct (contains sep (a ++ removelast sep)) eqn:C; [|reflexivity]. apply contains_spec in C as (x & y & E). exfalso. apply (N x y E).
Qed.
Lemma read_contents tail : forall toc zts names, Forall2 toc_ok toc zts -> contents (flat_map toc_lines toc ++ tail) names = contents tail (fold_left (fun d zt => dset (fst zt) (snd zt) d) zts names).
Proof.
  intros toc zts names F. revert names. induction F as [|[[l n] t] [z t'] toc zts O F IH]; intros names; [reflexivity|]. destruct O as (N & P & E). cbn [fst snd] in *. subst t'. cbn [flat_map toc_lines app contents].
  assert (NB : n ++ $". " ++ t ++ [nl] <> bibliography).
  { intros E. assert (I1 : In 46%N bibliography) by (rewrite <- E; apply in_or_app; right; left; reflexivity). revert I1. apply mem_not_In. reflexivity. }
  rewrite (neq_eqb NB). unfold dot_split. rewrite cut_mark; [|discriminate|exact N]. rewrite P. unfold init_. rewrite removelast_last. rewrite IH. reflexivity.
Qed.
Lemma trimmed_unique (s u u' : str) : trimmed s u -> trimmed s u' -> u = u'.
Proof.
  intros (w & E & B & L) (w' & E' & B' & L'). rewrite E in E'. clear E s.
  assert (G : forall (w w' u u' : str), u ++ w = u' ++ w' -> (forall c, In c w -> ws_char c = true) -> (forall c x, u' = x ++ [c] -> ws_char c = false) -> length u' <= length u).
  { clear. induction w as [|c w IH] using rev_ind; intros w' u u' E B L.
    - rewrite app_nil_r in E. subst u. rewrite app_length. lia.
    - destruct w' as [|c' w' _] using rev_ind.
      + rewrite app_nil_r in E. subst u'. exfalso. rewrite app_assoc in L. specialize (L c (u ++ w) eq_refl). rewrite B in L by (apply in_or_app; right; left; reflexivity). discriminate.
      + rewrite !app_assoc in E. apply app_inj_tail in E as [E _]. eapply IH; [exact E| |exact L]. intros x I1. apply B, in_or_app. left. exact I1. }
  assert (LE : length u = length u') by (apply Nat.le_antisymm; [apply (G w' w u' u (eq_sym E') B' L)|apply (G w w' u u' E' B L')]).
  apply (f_equal (firstn (length u))) in E'. rewrite firstn_app, Nat.sub_diag, firstn_all in E'. cbn in E'. rewrite app_nil_r in E'. rewrite LE in E' at 1. rewrite firstn_app, Nat.sub_diag, firstn_all in E'. cbn in E'. rewrite app_nil_r in E'. exact E'.
Qed.
Lemma doc_value_get x d t v : (forall t, dget t d = option_map (map rstrip) (last_entry t (entries (dname x) (dsaid x)))) -> doc_value x t v -> exists l, dget t d = Some (v :: l).
Proof.
  intros G (u & l & E & T). rewrite G, E. cbn. exists (map rstrip l). rewrite (trimmed_unique u v (rstrip u) T (rstrip_trimmed u)). reflexivity.
Qed.
Definition doc_data (x : doc) (r : prec) (id : str) : Prop := pid r = $"PROQUEST:" ++ id /\ pbad r = false /\ perr r = None /\ doc_record x id (pdata r).
Lemma doc_one x rest z t id names : doc_ok x -> doc_numbered x z -> doc_value x $"Title" t -> doc_value x $"ProQuest document ID" id -> dget z names = Some t ->
  forall more, exists r, doc_data x r id /\ forall fuel recs, documents (S fuel) (doc_lines x more ++ rest) names recs = documents fuel rest names (padd r recs).
Proof.
  intros (AT & F & FL) (N & P) VT VI GN more. unfold doc_lines. cbn [app].
  destruct (read_doc (dlines x) (dname x) (dsaid x) (more :: rest) AT F FL) as (d & PD & G). exists (mkPrec ($"PROQUEST:" ++ id) d false None). split.
  - split; [reflexivity|]. split; [reflexivity|]. split; [reflexivity|]. split; [exact VI|]. intros t'. cbn [pdata]. rewrite G. destruct (last_entry t' (entries (dname x) (dsaid x))); cbn; [apply map_trimmed|exact Logic.I].
  - intros fuel recs. cbn [documents].
    change (eqb ($"Document " ++ dnum x ++ $" of " ++ dof x ++ [nl]) bibliography) with false. cbv iota.
    change (starts_with $"Document " ($"Document " ++ dnum x ++ $" of " ++ dof x ++ [nl])) with true. cbv iota.
    assert (DN : doc_number ($"Document " ++ dnum x ++ $" of " ++ dof x ++ [nl]) = dnum x).
    { unfold doc_number. change (skipn 9 ($"Document " ++ dnum x ++ $" of " ++ dof x ++ [nl])) with (dnum x ++ $" of " ++ dof x ++ [nl]). rewrite cut_mark; [reflexivity|discriminate|exact N]. }
    rewrite DN, P. unfold proquest_record. rewrite <- app_assoc. cbn [app]. change (repeat 95%N 60 ++ [nl]) with ruler. rewrite PD. unfold prec_of.
    destruct (doc_value_get x d _ _ G VI) as [l1 E1]. destruct (doc_value_get x d _ _ G VT) as [l2 E2]. rewrite E1. rewrite GN. unfold title_of. cbn [pdata]. rewrite E2. rewrite eqb_refl. reflexivity.
Qed.
Lemma docs_all rest names : forall docs ids mores, length ids = length docs -> length mores = length docs -> NoDup ids ->
  (forall x id, In (x, id) (combine docs ids) -> doc_ok x /\ doc_value x $"ProQuest document ID" id /\ exists z t, doc_numbered x z /\ doc_value x $"Title" t /\ dget z names = Some t) ->
  exists rs, Forall2 (fun xi r => doc_data (fst xi) r (snd xi)) (combine docs ids) rs /\
    forall fuel recs, length docs < fuel -> (forall id, In id ids -> ~ In (PGood ($"PROQUEST:" ++ id)) (map pkey_of recs)) ->
      documents fuel (flat_map (fun xm => doc_lines (fst xm) (snd xm)) (combine docs mores) ++ bib :: rest) names recs = Ok (recs ++ rs, false).
Proof.
  induction docs as [|x docs IH]; intros ids mores LI LM ND H.
  - exists []. split; [constructor|]. intros fuel recs L _. destruct fuel; [lia|]. cbn. rewrite app_nil_r. reflexivity.
  - destruct ids as [|id ids]; [discriminate|]. destruct mores as [|m mores]; [discriminate|]. inversion ND as [|? ? NI ND']; subst.
    destruct (IH ids mores) as (rs & F & D); [cbn in LI; lia|cbn in LM; lia|exact ND'|intros y i I1; apply H; right; exact I1|]. clear IH.
    destruct (H x id) as (O & VI & z & t & NZ & VT & GN); [left; reflexivity|].
    destruct (doc_one x (flat_map (fun xm => doc_lines (fst xm) (snd xm)) (combine docs mores) ++ bib :: rest) z t id names O NZ VT VI GN m) as (r & DD & DS). exists (r :: rs). split; [constructor; assumption|].
    intros fuel recs L NK. destruct fuel as [|fuel]; [cbn in L; lia|]. cbn [combine flat_map fst snd]. rewrite <- app_assoc, DS.
    assert (MK : pkey_of r = PGood ($"PROQUEST:" ++ id)) by (unfold pkey_of; destruct DD as (A & B & _); rewrite B, A; reflexivity).
    replace (padd r recs) with (recs ++ [r]).
    + rewrite D; [rewrite <- app_assoc; reflexivity|cbn in L; lia|]. intros i I1. rewrite map_app, in_app_iff. cbn [map In]. intros [C|[C|[]]]; [apply (NK i (or_intror I1) C)|]. rewrite MK in C. injection C as C. apply NI. rewrite C. exact I1.
    + unfold padd. replace (mem (pkey_of r) (map pkey_of recs)) with false; [reflexivity|]. symmetry. apply mem_not_In. rewrite MK. apply NK. left. reflexivity.
Qed.
Lemma dget_last {V} (z : Z) : forall (zts : list (Z * V)) names, dget z (fold_left (fun d zt => dset (fst zt) (snd zt) d) zts names) = match find (fun e => if eq_dec (fst e) z then true else false) (rev zts) with Some e => Some (snd e) | None => dget z names end.
Proof.
  intros zts. induction zts as [|e zts IH] using rev_ind; intros names; [reflexivity|]. rewrite fold_left_app. cbn [fold_left]. rewrite rev_app_distr. cbn [rev app find]. destruct (eq_dec (fst e) z) as [<-|N]; [apply dget_dset_same|]. rewrite dget_dset_other by congruence. apply IH.
Qed.
Lemma dget_nodup {V} (z : Z) (t : V) : forall zts names, NoDup (map fst zts) -> In (z, t) zts -> dget z (fold_left (fun d zt => dset (fst zt) (snd zt) d) zts names) = Some t.
Proof.
  induction zts as [|[z' t'] zts IH]; intros names ND I1; [destruct I1|]. cbn [map fst] in ND. inversion ND as [|? ? NI ND']; subst. cbn [fold_left fst snd]. destruct I1 as [E|I1]; [|apply IH; assumption]. injection E as -> ->.
  rewrite dget_last. destruct (find _ (rev zts)) as [e|] eqn:F; [|apply dget_dset_same]. exfalso. apply find_some in F as [I1 E]. apply in_rev in I1. destruct (eq_dec (fst e) z) as [<-|]; [|discriminate]. apply NI, in_map, I1.
Qed.
Lemma docs_length docs : forall mores : list str, length mores = length docs -> length docs <= length (flat_map (fun xm => doc_lines (fst xm) (snd xm)) (combine docs mores)).
Proof.
  induction docs as [|x docs IH]; intros mores L; [cbn; lia|]. destruct mores as [|m mores]; [discriminate|]. cbn [combine flat_map fst snd]. rewrite app_length. specialize (IH mores). unfold doc_lines at 1. cbn [length] in *. unfold str, char in *. lia.
Qed.
Lemma whole_file content head toc zts x y1 y2 y3 docs ids mores rest :
  lines (translate content) = head ++ flat_map toc_lines toc ++ [x; bib; y1; y2; y3] ++ flat_map (fun xm => doc_lines (fst xm) (snd xm)) (combine docs mores) ++ bib :: rest ->
  length head = 12 -> Forall2 toc_ok toc zts -> NoDup (map fst zts) -> length ids = length docs -> length mores = length docs -> NoDup ids ->
  (forall d id, In (d, id) (combine docs ids) -> doc_ok d /\ doc_value d $"ProQuest document ID" id /\ exists z t, doc_numbered d z /\ doc_value d $"Title" t /\ In (z, t) zts) ->
  exists rs, proquest_file content = Ok (rs, false) /\ Forall2 (fun di r => doc_data (fst di) r (snd di)) (combine docs ids) rs.
Proof.
  intros LN LH FT NZ LI LM ND H. destruct (docs_all rest (fold_left (fun d zt => dset (fst zt) (snd zt) d) zts []) docs ids mores LI LM ND) as (rs & F & D).
  { intros d id I1. destruct (H d id I1) as (A & B & z & t & C & E & I2). split; [exact A|]. split; [exact B|]. exists z, t. split; [exact C|]. split; [exact E|]. apply dget_nodup; assumption. }
  exists rs. split; [|exact F]. unfold proquest_file. rewrite LN. destruct (Nat.ltb_spec (length (head ++ flat_map toc_lines toc ++ [x; bib; y1; y2; y3] ++ flat_map (fun xm => doc_lines (fst xm) (snd xm)) (combine docs mores) ++ bib :: rest)) 12) as [LT|_]; [rewrite app_length, LH in LT; lia|].
  rewrite <- LH, skipn_app, skipn_all, Nat.sub_diag. cbn [skipn app]. rewrite (read_contents _ toc zts [] FT). cbn [app contents]. change (eqb bib bibliography) with true. cbv iota. rewrite D; [reflexivity| |intros i _ []].
  rewrite app_length. pose proof (docs_length docs mores LM). unfold str, char in *. lia.
Qed.
(** ** Every record returned has a title from the table of contents *)
Definition listed (L : list str) (t : str) : Prop := t = [] \/ exists n c, In (n ++ $". " ++ t ++ [c]) L.
Lemma contents_listed L : forall k ls names names' rest, length ls < k -> (forall l, In l ls -> In l L) -> (forall z t, dget z names = Some t -> listed L t) -> contents ls names = Some (names', rest) -> forall z t, dget z names' = Some t -> listed L t.
Proof.
  induction k as [|k IH]; intros ls names names' rest LK SL IN E; [lia|]. destruct ls as [|a [|l ls]]; [discriminate|discriminate|]. cbn [contents] in E. destruct (eqb l bibliography).
  - destruct ls as [|? [|? [|? ls]]]; try discriminate. injection E as <- <-. exact IN.
  - destruct (dot_split l) as [n t] eqn:DS. destruct (py_int n); [|discriminate]. eapply IH; [|intros x I1; apply SL; right; right; exact I1| |exact E]; [cbn in LK; lia|].
    intros z' t' G. destruct (@eqb_spec Z _ z z') as [<-|NZ]; [|rewrite dget_dset_other in G by congruence; apply (IN z' t' G)]. rewrite dget_dset_same in G. injection G as <-. unfold dot_split in DS. destruct (cut $". " l) as [[p q]|] eqn:C; injection DS as <- <-; [|left; reflexivity].
    apply cut_sound in C. destruct q as [|c0 q0] eqn:EQ; [left; reflexivity|]. right. exists p, (last (c0 :: q0) 0%N). unfold init_. rewrite <- (@app_removelast_last _ (c0 :: q0) 0%N) by discriminate. apply SL. right. left. exact C.
Qed.
Lemma documents_listed L names : (forall z t, dget z names = Some t -> listed L t) -> forall fuel ls recs recs' e, (forall r, In r recs -> exists t, title_of r = Some t /\ listed L t) -> documents fuel ls names recs = Ok (recs', e) -> forall r, In r recs' -> exists t, title_of r = Some t /\ listed L t.
Proof.
  intros HN. induction fuel as [|fuel IH]; intros ls recs recs' e HR E; [discriminate|]. cbn [documents] in E. destruct ls as [|l ls]; [injection E as <- <-; exact HR|]. destruct (eqb l bibliography); [injection E as <- <-; exact HR|]. destruct (starts_with $"Document " l); [|injection E as <- <-; exact HR].
  destruct (py_int (doc_number l)) as [n|]; [|injection E as <- <-; exact HR]. destruct (proquest_record ls) as [[r|x] rest]; [|destruct x; try discriminate; injection E as <- <-; exact HR].
  destruct (dget n names) as [t|] eqn:G; [|discriminate]. destruct (eqb (title_of r) (Some t)) eqn:ET; [|injection E as <- <-; exact HR]. apply eqb_eq in ET.
  assert (HA : forall r', In r' (padd r recs) -> exists t, title_of r' = Some t /\ listed L t).
  { unfold padd. destruct (mem _ _); [exact HR|]. intros r' I1. apply in_app_or in I1 as [I1|[<-|[]]]; [apply HR, I1|]. exists t. split; [exact ET|apply (HN n t G)]. }
  destruct rest as [|x rest]; [injection E as <- <-; exact HA|]. eapply IH; [exact HA|exact E].
Qed.
Lemma file_listed content recs e : proquest_file content = Ok (recs, e) -> forall r, In r recs -> exists t, title_of r = Some t /\ listed (lines (translate content)) t.
Proof.
  unfold proquest_file. destruct (length (lines (translate content)) <? 12); [intros [= <- <-] r []|]. destruct (contents _ _) as [[names rest]|] eqn:C; [|intros [= <- <-] r []]. apply documents_listed; [|intros r []].
  eapply contents_listed; [apply Nat.lt_succ_diag_r| | |exact C]; [|discriminate]. intros l I1. rewrite <- (firstn_skipn 12 (lines (translate content))). apply in_or_app. right. exact I1.
Qed.
