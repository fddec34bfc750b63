From Coq Require Import String Permutation.
From Verif Require Import Base PyStr Span JournalModel JournalSpec.
Set Implicit Arguments.

(** ** Splitting *)
Lemma starts_with_app p s : starts_with p (p ++ s) = true.
Proof. apply starts_with_spec. eauto. Qed.
Lemma skipn_app_exact {A} (p s : list A) : skipn (length p) (p ++ s) = s.
Proof. rewrite skipn_app, skipn_all, Nat.sub_diag. reflexivity. Qed.
Lemma cut_here (sep t : str) : cut sep (sep ++ t) = Some ([], t).
Proof. assert (E : cut sep (sep ++ t) = if starts_with sep (sep ++ t) then Some ([], skipn (length sep) (sep ++ t)) else match sep ++ t with [] => None | x :: s' => match cut sep s' with Some (a, b) => Some (x :: a, b) | None => None end end) by (destruct (sep ++ t); reflexivity).
  rewrite E, starts_with_app, skipn_app_exact. reflexivity.
Qed.
Lemma cut_skip (c : char) sep x t : ~ In c x -> cut (c :: sep) (x ++ (c :: sep) ++ t) = Some (x, t).
Proof.
  induction x as [|y x IH]; intros N; [exact (cut_here (c :: sep) t)|].
  cbn [app cut]. assert (starts_with (c :: sep) (y :: x ++ c :: sep ++ t) = false) as ->.
  { cbn [starts_with]. rewrite neq_eqb; [reflexivity|]. intros ->. apply N. left; reflexivity. }
  change (x ++ c :: sep ++ t) with (x ++ (c :: sep) ++ t). rewrite IH; [reflexivity|]. intros I; apply N; right; exact I.
Qed.
(** the second character of the separator does not occur before it *)
Lemma cut_skip2 (c d : char) sep x t : c <> d -> ~ In d x -> cut (c :: d :: sep) (x ++ (c :: d :: sep) ++ t) = Some (x, t).
Proof.
  intros CD. induction x as [|y x IH]; intros N; [exact (cut_here (c :: d :: sep) t)|].
  cbn [app cut]. assert (starts_with (c :: d :: sep) (y :: x ++ c :: d :: sep ++ t) = false) as ->.
  { cbn [starts_with]. destruct x as [|z x]; cbn [app starts_with].
    - rewrite (@neq_eqb _ _ d c); [apply andb_false_r|congruence].
    - rewrite (@neq_eqb _ _ d z); [apply andb_false_r|]. intros ->. apply N. right; left; reflexivity. }
  change (x ++ c :: d :: sep ++ t) with (x ++ (c :: d :: sep) ++ t). rewrite IH; [reflexivity|]. intros I; apply N; right; exact I.
Qed.
Lemma cut_none sep s : contains sep s = false -> cut sep s = None.
Proof.
  induction s as [|x s IH]; cbn [contains cut]; intros E.
  - destruct (starts_with sep []); [discriminate|reflexivity].
  - destruct (starts_with sep (x :: s)); [discriminate|]. cbn in E. rewrite IH by exact E. reflexivity.
Qed.
Lemma contains_no (c : char) sep s : ~ In c s -> contains (c :: sep) s = false.
Proof.
  intros N. destruct (contains (c :: sep) s) eqn:E; [|reflexivity]. apply contains_spec in E as [a [b ->]]. exfalso. apply N.
  apply in_or_app. right. left. reflexivity.
Qed.
Lemma second_name n : plain n -> second sep_name ($"</B><DT>" ++ n) = Ok n.
Proof.
  intros [P _]. unfold second, sep_name. rewrite cut_here. rewrite cut_none; [reflexivity|]. apply contains_no. exact P.
Qed.
Lemma second_abbr a : plain a -> second sep_abbr (9%N :: $"<B><DD>" ++ 9%N :: a) = Ok a.
Proof.
  intros [P _]. unfold second. change (9%N :: $"<B><DD>" ++ 9%N :: a)%list with ([9%N] ++ sep_abbr ++ a)%list.
  change sep_abbr with (60%N :: ($"B><DD>" ++ [9%N]))%list. rewrite (@cut_skip 60%N _ [9%N] a).
  - rewrite cut_none; [reflexivity|]. apply contains_no. exact P.
  - intros [E|[]]; discriminate.
Qed.
Lemma second_first x n : ~ In 62%N x -> plain n -> second sep_first (x ++ [quote] ++ $"></A><DT>" ++ n) = Ok n.
Proof.
  intros X [P _]. unfold second. change (x ++ [quote] ++ $"></A><DT>" ++ n)%list with (x ++ sep_first ++ n)%list.
  change sep_first with (34%N :: 62%N :: $"</A><DT>"). rewrite (@cut_skip2 34%N 62%N _ x n); [|discriminate|exact X].
  rewrite cut_none; [reflexivity|]. destruct (contains (34%N :: 62%N :: $"</A><DT>") n) eqn:E; [|reflexivity].
  apply contains_spec in E as [a [b ->]]. exfalso. apply P. apply in_or_app. right. right. right. left. reflexivity.
Qed.
Lemma second_fails sep s : contains sep s = false -> second sep s = Raise IndexError.
Proof. intros E. unfold second. rewrite cut_none by exact E. reflexivity. Qed.
Lemma split_char_line (c : char) (l s : str) : ~ In c l -> split_char c (l ++ c :: s) = l :: split_char c s.
Proof.
  induction l as [|x l IH]; intros N; cbn [app split_char].
  - rewrite eqb_refl. reflexivity.
  - rewrite neq_eqb by (intros ->; apply N; left; reflexivity). rewrite IH; [reflexivity|]. intros I; apply N; right; exact I.
Qed.
Lemma split_char_last (c : char) (l : str) : ~ In c l -> split_char c l = [l].
Proof.
  induction l as [|x l IH]; intros N; cbn [split_char]; [reflexivity|].
  rewrite neq_eqb by (intros ->; apply N; left; reflexivity). rewrite IH; [reflexivity|]. intros I; apply N; right; exact I.
Qed.
Lemma split_join (c : char) (ls : list str) : ls <> [] -> (forall l, In l ls -> ~ In c l) -> split_char c (join [c] ls) = ls.
Proof.
  induction ls as [|l ls IH]; intros NE N; [congruence|]. destruct ls as [|l' ls].
  - cbn [join]. apply split_char_last, N. left; reflexivity.
  - change (join [c] (l :: l' :: ls)) with (l ++ [c] ++ join [c] (l' :: ls))%list. cbn [app].
    rewrite split_char_line by (apply N; left; reflexivity). f_equal. apply IH; [discriminate|]. intros k I. apply N. right; exact I.
Qed.
Lemma split_first (s : str) : exists r, split_char 124%N s = first_name s :: r.
Proof.
  unfold first_name. induction s as [|x s [r IH]]; [exists []; reflexivity|]. cbn [split_char tw].
  destruct (N.eqb_spec x 124) as [->|N]; cbn [negb].
  - rewrite eqb_refl. eauto.
  - rewrite (neq_eqb N). rewrite IH. eauto.
Qed.

(** ** Pages *)
Lemma dget_add_name a b n d : dget a (add_name b n d) = if eqb a b then Some (match dget b d with Some l => l ++ [n] | None => [n] end) else dget a d.
Proof.
  unfold add_name. destruct (dget b d) eqn:E; rewrite dget_dset; destruct (eqb_spec a b) as [->|]; reflexivity.
Qed.
Lemma NoDup_add_name b n d : NoDup (dkeys d) -> NoDup (dkeys (add_name b n d)).
Proof. intros N. unfold add_name. destruct (dget b d); apply NoDup_dset; exact N. Qed.
Definition app_names (old : option (list str)) (new : list str) : option (list str) :=
  match old, new with None, [] => None | None, l => Some l | Some o, l => Some (o ++ l) end.
Lemma page_loop_names rs foot : (forall r, In r rs -> plain (fst r) /\ plain (snd r)) -> match foot with l :: _ => contains $"</B><DT>" l = false | [] => True end ->
  forall n a d, NoDup (dkeys d) -> let e := page_loop (flat_map name_lines rs ++ foot) n a d in
  NoDup (dkeys e) /\ e <> [] /\ forall b, dget b e = app_names (dget b d) (names_for b ((n, a) :: rs)).
Proof.
  intros P F. induction rs as [|[n' a'] rs IH]; intros n a d ND e.
  - assert (E : e = add_name a n d).
    { unfold e. cbn [flat_map app]. destruct foot as [|l1 [|l2 foot]]; [reflexivity|reflexivity|]. cbn [page_loop].
      unfold sep_name. rewrite second_fails by exact F. reflexivity. }
    rewrite E. split; [apply NoDup_add_name, ND|]. split.
    + intros Z. pose proof (dget_add_name a a n d) as G. rewrite Z, eqb_refl in G. discriminate.
    + intros b. rewrite dget_add_name. unfold names_for. cbn [filter map snd fst].
      destruct (eqb_spec b a) as [->|N].
      * rewrite eqb_refl. destruct (dget a d); reflexivity.
      * rewrite (@neq_eqb _ _ a b) by congruence. cbn. destruct (dget b d); cbn; rewrite ?app_nil_r; reflexivity.
  - destruct (P (n', a') (or_introl eq_refl)) as [Pn Pa]. cbn [fst snd] in Pn, Pa.
    assert (E : e = page_loop (flat_map name_lines rs ++ foot) n' a' (add_name a n d)).
    { unfold e. cbn [flat_map name_lines app fst snd page_loop]. rewrite (second_name Pn), (second_abbr Pa). reflexivity. }
    destruct (IH (fun r I => P r (or_intror I)) n' a' (add_name a n d) (@NoDup_add_name a n d ND)) as [ND' [NE G]].
    rewrite E. split; [exact ND'|]. split; [exact NE|]. intros b. rewrite G, dget_add_name.
    unfold names_for. cbn [filter snd]. destruct (eqb_spec b a) as [->|N].
    + rewrite eqb_refl. cbn [map fst]. destruct (dget a d) as [l|]; cbn [app_names]; rewrite <- ?app_assoc; reflexivity.
    + rewrite (@neq_eqb _ _ a b) by congruence. reflexivity.
Qed.
Lemma skip_head_text hd ls : (forall l, In l hd -> l <> $"<DL>") -> skip_head (hd ++ $"<DL>" :: ls) = Ok ls.
Proof.
  induction hd as [|l hd IH]; intros N; cbn [app skip_head].
  - rewrite eqb_refl. reflexivity.
  - rewrite neq_eqb by (apply N; left; reflexivity). apply IH. intros k I. apply N. right; exact I.
Qed.
Lemma page_dict_ok p : page_ok p -> exists d, page_dict (page_text p) = Ok d /\ NoDup (dkeys d) /\ d <> [] /\
  forall a, dget a d = match names_for a (rows p) with [] => None | l => Some l end.
Proof.
  intros [NR [H [A1 [A2 [R [F1 F2]]]]]]. unfold page_dict, page_text.
  assert (NLs : forall l, In l (page_lines p) -> ~ In nl l).
  { unfold page_lines. destruct (rows p) as [|[n a] rs]; [intros l []|]. intros l I.
    assert (PT : forall t, plain t -> ~ In nl t) by (intros t [_ X]; exact X).
    destruct (R (n, a) (or_introl eq_refl)) as [Pn Pa]. cbn [fst snd] in Pn, Pa.
    apply in_app_or in I as [I|[<-|[<-|[<-|I]]]].
    - apply (H l I).
    - intros [E|[E|[E|[E|[]]]]]; discriminate.
    - intros I. apply in_app_or in I as [I|I]; [exact (A2 I)|]. cbn [app] in I.
      destruct I as [I|I]; [discriminate|]. apply in_app_or in I as [I|I]; [|exact (PT n Pn I)].
      revert I. apply (@mem_not_In char _). reflexivity.
    - intros [I|I]; [discriminate|]. apply in_app_or in I as [I|[I|I]]; [|discriminate|exact (PT a Pa I)].
      revert I. apply (@mem_not_In char _). reflexivity.
    - apply in_app_or in I as [I|I]; [|apply F1, I]. apply in_flat_map in I as [[n' a'] [I1 I2]].
      destruct (R (n', a') (or_intror I1)) as [Pn' Pa']. cbn [name_lines fst snd In] in *.
      destruct I2 as [<-|[<-|[]]].
      + intros I. apply in_app_or in I as [I|I]; [|exact (PT n' Pn' I)]. revert I. apply (@mem_not_In char _). reflexivity.
      + intros [I|I]; [discriminate|]. apply in_app_or in I as [I|[I|I]]; [|discriminate|exact (PT a' Pa' I)].
        revert I. apply (@mem_not_In char _). reflexivity. }
  assert (NEl : page_lines p <> []) by (unfold page_lines; destruct (rows p) as [|[n a] rs]; [congruence|intros E; apply app_eq_nil in E as [_ E]; discriminate]).
  assert (SJ : split_char nl (join [10%N] (page_lines p)) = page_lines p) by exact (@split_join 10%N (page_lines p) NEl NLs).
  rewrite SJ. clear SJ. unfold page_lines in *. destruct (rows p) as [|[n a] rs]; [congruence|].
  rewrite skip_head_text by (intros l I; apply (H l I)). cbn [bind].
  destruct (R (n, a) (or_introl eq_refl)) as [Pn Pa]. cbn [fst snd] in Pn, Pa.
  match goal with |- context [second sep_first ?x] => replace (second sep_first x) with (@Ok str n) by (symmetry; exact (@second_first (anchor p) n A1 Pn)) end. cbn [bind].
  match goal with |- context [second sep_abbr ?x] => replace (second sep_abbr x) with (@Ok str a) by (symmetry; exact (@second_abbr a Pa)) end. cbn [bind].
  destruct (@page_loop_names rs (foot p) (fun r I => R r (or_intror I)) F2 n a [] (NoDup_nil _)) as [ND [NE G]].
  eexists. split; [reflexivity|]. split; [exact ND|]. split; [exact NE|]. intros b. rewrite G. unfold app_names. cbn [dget]. destruct (names_for b ((n, a) :: rs)); reflexivity.
Qed.
Lemma pages_dict_ok ps : Forall page_ok ps -> forall d, NoDup (dkeys d) -> exists e, pages_dict (map (fun p => Ok (page_text p)) ps) d = Ok e /\ NoDup (dkeys e) /\
  forall a, dget a e = match last_listing a ps with [] => dget a d | l => Some l end.
Proof.
  induction 1 as [|p ps P F IH]; intros d ND; cbn [map pages_dict].
  - exists d. auto.
  - destruct (@page_dict_ok p P) as [e [E [NDe [NE G]]]]. cbn [bind]. rewrite E. cbn [bind].
    destruct e as [|x e']; [congruence|]. cbn [length Nat.eqb]. set (e := x :: e') in *.
    destruct (IH (dupdate d e) (@NoDup_dupdate _ _ _ d e ND)) as [f [EF [NDf GF]]]. exists f. split; [exact EF|]. split; [exact NDf|].
    intros a. rewrite GF. cbn [last_listing]. destruct (last_listing a ps); [|reflexivity].
    rewrite (@dget_dupdate _ _ _ a d e NDe), G. destruct (names_for a (rows p)); reflexivity.
Qed.

(** ** Updating *)
Lemma names_loop_same j9 k v : dget k j9 = Some v -> forall w, incl w v -> names_loop j9 k w = j9.
Proof.
  intros E. induction w as [|n w IH]; intros I; cbn [names_loop]; [reflexivity|]. rewrite E.
  assert (mem n v = true) as -> by (apply mem_In, I; left; reflexivity). apply IH. intros x Ix. apply I. right; exact Ix.
Qed.
Lemma update_loop_ok items j9 : (forall k v, In (k, v) items -> dget k j9 = Some v) -> NoDup (map fst items) ->
  forall db a, dget a (update_loop items j9 db) = match dget a db with Some t => Some t | None => option_map (join [bar]) (dget a items) end.
Proof.
  intros H ND. induction items as [|[k v] items IH]; intros db a; cbn [update_loop dget].
  - destruct (dget a db); reflexivity.
  - inversion ND as [|? ? NI ND']; subst. assert (IH' := IH (fun k v I => H k v (or_intror I)) ND').
    destruct (dhas k db) eqn:E.
    + rewrite (@names_loop_same j9 k v (H k v (or_introl eq_refl)) v (incl_refl v)). rewrite IH'.
      destruct (eqb_spec a k) as [->|N]; [|reflexivity]. rewrite dhas_dget in E. destruct (dget k db); [reflexivity|discriminate].
    + rewrite IH', dget_dset. destruct (eqb_spec a k) as [->|N]; [|reflexivity].
      rewrite dhas_dget in E. destruct (dget k db); [discriminate|reflexivity].
Qed.
Theorem update_ok ps db : Forall page_ok ps -> exists db', updatej9DB (map (fun p => Ok (page_text p)) ps) db = Ok db' /\
  forall a, dget a db' = match dget a db with
    | Some t => Some t
    | None => match last_listing a ps with [] => None | l => Some (join [124%N] l) end
    end.
Proof.
  intros F. destruct (@pages_dict_ok ps F [] (NoDup_nil _)) as [e [E [ND G]]]. unfold updatej9DB. rewrite E. cbn [bind].
  eexists. split; [reflexivity|]. intros a. rewrite update_loop_ok; [|intros k v I; apply In_dget; assumption|exact ND].
  rewrite G. destruct (dget a db); [reflexivity|]. destruct (last_listing a ps); reflexivity.
Qed.

(** ** Reading *)
Lemma read_into_get db : NoDup (dkeys db) -> forall d k, dget k (read_into db d) = match dget k db with Some t => Some (Names (split_char bar t)) | None => dget k d end.
Proof.
  induction db as [|[a t] db IH]; intros ND d k; [reflexivity|]. inversion ND as [|? ? NI ND']; subst.
  unfold read_into in *. cbn [fold_left fst snd dget]. rewrite IH by exact ND'. rewrite dget_dset.
  destruct (eqb_spec k a) as [->|N]; [|reflexivity]. destruct (dget a db) eqn:E; [|reflexivity]. exfalso. apply NI. eapply dget_Some_key; eassumption.
Qed.
Definition manual_ok (m : option (dict str str)) : Prop := match m with Some d => NoDup (dkeys d) | None => True end.
Lemma load_fresh pages w m : w <> [] -> NoDup (dkeys w) -> manual_ok m -> exists d,
  load pages {| wos_db := w; manual_db := m; abbrev := None |} = ({| wos_db := w; manual_db := m; abbrev := Some d |}, Ok d) /\
  forall k, dget k d = option_map (fun t => Names (split_char bar t)) (said w m k).
Proof.
  intros NE NDw NDm. unfold load. cbn [abbrev wos_db manual_db]. unfold getj9dict. destruct w as [|x w]; [congruence|]. set (ww := x :: w) in *.
  eexists. split; [reflexivity|]. intros k. destruct m as [m|].
  - cbn in NDm. rewrite read_into_get by exact NDm. rewrite read_into_get by exact NDw. unfold said. destruct (dget k m); [reflexivity|].
    destruct (dget k ww); reflexivity.
  - cbn [read_into fold_left]. rewrite read_into_get by exact NDw. unfold said. destruct (dget k ww); reflexivity.
Qed.
Lemma is_journal_in_said w m d j : (forall k, dget k d = option_map (fun t => Names (split_char bar t)) (said w m k)) -> is_journal_in d j = Ok (journal_name w m j).
Proof.
  intros G. unfold is_journal_in, journal_name. destruct j as [[|x j]|]; try reflexivity. rewrite G. destruct (said w m (x :: j)) as [t|]; [|reflexivity].
  cbn [option_map]. destruct (split_first t) as [r E]. unfold bar. rewrite E. cbn [first_of bind]. destruct (first_name t); reflexivity.
Qed.
Lemma filter_loop_ok {C} pages (f : C -> option str) invert d st : abbrev st = Some d ->
  forall l (h : C -> bool), (forall c, In c l -> exists r, is_journal_in d (f c) = Ok r /\ h c = is_some r) -> forall kept,
  filter_loop pages f invert st l kept = (st, Ok (kept ++ filter (fun c => xorb invert (h c)) l)).
Proof.
  intros A. induction l as [|c l IH]; intros h H kept; cbn [filter_loop filter]; [rewrite app_nil_r; reflexivity|].
  destruct (H c (or_introl eq_refl)) as [r [E Hc]]. unfold is_journal, load. rewrite A, E, Hc.
  destruct r as [n|]; cbn [is_some]; destruct invert; cbn [xorb negb]; rewrite (IH h) by (intros x I; apply H; right; exact I); rewrite <- ?app_assoc; reflexivity.
Qed.
Lemma filter_loop_load {C} pages (f : C -> option str) invert st st' d : load pages st = (st', Ok d) -> forall l kept, l <> [] ->
  filter_loop pages f invert st l kept = filter_loop pages f invert st' l kept.
Proof.
  intros L [|c l] kept NE; [congruence|]. cbn [filter_loop]. unfold is_journal. rewrite L.
  assert (L' : load pages st' = (st', Ok d)).
  { revert L. unfold load. destruct (abbrev st) eqn:A; [intros E; injection E as <- <-; rewrite A; reflexivity|].
    destruct (getj9dict _ _ _) as [w [d'|e]]; intros E; [|discriminate]. injection E as <- <-. reflexivity. }
  rewrite L'. reflexivity.
Qed.
Lemma partition_permutation {A} (h : A -> bool) l : Permutation (filter h l ++ filter (fun x => negb (h x)) l) l.
Proof.
  induction l as [|x l IH]; cbn; [constructor|]. destruct (h x); cbn; [constructor; exact IH|].
  etransitivity; [symmetry; apply Permutation_middle|]. constructor. exact IH.
Qed.
