(** C69: bibtex entries and files; C70: the probable copyrights. *)
From Coq Require Import List ZArith Lia Bool Arith Permutation.
From Coq Require Import String.
From Verif Require Import Base PyStr JournalProofs TextModel BibModel BibProofs.
Import ListNotations.
Local Open Scope list_scope.

Definition one_line (s : str) : Prop := ~ In nl s.
(** the authors as they are given in an entry *)
Definition authors_text (r : brec) : str := join $" and " match b_authors r with Some l => l | None => [$"None"] end.
Lemma nl_lit s a b : one_line s -> one_line a -> one_line b -> one_line (a ++ s ++ b).
Proof. unfold one_line. intros S1 A B. rewrite !in_app_iff. tauto. Qed.
Ltac lit := let X := fresh in intro X; vm_compute in X; repeat destruct X as [X|X]; try discriminate; destruct X.
(** The entry of a good record: a line with the ID, one with the authors, one for each field in order, with the tag and the text that C52
    speaks of, and the closing brace, if none of these texts has more than one line. *)
Theorem C69_entry : forall title_case max (restricted nice : bool) r, b_bad r = false -> max <> 0 ->
  let items := if restricted then b_common r else b_items r in
  exists s fs, bib_string title_case max false restricted nice r = Ok s /\ Forall2 (fun tv f => bib_format (snd tv) max = Ok f) items fs /\
    (one_line (bib_id title_case nice false r) -> one_line (authors_text r) -> (forall tv, In tv items -> one_line (fst tv)) -> (forall f, In f fs -> one_line f) ->
     split_char nl s = [$"@misc{ " ++ bib_id title_case nice false r ++ $","; $"    author = {{" ++ authors_text r ++ $"}},"]
       ++ map (fun p => $"    " ++ fst (fst p) ++ $" = " ++ snd p ++ $",") (combine items fs) ++ [$"}"]).
Proof.
  intros title_case max restricted nice r B M items. destruct (bib_lines_ok max M items) as (fs & F & E).
  exists ($"@misc{ " ++ bib_id title_case nice false r ++ [44%N; nl] ++ $"    " ++ join (nl :: $"    ") (author_line r :: map (fun p => fst (fst p) ++ $" = " ++ snd p ++ $",") (combine items fs)) ++ [nl; 125%N]), fs.
  split; [unfold bib_string; rewrite B; cbv zeta; fold items; rewrite E; reflexivity|]. split; [exact F|]. intros OI OA OT OF.
  rewrite app_assoc. rewrite entry_lines.
  - cbn [app map]. rewrite <- !app_assoc. f_equal. f_equal. rewrite map_map. reflexivity.
  - unfold one_line in *. rewrite in_app_iff. intros [X|X]; [revert X; lit|exact (OI X)].
  - discriminate.
  - intros l [<-|I].
    + unfold author_line. fold (authors_text r). apply (nl_lit _ _ _ OA); lit.
    + apply in_map_iff in I. destruct I as ([tv f] & <- & I). cbn [fst snd]. rewrite !in_app_iff. intros [X|[X|[X|X]]]; [exact (OT tv (in_combine_l _ _ _ _ I) X)|revert X; lit|exact (OF f (in_combine_r _ _ _ _ I) X)|revert X; lit].
  - lit.
Qed.
(** With WOSMode the lines of a field are those of its text, one for each element of a list, between double braces. *)
Definition value_lines (v : bval) : list str := match v with BOne s => [s] | BList [] => [[]] | BList (x :: l) => x :: map (fun s => $"   " ++ s) l end.
Fixpoint wrap (a : str) (ls : list str) (b : str) : list str :=
  match ls with [] => [a ++ b] | [x] => [a ++ x ++ b] | x :: ls' => (a ++ x) :: wrap [] ls' b end.
Lemma wrap_ne a ls b : wrap a ls b <> [].
Proof. destruct ls as [|x [|y ls]]; discriminate. Qed.
Lemma wrap_join b : forall ls a, join [nl] (wrap a ls b) = a ++ join [nl] ls ++ b.
Proof.
  induction ls as [|x [|y ls] IH]; intros a; [reflexivity|reflexivity|]. change (wrap a (x :: y :: ls) b) with ((a ++ x) :: wrap [] (y :: ls) b).
  assert (NE : wrap [] (y :: ls) b <> []) by (destruct ls; discriminate). transitivity ((a ++ x) ++ [nl] ++ join [nl] (wrap [] (y :: ls) b)); [destruct (wrap [] (y :: ls) b); [congruence|reflexivity]|]. rewrite IH. cbn [app]. change (join [nl] (x :: y :: ls)) with (x ++ [nl] ++ join [nl] (y :: ls)). rewrite <- !app_assoc. reflexivity.
Qed.
Lemma wrap_in b : one_line b -> forall ls a, one_line a -> (forall l, In l ls -> one_line l) -> forall l, In l (wrap a ls b) -> one_line l.
Proof.
  unfold one_line. intros OB. induction ls as [|x [|y ls] IH]; intros a OA OL l I.
  - destruct I as [<-|[]]. rewrite in_app_iff. tauto.
  - destruct I as [<-|[]]. rewrite !in_app_iff. specialize (OL x (or_introl eq_refl)). tauto.
  - change (wrap a (x :: y :: ls) b) with ((a ++ x) :: wrap [] (y :: ls) b) in I. destruct I as [<-|I]; [rewrite in_app_iff; specialize (OL x (or_introl eq_refl)); tauto|]. apply (IH [] ltac:(intros []) ltac:(intros z J; apply OL; right; exact J) l I).
Qed.
Lemma join_app (a b : list str) : a <> [] -> b <> [] -> join [nl] (a ++ b) = join [nl] a ++ [nl] ++ join [nl] b.
Proof.
  intros NA NB. induction a as [|x [|y a] IH]; [congruence|destruct b; [congruence|reflexivity]|]. change ((x :: y :: a) ++ b) with (x :: (y :: a) ++ b). change (join [nl] (x :: (y :: a) ++ b)) with (x ++ [nl] ++ join [nl] ((y :: a) ++ b)). rewrite IH by discriminate. change (join [nl] (x :: y :: a)) with (x ++ [nl] ++ join [nl] (y :: a)). rewrite <- !app_assoc. reflexivity.
Qed.
Lemma join_around (a b : str) (c : list str) (d : str) : join [nl] (a :: b :: c ++ [d]) = a ++ [nl] ++ join [nl] (b :: c) ++ [nl] ++ d.
Proof. change (join [nl] (a :: b :: c ++ [d])) with (a ++ [nl] ++ join [nl] ((b :: c) ++ [d])). rewrite join_app by discriminate. reflexivity. Qed.
Lemma join_value (l : list str) : match l with [] => [] | _ => join (nl :: $"   ") l end = join [nl] (value_lines (BList l)).
Proof.
  destruct l as [|x l]; [reflexivity|]. cbn [value_lines]. revert x. induction l as [|y l IH]; intros x; [reflexivity|].
  change (join (nl :: $"   ") (x :: y :: l)) with (x ++ (nl :: $"   ") ++ join (nl :: $"   ") (y :: l)). rewrite IH. cbn [map]. destruct l as [|z l]; reflexivity.
Qed.
Theorem C69_wos_entry : forall title_case max (restricted nice : bool) r, b_bad r = false ->
  let items := if restricted then b_common r else b_items r in
  exists s, bib_string title_case max true restricted nice r = Ok s /\
    (one_line (bib_id title_case nice true r) -> one_line (authors_text r) -> (forall tv, In tv items -> one_line (fst tv) /\ forall l, In l (value_lines (snd tv)) -> one_line l) ->
     split_char nl s = [$"@misc{ " ++ bib_id title_case nice true r ++ $","; $"author = {{" ++ authors_text r ++ $"}},"]
       ++ concat (map (fun tv => wrap (fst tv ++ $" = {{") (value_lines (snd tv)) $"}},") items) ++ [$"}"]).
Proof.
  intros title_case max restricted nice r B items. unfold bib_string. rewrite B. cbv zeta. fold items. eexists. split; [reflexivity|]. intros OI OA OL.
  match goal with |- split_char nl ?s = ?ls => replace s with (join [nl] ls) end.
  - apply (@split_join nl); [discriminate|]. intros l I. cbn [app] in I. destruct I as [<-|[<-|I]].
    + unfold one_line in OI. rewrite !in_app_iff. intros [X|[X|X]]; [revert X; lit|exact (OI X)|revert X; lit].
    + apply (nl_lit _ _ _ OA); lit.
    + apply in_app_or in I. destruct I as [I|[<-|[]]]; [|lit]. apply in_concat in I. destruct I as (ls & I & J). apply in_map_iff in I. destruct I as (tv & <- & I). destruct (OL tv I) as [OT OV].
      apply (wrap_in $"}}," ltac:(lit) _ (fst tv ++ $" = {{")) in J; [exact J| |exact OV]. unfold one_line in *. rewrite in_app_iff. intros [X|X]; [exact (OT X)|revert X; lit].
  - assert (W : forall its, its <> [] -> join [nl] (map wos_line its) = join [nl] (concat (map (fun tv => wrap (fst tv ++ $" = {{") (value_lines (snd tv)) $"}},") its))).
    { assert (NW : forall a ls b, wrap a ls b <> []) by (intros a [|x [|y ls]] b; discriminate).
      assert (W1 : forall tv, wos_line tv = join [nl] (wrap (fst tv ++ $" = {{") (value_lines (snd tv)) $"}},")).
      { intros [t v]. rewrite wrap_join. unfold wos_line. cbn [fst snd]. rewrite <- app_assoc. do 3 f_equal. destruct v as [l|s]; [|reflexivity]. rewrite <- join_value. destruct l; reflexivity. }
      induction its as [|tv [|tv' its] IH]; intros NE; [congruence|cbn [map concat join]; rewrite app_nil_r; apply W1|].
      change (map wos_line (tv :: tv' :: its)) with ([wos_line tv] ++ map wos_line (tv' :: its)). rewrite join_app by discriminate. rewrite IH by discriminate.
      rewrite map_cons with (x := tv). rewrite concat_cons. rewrite (join_app (wrap (fst tv ++ $" = {{") (value_lines (snd tv)) $"}},")); [|apply NW|cbn [map concat]; intros Q; apply app_eq_nil in Q; destruct Q as [Q _]; revert Q; apply NW].
      rewrite <- W1. reflexivity. }
    cbn [app]. rewrite join_around.
    assert (V : forall x its, join [nl] (x :: map wos_line its) = join [nl] (x :: concat (map (fun tv => wrap (fst tv ++ $" = {{") (value_lines (snd tv)) $"}},") its))).
    { intros x [|tv its]; [reflexivity|]. change (x :: map wos_line (tv :: its)) with ([x] ++ map wos_line (tv :: its)). match goal with |- _ = join [nl] (x :: ?m) => change (x :: m) with ([x] ++ m) end. rewrite (join_app [x] (map wos_line (tv :: its))) by discriminate. rewrite join_app; [rewrite W by discriminate; reflexivity|discriminate|]. cbn [map concat]. intros Q. apply app_eq_nil in Q. destruct Q as [Q _]. exact (wrap_ne _ _ _ Q). }
    change ($"author = {{" ++ authors_text r ++ $"}},") with (author_line r). rewrite V. rewrite <- !app_assoc. reflexivity.
Qed.
(** The ID of an entry is the record's own, and then different records have different IDs, ... *)
Theorem C69_id : forall title_case r, bib_id title_case false false r = b_id r.
Proof. reflexivity. Qed.
Theorem C69_wos_id : forall title_case r r', firstn 4 (b_id r) = firstn 4 (b_id r') -> bib_id title_case false true r = bib_id title_case false true r' -> b_id r = b_id r'.
Proof. intros title_case r r' F E. unfold bib_id in E. apply app_inv_head in E. rewrite <- (firstn_skipn 4 (b_id r)), <- (firstn_skipn 4 (b_id r')), F, E. reflexivity. Qed.
(** ... or it is made of the first author, the year, the month and words of the title, the longest ones first, as many as are needed for 35
    characters, and ends with the own ID of the record if it is shorter than 30. *)
Definition dash_text (o : option str) : str := match o with Some s => $"-" ++ s | None => [] end.
(** without spaces, commas and full stops *)
Definition bare (s : str) : str := filter (fun c => if in_dec N.eq_dec c $" ,." then false else true) s.
Lemma plain_bare title_case s : plain_name title_case s = bare (title_case s).
Proof.
  unfold plain_name, bare. apply filter_ext. intros c. destruct (in_dec N.eq_dec c $" ,.") as [I|I].
  - cbn in I. repeat destruct I as [<-|I]; try reflexivity. destruct I.
  - rewrite !neq_eqb; [reflexivity|intros ->; apply I; cbn; auto..].
Qed.
Theorem C69_nice_partial : forall title_case r, exists used rest id,
  let start := match b_authors r with Some (a :: _) => bare (title_case a) | _ => [] end ++ dash_text (b_year r) ++ dash_text (b_month r) in
  let with_words ws := start ++ concat (map (fun w => $"-" ++ title_case w) ws) in
  Permutation (used ++ rest) match b_title r with Some t => split_char sp t | None => [] end /\
  (forall v w, In v used -> In w rest -> length w <= length v) /\
  id = with_words used /\ (rest <> [] -> 35 <= length id) /\ (forall a b, used = a ++ b -> a <> [] -> b <> [] -> length (with_words a) < 35) /\
  bib_id title_case true false r = (if length id <? 30 then id ++ b_id r else id).
Proof.
  intros title_case r. replace (match b_authors r with Some (a :: _) => bare (title_case a) | _ => [] end) with (match b_authors r with Some (a :: _) => plain_name title_case a | _ => [] end) by (destruct (b_authors r) as [[|a l]|]; [reflexivity|apply plain_bare|reflexivity]).
  unfold bib_id, nice_id.
  assert (ST : match b_month r with Some m => match b_year r with Some y => match b_authors r with Some (a :: _) => plain_name title_case a | _ => [] end ++ $"-" ++ y | None => match b_authors r with Some (a :: _) => plain_name title_case a | _ => [] end end ++ $"-" ++ m | None => match b_year r with Some y => match b_authors r with Some (a :: _) => plain_name title_case a | _ => [] end ++ $"-" ++ y | None => match b_authors r with Some (a :: _) => plain_name title_case a | _ => [] end end end
    = match b_authors r with Some (a :: _) => plain_name title_case a | _ => [] end ++ dash_text (b_year r) ++ dash_text (b_month r)).
  { unfold dash_text. destruct (b_month r), (b_year r); rewrite ?app_nil_r, <- ?app_assoc; reflexivity. }
  rewrite ST. set (start := match b_authors r with Some (a :: _) => plain_name title_case a | _ => [] end ++ dash_text (b_year r) ++ dash_text (b_month r)). destruct (b_title r) as [t|].
  - destruct (title_words_spec t) as [P SS]. destruct (title_words t) as [|w ws] eqn:TW.
    + exists [], [], start. split; [exact P|]. split; [intros v w []|]. split; [cbn; rewrite app_nil_r; reflexivity|]. split; [congruence|]. split; [intros a b E NA NB; symmetry in E; apply app_eq_nil in E; destruct E; congruence|reflexivity].
    + destruct (add_words_spec title_case ws (start ++ $"-" ++ title_case w)) as (used & rest & -> & E & F & G). exists (w :: used), rest, (start ++ concat (map (fun w => $"-" ++ title_case w) (w :: used))).
      assert (EQ : forall l, (start ++ $"-" ++ title_case w) ++ dashed title_case l = start ++ concat (map (fun w => $"-" ++ title_case w) (w :: l))) by (intros l; unfold dashed; cbn [map concat]; rewrite <- !app_assoc; reflexivity).
      split; [exact P|]. split; [change (w :: used ++ rest) with ((w :: used) ++ rest) in SS; apply (sorted_split _ _ SS)|]. split; [reflexivity|]. split; [intros NR; rewrite <- EQ; exact (F NR)|]. split.
      * intros a b Q NA NB. destruct a as [|x a]; [congruence|]. cbn in Q. injection Q as <- Q. rewrite <- EQ. exact (G a b Q NB).
      * rewrite E, EQ. reflexivity.
  - exists [], [], start. split; [constructor|]. split; [intros v w []|]. split; [cbn; rewrite app_nil_r; reflexivity|]. split; [congruence|]. split; [intros a b E NA NB; symmetry in E; apply app_eq_nil in E; destruct E; congruence|reflexivity].
Qed.
(** Then different records can have the same ID. *)
Definition ex (id : str) : brec := {| b_bad := false; b_id := id; b_authors := Some [$"Smith, J."]; b_year := Some $"1990"; b_month := None; b_title := Some $"A general theory of electrodynamics";
  b_items := [($"PT", BOne $"J"); ($"TI", BOne $"A general theory of electrodynamics")]; b_common := [($"title", BOne $"A general theory of electrodynamics")] |}.
Definition same (s : str) : str := s.
Theorem C69_nice_refuted : ~ forall r r', bib_id same true false r = bib_id same true false r' -> b_id r = b_id r'.
Proof. intros H. specialize (H (ex $"WOS:1") (ex $"WOS:2") ltac:(vm_compute; reflexivity)). vm_compute in H. discriminate. Qed.
(** Every entry is of the type misc, also those of journal articles. *)
Theorem C69_type : forall title_case max wos restricted nice r s, bib_string title_case max wos restricted nice r = Ok s -> exists t, s = $"@misc{" ++ t.
Proof.
  intros title_case max wos restricted nice r s E. unfold bib_string in E. destruct (b_bad r); [discriminate|]. destruct wos.
  - injection E as <-. eexists. reflexivity.
  - destruct (bib_lines max (if restricted then b_common r else b_items r)); [|discriminate]. cbn [bind] in E. injection E as <-. eexists. reflexivity.
Qed.
Theorem C69_type_refuted : ~ forall max r s, In ($"PT", BOne $"J") (b_items r) -> bib_string same max false false true r = Ok s -> exists t, s = $"@article{" ++ t.
Proof. intros H. destruct (H 100 (ex $"WOS:1") _ (or_introl eq_refl) eq_refl) as [t E]. vm_compute in E. discriminate. Qed.
(** A bad record has no entry. *)
Theorem C69_bad : forall title_case max wos restricted nice r, b_bad r = true -> bib_string title_case max wos restricted nice r = Raise BadRecord.
Proof. intros title_case max wos restricted nice r B. unfold bib_string. rewrite B. reflexivity. Qed.
(** The file of a collection without bad records: the entries in order after the header, each after two ends of lines. With a bad record
    the function raises, and what stands before it is in the file. *)
Theorem C69_file_partial : forall title_case max wos restricted nice rs, max <> 0 -> (forall r, In r rs -> b_bad r = false) ->
  exists es, Forall2 (fun r e => bib_string title_case max wos restricted nice r = Ok e) rs es /\
    write_bib title_case max wos restricted nice rs = (bib_head ++ concat (map (fun e => [nl; nl] ++ e) es), None) /\
    forall b more, b_bad b = true -> write_bib title_case max wos restricted nice (rs ++ b :: more) = (bib_head ++ concat (map (fun e => [nl; nl] ++ e) es) ++ [nl; nl], Some BadRecord).
Proof.
  intros title_case max wos restricted nice rs M B. destruct (write_entries_ok title_case max wos restricted nice M rs bib_head B) as (es & F & G). exists es. split; [exact F|]. unfold write_bib. split.
  - specialize (G []). rewrite app_nil_r in G. exact G.
  - intros b more BB. rewrite G. cbn [write_entries]. rewrite C69_bad by exact BB. rewrite <- app_assoc. reflexivity.
Qed.
Theorem C69_bad_refuted : ~ forall rs, snd (write_bib same 1000 false false true rs) = None.
Proof. intros H. specialize (H [{| b_bad := true; b_id := $"x"; b_authors := None; b_year := None; b_month := None; b_title := None; b_items := []; b_common := [] |}]). vm_compute in H. discriminate. Qed.
Example C69_ex : bib_string same 1000 false false true (ex $"WOS:1") = Ok (join [nl] [$"@misc{ SmithJ-1990-electrodynamics-general,"; $"    author = {{Smith, J.}},"; $"    PT = ""J"","; $"    TI = ""A general theory of electrodynamics"","; $"}"])
  /\ bib_string same 1000 true true false (ex $"WOS:1") = Ok (join [nl] [$"@misc{ ISI:1,"; $"author = {{Smith, J.}},"; $"title = {{A general theory of electrodynamics}},"; $"}"]).
Proof. vm_compute. auto. Qed.

(** ** C70 *)
(** findProbableCopyright lists each copyright text found in an abstract once, and nothing else. *)
Theorem C70_copyrights : forall num abstracts, NoDup (probable_copyrights num abstracts) /\
  forall c, In c (probable_copyrights num abstracts) <-> c <> [] /\ exists a, In a abstracts /\ snd (find_copyright num a) = c.
Proof. exact copyrights_spec. Qed.
Example C70_ex : probable_copyrights (fun c => ((48 <=? c) && (c <=? 57))%N) [$"We see. Copyright 2001 X"; $"nothing"; $"It is. Copyright 2001 X "; $"So. (c) 2002 Y"] = [$" Copyright 2001 X"; $" (c) 2002 Y"].
Proof. vm_compute. reflexivity. Qed.
Print Assumptions C69_entry.
Print Assumptions C69_wos_entry.
Print Assumptions C69_id.
Print Assumptions C69_wos_id.
Print Assumptions C69_nice_partial.
Print Assumptions C69_nice_refuted.
Print Assumptions C69_type.
Print Assumptions C69_type_refuted.
Print Assumptions C69_bad.
Print Assumptions C69_file_partial.
Print Assumptions C69_bad_refuted.
Print Assumptions C70_copyrights.
