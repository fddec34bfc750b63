(** * C28, C56: citations. *)
From Coq Require Import String.
From Verif Require Import Base PyStr Span Regex CitationModel CitationSpec CitationProofs CitationProofs2.
Set Implicit Arguments.

Definition without_dots (s : str) : str := filter (fun x => negb (x =? 46)%N) s.
(** C28: a citation can be made from every string, whatever [upper] and [title] do, and holds what the string says (see
    CitationSpec.v).  It is bad exactly if something unexpected is left over or one of author, year and journal is missing. *)
Theorem C28_parse (upper title : str -> str) (s : str) : exists c, wos_citation upper title s = Ok c /\
  let r := read (upper s) in
  c_author c = option_map (fun a => title (without_dots a)) (p_author r) /\
  c_year c = option_map number (p_year r) /\ c_journal c = p_journal r /\
  c_V c = p_volume r /\ c_P c = p_page r /\ (c_DOI c, c_misc c) = read_end (p_left r) /\ c_original c = s /\
  (c_bad c = true <-> c_misc c <> None \/ c_author c = None \/ c_year c = None \/ c_journal c = None).
Proof.
  destruct (citation_parts upper title s) as [c [E [A [Y [J [V [P [D [O [G B]]]]]]]]]]. exists c. split; [exact E|]. cbv zeta.
  repeat (split; [assumption|]). split.
  - intros H. apply B, H.
  - intros H. destruct (c_bad c); [reflexivity|]. destruct (G eq_refl) as [M [a [y [j [Ga [Gy [Gj _]]]]]]].
    destruct H as [H|[H|[H|H]]]; congruence.
Qed.
Print Assumptions C28_parse.
(** strings of the documented form give exactly their parts *)
Theorem C28_documented_form (upper title : str -> str) (s a : str) (year : Z) (j : str) (v p d : option str) :
  (exists x y t, a = x :: y :: t /\ is_09 x = false) -> ~ In 44%N a -> (-100000 < year < 100000)%Z -> j <> [] -> ~ In 44%N j ->
  (forall t, v = Some t -> t <> [] /\ ~ In 44%N t) -> (forall t, p = Some t -> t <> [] /\ ~ In 44%N t) -> (forall t, d = Some t -> t <> [] /\ ~ In 10%N t) ->
  upper s = (a ++ $", " ++ dec_Z year ++ $", " ++ j ++ (match v with Some v => $", V" ++ v | None => [] end)
    ++ (match p with Some p => $", P" ++ p | None => [] end) ++ (match d with Some d => $", DOI " ++ d | None => [] end))%list ->
  wos_citation upper title s = Ok {| c_author := Some (title (without_dots a)); c_year := Some year; c_journal := Some j;
    c_V := option_map (cons 86%N) v; c_P := option_map (cons 80%N) p; c_DOI := d; c_misc := None; c_bad := false;
    c_id := (title (without_dots a) ++ $", " ++ dec_Z year ++ $", " ++ j)%list; c_original := s |}.
Proof.
  intros [x1 [x2 [t [-> D1]]]] CA Y NJ CJ HV HP HD U.
  destruct (@read_text x1 x2 t year j v p d D1 CA Y NJ CJ HV HP HD) as [R1 [R2 [R3 [R4 [R5 R6]]]]]. unfold tail_text in *. rewrite <- U in *.
  destruct (citation_parts upper title s) as [c [E [A [Yc [J [V [P [D [O [G B]]]]]]]]]]. rewrite E. f_equal.
  rewrite R1 in A. rewrite R2 in Yc. rewrite R3 in J. rewrite R4 in V. rewrite R5 in P. rewrite R6 in D. cbn [option_map] in A, Yc. rewrite number_dec in Yc.
  injection D as D M. destruct c as [ca cy cj cv cp cd cm cb ci co]. cbn [c_author c_year c_journal c_V c_P c_DOI c_misc c_bad c_id c_original] in *. subst.
  destruct cb.
  - destruct (B eq_refl) as [H _]. destruct H as [H|[H|[H|H]]]; congruence.
  - destruct (G eq_refl) as [_ [a' [y' [j' [Ea [Ey [Ej ->]]]]]]]. injection Ea as <-. injection Ey as <-. injection Ej as <-. reflexivity.
Qed.
Print Assumptions C28_documented_form.
Example documented_form_case : let s := $"NUNEZ R., 1998, MATH COGNITION, V4, P85, DOI 10.1080/1354" in
  s = ($"NUNEZ R." ++ $", " ++ dec_Z 1998 ++ $", " ++ $"MATH COGNITION" ++ ($", V" ++ $"4") ++ ($", P" ++ $"85") ++ ($", DOI " ++ $"10.1080/1354"))%list.
Proof. vm_compute. reflexivity. Qed.

(** the ID is the author, year and journal that are there, separated by commas, unless the year is 0 or the author is empty *)
Theorem C28_id_partial (upper title : str -> str) (s : str) (c : citation) : wos_citation upper title s = Ok c ->
  c_author c <> Some [] -> c_year c <> Some 0%Z ->
  c_id c = join $", " (opt (c_author c) ++ opt (option_map dec_Z (c_year c)) ++ opt (c_journal c)).
Proof.
  intros E NA NY. destruct (citation_parts upper title s) as [c' [E' [A [Y [J [_ [_ [_ [_ [G B]]]]]]]]]]. rewrite E in E'. injection E' as <-.
  destruct (c_bad c).
  - destruct (B eq_refl) as [_ ->]. apply part_id_given; [exact NA|exact NY|]. rewrite J. apply read_journal_ne.
  - destruct (G eq_refl) as [_ [a [y [j [-> [-> [-> ->]]]]]]]. reflexivity.
Qed.
Print Assumptions C28_id_partial.
(** what is missing: then the ID also depends on what follows the journal *)
Theorem C28_id_refuted : exists s t c d,
  wos_citation (fun s => s) (fun s => s) s = Ok c /\ wos_citation (fun s => s) (fun s => s) t = Ok d /\
  c_author c = c_author d /\ c_year c = c_year d /\ c_journal c = c_journal d /\ c_id c <> c_id d.
Proof.
  exists $"DOE J, 0, NATURE", $"DOE J, 0, NATURE, X".
  destruct (wos_citation _ _ $"DOE J, 0, NATURE") eqn:E1; vm_compute in E1; [|discriminate]. injection E1 as <-.
  destruct (wos_citation _ _ $"DOE J, 0, NATURE, X") eqn:E2; vm_compute in E2; [|discriminate]. injection E2 as <-.
  do 2 eexists. repeat split. cbn. discriminate.
Qed.
Print Assumptions C28_id_refuted.
(** complete citations have the same ID exactly if they have the same author, year and journal *)
Theorem C28_id_identifies (upper title : str -> str) (s t : str) (c d : citation) : (forall a, ~ In 44%N a -> ~ In 44%N (title a)) ->
  wos_citation upper title s = Ok c -> wos_citation upper title t = Ok d -> c_bad c = false -> c_bad d = false ->
  (c_id c = c_id d <-> c_author c = c_author d /\ c_year c = c_year d /\ c_journal c = c_journal d).
Proof.
  intros T Es Et Bc Bd.
  assert (NC : forall u e a, wos_citation upper title u = Ok e -> c_author e = Some a -> ~ In 44%N a).
  { intros u e a Eu Ea. destruct (citation_parts upper title u) as [e' [E' [A _]]]. rewrite Eu in E'. injection E' as <-. rewrite A in Ea.
    destruct (p_author (read (upper u))) as [b|] eqn:PA; [|discriminate]. injection Ea as <-. apply T. intros I. apply filter_In in I as [I _].
    exact (author_no_comma _ PA I). }
  destruct (citation_parts upper title s) as [c' [E1 [_ [_ [_ [_ [_ [_ [_ [G1 _]]]]]]]]]]. rewrite Es in E1. injection E1 as <-.
  destruct (citation_parts upper title t) as [d' [E2 [_ [_ [_ [_ [_ [_ [_ [G2 _]]]]]]]]]]. rewrite Et in E2. injection E2 as <-.
  destruct (G1 Bc) as [_ [a [y [j [Ha [Hy [Hj Hi]]]]]]]. destruct (G2 Bd) as [_ [b [z [k [Hb [Hz [Hk Hl]]]]]]].
  pose proof (NC s c a Es Ha) as Na. pose proof (NC t d b Et Hb) as Nb.
  rewrite Ha, Hy, Hj, Hb, Hz, Hk, Hi, Hl. split.
  - intros E. destruct (@id_injective a b y z j k Na Nb E) as [-> [-> ->]]. auto.
  - intros [A [B C]]. injection A as ->. injection B as ->. injection C as ->. reflexivity.
Qed.
Print Assumptions C28_id_identifies.
(** equality is an equivalence, equal citations have equal hashes, and without collisions it is equality of the IDs *)
Theorem C28_equality (hash : str -> Z) (c d e : citation) :
  cite_eq hash c c = true /\ (cite_eq hash c d = cite_eq hash d c) /\
  (cite_eq hash c d = true -> cite_eq hash d e = true -> cite_eq hash c e = true) /\
  (cite_eq hash c d = true <-> cite_hash hash c = cite_hash hash d) /\
  (c_id c = c_id d -> cite_eq hash c d = true) /\
  ((forall a b, hash a = hash b -> a = b) -> cite_eq hash c d = true -> c_id c = c_id d).
Proof.
  unfold cite_eq. repeat split.
  - apply Z.eqb_refl.
  - apply Z.eqb_sym.
  - intros A B. apply Z.eqb_eq in A. apply Z.eqb_eq in B. apply Z.eqb_eq. congruence.
  - apply Z.eqb_eq.
  - apply Z.eqb_eq.
  - intros E. apply Z.eqb_eq. unfold cite_hash. rewrite E. reflexivity.
  - intros I A. apply Z.eqb_eq in A. apply I, A.
Qed.
Print Assumptions C28_equality.
(** strings that differ in case only give equal citations *)
Theorem C28_case (upper title : str -> str) (hash : str -> Z) (s t : str) (c d : citation) :
  upper s = upper t -> wos_citation upper title s = Ok c -> wos_citation upper title t = Ok d ->
  cite_eq hash c d = true /\ wos_attributes c = wos_attributes d /\ c_year c = c_year d /\ c_bad c = c_bad d.
Proof.
  intros U. unfold wos_citation. rewrite U. destruct (re_match wos_cite_regex (upper t)) as [g|]; [|discriminate].
  destruct (match g 3 with Some y => _ | None => _ end) as [y|e]; [|discriminate]. cbn [bind].
  destruct (g 12); [|destruct (g 1), y, (g 5)]; intros E1 E2; injection E1 as <-; injection E2 as <-; unfold cite_eq, cite_hash; cbn; rewrite Z.eqb_refl; auto.
Qed.
Print Assumptions C28_case.
Example case_case : exists c d, wos_citation (fun _ => $"DOE J, 1999, NATURE") (fun s => s) $"Doe J, 1999, Nature" = Ok c /\
  wos_citation (fun _ => $"DOE J, 1999, NATURE") (fun s => s) $"doe j, 1999, NATURE" = Ok d /\ c_original c <> c_original d.
Proof.
  destruct (wos_citation _ _ $"Doe J, 1999, Nature") eqn:E1; vm_compute in E1; [|discriminate]. injection E1 as <-.
  destruct (wos_citation _ _ $"doe j, 1999, NATURE") eqn:E2; vm_compute in E2; [|discriminate]. injection E2 as <-.
  do 2 eexists. repeat split. cbn. discriminate.
Qed.
(** a Scopus string that does not have the expected form is its own ID, so there case matters *)
Theorem C28_scopus_case_refuted : exists (upper : str -> str) s t, upper s = upper t /\ forall word num int_of,
  s_id (scopus_citation word num int_of upper s) <> s_id (scopus_citation word num int_of upper t).
Proof.
  exists (fun _ => []), $"doe", $"Doe". split; [reflexivity|]. intros word num int_of. unfold scopus_citation.
  assert (E : re_match (scopus_cite_regex word num) [] = None) by reflexivity. rewrite E. cbn. discriminate.
Qed.
Print Assumptions C28_scopus_case_refuted.

(** C56: what the texts of a citation contain *)
Definition present (v : option str) : list str := match v with Some [] => [] | Some s => [s] | None => [] end.
Theorem C56_texts (c : citation) :
  extra (wos_attributes c) = Ok (join $", " (present (c_V c) ++ present (c_P c) ++ present (c_DOI c) ++ present (c_misc c))) /\
  all_but_doi (c_id c) (wos_attributes c) = join $", " (c_id c :: present (c_V c) ++ present (c_P c) ++ present (c_misc c)).
Proof.
  destruct c as [a y j v p d m b i o]. unfold wos_attributes. cbn [c_author c_journal c_V c_P c_DOI c_misc c_id].
  assert (ADD : forall l, exists r, join $", " l = removelast (removelast r) /\ r = concat (map (fun s => (s ++ $", ")%list) l)).
  { intros l. eexists. split; [|reflexivity]. induction l as [|x [|y' l] IH]; [reflexivity| |].
    - cbn [join map concat]. rewrite app_nil_r. change ($", ") with ([44%N] ++ [32%N])%list. rewrite app_assoc, !removelast_last. reflexivity.
    - change (join $", " (x :: y' :: l)) with (x ++ $", " ++ join $", " (y' :: l))%list. rewrite IH. cbn [map concat]. set (t := concat (map (fun s : list char => (s ++ $", ")%list) l)).
      assert (L : forall (u w : str), 2 <= length w -> removelast (removelast (u ++ w)) = (u ++ removelast (removelast w))%list).
      { intros u w Lw. rewrite removelast_app by (intros ->; cbn in Lw; lia). rewrite removelast_app; [reflexivity|].
        destruct w as [|w1 [|w2 w]]; cbn in Lw; [lia|lia|]. discriminate. }
      rewrite (L (x ++ $", ")%list ((y' ++ $", ") ++ t)%list); [rewrite <- (app_assoc x); reflexivity|]. rewrite !app_length. change (length $", ") with 2. lia. }
  split.
  - assert (LEN : forall l, (forall s, In s l -> s <> []) -> let ret := concat (map (fun s => (s ++ $", ")%list) l) in
      (if 2 <? length ret then firstn (length ret - 2) ret else ret) = join $", " l).
    { intros l H ret. destruct (ADD l) as [r [-> ->]]. fold ret. destruct l as [|x l]; [reflexivity|].
      assert (3 <= length ret).
      { unfold ret. cbn [map concat]. rewrite !app_length. change (length $", ") with 2. destruct x; [exfalso; apply (H [] (or_introl eq_refl) eq_refl)|cbn; lia]. }
      destruct (Nat.ltb_spec 2 (length ret)); [|lia]. clearbody ret.
      rewrite !removelast_firstn_len, firstn_firstn. f_equal. rewrite firstn_length. lia. }
    assert (PR : forall u s, In s (present u) -> s <> []) by (intros [[|x u]|] s I; cbn in I; try contradiction; destruct I as [<-|[]]; discriminate).
    rewrite <- LEN.
    + set (at_ := [($"author", a); ($"journal", j); ($"V", v); ($"P", p); ($"DOI", d); ($"misc", m)]).
      assert (EL : forall tags ret, (forall t, In t tags -> dget t at_ <> None) -> extra_loop at_ tags ret =
        Ok (ret ++ concat (map (fun s => (s ++ $", ")%list) (flat_map (fun t => match dget t at_ with Some u => given u | None => [] end) tags)))).
      { induction tags as [|t tags IH]; intros ret H; cbn [extra_loop flat_map map concat]; [rewrite app_nil_r; reflexivity|].
        pose proof (H t (or_introl eq_refl)) as Ht. destruct (dget t at_) as [u|]; [|congruence].
        rewrite IH by (intros t' I'; apply H; right; exact I'). destruct u as [[|x u]|]; cbn [given]; [reflexivity| |reflexivity].
        cbn [app map concat]. rewrite <- !app_assoc. cbn [app]. rewrite <- ?app_assoc. reflexivity. }
      unfold extra. rewrite EL by (intros t [<-|[<-|[<-|[<-|[]]]]]; vm_compute; discriminate). cbn [bind].
      replace (flat_map (fun t => match dget t at_ with Some u => given u | None => [] end) [$"V"; $"P"; $"DOI"; $"misc"])
        with (present v ++ present p ++ present d ++ present m)%list; [reflexivity|].
      change (flat_map (fun t => match dget t at_ with Some u => given u | None => [] end) [$"V"; $"P"; $"DOI"; $"misc"])
        with (given v ++ given p ++ given d ++ given m ++ [])%list. rewrite app_nil_r.
      destruct v as [[|? v]|], p as [[|? p]|], d as [[|? d]|], m as [[|? m]|]; reflexivity.
    + intros s I. repeat (apply in_app_or in I as [I|I]; [eapply PR; exact I|]). eapply PR; exact I.
  - unfold all_but_doi. destruct v as [[|? v]|], p as [[|? p]|], m as [[|? m]|]; reflexivity.
Qed.
Print Assumptions C56_texts.
(** so without a DOI the long text is the ID followed by the extra values *)
Theorem C56_no_doi (c : citation) (e : str) : c_DOI c = None -> extra (wos_attributes c) = Ok e ->
  all_but_doi (c_id c) (wos_attributes c) = match e with [] => c_id c | _ => (c_id c ++ $", " ++ e)%list end.
Proof.
  intros D. destruct (C56_texts c) as [-> ->]. rewrite D. intros E. injection E as <-. cbn [present app].
  destruct (c_V c) as [[|? ?]|], (c_P c) as [[|? ?]|], (c_misc c) as [[|? ?]|]; reflexivity.
Qed.
Print Assumptions C56_no_doi.
Example texts_case : match wos_citation (fun s => s) (fun s => s) $"DOE J, 1999, NATURE, V4, P85" with
  | Ok c => c_DOI c = None /\ extra (wos_attributes c) = Ok $"V4, P85" /\ all_but_doi (c_id c) (wos_attributes c) = $"DOE J, 1999, NATURE, V4, P85"
  | Raise _ => False
  end.
Proof. vm_compute. auto. Qed.
(** a Scopus citation has no DOI attribute, so its extra values can never be had *)
Theorem C56_scopus_refuted (word num : char -> bool) (int_of : str -> Z) (upper : str -> str) (s : str) :
  extra (s_attributes (scopus_citation word num int_of upper s)) = Raise AttributeError.
Proof.
  unfold scopus_citation. destruct (re_match _ _) as [g|]; [|reflexivity].
  match goal with |- context [Z.eqb ?x 0] => destruct (given (g 1)) as [|a [|b l]], (Z.eqb x 0), (given (g 6)) as [|j [|k l']]; reflexivity end.
Qed.
Print Assumptions C56_scopus_refuted.
