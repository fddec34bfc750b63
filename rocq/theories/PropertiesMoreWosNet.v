(** C94: the options of the networks of WOS records. *)
From Coq Require Import List ZArith Lia Bool Arith Permutation.
From Coq Require Import String.
From Verif Require Import Base PyStr CitationModel CitationSpec TagNames RecordModel RecordProofs GrantModel ValuesModel PropertiesCitation PropertiesValues WosModel WosProofs PropertiesWos FileModel PropertiesFile
  WosNetModel WosNetSpec WosNetProofs PropertiesWosNet ValuesProofs RecordView RecordViewFacts Nx NxFacts SeriesSpec NetSpec NetFacts.
From Verif Require CiteNetModel CiteNetSpec PropertiesCite.
Import ListNotations.
Local Open Scope list_scope.

Section Networks.
Variables upper lower title : str -> str.
Variable all_digits : str -> bool.
Variable journal : option str -> option str.
Notation api := (wos_api journal).
Notation rapi := (wos_rapi upper lower title all_digits).
Notation name := (name_of_record upper title).
Notation refs := (refs upper title).
Notation ident := (id_of upper title).
Notation sees := (sees upper title).
(** C94: the citation network is made with every direction. It is directed as asked for; directed edges lead from the record to what it cites with recordToCite
    and from what is cited to the record without; the weights are the numbers of lines either way. *)
Theorem C94_directions : forall (directed recordToCite : bool) rs, (forall r, In r rs -> usable_record r /\ name r <> []) ->
  exists g, wos_citation_network upper lower title all_digits journal (default_opts false) directed recordToCite rs = Ok g /\ gdir g = directed /\
    (forall n, is_node g n <-> exists r, In r rs /\ lines_of $"CR" r <> [] /\ (n = IText (name r) \/ exists l, In l (lines_of $"CR" r) /\ n = IText (ident l))) /\
    (forall u v, is_edge g u v <-> exists r l, In r rs /\ In l (lines_of $"CR" r) /\
      (u = IText (name r) /\ v = IText (ident l) /\ (directed = true -> recordToCite = true) \/ u = IText (ident l) /\ v = IText (name r) /\ (directed = true -> recordToCite = false))) /\
    (directed = true -> forall u v, edge_attr g (IText u) (IText v) $"weight" =
      positive_count (total (fun r => if eqb (if recordToCite then u else v) (name r) then count (if recordToCite then v else u) (refs r) else 0) rs)).
Proof.
  intros directed rtc rs U. destruct (see_all upper lower title all_digits rs (fun r I => proj1 (U r I))) as (ss & E & F). unfold wos_citation_network. rewrite E. cbn [bind].
  assert (V : forall s, In s ss -> exists r, In r rs /\ sees r s) by (intros s I; apply (F2_in_r _ _ _ _ F I)).
  assert (V' : forall s, In s ss -> exists r, sees r s) by (intros s I; destruct (V s I) as (r & _ & S); eauto).
  assert (HN : forall s, In s ss -> exists h, CiteNetSpec.name_of api (default_opts false) (CiteNetModel.own rapi s) = Some h /\ CiteNetModel.truthy_id api h = true).
  { intros s I. destruct (V s I) as (r & J & S). eexists. split; [reflexivity|]. cbn [CiteNetModel.own wos_rapi CiteNetModel.cid wos_api CiteNetModel.truthy_id]. rewrite (sees_name _ _ _ _ S). destruct (U r J) as (_ & N). destruct (name r); [congruence|reflexivity]. }
  assert (US : forall c, CiteNetSpec.usable api rapi (default_opts false) ss c) by (intros c; split; [discriminate|apply always_info, V']).
  destruct (PropertiesCite.C19_made_partial _ _ _ _ api rapi upper (default_opts false) directed rtc ss (or_introl eq_refl)) as (g & Q).
  { intros s I _. split; [apply HN, I|]. split; [apply US|]. split; [discriminate|]. intros c _ _. apply US. }
  exists g. split; [exact Q|].
  destruct (PropertiesCite.C19_edges_partial _ _ _ _ api rapi upper (default_opts false) directed rtc ss g (or_introl eq_refl) (fun s I _ => HN s I) Q) as (_ & D & N & ED & _ & W & _).
  split; [exact D|]. split; [|split].
  - intros n. rewrite N. split.
    + intros (s & I & H). apply filter_In in I. destruct I as [I CI]. destruct (V s I) as (r & J & S). rewrite (citing_some _ _ _ _ _ ss r s S) in CI. exists r. split; [exact J|]. split; [intros Z; rewrite Z in CI; discriminate CI|].
      rewrite (head_texts _ _ _ _ _ _ _ _ S), (cited_texts _ _ _ _ _ ss _ _ S) in H. destruct H as [[<-|[]]|H]; [left; reflexivity|]. right. unfold WosNetSpec.refs in H. rewrite map_map in H. apply in_map_iff in H. destruct H as (l & <- & H). eauto.
    + intros (r & J & NE & H). destruct (F2_in_l _ _ _ _ F J) as (s & I & S). exists s. split.
      * apply filter_In. split; [exact I|]. rewrite (citing_some _ _ _ _ _ ss r s S). destruct (lines_of $"CR" r); [congruence|reflexivity].
      * rewrite (head_texts _ _ _ _ _ _ _ _ S), (cited_texts _ _ _ _ _ ss _ _ S). destruct H as [-> |(l & I' & ->)]; [left; left; reflexivity|]. right. apply in_map. apply (in_map ident) in I'. exact I'.
  - intros u v. rewrite ED. cbn [CiteNetModel.o_weighted default_opts negb CiteNetModel.o_type CiteNetSpec.particular]. rewrite !orb_false_r. split.
    + intros (s & c & I & CI & IC & H). destruct (V s I) as (r & J & S). unfold CiteNetSpec.cited in IC. apply filter_In in IC. destruct IC as [IC _]. cbn [CiteNetModel.cites wos_rapi] in IC.
      pose proof S as (_ & _ & _ & _ & F2). destruct (F2_in_r _ _ _ _ F2 IC) as (l & IL & CL). exists r, l. split; [exact J|]. split; [exact IL|].
      assert (G : forall x y, CiteNetSpec.name_of api (default_opts false) (CiteNetModel.own rapi s) = Some x /\ CiteNetSpec.name_of api (default_opts false) c = Some y -> x = IText (name r) /\ y = IText (ident l)).
      { intros x y (H1 & H2). injection H1 as <-. injection H2 as <-. cbn [CiteNetModel.cid CiteNetModel.own wos_api wos_rapi]. rewrite (sees_name _ _ _ _ S). unfold id_of. rewrite CL. auto. }
      destruct directed; [destruct rtc|]; [(destruct (G _ _ H) as [A1 A2]; rewrite A1, A2); left; auto|(destruct (G _ _ H) as [A1 A2]; rewrite A1, A2); right; auto|]. destruct H as [H|H]; (destruct (G _ _ H) as [A1 A2]; rewrite A1, A2); [left|right]; (split; [reflexivity|]; split; [reflexivity|discriminate]).
    + intros (r & l & J & IL & H). destruct (F2_in_l _ _ _ _ F J) as (s & I & S). pose proof S as (_ & _ & _ & _ & F2). destruct (F2_in_l _ _ _ _ F2 IL) as (c & IC & CL). exists s, c. split; [exact I|].
      split; [rewrite (citing_some _ _ _ _ _ ss r s S); destruct (lines_of $"CR" r); [destruct IL|reflexivity]|]. split; [apply filter_In; split; [exact IC|reflexivity]|].
      assert (G : CiteNetSpec.name_of api (default_opts false) (CiteNetModel.own rapi s) = Some (IText (name r)) /\ CiteNetSpec.name_of api (default_opts false) c = Some (IText (ident l))).
      { unfold CiteNetSpec.name_of. cbn [CiteNetModel.o_type default_opts CiteNetModel.cid CiteNetModel.own wos_api wos_rapi]. rewrite (sees_name _ _ _ _ S). unfold id_of. rewrite CL. auto. }
      cbv zeta. destruct H as [(-> & -> & K)|(-> & -> & K)]; destruct directed; [rewrite (K eq_refl); exact G|left; exact G|rewrite (K eq_refl); exact G|right; exact G].
  - intros -> u v. rewrite (W eq_refl). f_equal. cbn [CiteNetModel.o_weighted default_opts negb CiteNetModel.o_type CiteNetSpec.particular]. rewrite !orb_false_r.
    rewrite total_filter.
    + symmetry. apply (total_F2 sees _ _ _ _ F). intros r s J S. unfold CiteNetSpec.arcs, pairs_from_to. rewrite (head_texts _ _ _ _ _ _ _ _ S), (cited_texts _ _ _ _ _ ss _ _ S). change [IText (name r)] with (map IText [name r]).
      destruct rtc; rewrite !count_text; cbn [count]; match goal with |- context [eqb ?x ?y] => destruct (eqb x y) end; lia.
    + intros s CI. unfold CiteNetSpec.citing in CI. rewrite all_selected in CI. cbn [andb] in CI. unfold CiteNetSpec.arcs, pairs_from_to, CiteNetSpec.cited_names, CiteNetSpec.cited. destruct (CiteNetModel.cites rapi s); [destruct rtc; cbn; lia|discriminate CI].
Qed.

(** ** Kinds of nodes *)
(** the author, the journal and the year that a line of the references says *)
Definition author_said (l : str) : option str := option_map (fun a => title (without_dots a)) (p_author (read (upper l))).
Definition journal_said (l : str) : option str := p_journal (read (upper l)).
Definition year_said (l : str) : option Z := option_map number (p_year (read (upper l))).
(** the node of a line of the references, if it gives one: empty texts, the year 0 and what is not said give none *)
Definition node_said (t : CiteNetModel.ntype) (l : str) : option WosNetModel.name :=
  match t with
  | CiteNetModel.Full => Some (IText (ident l))
  | CiteNetModel.Original => match l with [] => None | _ => Some (IText l) end
  | CiteNetModel.Author => match author_said l with Some (c :: a) => Some (IText (c :: a)) | _ => None end
  | CiteNetModel.Journal => match journal_said l with Some (c :: a) => Some (IText (c :: a)) | _ => None end
  | CiteNetModel.Year => match year_said l with Some y => if Z.eqb y 0 then None else Some (INum y) | None => None end
  end.
Definition with_type (t : CiteNetModel.ntype) (da : bool) : CiteNetModel.opts :=
  {| CiteNetModel.o_type := t; CiteNetModel.o_anon := da; CiteNetModel.o_journals := false; CiteNetModel.o_words := []; CiteNetModel.o_core := false; CiteNetModel.o_info := true;
     CiteNetModel.o_full := false; CiteNetModel.o_values := [$"id"; $"authorsFull"; $"year"; $"title"; $"journal"; $"volume"; $"beginningPage"];
     CiteNetModel.o_detailed := false; CiteNetModel.o_cr := false; CiteNetModel.o_count := true; CiteNetModel.o_weighted := true |}.
Definition nodes_said (t : CiteNetModel.ntype) (da : bool) (r : wrec) : list WosNetModel.name :=
  flat_map (fun l => match node_said t l with Some n => [n] | None => [] end) (filter (fun l => negb da || negb (unknown upper title l)) (lines_of $"CR" r)).
Lemma kinds t da ss c l : wos_citation upper title l = Ok c ->
  (if CiteNetSpec.selected api rapi upper (with_type t da) ss c then match CiteNetSpec.name_of api (with_type t da) c with Some i => [i] | None => [] end else []) =
  (if negb da || negb (unknown upper title l) then match node_said t l with Some n => [n] | None => [] end else []).
Proof.
  intros H. destruct (C28_parse upper title l) as (c' & E & A & Y & J & _ & _ & _ & O & _). rewrite H in E. injection E as <-. unfold unknown. rewrite H.
  unfold CiteNetSpec.selected, CiteNetSpec.name_of, node_said. cbn [CiteNetModel.o_type CiteNetModel.o_anon CiteNetModel.o_journals CiteNetModel.o_words CiteNetModel.o_core with_type negb orb andb forallb].
  rewrite !andb_true_r. cbn [CiteNetModel.is_anon wos_api]. unfold author_said, journal_said, year_said. rewrite <- A, <- Y, <- J.
  destruct t; cbn [CiteNetSpec.whole orb andb CiteNetModel.cattr CiteNetModel.truthy_id wos_api].
  - unfold id_of. rewrite H. reflexivity.
  - rewrite O. destruct l; cbn [andb]; [|reflexivity]. destruct (negb da || negb (is_anonymous c)); reflexivity.
  - destruct (c_author c) as [[|x a]|]; cbn [opt_name andb]; try reflexivity; destruct (negb da || negb (is_anonymous c)); reflexivity.
  - destruct (c_journal c) as [[|x a]|]; cbn [opt_name andb]; try reflexivity; destruct (negb da || negb (is_anonymous c)); reflexivity.
  - destruct (c_year c) as [y|]; [|cbn [andb]; destruct (negb da || negb (is_anonymous c)); reflexivity]. destruct (Z.eqb y 0); cbn [negb andb]; [destruct (negb da || negb (is_anonymous c)); reflexivity|reflexivity].
Qed.
Lemma kinds_names t da ss r s : sees r s -> CiteNetSpec.cited_names api rapi upper (with_type t da) ss s = nodes_said t da r.
Proof.
  intros (_ & _ & _ & _ & F). unfold CiteNetSpec.cited_names, CiteNetSpec.cited, CiteNetSpec.names_of, nodes_said. cbn [CiteNetModel.cites wos_rapi].
  induction F as [|l c ls cs H F IH]; [reflexivity|]. cbn [filter]. pose proof (kinds t da ss c l H) as K. revert K. destruct (CiteNetSpec.selected api rapi upper (with_type t da) ss c), (negb da || negb (unknown upper title l)); intros K; cbn [flat_map]; rewrite IH; [rewrite K|rewrite K|rewrite <- K|]; reflexivity.
Qed.
(** C94: the network of co-citations is made with every kind of nodes; the nodes are the authors, journals, years or texts of the references that say one, and no
    other: a reference without an author is not a node of a network of authors. Nodes and edges have the numbers of lines and of pairs of lines. *)
Theorem C94_kinds : forall (t : CiteNetModel.ntype) (dropAnon : bool) rs, (forall r, In r rs -> usable_record r) ->
  exists g, wos_co_citation upper lower title all_digits journal (with_type t dropAnon) rs = Ok g /\ gdir g = false /\
    (forall n, is_node g n <-> exists r l, In r rs /\ In l (lines_of $"CR" r) /\ (dropAnon = true -> unknown upper title l = false) /\ node_said t l = Some n) /\
    (forall n, node_attr g n $"count" = positive_count (total (fun r => count n (nodes_said t dropAnon r)) rs)) /\
    (forall u v, ed g u v = edge_value true (total (fun r => pairs_within u v (nodes_said t dropAnon r)) rs)).
Proof.
  intros t da rs U. destruct (see_all upper lower title all_digits rs U) as (ss & E & F). unfold wos_co_citation. rewrite E. cbn [bind].
  assert (V : forall s, In s ss -> exists r, In r rs /\ sees r s) by (intros s I; apply (F2_in_r _ _ _ _ F I)).
  assert (V' : forall s, In s ss -> exists r, sees r s) by (intros s I; destruct (V s I) as (r & _ & S); eauto).
  assert (US : forall c, CiteNetSpec.usable api rapi (with_type t da) ss c).
  { intros c. split; [destruct t; discriminate|]. intros (NI & FT & ND & r & k & H). cbn [CiteNetModel.o_type with_type] in FT. subst t.
    apply (always_info upper lower title all_digits journal da ss c V'). split; [exact NI|]. split; [reflexivity|]. split; [exact ND|]. exists r, k. exact H. }
  destruct (PropertiesCite.C18_made _ _ _ _ api rapi upper (with_type t da) ss (fun s c _ _ _ => US c)) as (g & Q). exists g. split; [exact Q|].
  destruct (PropertiesCite.C18_counts_and_weights _ _ _ _ _ _ _ _ _ _ Q) as (_ & D & N & CT & W). split; [exact D|]. split; [|split].
  - intros n. rewrite N. split.
    + intros (s & c & I & IC & SL & NM). destruct (V s I) as (r & J & S). pose proof S as (_ & _ & _ & _ & F2). destruct (F2_in_r _ _ _ _ F2 IC) as (l & IL & CL). exists r, l. split; [exact J|]. split; [exact IL|].
      pose proof (kinds t da ss c l CL) as K. rewrite SL, NM in K. destruct (negb da || negb (unknown upper title l)) eqn:KN; [|discriminate]. split.
      * intros ->. cbn [negb orb] in KN. destruct (unknown upper title l); [discriminate|reflexivity].
      * destruct (node_said t l); [injection K as <-; reflexivity|discriminate].
    + intros (r & l & J & IL & UN & NS). destruct (F2_in_l _ _ _ _ F J) as (s & I & S). pose proof S as (_ & _ & _ & _ & F2). destruct (F2_in_l _ _ _ _ F2 IL) as (c & IC & CL). exists s, c. split; [exact I|]. split; [exact IC|].
      pose proof (kinds t da ss c l CL) as K. rewrite NS in K. assert (X : negb da || negb (unknown upper title l) = true) by (destruct da; [rewrite (UN eq_refl)|]; reflexivity). rewrite X in K.
      destruct (CiteNetSpec.selected api rapi upper (with_type t da) ss c); [|discriminate]. split; [reflexivity|]. destruct (CiteNetSpec.name_of api (with_type t da) c); [injection K as ->; reflexivity|discriminate].
  - intros n. rewrite (CT eq_refl). f_equal. unfold occurs. symmetry. apply (total_F2 sees _ _ _ _ F). intros r s J S. rewrite (kinds_names t da ss _ _ S). reflexivity.
  - intros u v. rewrite W. f_equal. symmetry. apply (total_F2 sees _ _ _ _ F). intros r s J S. rewrite (kinds_names t da ss _ _ S). reflexivity.
Qed.

(** ** Details *)
Definition detailed_opts : CiteNetModel.opts :=
  {| CiteNetModel.o_type := CiteNetModel.Full; CiteNetModel.o_anon := true; CiteNetModel.o_journals := false; CiteNetModel.o_words := []; CiteNetModel.o_core := false; CiteNetModel.o_info := true;
     CiteNetModel.o_full := false; CiteNetModel.o_values := [$"id"; $"authorsFull"; $"year"; $"title"; $"journal"; $"volume"; $"beginningPage"];
     CiteNetModel.o_detailed := true; CiteNetModel.o_cr := false; CiteNetModel.o_count := true; CiteNetModel.o_weighted := true |}.
Lemma record_found rs ss c : Forall2 sees rs ss ->
  match find (fun r => eqb (c_id c) (name r)) (rev rs), CiteNetSpec.record_of api rapi ss c with Some r, Some s => sees r s | None, None => True | _, _ => False end.
Proof.
  intros F. unfold CiteNetSpec.record_of. pose proof (F2_find sees (fun r => eqb (c_id c) (name r)) (fun s : seen => eqb (CiteNetModel.cid api c) (CiteNetModel.cid api (CiteNetModel.own rapi s))) _ _ (F2_rev _ _ _ F)) as Q.
  apply Q. intros r s S. cbn [CiteNetModel.cid CiteNetModel.own wos_api wos_rapi]. rewrite eqb_text, (sees_name _ _ _ _ S). reflexivity.
Qed.
Lemma shown_detail r s key tag : sees r s -> wos_alt key = Some tag -> length key <> 2 -> special (kind_of upper lower title all_digits r) key = None -> dhas tag wos_tags = true ->
  CiteNetModel.rget rapi s key = match dget tag (wfields r) with Some raw => match wos_value upper lower title all_digits tag raw with Ok v => shown_value v | Raise _ => CiteNetModel.TVal VNone end | None => CiteNetModel.TVal VNone end.
Proof.
  intros (PL & _ & Q & _) A L S T. cbn [CiteNetModel.rget wos_rapi]. rewrite Q. rewrite (get_named upper lower title all_digits r PL key tag A (or_introl L) S T).
  destruct (dget tag (wfields r)) as [raw|]; [|reflexivity]. destruct (wos_value upper lower title all_digits tag raw) as [v|e]; [reflexivity|]. destruct e; reflexivity.
Qed.
(** C94: with detailedCore a node that stands for a record shows the year of the record as a number, its title, volume and authors (in some order)
    under their names, None where the record has nothing, and its identifier; a node that stands for none shows none of them. *)
Theorem C94_detailed : forall rs, (forall r, In r rs -> usable_record r) ->
  exists g, wos_co_citation upper lower title all_digits journal detailed_opts rs = Ok g /\
    forall n, is_node g (IText n) ->
    match find (fun r => eqb n (name r)) (rev rs) with
    | Some r =>
        node_attr g (IText n) $"MK-ID" = Some (VStr (wid r)) /\ node_attr g (IText n) $"inCore" = Some (VBool true) /\ node_attr g (IText n) $"info" = None /\
        (lines_of $"PY" r = [] -> node_attr g (IText n) $"year" = Some VNone) /\
        (forall y, (1000 <= y <= 9999)%Z -> first_line $"PY" r = dec_Z y -> node_attr g (IText n) $"year" = Some (VInt y)) /\
        node_attr g (IText n) $"title" = Some (match lines_of $"TI" r with [] => VNone | ls => VStr (join $" " ls) end) /\
        node_attr g (IText n) $"volume" = Some (match lines_of $"VL" r with [] => VNone | l :: _ => VStr (strip l) end) /\
        (exists order, Permutation order (lines_of $"AF" r) /\ node_attr g (IText n) $"authorsFull" = Some (match lines_of $"AF" r with [] => VNone | _ => VStr (join $"|" order) end))
    | None => node_attr g (IText n) $"MK-ID" = Some (VStr $"None") /\ node_attr g (IText n) $"inCore" = Some (VBool false) /\
        forall k, In k [$"year"; $"title"; $"volume"; $"authorsFull"; $"id"; $"journal"; $"beginningPage"] -> node_attr g (IText n) k = None
    end.
Proof.
  intros rs U. destruct (see_all upper lower title all_digits rs U) as (ss & E & F). unfold wos_co_citation. rewrite E. cbn [bind].
  assert (US : forall c, CiteNetSpec.usable api rapi detailed_opts ss c) by (intros c; split; [discriminate|intros (_ & _ & ND & _); discriminate ND]).
  destruct (PropertiesCite.C18_made _ _ _ _ api rapi upper detailed_opts ss (fun s c _ _ _ => US c)) as (g & Q). exists g. split; [exact Q|].
  pose proof (PropertiesCite.C18_attributes _ _ _ _ api rapi upper detailed_opts ss g (fun s c _ _ _ => US c) Q) as AT.
  intros n IN. destruct (AT (IText n) IN) as (s' & c & _ & _ & _ & NM & SH). injection NM as <-. pose proof (in_coll upper lower title all_digits journal rs ss c F) as IC. pose proof (record_found rs ss c F) as RF.
  assert (SN : forall k, k <> $"count" -> node_attr g (IText (c_id c)) k = if eqb k $"inCore" then Some (VBool (CiteNetSpec.in_collection api rapi ss c))
    else match CiteNetSpec.record_of api rapi ss c with
      | Some r => if mem k (CiteNetModel.o_values detailed_opts) then Some (CiteNetModel.detail_val (CiteNetModel.rget rapi r k)) else if eqb k $"MK-ID" then Some (VStr (CiteNetModel.rid rapi r)) else None
      | None => if eqb k $"info" then Some (VStr (CiteNetModel.all_but_doi api c)) else if eqb k $"MK-ID" then Some (VStr $"None") else None end).
  { intros k K. rewrite (SH k K). reflexivity. }
  clear SH AT. change (existsb (fun r => eqb (c_id c) (name r)) rs) with (existsb (fun r => eqb (c_id c) (name r)) rs) in IC.
  assert (EX : existsb (fun r => eqb (c_id c) (name r)) rs = match find (fun r => eqb (c_id c) (name r)) (rev rs) with Some _ => true | None => false end).
  { destruct (find _ (rev rs)) as [r|] eqn:FD.
    - apply find_some in FD as [I1 I2]. apply existsb_exists. exists r. split; [apply in_rev, I1|exact I2].
    - apply not_true_is_false. intros X. apply existsb_exists in X as (r & I1 & I2). pose proof (find_none _ _ FD r (proj1 (in_rev _ _) I1)) as Z. cbv beta in Z. congruence. }
  rewrite EX in IC. destruct (find _ (rev rs)) as [r|], (CiteNetSpec.record_of api rapi ss c) as [s|]; try contradiction.
  - pose proof RF as (PL & Y & W & _).
    assert (ONE : forall k, In k (CiteNetModel.o_values detailed_opts) -> node_attr g (IText (c_id c)) k = Some (CiteNetModel.detail_val (CiteNetModel.rget rapi s k))).
    { intros k I1. rewrite SN by (cbn in I1; intros ->; intuition discriminate). repeat (destruct I1 as [<-|I1]; [reflexivity|]). destruct I1. }
    split; [rewrite SN by discriminate; change (Some (VStr (WosModel.wid (fst (fst s)))) = Some (VStr (wid r))); rewrite W; reflexivity|]. split; [rewrite SN by discriminate; rewrite IC; reflexivity|]. split; [rewrite SN by discriminate; reflexivity|].
    assert (YA : node_attr g (IText (c_id c)) $"year" = Some (CiteNetModel.detail_val (CiteNetModel.rget rapi s $"year"))) by (apply ONE; cbn; auto 10).
    rewrite (shown_detail r s $"year" $"PY" RF eq_refl ltac:(discriminate) eq_refl eq_refl) in YA.
    split; [|split; [|split; [|split]]].
    + intros NL. rewrite YA. unfold lines_of in NL. destruct (dget $"PY" (wfields r)) as [raw|] eqn:D; [|reflexivity]. destruct (some_lines r PL _ _ D) as (v & vs & ->). discriminate NL.
    + intros y B FL. rewrite YA. unfold first_line, lines_of in FL. destruct (dget $"PY" (wfields r)) as [raw|] eqn:D; [|cbn [hd] in FL; exfalso; clear - B FL].
      * destruct (some_lines r PL _ _ D) as (v & vs & ->). change (v = dec_Z y) in FL. rewrite FL. assert (V : wos_value upper lower title all_digits $"PY" (dec_Z y :: vs) = Ok (FInt y)) by (apply C71_year; [exact []|exact B]). rewrite V. reflexivity.
      * assert (L : length (dec_Z y) = 4) by (apply four_digits, B). rewrite <- FL in L. discriminate L.
    + rewrite ONE by (cbn; auto 10). rewrite (shown_detail r s $"title" $"TI" RF eq_refl ltac:(discriminate) eq_refl eq_refl). unfold lines_of. destruct (dget $"TI" (wfields r)) as [raw|] eqn:D; [|reflexivity]. destruct (some_lines r PL _ _ D) as (v & vs & ->). reflexivity.
    + rewrite ONE by (cbn; auto 10). rewrite (shown_detail r s $"volume" $"VL" RF eq_refl ltac:(discriminate) eq_refl eq_refl). unfold lines_of. destruct (dget $"VL" (wfields r)) as [raw|] eqn:D; [|reflexivity]. destruct (some_lines r PL _ _ D) as (v & vs & ->). reflexivity.
    + rewrite ONE by (cbn; auto 10). rewrite (shown_detail r s $"authorsFull" $"AF" RF eq_refl ltac:(discriminate) eq_refl eq_refl). unfold lines_of. destruct (dget $"AF" (wfields r)) as [raw|] eqn:D; [|exists []; split; [constructor|reflexivity]].
      destruct (some_lines r PL _ _ D) as (v & vs & ->). exists (ssort (fun x => x) CiteNetModel.str_le (v :: vs)). split; [apply Permutation_sym, ssort_perm|reflexivity].
  - split; [rewrite SN by discriminate; reflexivity|]. split; [rewrite SN by discriminate; rewrite IC; reflexivity|]. intros k I1. rewrite SN by (intros ->; cbn in I1; intuition discriminate). repeat (destruct I1 as [<-|I1]; [reflexivity|]). destruct I1.
Qed.
End Networks.
(** the cited person without a year, a reference without an author *)
Example C94_kinds_ex : let id := fun s : str => s in
  author_said id id $"POE B., 1990, SCIENCE" = Some $"POE B" /\ author_said id id $"1990, SCIENCE" = None /\ node_said id id CiteNetModel.Author $"1990, SCIENCE" = None /\
  node_said id id CiteNetModel.Year $"1990, SCIENCE" = Some (INum 1990) /\ node_said id id CiteNetModel.Journal $"1990, SCIENCE" = Some (IText $"SCIENCE") /\
  (exists g, wos_co_citation (flat_map ex_up) ex_id ex_id (forallb digit09) (fun _ => None) (with_type CiteNetModel.Year true) ex_recs = Ok g /\
    edge_attr g (INum 1990) (INum 1901) $"weight" = Some (VInt 2)) /\
  (exists g, wos_citation_network (flat_map ex_up) ex_id ex_id (forallb digit09) (fun _ => None) (default_opts false) true false ex_recs = Ok g /\
    edge_attr g (IText $"DOE J, 1999, NATURE") (IText $"LOE M, 2004, MIND") $"weight" = Some (VInt 1) /\ ed g (IText $"LOE M, 2004, MIND") (IText $"DOE J, 1999, NATURE") = None) /\
  forall r, In r ex_recs -> lines_of $"CR" r <> [].
Proof.
  do 5 (split; [vm_compute; reflexivity|]). split; [|split].
  - destruct (wos_co_citation _ _ _ _ _ _ _) as [g|] eqn:E; vm_compute in E; [|discriminate]. injection E as <-. eexists. split; [reflexivity|]. vm_compute. auto.
  - destruct (wos_citation_network _ _ _ _ _ _ _ _ _) as [g|] eqn:E; vm_compute in E; [|discriminate]. injection E as <-. eexists. split; [reflexivity|]. vm_compute. auto.
  - intros r I. vm_compute in I. repeat (destruct I as [<-|I]; [vm_compute; discriminate|]). destruct I.
Qed.
Example C94_detailed_ex : exists g, wos_co_citation (flat_map ex_up) ex_id ex_id (forallb digit09) (fun _ => None) detailed_opts ex_recs = Ok g /\
  node_attr g (IText $"DOE J, 1999, NATURE") $"year" = Some (VInt 1999) /\ node_attr g (IText $"DOE J, 1999, NATURE") $"authorsFull" = Some (VStr $"Doe, Jane|Roe, Kim") /\
  node_attr g (IText $"POE B, 1990, SCIENCE") $"inCore" = Some (VBool false).
Proof. destruct (wos_co_citation _ _ _ _ _ _ _) as [g|] eqn:E; vm_compute in E; [|discriminate]. injection E as <-. eexists. split; [reflexivity|]. vm_compute. auto. Qed.
Print Assumptions C94_directions.
Print Assumptions C94_kinds.
Print Assumptions C94_detailed.
