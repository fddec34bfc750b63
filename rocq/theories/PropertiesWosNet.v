(** C94: from the lines of a WOS file to the networks. *)
From Coq Require Import List ZArith Lia Bool Arith Permutation.
From Coq Require Import String.
From Verif Require Import Base PyStr CitationModel CitationSpec TagNames RecordModel GrantModel ValuesModel PropertiesCitation PropertiesValues WosModel WosProofs PropertiesWos FileModel PropertiesFile
  WosNetModel WosNetSpec WosNetProofs Nx NxFacts SeriesSpec NetSpec NetFacts.
From Verif Require CiteNetModel CiteNetSpec PropertiesCite.
Import ListNotations.
Local Open Scope list_scope.

(** read from some file, with a usual year, and without a field called j9 *)
Definition usable_record (r : wrec) : Prop := read_from_a_file r /\ year_ok r /\ ~ In $"j9" (dkeys (wfields r)).
Lemma usable_plain r : usable_record r -> plain r.
Proof.
  intros (G & _ & NJ). apply read_good in G. destruct G as ((F & ND) & _). split; [|split; [exact ND|exact NJ]]. eapply Forall_impl; [|exact F]. intros e ((L & _) & NE & _). auto.
Qed.

Section Totals.
Context {A B : Type} (P : A -> B -> Prop).
Lemma total_F2 (f : A -> nat) (g : B -> nat) l m : Forall2 P l m -> (forall a b, In a l -> P a b -> f a = g b) -> total f l = total g m.
Proof. induction 1 as [|a b l m H F IH]; intros K; [reflexivity|]. unfold total in *. cbn [fold_right]. rewrite (K a b), IH; [reflexivity| |left; reflexivity|exact H]. intros; apply K; [right|]; assumption. Qed.
Lemma F2_in_l l m a : Forall2 P l m -> In a l -> exists b, In b m /\ P a b.
Proof. induction 1 as [|x y l m H F IH]; intros I; [destruct I|]. destruct I as [<-|I]; [exists y; split; [left; reflexivity|exact H]|]. destruct (IH I) as (b & Q & R). exists b. split; [right; exact Q|exact R]. Qed.
Lemma F2_in_r l m b : Forall2 P l m -> In b m -> exists a, In a l /\ P a b.
Proof. induction 1 as [|x y l m H F IH]; intros I; [destruct I|]. destruct I as [<-|I]; [exists x; split; [left; reflexivity|exact H]|]. destruct (IH I) as (a & Q & R). exists a. split; [right; exact Q|exact R]. Qed.
Lemma F2_existsb (f : A -> bool) (g : B -> bool) l m : Forall2 P l m -> (forall a b, P a b -> f a = g b) -> existsb f l = existsb g m.
Proof. induction 1 as [|a b l m H F IH]; intros K; [reflexivity|]. cbn [existsb]. rewrite (K a b H), IH by exact K. reflexivity. Qed.
Lemma F2_find (f : A -> bool) (g : B -> bool) l m : Forall2 P l m -> (forall a b, P a b -> f a = g b) ->
  match find f l, find g m with Some a, Some b => P a b | None, None => True | _, _ => False end.
Proof. induction 1 as [|a b l m H F IH]; intros K; [exact Logic.I|]. cbn [find]. rewrite (K a b H). destruct (g b); [exact H|apply IH, K]. Qed.
Lemma F2_length l m : Forall2 P l m -> length l = length m.
Proof. induction 1; cbn; congruence. Qed.
Lemma F2_rev l m : Forall2 P l m -> Forall2 P (rev l) (rev m).
Proof. induction 1 as [|a b l m H F IH]; [constructor|]. cbn [rev]. apply Forall2_app; [exact IH|constructor; [exact H|constructor]]. Qed.
Lemma total_filter (p : A -> bool) (f : A -> nat) l : (forall a, p a = false -> f a = 0) -> total f (filter p l) = total f l.
Proof. intros K. induction l as [|a l IH]; [reflexivity|]. cbn [filter]. destruct (p a) eqn:E; unfold total in *; cbn [fold_right]; rewrite IH; [reflexivity|]. rewrite (K a E). reflexivity. Qed.
End Totals.
Lemma count_text u l : count (IText u) (map IText l) = count u l.
Proof. induction l as [|x l IH]; [reflexivity|]. cbn [map count]. rewrite IH. destruct (eqb_spec (IText u) (IText x)) as [Q|Q], (eqb_spec u x) as [R|R]; try reflexivity; congruence. Qed.
Lemma eqb_text u v : eqb (IText u) (IText v) = eqb u v.
Proof. destruct (eqb_spec (IText u) (IText v)) as [Q|Q], (eqb_spec u v) as [R|R]; try reflexivity; congruence. Qed.

Section Networks.
Variables upper lower title : str -> str.
Variable all_digits : str -> bool.
Variable journal : option str -> option str.
Notation api := (wos_api journal).
Notation rapi := (wos_rapi upper lower title all_digits).
Notation name := (name_of_record upper title).
Notation refs := (refs upper title).
Notation ident := (id_of upper title).
Definition sees (r : wrec) (s : seen) : Prop :=
  plain r /\ year_ok r /\ fst (fst s) = r /\ wos_citation upper title (reference_text r) = Ok (snd (fst s)) /\ Forall2 (fun l c => wos_citation upper title l = Ok c) (lines_of $"CR" r) (snd s).
Lemma see_all rs : (forall r, In r rs -> usable_record r) -> exists ss, see upper lower title all_digits rs = Ok ss /\ Forall2 sees rs ss.
Proof.
  induction rs as [|r rs IH]; intros U; [exists []; split; [reflexivity|constructor]|]. assert (R : usable_record r) by (apply U; left; reflexivity). destruct IH as (ss & E & F); [intros; apply U; right; assumption|].
  pose proof (usable_plain r R) as PL. destruct R as (_ & Y & _).
  destruct (own_is upper lower title all_digits r PL Y) as (c & C & C'). destruct (cites_are upper lower title all_digits r PL) as (cs & CS & FS). exists ((r, c, cs) :: ss). split; [|constructor; [unfold sees; auto|exact F]].
  cbn [see]. rewrite C. cbn [bind]. rewrite CS. cbn [bind]. rewrite E. reflexivity.
Qed.
Lemma sees_name r s : sees r s -> c_id (snd (fst s)) = name r.
Proof. intros (_ & _ & _ & C & _). unfold name_of_record, id_of. rewrite C. reflexivity. Qed.
Lemma ids_of l cs : Forall2 (fun l c => wos_citation upper title l = Ok c) l cs -> map c_id cs = map ident l.
Proof. induction 1 as [|x c l cs H F IH]; [reflexivity|]. cbn [map]. rewrite IH. f_equal. unfold id_of. rewrite H. reflexivity. Qed.
Lemma sees_refs r s : sees r s -> map c_id (snd s) = refs r.
Proof. intros (_ & _ & _ & _ & F). apply ids_of, F. Qed.
Lemma names_texts (cs : list citation) da : CiteNetSpec.names_of api (default_opts da) cs = map IText (map c_id cs).
Proof. unfold CiteNetSpec.names_of. induction cs as [|c cs IH]; [reflexivity|]. cbn [flat_map map]. rewrite IH. reflexivity. Qed.
Lemma all_selected rs c : CiteNetSpec.selected api rapi upper (default_opts false) rs c = true.
Proof. reflexivity. Qed.
Lemma filter_all {A} (l : list A) : filter (fun _ => true) l = l.
Proof. induction l as [|a l IH]; [reflexivity|]. cbn [filter]. rewrite IH. reflexivity. Qed.
Lemma cited_texts rs r s : sees r s -> CiteNetSpec.cited_names api rapi upper (default_opts false) rs s = map IText (refs r).
Proof.
  intros S. unfold CiteNetSpec.cited_names, CiteNetSpec.cited. rewrite (filter_ext _ (fun _ => true)) by (intros c; apply all_selected). rewrite filter_all, names_texts. cbn [CiteNetModel.cites wos_rapi]. rewrite (sees_refs _ _ S). reflexivity.
Qed.
Lemma head_texts da r s : sees r s -> CiteNetSpec.head_names api rapi (default_opts da) s = [IText (name r)].
Proof. intros S. unfold CiteNetSpec.head_names. rewrite names_texts. cbn [map CiteNetModel.own wos_rapi]. rewrite (sees_name _ _ S). reflexivity. Qed.
Lemma citing_some rs r s : sees r s -> CiteNetSpec.citing api rapi upper (default_opts false) rs s = negb (length (lines_of $"CR" r) =? 0).
Proof. intros (_ & _ & _ & _ & F). unfold CiteNetSpec.citing. rewrite all_selected. cbn [andb CiteNetModel.cites wos_rapi]. rewrite (F2_length _ _ _ F). reflexivity. Qed.
Lemma always_info da ss c : (forall s, In s ss -> exists r, sees r s) -> ~ CiteNetSpec.no_info api rapi (default_opts da) ss c.
Proof.
  intros V (_ & _ & _ & s & t & F & I & G). apply find_some in F. destruct F as [F _]. apply in_rev in F. destruct (V s F) as (r & PL & Y & Q & _).
  cbn [CiteNetModel.o_values default_opts] in I. cbn [CiteNetModel.rget wos_rapi] in G. rewrite Q in G. destruct (shown_some upper lower title all_digits r PL Y t I) as (o & E & N). rewrite E in G.
  destruct o as [v|]; [|discriminate]. destruct v; cbn [shown_value] in G; try discriminate. injection G as ->. congruence.
Qed.
Lemma in_coll rs ss c : Forall2 sees rs ss -> CiteNetSpec.in_collection api rapi ss c = existsb (fun r => eqb (c_id c) (name r)) rs.
Proof. intros F. symmetry. unfold CiteNetSpec.in_collection. apply (F2_existsb sees _ _ _ _ F). intros r s S. cbn [CiteNetModel.cid CiteNetModel.own wos_api wos_rapi]. rewrite eqb_text, (sees_name _ _ S). reflexivity. Qed.
Lemma rec_of rs ss c : Forall2 sees rs ss -> option_map (fun s => WosModel.wid (fst (fst s))) (CiteNetSpec.record_of api rapi ss c) = option_map wid (find (fun r => eqb (c_id c) (name r)) (rev rs)).
Proof.
  intros F. unfold CiteNetSpec.record_of. pose proof (F2_find sees (fun r => eqb (c_id c) (name r)) (fun s : seen => eqb (CiteNetModel.cid api c) (CiteNetModel.cid api (CiteNetModel.own rapi s))) _ _ (F2_rev _ _ _ F)) as Q.
  assert (K : forall a b, sees a b -> eqb (c_id c) (name a) = eqb (CiteNetModel.cid api c) (CiteNetModel.cid api (CiteNetModel.own rapi b))).
  { intros r s S. cbn [CiteNetModel.cid CiteNetModel.own wos_api wos_rapi]. rewrite eqb_text, (sees_name _ _ S). reflexivity. }
  specialize (Q K). destruct (find _ (rev rs)) as [r|], (find _ (rev ss)) as [s|]; try contradiction; [|reflexivity]. cbn [option_map]. destruct Q as (_ & _ & -> & _). reflexivity.
Qed.
(** what a node shows: whether a record of the collection has that name, and the id of the last such record *)
Definition shows_records (rs : list wrec) (g : graph WosNetModel.name) : Prop :=
  forall n, is_node g (IText n) -> node_attr g (IText n) $"inCore" = Some (VBool (existsb (fun r => eqb n (name r)) rs)) /\
    node_attr g (IText n) $"MK-ID" = Some (VStr (match find (fun r => eqb n (name r)) (rev rs) with Some r => wid r | None => $"None" end)).
Lemma shows da rs ss c n : Forall2 sees rs ss -> CiteNetSpec.name_of api (default_opts da) c = Some (IText n) ->
  CiteNetSpec.node_shows api rapi (default_opts da) ss c (IText n) $"inCore" = Some (VBool (existsb (fun r => eqb n (name r)) rs)) /\
  CiteNetSpec.node_shows api rapi (default_opts da) ss c (IText n) $"MK-ID" = Some (VStr (match find (fun r => eqb n (name r)) (rev rs) with Some r => wid r | None => $"None" end)).
Proof.
  intros F N. injection N as <-. pose proof (in_coll rs ss c F) as IC. pose proof (rec_of rs ss c F) as RC. split.
  - transitivity (Some (VBool (CiteNetSpec.in_collection api rapi ss c))); [reflexivity|]. rewrite IC. reflexivity.
  - transitivity (match CiteNetSpec.record_of api rapi ss c with Some s => Some (VStr (WosModel.wid (fst (fst s)))) | None => Some (VStr $"None") end); [unfold CiteNetSpec.node_shows; destruct (CiteNetSpec.record_of api rapi ss c); reflexivity|].
    destruct (CiteNetSpec.record_of api rapi ss c) as [s|], (find _ (rev rs)) as [r|]; cbn [option_map] in RC; try discriminate; [|reflexivity]. injection RC as ->. reflexivity.
Qed.

(** C94: the citation network of usable records that have names is made; its nodes are the records that cite something, and what they cite; the weight of
    an edge is the number of lines of the references under which the one is cited by the other; ... *)
Theorem C94_citation : forall rs, (forall r, In r rs -> usable_record r /\ name r <> []) ->
  exists g, wos_citation_network upper lower title all_digits journal (default_opts false) true true rs = Ok g /\ gdir g = true /\
    (forall n, is_node g n <-> exists r, In r rs /\ lines_of $"CR" r <> [] /\ (n = IText (name r) \/ exists l, In l (lines_of $"CR" r) /\ n = IText (ident l))) /\
    (forall u v, is_edge g u v <-> exists r l, In r rs /\ In l (lines_of $"CR" r) /\ u = IText (name r) /\ v = IText (ident l)) /\
    (forall u v, edge_attr g (IText u) (IText v) $"weight" = positive_count (total (fun r => if eqb u (name r) then count v (refs r) else 0) rs)) /\
    shows_records rs g.
Proof.
  intros rs U. destruct (see_all rs (fun r I => proj1 (U r I))) as (ss & E & F). unfold wos_citation_network. rewrite E. cbn [bind].
  assert (V : forall s, In s ss -> exists r, In r rs /\ sees r s) by (intros s I; apply (F2_in_r _ _ _ _ F I)).
  assert (V' : forall s, In s ss -> exists r, sees r s) by (intros s I; destruct (V s I) as (r & _ & S); eauto).
  assert (HN : forall s, In s ss -> exists h, CiteNetSpec.name_of api (default_opts false) (CiteNetModel.own rapi s) = Some h /\ CiteNetModel.truthy_id api h = true).
  { intros s I. destruct (V s I) as (r & J & S). eexists. split; [reflexivity|]. cbn [CiteNetModel.own wos_rapi CiteNetModel.cid wos_api CiteNetModel.truthy_id]. rewrite (sees_name _ _ S). destruct (U r J) as (_ & N). destruct (name r); [congruence|reflexivity]. }
  assert (US : forall c, CiteNetSpec.usable api rapi (default_opts false) ss c) by (intros c; split; [discriminate|apply always_info, V']).
  destruct (PropertiesCite.C19_made_partial _ _ _ _ api rapi upper (default_opts false) true true ss (or_introl eq_refl)) as (g & Q).
  { intros s I _. split; [apply HN, I|]. split; [apply US|]. split; [discriminate|]. intros c _ _. apply US. }
  exists g. split; [exact Q|].
  destruct (PropertiesCite.C19_edges_partial _ _ _ _ api rapi upper (default_opts false) true true ss g (or_introl eq_refl) (fun s I _ => HN s I) Q) as (_ & D & N & ED & _ & W & _).
  pose proof (PropertiesCite.C19_attributes_partial _ _ _ _ api rapi upper (default_opts false) true true ss g (or_introl eq_refl) (fun s I _ => conj (HN s I) (US _)) (fun s c _ _ _ _ => US c) Q) as AT.
  split; [exact D|]. split; [|split; [|split]].
  - intros n. rewrite N. split.
    + intros (s & I & H). apply filter_In in I. destruct I as [I CI]. destruct (V s I) as (r & J & S). rewrite (citing_some ss r s S) in CI. exists r. split; [exact J|]. split; [intros Z; rewrite Z in CI; discriminate CI|].
      rewrite (head_texts _ _ _ S), (cited_texts ss _ _ S) in H. destruct H as [[<-|[]]|H]; [left; reflexivity|]. right. unfold WosNetSpec.refs in H. rewrite map_map in H. apply in_map_iff in H. destruct H as (l & <- & H). eauto.
    + intros (r & J & NE & H). destruct (F2_in_l _ _ _ _ F J) as (s & I & S). exists s. split.
      * apply filter_In. split; [exact I|]. rewrite (citing_some ss r s S). destruct (lines_of $"CR" r); [congruence|reflexivity].
      * rewrite (head_texts _ _ _ S), (cited_texts ss _ _ S). destruct H as [-> |(l & I' & ->)]; [left; left; reflexivity|]. right. apply in_map. apply (in_map ident) in I'. exact I'.
  - intros u v. rewrite ED. split.
    + intros (s & c & I & CI & IC & H). cbn [CiteNetSpec.whole] in H. destruct (V s I) as (r & J & S). unfold CiteNetSpec.cited in IC. apply filter_In in IC. destruct IC as [IC _]. cbn [CiteNetModel.cites wos_rapi] in IC.
      pose proof S as (_ & _ & _ & _ & F2). destruct (F2_in_r _ _ _ _ F2 IC) as (l & IL & CL). exists r, l. split; [exact J|]. split; [exact IL|]. cbn [orb] in H. destruct H as (H1 & H2). injection H1 as <-. injection H2 as <-.
      cbn [CiteNetModel.cid CiteNetModel.own wos_api wos_rapi]. rewrite (sees_name _ _ S). unfold id_of. rewrite CL. auto.
    + intros (r & l & J & IL & -> & ->). destruct (F2_in_l _ _ _ _ F J) as (s & I & S). pose proof S as (_ & _ & _ & _ & F2). destruct (F2_in_l _ _ _ _ F2 IL) as (c & IC & CL). exists s, c. split; [exact I|].
      split; [rewrite (citing_some ss r s S); destruct (lines_of $"CR" r); [destruct IL|reflexivity]|]. split; [apply filter_In; split; [exact IC|reflexivity]|]. cbn [orb]. unfold CiteNetSpec.name_of. cbn [CiteNetModel.o_type default_opts CiteNetModel.cid CiteNetModel.own wos_api wos_rapi].
      rewrite (sees_name _ _ S). unfold id_of. rewrite CL. auto.
  - intros u v. rewrite (W eq_refl). f_equal. cbn [orb CiteNetModel.o_weighted default_opts negb].
    rewrite total_filter.
    + symmetry. apply (total_F2 sees _ _ _ _ F). intros r s J S. unfold CiteNetSpec.arcs, pairs_from_to. rewrite (head_texts _ _ _ S), (cited_texts ss _ _ S). change [IText (name r)] with (map IText [name r]). rewrite !count_text. cbn [count]. destruct (eqb u (name r)); lia.
    + intros s CI. unfold CiteNetSpec.citing in CI. rewrite all_selected in CI. cbn [andb] in CI. unfold CiteNetSpec.arcs, pairs_from_to, CiteNetSpec.cited_names, CiteNetSpec.cited. destruct (CiteNetModel.cites rapi s); [cbn; lia|discriminate CI].
  - intros n IN. destruct (AT (IText n) IN) as (s & c & _ & _ & _ & NM & SH). rewrite !SH by discriminate. apply (shows _ _ _ _ _ F NM).
Qed.

(** ... the network of co-citations is always made, without the works of the unknown; nodes have the number of lines under which they are cited, edges the
    number of pairs of lines; ... *)
Notation known := (known_refs upper title).
Lemma known_texts ss r s : sees r s -> CiteNetSpec.cited_names api rapi upper (default_opts true) ss s = map IText (known r).
Proof.
  intros (_ & _ & _ & _ & F). unfold CiteNetSpec.cited_names, CiteNetSpec.cited. rewrite names_texts. f_equal. cbn [CiteNetModel.cites wos_rapi]. unfold known_refs.
  induction F as [|l c ls cs H F IH]; [reflexivity|]. cbn [filter]. assert (Q : CiteNetSpec.selected api rapi upper (default_opts true) ss c = negb (unknown upper title l)).
  { unfold unknown. rewrite H. unfold CiteNetSpec.selected. cbn. rewrite !andb_true_r. reflexivity. }
  rewrite Q. destruct (negb (unknown upper title l)); [|exact IH]. cbn [map]. rewrite IH. f_equal. unfold id_of. rewrite H. reflexivity.
Qed.
Theorem C94_cocitation : forall rs, (forall r, In r rs -> usable_record r) ->
  exists g, wos_co_citation upper lower title all_digits journal (default_opts true) rs = Ok g /\ gdir g = false /\
    (forall n, is_node g n <-> exists r l, In r rs /\ In l (lines_of $"CR" r) /\ unknown upper title l = false /\ n = IText (ident l)) /\
    (forall n, node_attr g (IText n) $"count" = positive_count (total (fun r => count n (known r)) rs)) /\
    (forall u v, ed g (IText u) (IText v) = edge_value true (total (fun r => pairs_within u v (known r)) rs)) /\
    shows_records rs g.
Proof.
  intros rs U. destruct (see_all rs U) as (ss & E & F). unfold wos_co_citation. rewrite E. cbn [bind].
  assert (V : forall s, In s ss -> exists r, In r rs /\ sees r s) by (intros s I; apply (F2_in_r _ _ _ _ F I)).
  assert (V' : forall s, In s ss -> exists r, sees r s) by (intros s I; destruct (V s I) as (r & _ & S); eauto).
  assert (US : forall c, CiteNetSpec.usable api rapi (default_opts true) ss c) by (intros c; split; [discriminate|apply always_info, V']).
  destruct (PropertiesCite.C18_made _ _ _ _ api rapi upper (default_opts true) ss (fun s c _ _ _ => US c)) as (g & Q). exists g. split; [exact Q|].
  destruct (PropertiesCite.C18_counts_and_weights _ _ _ _ _ _ _ _ _ _ Q) as (_ & D & N & CT & W). pose proof (PropertiesCite.C18_attributes _ _ _ _ api rapi upper (default_opts true) ss g (fun s c _ _ _ => US c) Q) as AT.
  split; [exact D|]. split; [|split; [|split]].
  - intros n. rewrite N. split.
    + intros (s & c & I & IC & SL & NM). destruct (V s I) as (r & J & S). pose proof S as (_ & _ & _ & _ & F2). destruct (F2_in_r _ _ _ _ F2 IC) as (l & IL & CL). exists r, l. split; [exact J|]. split; [exact IL|]. injection NM as <-.
      unfold unknown, id_of. rewrite CL. split; [|reflexivity]. unfold CiteNetSpec.selected in SL. cbn in SL. rewrite !andb_true_r in SL. destruct (is_anonymous c); [discriminate SL|reflexivity].
    + intros (r & l & J & IL & UN & ->). destruct (F2_in_l _ _ _ _ F J) as (s & I & S). pose proof S as (_ & _ & _ & _ & F2). destruct (F2_in_l _ _ _ _ F2 IL) as (c & IC & CL). unfold unknown, id_of in *. rewrite CL in *.
      exists s, c. split; [exact I|]. split; [exact IC|]. split; [|reflexivity]. unfold CiteNetSpec.selected. cbn. rewrite UN. reflexivity.
  - intros n. rewrite (CT eq_refl). f_equal. unfold occurs. symmetry. apply (total_F2 sees _ _ _ _ F). intros r s J S. rewrite (known_texts ss _ _ S), count_text. reflexivity.
  - intros u v. rewrite W. f_equal. symmetry. apply (total_F2 sees _ _ _ _ F). intros r s J S. rewrite (known_texts ss _ _ S). unfold pairs_within. rewrite eqb_text, !count_text. reflexivity.
  - intros n IN. destruct (AT (IText n) IN) as (s & c & _ & _ & _ & NM & SH). rewrite !SH by discriminate. apply (shows _ _ _ _ _ F NM).
Qed.

(** ... and so is that of co-authors, from the lines with their names. *)
Theorem C94_coauthor : forall (short weighted counted : bool) rs, (forall r, In r rs -> read_from_a_file r /\ ~ In $"j9" (dkeys (wfields r))) ->
  let listed := lines_of (if short then $"AU" else $"AF") in
  exists g, wos_co_author upper lower title all_digits short weighted counted rs = Ok g /\ gdir g = false /\
    (forall n, is_node g n <-> exists r, In r rs /\ In n (listed r)) /\
    (forall u v, ed g u v = edge_value weighted (total (fun r => pairs_within u v (listed r)) rs)).
Proof.
  intros short w cnt rs U listed. assert (E : all_authors upper lower title all_digits short rs = Ok (map listed rs)).
  { induction rs as [|r rs IH]; [reflexivity|]. cbn [all_authors map]. rewrite authors_are.
    - cbn [bind]. rewrite IH by (intros; apply U; right; assumption). reflexivity.
    - destruct (U r (or_introl eq_refl)) as (G & NJ). apply read_good in G. destruct G as ((F & ND) & _). split; [|split; [exact ND|exact NJ]]. eapply Forall_impl; [|exact F]. intros e ((L & _) & NE & _). auto. }
  unfold wos_co_author. rewrite E. cbn [bind].
  destruct (PropertiesCite.C17_weights _ _ _ (fun l : list str => l) (fun _ : list str => true) (fun _ : list str => []) w false cnt (map listed rs) (fun _ _ => NoDup_nil _)) as (g & Q & _ & D & N & W & _).
  assert (FA : forall l : list (list str), filter (fun _ : list str => negb false || true) l = l) by (intros l; apply filter_all). rewrite FA in N, W.
  exists g. split; [exact Q|]. split; [exact D|]. split.
  - intros n. rewrite N. split; [intros (l & I & J); apply in_map_iff in I; destruct I as (r & <- & I); eauto|]. intros (r & I & J). exists (listed r). split; [apply in_map, I|exact J].
  - intros u v. rewrite W. f_equal. clear. induction rs as [|r rs IH]; [reflexivity|]. unfold total in *. cbn [map fold_right]. rewrite IH. reflexivity.
Qed.

(** In the coupling network the weight is the number of different works that both records cite. *)
Lemma coupling_names (cs : list citation) : CiteNetSpec.names_of api coupling_opts cs = map IText (map c_id cs).
Proof. exact (names_texts cs false). Qed.
Lemma coupling_refs ss r s : sees r s -> CiteNetSpec.cited_names api rapi upper coupling_opts ss s = map IText (refs r).
Proof. exact (cited_texts ss r s). Qed.
Lemma mem_text u l : mem (IText u) (map IText l) = mem u l.
Proof. induction l as [|x l IH]; [reflexivity|]. cbn [map mem existsb]. fold (mem (IText u) (map IText l)) (mem u l). rewrite IH, eqb_text. reflexivity. Qed.
Lemma coupling_cites rs ss u n : Forall2 sees rs ss -> CiteNetSpec.cites_work api rapi upper coupling_opts ss (IText u) (IText n) = has_ref upper title rs u n.
Proof.
  intros F. unfold CiteNetSpec.cites_work, has_ref. symmetry. 
  assert (G : forall l m, Forall2 sees l m -> existsb (fun r => eqb u (name r) && mem n (refs r)) l = existsb (fun s : seen => mem (IText u) (CiteNetSpec.head_names api rapi coupling_opts s) && mem (IText n) (CiteNetSpec.cited_names api rapi upper coupling_opts ss s)) m).
  { intros l m FF. apply (F2_existsb sees _ _ _ _ FF). intros r s S. change (CiteNetSpec.head_names api rapi coupling_opts s) with (CiteNetSpec.head_names api rapi (default_opts false) s). rewrite (head_texts _ _ _ S), (coupling_refs ss _ _ S), mem_text. cbn [mem existsb]. rewrite eqb_text, orb_false_r. reflexivity. }
  apply G, F.
Qed.
Lemma flat_texts rs ss ss' : Forall2 sees rs ss' -> flat_map (CiteNetSpec.cited_names api rapi upper coupling_opts ss) ss' = map IText (flat_map refs rs).
Proof. induction 1 as [|r s l m S F IH]; [reflexivity|]. cbn [flat_map]. rewrite map_app, IH, (coupling_refs ss _ _ S). reflexivity. Qed.
Lemma first_texts l : first_seen (map IText l) = map IText (first_seen l).
Proof.
  induction l as [|x l IH]; [reflexivity|]. cbn [map first_seen]. rewrite IH. f_equal. generalize (first_seen l). intros m. induction m as [|y m IHm]; [reflexivity|]. cbn [map filter]. rewrite IHm, eqb_text. destruct (negb (eqb y x)); reflexivity.
Qed.
Lemma filter_texts (p : WosNetModel.name -> bool) l : length (filter p (map IText l)) = length (filter (fun x => p (IText x)) l).
Proof. induction l as [|x l IH]; [reflexivity|]. cbn [map filter]. destruct (p (IText x)); cbn [length]; rewrite IH; reflexivity. Qed.
Theorem C94_coupling : forall weighted rs, (forall r, In r rs -> usable_record r /\ name r <> []) ->
  exists cg, wos_citation_network upper lower title all_digits journal coupling_opts true true rs = Ok cg /\
  forall sources order, (forall n, NoDup (sources n)) -> (forall n u, In u (sources n) <-> is_edge cg u n) -> NoDup order -> (forall n, In n order <-> exists u, is_edge cg u n) ->
  exists g, CiteNetModel.bib_coupling weighted cg sources order = Ok g /\ gdir g = false /\
    (forall n, is_node g n <-> exists r, In r rs /\ n = IText (name r) /\ (exists r', In r' rs /\ ((name r' = name r /\ lines_of $"CR" r' <> []) \/ In (name r) (refs r')))) /\
    (forall u v, ed g (IText u) (IText v) = edge_value weighted (if eqb u v then 0 else length (filter (fun n => has_ref upper title rs u n && has_ref upper title rs v n) (first_seen (flat_map refs rs))))).
Proof.
  intros w rs U. destruct (see_all rs (fun r I => proj1 (U r I))) as (ss & E & F). unfold wos_citation_network. rewrite E. cbn [bind].
  assert (V : forall s, In s ss -> exists r, In r rs /\ sees r s) by (intros s I; apply (F2_in_r _ _ _ _ F I)).
  assert (V' : forall s, In s ss -> exists r, sees r s) by (intros s I; destruct (V s I) as (r & _ & S); eauto).
  destruct (PropertiesCite.C20_shared_works _ _ _ _ api rapi upper false false w ss) as (cg & Q & H).
  { intros s c I _. exact (always_info false ss c V'). }
  { intros s I. split; [discriminate|]. destruct (V s I) as (r & J & S). cbn [CiteNetModel.own wos_rapi CiteNetModel.cid wos_api CiteNetModel.truthy_id]. rewrite (sees_name _ _ S). destruct (U r J) as (_ & N). destruct (name r); [congruence|reflexivity]. }
  exists cg. split; [exact Q|]. intros sources order N1 N2 N3 N4. destruct (H sources order N1 N2 N3 N4) as (g & B & _ & D & N & _ & X). exists g. split; [exact B|]. split; [exact D|]. split.
  - intros n. rewrite N. cbn [CiteNetModel.own wos_rapi CiteNetModel.cid wos_api CiteNetModel.cites]. split.
    + intros ((s & I & ->) & (s' & I' & K)). destruct (V s I) as (r & J & S). destruct (V s' I') as (r' & J' & S'). exists r. split; [exact J|]. rewrite (sees_name _ _ S) in *. split; [reflexivity|]. exists r'. split; [exact J'|].
      rewrite (sees_name _ _ S') in K. destruct K as [(K & NE)|K].
      * left. split; [congruence|]. intros Z. apply NE. destruct S' as (_ & _ & _ & _ & F2). rewrite Z in F2. inversion F2. reflexivity.
      * right. assert (K' : In (IText (name r)) (map IText (refs r'))) by (rewrite <- (sees_refs _ _ S'), map_map; exact K). apply in_map_iff in K'. destruct K' as (x & Q1 & Q2). injection Q1 as <-. exact Q2.
    + intros (r & J & -> & r' & J' & K). destruct (F2_in_l _ _ _ _ F J) as (s & I & S). destruct (F2_in_l _ _ _ _ F J') as (s' & I' & S'). split; [exists s; split; [exact I|]; rewrite (sees_name _ _ S); reflexivity|].
      exists s'. split; [exact I'|]. rewrite (sees_name _ _ S'). destruct K as [(K & NE)|K].
      * left. split; [congruence|]. intros Z. apply NE. destruct S' as (_ & _ & _ & _ & F2). rewrite Z in F2. destruct (lines_of $"CR" r'); [reflexivity|inversion F2].
      * right. rewrite <- (map_map c_id IText). apply in_map. rewrite (sees_refs _ _ S'). exact K.
  - intros u v. rewrite X, eqb_text. f_equal. destruct (eqb u v); [reflexivity|]. unfold CiteNetSpec.shared_works. fold coupling_opts. rewrite (flat_texts rs ss ss F), first_texts, filter_texts. f_equal. apply filter_ext. intros n. rewrite !(coupling_cites rs ss _ _ F). reflexivity.
Qed.

(** A record whose year is not of four characters makes all of these fail, whatever the other records are. *)
Lemma bad_year_own r : plain r -> lines_of $"PY" r <> [] -> length (first_line $"PY" r) <> 4 -> exists e, wos_own upper lower title all_digits r = Raise e.
Proof.
  intros PL NE L. unfold first_line, lines_of in *. destruct (dget $"PY" (wfields r)) as [raw|] eqn:D; [|congruence]. destruct raw as [|v vs]; [congruence|]. cbn [hd] in L.
  set (cl := kind_of upper lower title all_digits r). 
  assert (A : exists x, RecordProofs.value cl (wfields r) 1 $"authorsShort" = Some x /\ match x with Raise KeyError => True | Raise _ => False | Ok v => truthy v = true /\ exists s, piece $"authorsShort" v = Ok s end).
  { unfold cl. rewrite (value_named upper lower title all_digits r PL 0 $"authorsShort" $"AU"); [|vm_compute; reflexivity|left; vm_compute; discriminate|vm_compute; reflexivity|vm_compute; reflexivity].
    eexists. split; [reflexivity|]. destruct (dget $"AU" (wfields r)) as [w|] eqn:E; [|exact Logic.I]. destruct (some_lines r PL _ _ E) as (a & l & ->). split; [reflexivity|]. eexists. reflexivity. }
  assert (Y : RecordProofs.value cl (wfields r) 1 $"year" = Some (Raise ValueError)).
  { unfold cl. rewrite (value_named upper lower title all_digits r PL 0 $"year" $"PY"); [|vm_compute; reflexivity|left; vm_compute; discriminate|vm_compute; reflexivity|vm_compute; reflexivity]. rewrite D. f_equal. apply C71_year; [exact 0%Z|exact L]. }
  assert (R : RecordProofs.runp (RecordProofs.value cl (wfields r) 1) (create_citation truthy piece (cite upper title)) = Some (Raise ValueError)).
  { unfold create_citation. cbn [parts]. destruct A as (x & A & H). unfold part at 1. unfold ask_get, ask. cbn [RecordProofs.runp]. rewrite A. destruct x as [w|ex].
    - destruct H as (T & s & P). rewrite T. cbn [RecordProofs.runp]. rewrite A, P. unfold part at 1. unfold ask_get. cbn [RecordProofs.runp]. rewrite Y. reflexivity.
    - destruct ex; try contradiction H. unfold part at 1. unfold ask_get. cbn [RecordProofs.runp]. rewrite Y. reflexivity. }
  destruct (@RecordProofs.run_ok _ _ cl (wfields r) (getitem cl (wfields r) 1) _ _ (@RecordProofs.getitem_ok _ _ cl (wfields r) (fields_back upper lower title all_digits r PL) (special_alone upper lower title all_digits r) 1) [] _ (RecordProofs.valid_nil _ _) R) as (c' & Q & _).
  exists ValueError. unfold wos_own. fold cl. rewrite Q. reflexivity.
Qed.
Theorem C94_year_refuted : forall (dropAnon directed recordToCite : bool) rs r, let o := default_opts dropAnon in In r rs -> read_from_a_file r -> ~ In $"j9" (dkeys (wfields r)) -> lines_of $"PY" r <> [] -> length (first_line $"PY" r) <> 4 ->
  (exists e, wos_citation_network upper lower title all_digits journal o directed recordToCite rs = Raise e) /\ (exists e, wos_co_citation upper lower title all_digits journal o rs = Raise e).
Proof.
  intros da directed rtc rs r o I G NJ NE L. assert (PL : plain r). { apply read_good in G. destruct G as ((F & ND) & _). split; [|split; [exact ND|exact NJ]]. eapply Forall_impl; [|exact F]. intros e ((L' & _) & N & _). auto. }
  destruct (bad_year_own r PL NE L) as (e & B). assert (S : exists e, see upper lower title all_digits rs = Raise e).
  { clear - I B. induction rs as [|x rs IH]; [destruct I|]. cbn [see]. destruct I as [Q|I]; [rewrite Q, B; exists e; reflexivity|]. destruct (wos_own upper lower title all_digits x) as [c|e']; [cbn [bind]|exists e'; reflexivity]. destruct (wos_cites upper lower title all_digits x) as [l|e']; [cbn [bind]|exists e'; reflexivity]. destruct (IH I) as (e' & ->). exists e'. reflexivity. }
  destruct S as (e' & S). unfold wos_citation_network, wos_co_citation. rewrite S. split; exists e'; reflexivity.
Qed.

(** The collection can be written in any order and read again: the networks have the same nodes, edges and weights. *)
Lemma usable_bytes r : read_from_bytes r -> read_from_a_file r.
Proof. apply bytes_file. Qed.
Theorem C94_saved : forall alpha rs rs' path before ext fname, rs <> [] -> NoDup (map wid rs) -> Permutation rs rs' -> path = before ++ ext -> fname <> [] ->
  (forall r, In r rs -> read_from_bytes r /\ year_ok r /\ ~ In $"j9" (dkeys (wfields r)) /\ name r <> []) ->
  exists b g g' h h', write_wos_bytes rs' = Ok b /\ read_path alpha path fname ext b = Ok (mkFcoll (map WosRec rs') [$"WOSRecord"] fname false []) /\
    wos_citation_network upper lower title all_digits journal (default_opts false) true true rs = Ok g /\
    wos_citation_network upper lower title all_digits journal (default_opts false) true true rs' = Ok g' /\
    wos_co_citation upper lower title all_digits journal (default_opts true) rs = Ok h /\
    wos_co_citation upper lower title all_digits journal (default_opts true) rs' = Ok h' /\
    (forall n, is_node g n <-> is_node g' n) /\ (forall u v, is_edge g u v <-> is_edge g' u v) /\
    (forall u v, edge_attr g (IText u) (IText v) $"weight" = edge_attr g' (IText u) (IText v) $"weight") /\
    (forall n, is_node h n <-> is_node h' n) /\ (forall n, node_attr h (IText n) $"count" = node_attr h' (IText n) $"count") /\ (forall u v, ed h (IText u) (IText v) = ed h' (IText u) (IText v)).
Proof.
  intros alpha rs rs' path before ext fname NE ND PM EP NN H.
  assert (H' : forall r, In r rs' -> read_from_bytes r /\ year_ok r /\ ~ In $"j9" (dkeys (wfields r)) /\ name r <> []) by (intros r I; apply H; eapply Permutation_in; [apply Permutation_sym, PM|exact I]).
  assert (NE' : rs' <> []) by (intros ->; apply Permutation_sym, Permutation_nil in PM; contradiction).
  assert (ND' : NoDup (map wid rs')) by (eapply Permutation_NoDup; [apply Permutation_map, PM|exact ND]).
  assert (TT : forall f : wrec -> nat, total f rs = total f rs'). { intros f. apply RecordViewFacts.total_perm, PM. }
  assert (EX : forall Q : wrec -> Prop, (exists r, In r rs /\ Q r) <-> (exists r, In r rs' /\ Q r)).
  { intros Q. split; intros (r & I & X); exists r; (split; [|exact X]); eapply Permutation_in; [exact PM|exact I|apply Permutation_sym, PM|exact I]. }
  destruct (C76_wos alpha rs' path before ext fname NE' ND' (fun r I => proj1 (H' r I)) EP NN) as (b & W & RD).
  destruct (C94_citation rs) as (g & G & _ & N & ED & WT & _). { intros r I. destruct (H r I) as (A & B & C & D). split; [|exact D]. split; [apply usable_bytes, A|]. auto. }
  destruct (C94_citation rs') as (g' & G' & _ & N' & ED' & WT' & _). { intros r I. destruct (H' r I) as (A & B & C & D). split; [|exact D]. split; [apply usable_bytes, A|]. auto. }
  destruct (C94_cocitation rs) as (h & K & _ & M & CT & X & _). { intros r I. destruct (H r I) as (A & B & C & D). split; [apply usable_bytes, A|]. auto. }
  destruct (C94_cocitation rs') as (h' & K' & _ & M' & CT' & X' & _). { intros r I. destruct (H' r I) as (A & B & C & D). split; [apply usable_bytes, A|]. auto. }
  exists b, g, g', h, h'. split; [exact W|]. split; [exact RD|]. split; [exact G|]. split; [exact G'|]. split; [exact K|]. split; [exact K'|].
  split; [intros n; rewrite N, N'; apply EX|]. split; [intros u v; rewrite ED, ED'|].
  { split; intros (r & l & I & X0); [destruct (proj1 (EX (fun r => exists l, In l (lines_of $"CR" r) /\ u = IText (name r) /\ v = IText (ident l)))) as (r' & I' & l' & Z)|
      destruct (proj2 (EX (fun r => exists l, In l (lines_of $"CR" r) /\ u = IText (name r) /\ v = IText (ident l)))) as (r' & I' & l' & Z)]; eauto 6. }
  split; [intros u v; rewrite WT, WT', TT; reflexivity|]. split; [intros n; rewrite M, M'|].
  { split; intros (r & l & I & X0); [destruct (proj1 (EX (fun r => exists l, In l (lines_of $"CR" r) /\ unknown upper title l = false /\ n = IText (ident l)))) as (r' & I' & l' & Z)|
      destruct (proj2 (EX (fun r => exists l, In l (lines_of $"CR" r) /\ unknown upper title l = false /\ n = IText (ident l)))) as (r' & I' & l' & Z)]; eauto 6. }
  split; [intros n; rewrite CT, CT', TT; reflexivity|]. intros u v. rewrite X, X', TT. reflexivity.
Qed.
End Networks.

(** ** What a record is called *)
Section Names.
Variable up : char -> str.
Variables lower title : str -> str.
Variable all_digits : str -> bool.
Variable journal : option str -> option str.
Notation upper := (flat_map up).
(** a record with an author, a year, a short name of the journal and what else it has, none of them with commas where these would be taken for separators *)
Definition described (r : wrec) (a : str) (y : Z) (j : str) : Prop :=
  (exists l, lines_of $"AU" r = a :: l) /\ first_line $"PY" r = dec_Z y /\ (1000 <= y <= 9999)%Z /\ first_line $"J9" r = j /\
  (exists x1 x2 t, upper (no_comma a) = x1 :: x2 :: t /\ is_09 x1 = false) /\ ~ In 44%N (upper (no_comma a)) /\ upper j <> [] /\ ~ In 44%N (upper j) /\
  ~ In 44%N (upper (strip (first_line $"VL" r))) /\ ~ In 44%N (upper (strip (first_line $"BP" r))) /\ ~ In 10%N (upper (first_line $"DI" r)).
Definition called (a : str) (y : Z) (j : str) : str := title (without_dots (upper (no_comma a))) ++ $", " ++ dec_Z y ++ $", " ++ upper j.
(** a text if there is one *)
Definition some_text (s : str) : option str := match s with [] => None | _ => Some s end.
Lemma after_opt before s : after before s = opt_part (fun t => before ++ t) (some_text s).
Proof. destruct s; reflexivity. Qed.
(** C94: a record is called by its first author, its year and its journal, ... *)
Theorem C94_name : forall r a y j, ascii_kept up -> (forall c, up c <> []) -> described r a y j -> name_of_record upper title r = called a y j.
Proof.
  intros r a y j K NE ((l & EA) & EY & BY & EJ & HA & CA & HJ & CJ & CV & CP & CD).
  assert (ND : forall s, s <> [] -> upper s <> []). { intros [|c s] N; [congruence|]. cbn [flat_map]. pose proof (NE c). destruct (up c); [congruence|discriminate]. }
  unfold name_of_record, id_of. unfold reference_text. rewrite EA, EY, EJ.
  destruct (dec_some y BY) as (c & s & ED). assert (AY : after [] (dec_Z y) = [dec_Z y]) by (rewrite ED; reflexivity). rewrite AY.
  destruct j as [|j0 js]; [exfalso; apply HJ; reflexivity|]. change (after [] (j0 :: js)) with [j0 :: js]. set (j := j0 :: js) in *.
  rewrite !after_opt. set (v := some_text (strip (first_line $"VL" r))). set (p := some_text (strip (first_line $"BP" r))). set (d := some_text (first_line $"DI" r)).
  pose proof (self_text up K (no_comma a) y j v p d) as ST.
  assert (Q : forall n t (s : str), ~ In n (upper s) -> option_map upper (some_text s) = Some t -> t <> [] /\ ~ In n t).
  { intros n t s0 N E. destruct s0 as [|x s0]; [discriminate E|]. cbn [some_text option_map] in E. injection E as <-. split; [apply (ND (x :: s0)); discriminate|exact N]. }
  rewrite (@C28_documented_form upper title _ (upper (no_comma a)) y (upper j) (option_map upper v) (option_map upper p) (option_map upper d) HA CA ltac:(lia) HJ CJ).
  - reflexivity.
  - intros t E. apply (Q _ _ _ CV E).
  - intros t E. apply (Q _ _ _ CP E).
  - intros t E. apply (Q _ _ _ CD E).
  - exact ST.
Qed.
(** ... so the network has an edge to a record of the collection from each record with a reference to it that has this author, year and journal, whatever
    volume, page and DOI are given; and its node is shown as one of the collection. *)
Theorem C94_cited : forall rs r r' a y j l v p d, ascii_kept up -> (forall c, up c <> []) -> (forall x, In x rs -> usable_record x /\ name_of_record upper title x <> []) -> In r rs -> In r' rs ->
  described r' a y j -> In l (lines_of $"CR" r) ->
  (forall t, v = Some t -> t <> [] /\ ~ In 44%N t) -> (forall t, p = Some t -> t <> [] /\ ~ In 44%N t) -> (forall t, d = Some t -> t <> [] /\ ~ In 10%N t) ->
  upper l = upper (no_comma a) ++ $", " ++ dec_Z y ++ $", " ++ upper j ++ (match v with Some v => $", V" ++ v | None => [] end) ++ (match p with Some p => $", P" ++ p | None => [] end)
    ++ (match d with Some d => $", DOI " ++ d | None => [] end) ->
  exists g, wos_citation_network upper lower title all_digits journal (default_opts false) true true rs = Ok g /\
    is_edge g (IText (name_of_record upper title r)) (IText (called a y j)) /\ node_attr g (IText (called a y j)) $"inCore" = Some (VBool true).
Proof.
  intros rs r r' a y j l v p d K NE U I I' DS IL Hv Hp Hd E. destruct (C94_citation upper lower title all_digits journal rs U) as (g & G & _ & N & ED & _ & SH). exists g. split; [exact G|].
  assert (IE : id_of upper title l = called a y j). { pose proof DS as ((l0 & EA) & EY & BY & EJ & HA & CA & HJ & CJ & _). unfold id_of. rewrite (@C28_documented_form upper title l _ y (upper j) v p d HA CA ltac:(lia) HJ CJ Hv Hp Hd E). reflexivity. }
  split; [apply ED; exists r, l; rewrite IE; auto|].
  assert (NN : is_node g (IText (called a y j))). { apply N. exists r. split; [exact I|]. split; [intros Z; rewrite Z in IL; destruct IL|]. right. exists l. rewrite IE. auto. }
  destruct (SH _ NN) as (Q & _). rewrite Q. do 2 f_equal. apply existsb_exists. exists r'. split; [exact I'|]. rewrite (C94_name r' a y j K NE DS), eqb_refl. reflexivity.
Qed.
End Names.

(** ** A file of two records *)
Definition ex_file : str := join [nl] [$"FN Thomson"; $"VR 1.0"; $"PT J"; $"AU Doe, J."; $"   Roe, K"; $"AF Doe, Jane"; $"   Roe, Kim"; $"TI On things"; $"J9 NATURE"; $"PY 1999"; $"VL 4";
  $"CR Poe B, 1990, SCIENCE, V1"; $"   Zed Q, 1901, MIND"; $"   [Anonymous], 1900, TIMES"; $"UT WOS:1"; $"ER"; []; $"PT J"; $"AU Loe, M"; $"AF Loe, Max"; $"J9 MIND"; $"PY 2004"; $"BP 7";
  $"CR Doe J., 1999, NATURE, V4, P12"; $"   Zed Q, 1901, MIND"; $"   Poe B, 1990, Science"; $"UT WOS:2"; $"ER"; []; $"EF"].
Definition ex_up (c : char) : str := if ((97 <=? c) && (c <=? 122))%N then [(c - 32)%N] else [c].
Definition ex_recs : list wrec := fst (wos_parse ex_file).
Example C94_ex_read : exists r1 r2, wos_parse ex_file = ([r1; r2], None) /\ (forall r, In r [r1; r2] -> usable_record r /\ name_of_record (flat_map ex_up) (fun s => s) r <> []) /\
  described ex_up r1 $"Doe, J." 1999 $"NATURE" /\ name_of_record (flat_map ex_up) (fun s => s) r1 = $"DOE J, 1999, NATURE" /\
  In $"Doe J., 1999, NATURE, V4, P12" (lines_of $"CR" r2) /\ ascii_kept ex_up /\ (forall c, ex_up c <> []).
Proof.
  destruct (wos_parse ex_file) as [l e] eqn:E. pose proof E as E'. vm_compute in E'. injection E' as <- <-. eexists _, _. split; [reflexivity|]. split; [|split; [|split; [vm_compute; reflexivity|split; [vm_compute; auto|split]]]].
  - intros r I. assert (B : wbad r = false) by (destruct I as [<-|[<-|[]]]; reflexivity).
    split; [split; [exists ex_file; eexists _, _; split; [exact E|auto]|split]|].
    + destruct I as [<-|[<-|[]]]; right; [exists 1999%Z|exists 2004%Z]; (split; [lia|vm_compute; reflexivity]).
    + destruct I as [<-|[<-|[]]]; vm_compute; intuition discriminate.
    + destruct I as [<-|[<-|[]]]; vm_compute; discriminate.
  - unfold described. repeat split; try lia; try (vm_compute; reflexivity); try (vm_compute; intuition discriminate); try (vm_compute; discriminate).
    + eexists. vm_compute. reflexivity.
    + eexists _, _, _. vm_compute. split; reflexivity.
  - intros c I. each I; reflexivity.
  - intros c. unfold ex_up. destruct ((97 <=? c) && (c <=? 122))%N; discriminate.
Qed.
Definition ex_id (s : str) : str := s.
Example C94_ex_networks :
  (exists g, wos_citation_network (flat_map ex_up) ex_id ex_id (forallb digit09) (fun _ => None) (default_opts false) true true ex_recs = Ok g /\
    edge_attr g (IText $"LOE M, 2004, MIND") (IText $"DOE J, 1999, NATURE") $"weight" = Some (VInt 1) /\ node_attr g (IText $"DOE J, 1999, NATURE") $"MK-ID" = Some (VStr $"WOS:1") /\
    ed g (IText $"DOE J, 1999, NATURE") (IText $"LOE M, 2004, MIND") = None) /\
  (exists g, wos_co_citation (flat_map ex_up) ex_id ex_id (forallb digit09) (fun _ => None) (default_opts true) ex_recs = Ok g /\
    edge_attr g (IText $"POE B, 1990, SCIENCE") (IText $"ZED Q, 1901, MIND") $"weight" = Some (VInt 2) /\ node_attr g (IText $"ZED Q, 1901, MIND") $"count" = Some (VInt 2)) /\
  (exists g, wos_co_author (flat_map ex_up) ex_id ex_id (forallb digit09) false true true ex_recs = Ok g /\ edge_attr g $"Doe, Jane" $"Roe, Kim" $"weight" = Some (VInt 1)).
Proof.
  split; [|split].
  - destruct (wos_citation_network _ _ _ _ _ _ _ _ _) as [g|] eqn:E; vm_compute in E; [|discriminate]. injection E as <-. eexists. split; [reflexivity|]. vm_compute. auto.
  - destruct (wos_co_citation _ _ _ _ _ _ _) as [g|] eqn:E; vm_compute in E; [|discriminate]. injection E as <-. eexists. split; [reflexivity|]. vm_compute. auto.
  - destruct (wos_co_author _ _ _ _ _ _ _ _) as [g|] eqn:E; vm_compute in E; [|discriminate]. injection E as <-. eexists. split; [reflexivity|]. vm_compute. auto.
Qed.
(** a record of a file whose year is of five characters *)
Definition ex_bad_file : str := join [nl] [$"FN Thomson"; $"VR 1.0"; $"PT J"; $"PY 1999a"; $"UT WOS:1"; $"ER"; []; $"EF"].
Example C94_year_ex : exists r, wos_parse ex_bad_file = ([r], None) /\ wbad r = false /\ ~ In $"j9" (dkeys (wfields r)) /\ lines_of $"PY" r <> [] /\ length (first_line $"PY" r) <> 4.
Proof.
  destruct (wos_parse ex_bad_file) as [l e] eqn:E. vm_compute in E. injection E as <- <-. eexists. split; [reflexivity|]. split; [reflexivity|]. split; [vm_compute; intuition discriminate|]. vm_compute. split; discriminate.
Qed.
Print Assumptions C94_citation.
Print Assumptions C94_cocitation.
Print Assumptions C94_coauthor.
Print Assumptions C94_coupling.
Print Assumptions C94_year_refuted.
Print Assumptions C94_saved.
Print Assumptions C94_name.
Print Assumptions C94_cited.
