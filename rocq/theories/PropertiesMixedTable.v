(** * C108: the table of all cited works over several databases. *)
From Coq Require Import List ZArith Lia Bool Arith Permutation.
From Coq Require Import String.
From Verif Require Import Base PyStr PyInt CitationModel CitationSpec TagNames RecordModel GrantModel ValuesModel PropertiesCitation PropertiesValues WosModel WosNetModel WosNetSpec WosNetProofs
  PropertiesWosNet Nx NxFacts SeriesSpec NetSpec NetFacts WosTagsModel WosTagsSpec WosTagsProofs MixedModel MixedSpec MixedProofs PropertiesMixed MixedNetModel MixedNetSpec MixedNetProofs PropertiesMoreWosNet PropertiesMixedNet PropertiesMoreMixedNet
  AnalysisModel MixedCiteModel PropertiesMixedCite PropertiesMixedFilter MixedTableModel.
From Verif Require MedlineModel ScopusModel ProQuestModel ScopusCiteSpec CiteTableModel CiteTableSpec PropertiesCiteTable.
Import ListNotations.
Local Open Scope list_scope.
Import CiteTableModel.

Section Table.
Variables upper lower title : str -> str.
Variable all_digits : str -> bool.
Variables word num : char -> bool.
Variable int_of : str -> Z.
Variable text : anyrec -> str.
Variable refs : anyrec -> list str.
Notation described := (described text refs).
Notation named := (named upper title word num int_of).
Notation is_cite := (is_cite upper title word num int_of).
Notation holds := (holds upper title word num int_of refs).
Notation call := (any_cite_table upper lower title all_digits word num int_of).

(** all references of the records, one after the other, each with its record; and the work that one names *)
Definition all_refs (rs : list anyrec) : list (anyrec * str) := flat_map (fun r => map (pair r) (refs r)) rs.
Definition work (p : anyrec * str) : str := named (fst p) (snd p).
(** a cell tells what the reference says, and is empty if it does not say it *)
Definition tells_cell {A} (says : anyrec -> str -> A -> Prop) (p : anyrec * str) (cell : option A) : Prop := forall a, cell = Some a <-> says (fst p) (snd p) a.

Definition is_ref (p : anyrec * str) (c : cite) : Prop := exists d, is_cite (fst p) (snd p) d /\ c = to_cite d.
Lemma given_refs rs hs : Forall2 holds rs hs -> Forall2 is_ref (all_refs rs) (CiteTableSpec.given held_cites hs).
Proof.
  intros F. unfold all_refs, CiteTableSpec.given, held_cites. induction F as [|r h rs hs (_ & FC) F IH]; [constructor|]. cbn [flat_map]. apply Forall2_app; [|exact IH].
  induction FC as [|l d ls ds H FC IHC]; [constructor|]. cbn [map]. constructor; [exists d; auto|exact IHC].
Qed.
Lemma work_is p c : is_ref p c -> q_id c = work p.
Proof. intros (d & H & ->). apply (id_any upper title word num int_of _ _ _ H). Qed.
Lemma works_are ps cs : Forall2 is_ref ps cs -> map q_id cs = map work ps.
Proof. induction 1 as [|p c ps cs H F IH]; [reflexivity|]. cbn [map]. rewrite IH, (work_is p c H). reflexivity. Qed.
Lemma some_refs all cs : Forall2 is_ref all cs -> forall l, (forall c, In c l -> In c cs) -> exists ps, Forall2 is_ref ps l /\ forall p, In p ps -> In p all.
Proof.
  intros F. induction l as [|c l IH]; intros S; [exists []; split; [constructor|intros p []]|]. destruct IH as (ps & F2 & S2); [intros; apply S; right; assumption|].
  destruct (F2_in_r _ _ _ _ F (S c (or_introl eq_refl))) as (p & I & H). exists (p :: ps). split; [constructor; assumption|]. intros q [<-|J]; [exact I|apply S2, J].
Qed.
Lemma times_count all c : CiteTableSpec.times all c = count (q_id c) (map q_id all).
Proof.
  unfold CiteTableSpec.times. induction all as [|d all IH]; [reflexivity|]. cbn [filter map count]. destruct (list_eq_dec N.eq_dec (q_id d) (q_id c)) as [E|E].
  - cbn [length]. rewrite IH, E, eqb_refl. reflexivity.
  - assert (N : q_id c <> q_id d) by congruence. rewrite IH, (neq_eqb N). reflexivity.
Qed.
(** C108: every cited work has one row, with the text, the author, the year and the journal of one of the references to it, the number of references to it, and that number out of all references. *)
Theorem C108_table : forall order rs, ScopusCiteSpec.plain_classes word num -> (forall l, Permutation l (order l)) -> (forall r, In r rs -> described r) ->
  let all := all_refs rs in
  exists ps t, call order true rs = Ok t /\ (forall p, In p ps -> In p all) /\ NoDup (map work ps) /\ (forall p, In p all -> In (work p) (map work ps)) /\
    t_text t = map snd ps /\ Forall2 (tells_cell (author_ref upper title word num)) ps (t_author t) /\ Forall2 (tells_cell (year_ref upper word num int_of)) ps (t_year t) /\
    Forall2 (tells_cell (journal_ref upper word num)) ps (t_journal t) /\
    t_num t = map (fun p => count (work p) (map work all)) ps /\ t_overall t = map (fun p => (count (work p) (map work all), length all)) ps.
Proof.
  intros order rs PC PO U all. destruct (hold_all upper lower title all_digits word num int_of text refs rs U) as (hs & E & F). unfold any_cite_table. rewrite E. cbn [bind].
  pose proof (given_refs rs hs F) as G. fold all in G. destruct (PropertiesCiteTable.C64_everything held_cites order (None : option (list (option str))) hs PO) as (l & t & T & (ND & SUB & COV) & (RT & RY & RJ & RA) & TN & TO & _).
  destruct (some_refs _ _ G l SUB) as (ps & FP & SP). exists ps, t. split; [exact T|]. split; [exact SP|]. split; [rewrite <- (works_are ps l FP); exact ND|]. split.
  { intros p I. destruct (F2_in_l _ _ _ _ G I) as (c & J & H). destruct (COV c J) as (d & K & Q). rewrite <- (works_are ps l FP), <- (work_is p c H), <- Q. apply in_map, K. }
  pose proof (works_are _ _ G) as WA. assert (LA : length (CiteTableSpec.given held_cites hs) = length all) by (rewrite <- (map_length q_id), WA, map_length; reflexivity).
  rewrite RT, RA, RY, RJ, TN, TO, LA. clear - FP PC WA. generalize dependent (CiteTableSpec.given held_cites hs). intros cs WA.
  assert (C : forall p c, is_ref p c -> q_original c = snd p /\ tells_cell (author_ref upper title word num) p (CiteTableSpec.cell_of (q_author c)) /\ tells_cell (year_ref upper word num int_of) p (CiteTableSpec.cell_of (q_year c)) /\
    tells_cell (journal_ref upper word num) p (CiteTableSpec.cell_of (q_journal c)) /\ CiteTableSpec.times cs c = count (work p) (map work all)).
  { intros p c R. pose proof (work_is p c R) as W. destruct R as (d & H & ->). destruct (parts_any upper title word num int_of _ _ _ PC H) as (O & A & Y). destruct (journal_any upper title word num int_of _ _ _ PC H) as (J & _). split; [exact O|].
    assert (K : forall A (says : anyrec -> str -> A -> Prop) (x : attr A), (forall a, x = Has a <-> says (fst p) (snd p) a) -> tells_cell says p (CiteTableSpec.cell_of x)).
    { intros X says x Q a. rewrite <- Q. destruct x; cbn [CiteTableSpec.cell_of]; split; congruence. }
    split; [apply K, A|]. split; [apply K, Y|]. split; [apply K, J|]. rewrite times_count, W, WA. reflexivity. }
  induction FP as [|p c ps l R FP IH]; [repeat split; constructor|]. destruct (C p c R) as (C1 & C2 & C3 & C4 & C5). destruct IH as (I1 & I2 & I3 & I4 & I5 & I6). cbn [map]. rewrite C1, C5, I1, I5, I6. repeat split; try constructor; assumption.
Qed.
End Table.
(** the records of C103_ex, which are described there *)
Example C108_table_ex : exists w m, wos_parse mixnet_wos = ([w], None) /\ MedlineModel.medline_file mix_alpha mixnet_medline = Ok ([m], false) /\ exists t,
  any_cite_table mixnet_up mix_id mix_id (forallb digit09) mix_word digit09 mixnet_int (fun l => l) true [AnyWos w; AnyMedline m; AnyScopus mixnet_scopus; AnyProQuest mixnet_proquest] = Ok t /\
  t_text t = [$"Smith A, 1990, SCIENCE, V1"; $"DOE J, 1999, CELL"; $"ANON"; $"Smith A., On rocks (1990) Science, 1"; $"no author"] /\
  t_author t = [Some $"SMITH A"; Some $"DOE J"; Some $"ANON"; Some $"SMITH A."; None] /\ t_num t = [1; 1; 1; 2; 1] /\ t_overall t = [(1, 6); (1, 6); (1, 6); (2, 6); (1, 6)].
Proof.
  destruct (wos_parse mixnet_wos) as [l e] eqn:E. vm_compute in E. injection E as <- <-. destruct (MedlineModel.medline_file mix_alpha mixnet_medline) as [[l' e']|] eqn:M; vm_compute in M; [|discriminate M]. injection M as <- <-.
  match goal with |- exists w m, ([?a], None) = _ /\ Ok ([?b], false) = _ /\ _ => exists a, b end. split; [reflexivity|]. split; [reflexivity|].
  match goal with |- exists t, ?x = Ok t /\ _ => destruct x as [t|] eqn:T; vm_compute in T; [|discriminate T] end. injection T as <-. eexists. split; [reflexivity|]. vm_compute. auto.
Qed.
Print Assumptions C108_table.
