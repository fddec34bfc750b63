(** * C108: the years cited by collections with records of several databases. *)
From Coq Require Import List ZArith Lia Bool Arith Permutation.
From Coq Require Import String.
From Verif Require Import Base PyStr PyInt CitationModel CitationSpec TagNames RecordModel GrantModel ValuesModel PropertiesCitation PropertiesValues WosModel WosNetModel WosNetSpec WosNetProofs
  PropertiesWosNet Nx NxFacts SeriesSpec NetSpec NetFacts WosTagsModel WosTagsSpec WosTagsProofs MixedModel MixedSpec MixedProofs PropertiesMixed MixedNetModel MixedNetSpec MixedNetProofs PropertiesMoreWosNet PropertiesMixedNet PropertiesMoreMixedNet
  AnalysisModel MixedCiteModel PropertiesMixedCite YearsModel YearsSpec PropertiesYears MixedRpysModel.
From Verif Require MedlineModel ScopusModel ProQuestModel ScopusCiteSpec AnalysisSpec AnalysisProofs PropertiesAnalysis.
Import ListNotations.
Local Open Scope list_scope.

Section Rpys.
Variables upper lower title : str -> str.
Variable all_digits : str -> bool.
Variables word num : char -> bool.
Variable int_of : str -> Z.
Variable text : anyrec -> str.
Variable refs : anyrec -> list str.
Variable order : list Z -> list Z.
Notation described := (described text refs).
Notation is_cite := (is_cite upper title word num int_of).
Notation year_ref := (year_ref upper word num int_of).
Notation holds := (holds upper title word num int_of refs).
Notation call := (any_rpys upper lower title all_digits word num int_of order).

(** the number of references to year [y] that are at least two years older than the record that has them; those of a record without a year all count *)
Definition to_year (ref_year : anyrec -> str -> option Z) (years : anyrec -> list thing) (rs : list anyrec) (y : Z) : nat :=
  total (fun r => length (filter (fun l => match ref_year r l with
    | Some z => Z.eqb z y && match years r with [Number q] => (z + 2 <=? q)%Z | _ => true end
    | None => false end) (refs r))) rs.
(** the years between the bounds of the caller, with two more on each side, to which there are references *)
Definition within (n : Z -> nat) (lo hi : option Z) (y : Z) : Prop := 0 < n y /\ (forall l, lo = Some l -> (l - 2 <= y)%Z) /\ (forall h, hi = Some h -> (y <= h + 2)%Z).
(** the first and the last year of the table: those of the caller, or the first and the last such year if these are after 1000 and before 2100 *)
Definition starts (n : Z -> nat) (lo hi : option Z) (a : Z) : Prop :=
  match lo with Some l => a = l | None => (1000 < a)%Z /\ within n lo hi a /\ forall y, within n lo hi y -> (a <= y)%Z end.
Definition ends (n : Z -> nat) (lo hi : option Z) (b : Z) : Prop :=
  match hi with Some h => b = h | None => (b < 2100)%Z /\ within n lo hi b /\ forall y, within n lo hi y -> (y <= b)%Z end.
(** the middle one of five numbers *)
Definition middle (m : Z) (l : list Z) : Prop :=
  length l = 5 /\ In m l /\ 3 <= length (filter (fun x => (x <=? m)%Z) l) /\ 3 <= length (filter (fun x => (m <=? x)%Z) l).

Definition ref_year (r : anyrec) (l : str) : option Z :=
  match r with
  | AnyScopus _ => match q_year (to_cite (scopus_of upper word num int_of l)) with Has z => Some z | _ => None end
  | _ => match wos_citation upper title l with Ok c => c_year c | Raise _ => None end
  end.
Lemma ref_year_of r l c : is_cite r l c -> match q_year (to_cite c) with Has z => Some z | _ => None end = ref_year r l.
Proof.
  destruct r; cbn [MixedNetProofs.is_cite ref_year]; try (intros (c' & -> & W); rewrite W; cbn [to_cite]; unfold of_wos; cbn [q_year]; destruct (c_year c'); reflexivity). intros ->. reflexivity.
Qed.
(** the year a reference says is one, if any: see parts_any *)
Lemma ref_year_says r l z : ScopusCiteSpec.plain_classes word num -> (ref_year r l = Some z <-> year_ref r l z).
Proof.
  intros PC. assert (K : exists c, is_cite r l c).
  { destruct r; cbn [MixedNetProofs.is_cite]; try (destruct (C28_parse upper title l) as (c & E & _); exists (CWos c), c; split; [reflexivity|exact E]). eexists. reflexivity. }
  destruct K as (c & H). rewrite <- (ref_year_of r l c H). destruct (parts_any upper title word num int_of r l c PC H) as (_ & _ & Y). rewrite <- Y. destruct (q_year (to_cite c)); split; congruence.
Qed.
Definition dates (years : anyrec -> list thing) (r : anyrec) (d : dated) : Prop :=
  holds r (fst d) /\ match refs r with [] => snd d = None | _ => snd d = the_year (years r) end.
Lemma date_all rs years hs : told upper lower $"year" rs years -> Forall2 holds rs hs -> exists ds, date upper lower title all_digits word num int_of hs = Ok ds /\ Forall2 (dates years) rs ds.
Proof.
  intros T F. induction F as [|r h rs hs H F IH]; [exists []; split; [reflexivity|constructor]|]. destruct IH as (ds & E & FD); [intros x J; apply T; right; exact J|].
  pose proof (yearval_of upper lower title all_digits word num int_of text_of not_spoilt no_mend (r :: rs) years r T (or_introl eq_refl)) as Y. pose proof H as (HF & HC). cbn [date]. rewrite HF, Y.
  assert (Q : exists y, match snd h with [] => Ok None | _ => match match the_year (years r) with Some y => Ok y | None => Raise KeyError end with Ok y => Ok (Some y) | Raise KeyError => Ok None | Raise e => Raise e end end = Ok y
    /\ match refs r with [] => y = None | _ => y = the_year (years r) end).
  { destruct HC as [|l c ls cs]; [exists None; auto|]. destruct (the_year (years r)) as [y|]; eexists; split; reflexivity. }
  destruct Q as (y & Q & QY). eexists. split; [rewrite Q; cbn [bind]; rewrite E; reflexivity|]. constructor; [|exact FD]. split; [exact H|exact QY].
Qed.
Lemma counts_all rs years ds y : (forall r s, In r rs -> years r = [Words s] -> refs r = []) -> Forall2 (dates years) rs ds ->
  AnalysisSpec.cited_count (fun d : dated => held_cites (fst d)) (fun d : dated => snd d) ds y = to_year ref_year years rs y.
Proof.
  intros NT F. unfold AnalysisSpec.cited_count, to_year. induction F as [|r d rs ds H F IH]; [reflexivity|]. unfold total in *. cbn [map fold_right]. rewrite IH by (intros x s J; apply NT; right; exact J). f_equal.
  destruct H as ((_ & FC) & D). unfold AnalysisSpec.refs, held_cites.
  assert (YR : snd d = match refs r with [] => None | _ => the_year (years r) end) by (destruct (refs r); exact D). clear D.
  assert (G : refs r <> [] -> forall l c, is_cite r l c -> AnalysisSpec.counts_for (fun d : dated => snd d) y d (to_cite c) =
    match ref_year r l with Some z => Z.eqb z y && match years r with [Number q] => (z + 2 <=? q)%Z | _ => true end | None => false end).
  { intros NE l c HC. unfold AnalysisSpec.counts_for. rewrite <- (ref_year_of r l c HC). destruct (q_year (to_cite c)) as [| |z]; try reflexivity. f_equal. assert (E : snd d = the_year (years r)) by (rewrite YR; destruct (refs r); [contradiction NE; reflexivity|reflexivity]). rewrite E.
    unfold the_year. destruct (years r) as [|x xs]; [reflexivity|]. destruct x, xs; reflexivity. }
  assert (NE : refs r <> [] \/ refs r = []) by (destruct (refs r); [right; reflexivity|left; discriminate]). destruct NE as [NE|EQ]; [|rewrite EQ in FC |- *; inversion FC; reflexivity]. specialize (G NE). clear - G FC.
  induction FC as [|l c ls cs HC FC IHC]; [reflexivity|]. cbn [map filter]. rewrite (G l c HC). destruct (match ref_year r l with Some z => _ | None => false end); cbn [length]; rewrite IHC; reflexivity.
Qed.
(** C108: the table of rpys has one row for every year from the first to the last that is not dropped, with the number of references to it and that less the middle one of
    the numbers of the five years around it; the ranks are different and follow the deviations, and without rankEmptyYears the years without references, and only they, have rank 0.
    The year of a reference is the one it says, in the style of the database of the record. Missing: what C43 refutes, and records with a text as year that have references. *)
Theorem C108_rpys_partial : forall rs years, (forall l, Permutation l (order l)) -> ScopusCiteSpec.plain_classes word num -> (forall r, In r rs -> described r) -> told upper lower $"year" rs years ->
  (forall r s, In r rs -> years r = [Words s] -> refs r = []) ->
  exists ref_year, (forall r l z, ref_year r l = Some z <-> year_ref r l z) /\ let n := to_year ref_year years rs in
  (forall lo hi a b dy rank_empty, starts n lo hi a -> ends n lo hi b -> (forall z, dy <> DropOne z) ->
   exists rows, call rs lo hi dy rank_empty = Ok rows /\ NoDup (map w_year rows) /\
    (forall y, In y (map w_year rows) <-> (a <= y <= b)%Z /\ match dy with DropMany l => ~ In y l | _ => True end) /\
    (forall w, In w rows -> w_count w = Z.of_nat (n (w_year w)) /\ exists m, middle m (map (fun i => Z.of_nat (n (w_year w + i)%Z)) [-2; -1; 0; 1; 2]%Z) /\ w_deviation w = (w_count w - m)%Z) /\
    (forall v w, In v rows -> In w rows -> w_rank v <> 0 -> w_rank w <> 0 -> (w_rank v < w_rank w -> (w_deviation v <= w_deviation w)%Z) /\ (w_rank v = w_rank w -> v = w)) /\
    (forall w, In w rows -> (w_rank w = 0 <-> w_count w = 0%Z /\ rank_empty = false) /\ w_rank w <= length rows)) /\
  (forall hi dy rank_empty, (forall y, n y = 0) -> call rs None hi dy rank_empty = Raise ValueError).
Proof.
  intros rs years O PC U T NT. exists ref_year. split; [intros r l z; apply ref_year_says, PC|]. intros n.
  destruct (hold_all upper lower title all_digits word num int_of text refs rs U) as (hs & E & F). destruct (date_all rs years hs T F) as (ds & D & FD).
  assert (CL : forall lo hi dy re, call rs lo hi dy re = rpys (fun d : dated => held_cites (fst d)) (fun d : dated => snd d) order ds lo hi dy re) by (intros; unfold any_rpys; rewrite E; cbn [bind]; rewrite D; reflexivity).
  pose proof (fun y => counts_all rs years ds y NT FD) as N. fold n in N.
  assert (NX : AnalysisSpec.not_text (fun d : dated => snd d) ds).
  { intros d s J Q. destruct (F2_in_r _ _ _ _ FD J) as (r & I & _ & DY). destruct (refs r) eqn:RR; [congruence|]. rewrite DY in Q. unfold the_year in Q. destruct (years r) as [|x xs] eqn:YY; [discriminate Q|]. destruct x, xs; try discriminate Q. rewrite (NT r _ I YY) in RR. discriminate RR. }
  assert (CT : forall lo hi y, AnalysisSpec.counted (fun d : dated => held_cites (fst d)) (fun d : dated => snd d) ds lo hi y <-> within n lo hi y).
  { intros lo hi y. unfold AnalysisSpec.counted, AnalysisSpec.ever_cited, within. rewrite N. reflexivity. }
  split.
  - intros lo hi a b dy re A B DR.
    assert (A' : AnalysisSpec.first_year (fun d : dated => held_cites (fst d)) (fun d : dated => snd d) ds lo hi a).
    { unfold AnalysisSpec.first_year. unfold starts in A. destruct lo; [exact A|]. destruct A as (A1 & A2 & A3). split; [exact A1|]. split; [apply CT, A2|]. intros y K. apply A3, CT, K. }
    assert (B' : AnalysisSpec.last_year (fun d : dated => held_cites (fst d)) (fun d : dated => snd d) ds lo hi b).
    { unfold AnalysisSpec.last_year. unfold ends in B. destruct hi; [exact B|]. destruct B as (A1 & A2 & A3). split; [exact A1|]. split; [apply CT, A2|]. intros y K. apply A3, CT, K. }
    destruct (@PropertiesAnalysis.C43_table_partial _ _ _ order ds lo hi a b dy re O NX A' B' DR) as (rows & R & ND & Y & C). destruct (@PropertiesAnalysis.C43_rank _ _ _ order ds lo hi a b dy re O NX A' B' DR) as (rows' & R' & K1 & K2).
    rewrite R in R'. injection R' as <-. exists rows. split; [rewrite CL; exact R|]. split; [exact ND|]. split.
    { intros y. rewrite Y. unfold AnalysisSpec.dropped. destruct dy as [|z|l]; [|exfalso; exact (DR z eq_refl)|]; intuition. }
    split; [|split; [exact K1|exact K2]]. intros w J. destruct (C w J) as (C1 & m & C2 & C3). rewrite N in C1. split; [exact C1|]. exists m. split; [|exact C3]. unfold AnalysisSpec.window in C2. rewrite (map_ext _ (fun i => Z.of_nat (n (w_year w + i)%Z))) in C2 by (intros i; rewrite N; reflexivity). exact C2.
  - intros hi dy re Z. rewrite CL. apply PropertiesAnalysis.C43_raises; [exact NX|]. intros y K. unfold AnalysisSpec.ever_cited in K. rewrite N, Z in K. lia.
Qed.
End Rpys.
Print Assumptions C108_rpys_partial.
(** the records of C103_ex: three references to 1990; that of 1999 to 1999 does not count, nor those that say no year *)
Definition mixnet_years (r : anyrec) : list thing := match r with AnyWos _ | AnyMedline _ => [Number 1999] | AnyScopus _ => [Number 2004] | AnyProQuest _ => [Words $"2001"] end.
Example C108_rpys_ex : exists w m, wos_parse mixnet_wos = ([w], None) /\ MedlineModel.medline_file mix_alpha mixnet_medline = Ok ([m], false) /\
  let rs := [AnyWos w; AnyMedline m; AnyScopus mixnet_scopus; AnyProQuest mixnet_proquest] in
  (forall r, In r rs -> described mixnet_text mixnet_refs r) /\ told mixnet_up mix_id $"year" rs mixnet_years /\ (forall r s, In r rs -> mixnet_years r = [Words s] -> mixnet_refs r = []) /\ ScopusCiteSpec.plain_classes mix_word digit09 /\
  any_rpys mixnet_up mix_id mix_id (forallb digit09) mix_word digit09 mixnet_int (fun l => l) rs (Some 1989%Z) None DropNone false =
    Ok [{| w_year := 1989%Z; w_count := 0%Z; w_deviation := 0%Z; w_rank := 0 |}; {| w_year := 1990%Z; w_count := 3%Z; w_deviation := 3%Z; w_rank := 2 |}].
Proof.
  destruct C103_ex as (w & m & E & M & D & PC & _). exists w, m. split; [exact E|]. split; [exact M|]. cbv zeta. split; [intros r I; apply D, I|].
  pose proof E as E'. vm_compute in E'. injection E' as <-. pose proof M as M'. vm_compute in M'. injection M' as <-.
  assert (AP : forall {Raw} (d : dict str Raw) k, mem k (dkeys d) = false -> apart d k) by (intros Raw d k N J; apply mem_In in J; congruence).
  split; [|split; [|split; [exact PC|vm_compute; reflexivity]]].
  - intros r I. split; [apply D, I|]. clear D. destruct I as [<-|[<-|[<-|[<-|[]]]]]; cbn [any_tells mixnet_years].
    + exists $"PY". split; [right; reflexivity|]. right. split; [vm_compute; discriminate|]. apply (says_year _ _ 1999 []). lia.
    + split; [apply AP; vm_compute; reflexivity|]. right. left. split; [reflexivity|]. right. exists 1999%Z, $"1999 Mar", []. split; [vm_compute; reflexivity|]. split; [|reflexivity]. split; [lia|]. exists $" Mar". split; [vm_compute; reflexivity|]. right. left. exists $"Mar". reflexivity.
    + split; [apply AP; vm_compute; reflexivity|]. exists $"Year". split; [cbn; tauto|]. right. exists $"2004". split; [reflexivity|]. apply (ss_year 2004).
    + split; [apply AP; vm_compute; reflexivity|]. left. exists $"Degree date". split; [cbn; tauto|]. right. exists [$"2001"]. split; [reflexivity|]. apply ps_text. cbn; tauto.
  - intros r s I Q. destruct I as [<-|[<-|[<-|[<-|[]]]]]; try discriminate Q. reflexivity.
Qed.
