(** * C105: years that cannot be read. *)
From Coq Require Import List ZArith Lia Bool Arith.
From Coq Require Import String.
From Verif Require Import Base PyStr PyInt TagNames CitationModel RecordModel ValuesModel SeriesModel AnalysisModel MixedModel MixedSpec MixedProofs YearsModel PropertiesMixed PropertiesYears.
From Verif Require WosModel MedlineModel ScopusModel ProQuestModel.
From Verif Require Import YearsProofs.
Import ListNotations.
Local Open Scope list_scope.

Section Years.
Variables upper lower title : str -> str.
Variable all_digits : str -> bool.
Variables word num : char -> bool.
Variable int_of : str -> Z.
Variable own : list str -> res fvalue.
Variable spoilt : fvalue -> bool.
Variable mend : fvalue -> option fvalue -> option fvalue -> option fvalue -> res fvalue.
Notation year := (any_yearval upper lower title all_digits word num int_of own spoilt mend).
Notation split_years := (any_year_split upper lower title all_digits word num int_of own spoilt mend).
Notation series := (any_year_series upper lower title all_digits word num int_of own spoilt mend).
Lemma press_year s v : dget $"year" (ScopusModel.sdata s) = None -> dget $"Year" (ScopusModel.sdata s) = Some v -> py_int v = None -> year (AnyScopus s) = Raise ValueError.
Proof.
  intros A D P. unfold any_yearval. cbn [any_item].
  rewrite item_stands with (tag := $"Year"); [rewrite D|exact A|reflexivity|reflexivity|intros a B; discriminate B|reflexivity].
  cbn [proc]. change (bind (to_int v) (fun v0 => match v0 with FInt z => Ok (YNum z) | FText t => Ok (YText t) | _ => Raise TypeError end) = Raise ValueError).
  unfold to_int. rewrite P. reflexivity.
Qed.
(** C105: one Scopus record whose year is not a number, such as one in press, is enough to make the series over time and both divisions by years raise, wherever it is. *)
Theorem C105_in_press_refuted : forall rs s v, In (AnyScopus s) rs -> dget $"year" (ScopusModel.sdata s) = None -> dget $"Year" (ScopusModel.sdata s) = Some v -> py_int v = None ->
  (forall key give_years greatest pandas limit, exists e, series key give_years greatest pandas limit rs = Raise e) /\ (forall a b drop, exists e, split_years rs a b drop = Raise e).
Proof.
  intros rs s v I1 A D P. pose proof (press_year s v A D P) as Y. split.
  - intros key gy gr pd limit. unfold any_year_series, year_series.
    assert (Q : forall d, exists e, note_years (any_lookup upper lower title all_digits word num int_of own spoilt mend) year key limit rs d = Raise e).
    { clear - I1 Y. induction rs as [|r rs IH]; [destruct I1|]. intros d. cbn [note_years]. destruct I1 as [->|I1]; [rewrite Y; eexists; reflexivity|].
      destruct (year r) as [y|e]; [|destruct e; try (eexists; reflexivity); apply IH, I1]. destruct (any_lookup upper lower title all_digits word num int_of own spoilt mend r key) as [x|e]; [apply IH, I1|destruct e; try (eexists; reflexivity); apply IH, I1]. }
    destruct (Q []) as (e & E). exists e. rewrite E. reflexivity.
  - intros a b drop. induction rs as [|r rs IH]; [destruct I1|]. cbn [any_year_split]. destruct I1 as [->|I1]; [rewrite Y; eexists; reflexivity|]. specialize (IH I1) as (e & E). rewrite E.
    repeat match goal with |- exists e, match ?x with _ => _ end = Raise e => destruct x; cbn [bind]; try (eexists; reflexivity) end.
Qed.
End Years.
Example C105_in_press_ex : let r := ScopusModel.srec_of [($"EID", $"9"); ($"Authors", $"Doe J"); ($"Year", $"in press")] in
  py_int $"in press" = None /\ mixed any_year_series $"authorsShort" true true true [] [AnyScopus yr_scopus; AnyScopus r] = Raise ValueError /\ mixed any_year_split [AnyScopus yr_scopus; AnyScopus r] 1990 2010 true = Raise ValueError.
Proof. vm_compute. auto. Qed.
Print Assumptions C105_in_press_refuted.
