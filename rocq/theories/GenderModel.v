(** genderStats and authGenders of collections with records of several databases: recordCollection.py:871-897, mkRecord.py:660-695 and genders/nameGender.py:68-69,
    as in AnalysisModel.v, over the records of MixedModel.v. *)
From Coq Require Import List ZArith Lia Bool Arith.
From Coq Require Import String.
From Verif Require Import Base PyStr CitationModel RecordModel GrantModel ValuesModel AnalysisModel MixedModel.
Import ListNotations.
Local Open Scope list_scope.

Section MixedGenders.
Variables upper lower title : str -> str.
Variable all_digits : str -> bool.
Variables word num : char -> bool.
Variable int_of : str -> Z.
Variable own : list str -> res fvalue.
Variable spoilt : fvalue -> bool.
Variable mend : fvalue -> option fvalue -> option fvalue -> option fvalue -> res fvalue.
(** the mapping of given names to genders, genders/nameGender.py:15-46 *)
Variable mapping : dict str gender.
(** nameGender.py:69: what is gone through, for auth in R.get('authorsFull', []); a text is gone through by its characters *)
Definition any_names (r : anyrec) : res (list str) :=
  let* o := any_get upper lower title all_digits word num int_of own spoilt mend r $"authorsFull" in
  match o with
  | None => Ok []
  | Some (FTexts l) => Ok l
  | Some (FText s) => Ok (map (fun c => [c]) s)
  | Some _ => Raise TypeError
  end.
(** mkRecord.py:679-695 without arguments: the dictionary from names to genders *)
Definition any_auth_genders (r : anyrec) : res (dict str gender) := let* l := any_names r in Ok (record_genders title mapping (fun l : list str => l) l).
Fixpoint every_names (rs : list anyrec) : res (list (list str)) :=
  match rs with [] => Ok [] | r :: rs' => let* l := any_names r in let* ls := every_names rs' in Ok (l :: ls) end.
(** recordCollection.py:885-897: Male, Female, Unknown *)
Definition any_gender_stats (rs : list anyrec) : res (nat * nat * nat) := let* ls := every_names rs in Ok (gender_stats title mapping (fun l : list str => l) ls).
(** recordCollection.py:893-895: the numerators and the common denominator *)
Definition any_gender_fractions (rs : list anyrec) : res ((nat * nat * nat) * nat) := let* ls := every_names rs in gender_fractions title mapping (fun l : list str => l) ls.
End MixedGenders.
