(** timeSeries and yearSplit of collections in which years are numbers or texts, as those of ProQuest records are:
    metaknowledge/mkCollection.py:665-747 and metaknowledge/recordCollection.py:1362-1397. *)
From Coq Require Import List ZArith Lia Bool Arith.
From Coq Require Import String.
From Verif Require Import Base PyStr RecordView CitationModel GrantModel ValuesModel WosTagsModel SeriesModel AnalysisModel MixedModel.
From Verif Require CiteNetModel.
Import ListNotations.
Local Open Scope list_scope.

#[global] Instance EqDec_yearval : EqDec yearval.
Proof. intros [a|a] [b|b]; try (right; discriminate); destruct (eq_dec a b) as [->|N]; try (left; reflexivity); right; congruence. Defined.
(** python's <= of two numbers and of two texts; of a number and a text it raises, see sort_years *)
Definition year_le (a b : yearval) : bool :=
  match a, b with YNum x, YNum y => (x <=? y)%Z | YText s, YText t => CiteNetModel.str_le s t | YNum _, YText _ => true | YText _, YNum _ => false end.
Definition is_num (y : yearval) : bool := match y with YNum _ => true | YText _ => false end.
Definition is_text (y : yearval) : bool := match y with YNum _ => false | YText _ => true end.
(** sorted(l, key = x[1]), mkCollection.py:731: any way to sort a list with a number and a text compares a number with a text, which raises TypeError *)
Definition sort_years {E : Type} (greatest : bool) (l : list (E * yearval)) : res (list (E * yearval)) :=
  if existsb (fun x => is_num (snd x)) l && existsb (fun x => is_text (snd x)) l then Raise TypeError
  else Ok (ssort snd (if greatest then (fun a b => year_le b a) else year_le) l).

Section Times.
Context {R V : Type} `{EqDec V}.
Variable lookup : R -> str -> res (fval V).
Variable year_of : R -> res yearval.
(** mkCollection.py:718-727 *)
Definition note_year (y : yearval) (d : dict V (dict yearval nat)) (v : V) : dict V (dict yearval nat) :=
  match dget v d with Some yd => dset v (dincr y yd) d | None => dset v [(y, 1)] d end.
(** mkCollection.py:703-727, with a tag *)
Fixpoint note_years (tag : str) (limit : list V) (rs : list R) (d : dict V (dict yearval nat)) : res (dict V (dict yearval nat)) :=
  match rs with
  | [] => Ok d
  | r :: rs' =>
    match year_of r with
    | Raise KeyError => note_years tag limit rs' d
    | Raise e => Raise e
    | Ok y =>
      match lookup r tag with
      | Raise KeyError => note_years tag limit rs' d
      | Raise e => Raise e
      | Ok f => note_years tag limit rs' (fold_left (fun d v => if allowed limit v then note_year y d v else d) (entries f) d)
      end
    end
  end.
(** mkCollection.py:728-730 *)
Definition flat_years {E : Type} (d : dict E (dict yearval nat)) : list (E * yearval) := flat_map (fun ev => map (fun y => (fst ev, y)) (dkeys (snd ev))) d.
Inductive yseries (E : Type) :=
| YPandas (entry : list E) (year : list yearval) (cnt : list nat)
| YYears (l : list (E * yearval))
| YValues (l : list E).
Arguments YPandas {E} entry year cnt.
Arguments YYears {E} l.
Arguments YValues {E} l.
(** mkCollection.py:731-747 *)
Definition year_output {E : Type} `{EqDec E} (give_years greatest pandas : bool) (d : dict E (dict yearval nat)) : res (yseries E) :=
  let* sl := sort_years greatest (flat_years d) in
  Ok (if pandas then
        YPandas (map fst sl) (map snd sl)
                (map (fun ey => match dget (fst ey) d with
                                | Some yd => match dget (snd ey) yd with Some n => n | None => 0 end
                                | None => 0 end) sl)
      else if give_years then YYears sl
      else YValues (map fst sl)).
Definition year_series (tag : str) (give_years greatest pandas : bool) (limit : list V) (rs : list R) : res (yseries V) :=
  let* d := note_years tag limit rs [] in year_output give_years greatest pandas d.
End Times.
Arguments YPandas {E} entry year cnt.
Arguments YYears {E} l.
Arguments YValues {E} l.

Section Any.
Variables upper lower title : str -> str.
Variable all_digits : str -> bool.
Variables word num : char -> bool.
Variable int_of : str -> Z.
Variable own : list str -> res fvalue.
Variable spoilt : fvalue -> bool.
Variable mend : fvalue -> option fvalue -> option fvalue -> option fvalue -> res fvalue.
(** R['year'], a number or a text; nothing else occurs there *)
Definition any_yearval (r : anyrec) : res yearval :=
  let* v := any_item upper lower title all_digits word num int_of own spoilt mend r $"year" in
  match v with FInt z => Ok (YNum z) | FText s => Ok (YText s) | _ => Raise TypeError end.
(** mkCollection.py:665-747, with a tag *)
Definition any_year_series (key : str) (give_years greatest pandas : bool) (limit : list atom) (rs : list anyrec) : res (yseries atom) :=
  year_series (any_lookup upper lower title all_digits word num int_of own spoilt mend) any_yearval key give_years greatest pandas limit rs.
(** recordCollection.py:1385-1397: R.get('year') is None without the field, and None and texts compared with numbers raise TypeError;
    other errors are not caught.  The records are in the order of the additions. *)
Fixpoint any_year_split (rs : list anyrec) (a b : Z) (drop_missing : bool) : res (list anyrec) :=
  match rs with
  | [] => Ok []
  | r :: rs' =>
    let next := if drop_missing then any_year_split rs' a b drop_missing else Raise TypeError in
    match any_yearval r with
    | Ok (YNum y) => let* rest := any_year_split rs' a b drop_missing in Ok (if (a <=? y)%Z && (y <=? b)%Z then r :: rest else rest)
    | Ok (YText _) => next
    | Raise KeyError => next
    | Raise TypeError => next
    | Raise e => Raise e
    end
  end.
End Any.
