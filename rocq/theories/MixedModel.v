(** Collections of records of several databases: the four kinds of records under one roof, their fields looked up as in
    RecordModel.v with the tag functions of ValuesModel.v, and the counting functions of mkCollection.py:569-1110 over them. *)
From Coq Require Import List ZArith Lia Bool Arith.
From Coq Require Import String.
From Verif Require Import Base PyStr PyInt CitationModel TagNames RecordModel RecordView GrantModel ValuesModel WosNetModel WosTagsModel Nx.
From Verif Require NetModel SeriesModel WosModel MedlineModel ScopusModel ProQuestModel.
Import ListNotations.
Local Open Scope list_scope.

Inductive anyrec :=
| AnyWos (r : WosModel.wrec) | AnyMedline (r : MedlineModel.mrec) | AnyScopus (r : ScopusModel.srec) | AnyProQuest (r : ProQuestModel.prec).

Section Mixed.
Variables upper lower title : str -> str.
Variable all_digits : str -> bool.
Variables word num : char -> bool.
Variable int_of : str -> Z.
(** the making of the record's own citation, which nothing here asks for: scopus/recordScopus.py:107-164 *)
Variable scopus_own : list str -> res fvalue.
Variable scopus_spoilt : fvalue -> bool.
Variable scopus_mend : fvalue -> option fvalue -> option fvalue -> option fvalue -> res fvalue.

(** medline/tagProcessing/specialFunctions.py:5-54: what is made of the values of DP, VI, PG, AID, AD and AU.  Other kinds of values than
    those of ValuesModel.medline_value do not occur. *)
Definition first_word (s : str) : str := hd [] (split_char sp s).
Definition medline_make (k : str) (vs : list fvalue) : res fvalue :=
  match vs with
  | [FText s] =>
    if eqb k $"year" then match py_int (first_word s) with Some z => Ok (FInt z) | None => Raise ValueError end
    else if eqb k $"month" then match split_char sp s with _ :: m :: _ => month_value (get_month upper all_digits m) | _ => Raise KeyError end
    else if eqb k $"volume" then Ok (FText (first_word s))
    else if eqb k $"beginningPage" then
      let p := if starts_with $"suppl " s then skipn 6 s else s in
      Ok (FText (filter (fun c => negb (eqb c 59%N)) (hd [] (split_char 45%N (first_word p)))))
    else Raise AttributeError
  | [FText _; FText s] =>
    match search_number (first_word s) with
    | None => Ok (FInt 0)
    | Some n => match py_int n with Some z => Ok (FInt z) | None => Raise ValueError end
    end
  | [FTexts l] => let* s := find_doi l in Ok (FText s)
  | [FLists d; FTexts l] =>
    let* a := first l in match dget a d with Some l' => let* s := first l' in Ok (FText s) | None => Raise KeyError end
  | _ => Raise AttributeError
  end.
(** medline/recordMedline.py:52-64 *)
Definition medline_kind (r : MedlineModel.mrec) : rclass (list str) fvalue :=
  medline_class medline_value truthy piece (cite upper title) (FText (match MedlineModel.mid r with Some i => i | None => $"None" end)) medline_make.
(** scopus/recordScopus.py:134-144: what a field adds to the text of the record's own citation *)
Definition scopus_piece (k : str) (v : fvalue) : res str :=
  if eqb k $"authorsShort" then match v with FTexts (a :: _) => Ok (no_commas a ++ $", ") | FTexts [] => Raise IndexError | _ => Raise AttributeError end
  else if eqb k $"title" then let* s := as_text v in Ok (filter (fun c => negb (eqb c 40%N || eqb c 41%N)) s ++ $" ")
  else if eqb k $"year" then let* s := as_text v in Ok ($"(" ++ s ++ $") ")
  else if eqb k $"beginningPage" then let* s := as_text v in Ok ($"PP. " ++ s)
  else let* s := as_text v in Ok (s ++ $", ").
(** scopus/recordScopus.py:89-99 *)
Definition scopus_kind : rclass str fvalue := scopus_class (scopus_value upper word num int_of) truthy scopus_piece scopus_own scopus_spoilt scopus_mend.
(** proquest/recordProQuest.py:52-64 *)
Definition proquest_kind (r : ProQuestModel.prec) : rclass (list str) fvalue :=
  proquest_class proquest_value truthy piece (cite upper title) (FText (ProQuestModel.pid r)) (FInt 0) (FText $"Author").

(** R[key] of a record on which nothing was looked up before; look-ups are nested three times at most *)
Definition item_in {Raw} (cl : rclass Raw fvalue) (fd : dict str Raw) (key : str) : res fvalue :=
  match getitem cl fd 3 key [] with Some (x, _) => x | None => Raise RuntimeError end.
Definition any_item (r : anyrec) (key : str) : res fvalue :=
  match r with
  | AnyWos r => item_in (kind_of upper lower title all_digits r) (WosModel.wfields r) key
  | AnyMedline r => item_in (medline_kind r) (MedlineModel.mdata r) key
  | AnyScopus r => item_in scopus_kind (ScopusModel.sdata r) key
  | AnyProQuest r => item_in (proquest_kind r) (ProQuestModel.pdata r) key
  end.
(** R.get(key): mkRecord.py:366-400 *)
Definition any_get (r : anyrec) (key : str) : res (option fvalue) :=
  match any_item r key with Ok v => Ok (Some v) | Raise KeyError => Ok None | Raise e => Raise e end.
Definition any_lookup (r : anyrec) (key : str) : res (fval atom) := let* v := any_item r key in Ok (atoms_of v).
(** mkCollection.py:706: R['year']; the texts that ProQuest records have there are not modelled *)
Definition any_year (r : anyrec) : res Z :=
  let* v := any_item r $"year" in match v with FInt z => Ok z | _ => Raise TypeError end.
(** mkCollection.py:569-663 *)
Definition any_ranked (key : str) (give_counts give_ranks greatest pandas : bool) (limit : list atom) (rs : list anyrec) : res SeriesModel.series :=
  SeriesModel.ranked_series any_lookup key give_counts give_ranks greatest pandas limit rs.
(** mkCollection.py:665-747 *)
Definition any_times (key : str) (give_years greatest pandas : bool) (limit : list atom) (rs : list anyrec) : res (SeriesModel.tseries atom) :=
  SeriesModel.time_series any_lookup any_year key give_years greatest pandas limit rs.
(** mkCollection.py:749-806 *)
Definition any_cooccurrence (key : str) (keys : list str) (rs : list anyrec) : res (SeriesModel.occ (V := atom)) :=
  SeriesModel.cooccurrence_counts any_lookup ANone key keys rs.
(** as in WosTagsModel.v *)
Fixpoint any_shown (keys : list str) (r : anyrec) : res (dict str (fval str)) :=
  match keys with
  | [] => Ok []
  | k :: ks => let* o := any_get r k in let* d := any_shown ks r in
    Ok (match o with Some v => (k, names_of v) :: d | None => d end)
  end.
Fixpoint any_every (keys : list str) (rs : list anyrec) : res (list (dict str (fval str))) :=
  match rs with [] => Ok [] | r :: rs' => let* d := any_shown keys r in let* ds := any_every keys rs' in Ok (d :: ds) end.
(** mkCollection.py:808-1001; no stemmer *)
Definition any_levels (keys : list str) (nodeCount edgeWeight : bool) (rs : list anyrec) : res (graph str) :=
  let* ds := any_every keys rs in
  NetModel.multi_level (fun (d : dict str (fval str)) k => dget k d) (fun s : str => s) keys nodeCount edgeWeight ds.
(** mkCollection.py:1003-1110; no stemmers *)
Definition any_two_mode (key1 key2 : str) (directed recordType nodeCount edgeWeight : bool) (rs : list anyrec) : res (graph str) :=
  let* ds := any_every [key1; key2] rs in
  NetModel.two_mode (fun (d : dict str (fval str)) k => dget k d) (fun s : str => s) (fun s : str => s) (fun _ => false) key1 key2
    directed recordType nodeCount edgeWeight ds.
End Mixed.
