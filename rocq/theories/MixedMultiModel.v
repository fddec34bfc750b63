(** networkMultiMode of collections with records of several databases. *)
From Coq Require Import List ZArith Lia Bool Arith.
From Coq Require Import String.
From Verif Require Import Base PyStr Nx RecordModel RecordView ValuesModel WosTagsModel MixedModel.
From Verif Require NetModel.
Import ListNotations.
Local Open Scope list_scope.

(** if tmpVal, of values other than lists: mkCollection.py:1246, 1252; empty lists are left out in NetModel.multi_contents *)
Definition filled (v : fvalue) : bool := match v with FText [] => false | FInt 0 => false | _ => true end.

Section Multi.
Variables upper lower title : str -> str.
Variable all_digits : str -> bool.
Variables word num : char -> bool.
Variable int_of : str -> Z.
Variable own : list str -> res fvalue.
Variable spoilt : fvalue -> bool.
Variable mend : fvalue -> option fvalue -> option fvalue -> option fvalue -> res fvalue.
Notation get := (any_get upper lower title all_digits word num int_of own spoilt mend).
(** mkCollection.py:1241-1256, the values that are kept, shown by str *)
Fixpoint any_filled (keys : list str) (r : anyrec) : res (dict str (fval str)) :=
  match keys with
  | [] => Ok []
  | k :: ks => let* o := get r k in let* d := any_filled ks r in
    Ok (match o with Some v => if filled v then (k, names_of v) :: d else d | None => d end)
  end.
Fixpoint any_filled_all (keys : list str) (rs : list anyrec) : res (list (dict str (fval str))) :=
  match rs with [] => Ok [] | r :: rs' => let* d := any_filled keys r in let* ds := any_filled_all keys rs' in Ok (d :: ds) end.
(** mkCollection.py:1184-1312; no stemmer, no edgeAttribute.  As in MixedModel.v the values of all records are read before the graph is made; nothing else is
    changed by reading them, so only which exception comes first could differ. *)
Definition any_multi_mode (keys : list str) (recordType nodeCount edgeWeight : bool) (rs : list anyrec) : res (graph str) :=
  let* ds := any_filled_all keys rs in
  NetModel.multi_mode (fun (d : dict str (fval str)) k => dget k d) (fun s : str => s) (fun _ => true) keys recordType nodeCount edgeWeight ds.
End Multi.
