(** Model of RecordCollection.dropNonJournals (recordCollection.py 192-214) and of CollectionWithIDs.tags (mkCollection.py 511-523). *)
From Coq Require Import String.
From Verif Require Import Base CollectionModel.
Set Implicit Arguments.

Section Drop.
Context {E K : Type} {HK : EqDec K} {EL : Elem E K}.
(** r['pubType']; None is a value that is not a text, e.g. the list a Medline record has, which equals no text *)
Variable pub : E -> res (option str).
(** str.upper *)
Variable upper : str -> str.
(** recordCollection.py:212 and 214, the comprehension: the first record that cannot be read ends it *)
Fixpoint keep_types (t : str) (invert : bool) (l : list E) : res (list E) :=
  match l with
  | [] => Ok []
  | r :: l' =>
    match pub r with
    | Raise e => Raise e
    | Ok v =>
      let* m := keep_types t invert l' in
      Ok (if xorb invert (eqb v (Some t)) then r :: m else m)
    end
  end.
(** recordCollection.py:192-214; the collection afterwards and the exception *)
Definition dropNonJournals (ptVal : str) (dropBad invert : bool) (c : coll E) : coll E * option exn :=
  let c1 := if dropBad then coll_dropBadEntries c else c in
  match keep_types (upper ptVal) invert (members c1) with
  | Ok m => (set_members c1 (set_of m), None)
  | Raise e => (c1, Some e)
  end.
(** mkCollection.py:511-523 *)
Definition coll_tags (keys : E -> list str) (c : coll E) : list str := fold_left (fun s r => tor s (keys r)) (members c) [].
End Drop.
