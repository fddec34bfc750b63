(** Texts of citations, with and without FAST_CITES, and of collections. *)
From Coq Require Import List ZArith Lia Bool Arith.
From Coq Require Import String.
From Verif Require Import Base PyStr CitationModel CollectionModel.
Import ListNotations.
Local Open Scope list_scope.

(** the attributes of a citation that its texts are made of: _id, and original, which need not exist *)
Record cite_obj := mkObj { o_id : str; o_original : option str }.
(** citation.py:151-154.  The assignment to self in :154 changes a local name only. *)
Definition keep_text (fast : bool) (cite i : str) : cite_obj := mkObj i (if negb fast then Some cite else None).

Section Made.
Variables upper title : str -> str.
Variables word num : char -> bool.
Variable int_of : str -> Z.
(** citation.py:69-154: Citation(cite, scopusMode), while metaknowledge.FAST_CITES is [fast] *)
Definition make_cite (fast scopusMode : bool) (cite : str) : res cite_obj :=
  if scopusMode then Ok (keep_text fast cite (s_id (scopus_citation word num int_of upper cite)))
  else let* c := wos_citation upper title cite in Ok (keep_text fast cite (c_id c)).
End Made.
(** self.original *)
Definition original_of (c : cite_obj) : res str := match o_original c with Some s => Ok s | None => Raise AttributeError end.
(** citation.py:156-163, while FAST_CITES is [fast] *)
Definition str_of_cite (fast : bool) (c : cite_obj) : res str := if fast then Ok (o_id c) else original_of c.
(** citation.py:165-172 *)
Definition repr_of_cite (fast : bool) (c : cite_obj) : res str :=
  if fast then Ok ($"<metaknowledge.Citation object " ++ o_id c ++ $">")
  else let* s := original_of c in Ok ($"<metaknowledge.Citation object " ++ s ++ $">").
(** citation.py:174-191 *)
Definition same_cite (hash : str -> Z) (c d : cite_obj) : bool := Z.eqb (hash (o_id c)) (hash (o_id d)).

(** type(self).__name__: mkCollection.py:24, 409, recordCollection.py:27, grantCollection.py:21 *)
Inductive coll_class := Plain | WithIDs | OfRecords | OfGrants.
Definition coll_class_name (k : coll_class) : str :=
  match k with Plain => $"Collection" | WithIDs => $"CollectionWithIDs" | OfRecords => $"RecordCollection" | OfGrants => $"GrantCollection" end.
(** mkCollection.py:273-277 *)
Definition coll_repr {E} (k : coll_class) (c : coll E) : str := $"<metaknowledge." ++ coll_class_name k ++ $" object " ++ cname c ++ $">".
Definition coll_str {E} (k : coll_class) (c : coll E) : str := coll_class_name k ++ $"(" ++ cname c ++ $")".
