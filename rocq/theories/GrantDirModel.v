(** Model of GrantCollection(path) for the path of a directory that can hold grant files of all kinds, without a cache: metaknowledge/grantCollection.py 59-73,
    84-120, 131. What is read from one file is in GrantFileModel.v, the merging of NSERC grants in GrantModel.v, caches are in CacheModel.v. *)
From Coq Require Import List ZArith Lia Bool Arith.
From Coq Require Import String.
From Verif Require Import Base PyStr GrantModel GrantFileModel.
Import ListNotations.
Local Open Scope list_scope.

(** what os.listdir gives the name of: whether it is a file, and the file with its whole path *)
Definition dentry := (bool * gfile)%type.
(** grantCollection.py:69-72 *)
Definition dlisted (ext : str) (es : list dentry) : list gfile := map snd (filter (fun e => ends_in ext (fname (snd e)) && fst e) es).
Definition add_kind (k : gkind) (l : list gkind) : list gkind := if mem k l then l else l ++ [k].
Section Dir.
Variable pep479 : bool.
Variable hash : str -> Z.
(** grantCollection.py:84-120 *)
Fixpoint read_grants (ext : str) (fs : list gfile) (c : collected) : res collected :=
  match fs with
  | [] => Ok c
  | f :: fs' =>
    match process pep479 hash f with
    | Raise UnknownFile => if eqb ext [] then read_grants ext fs' c else Raise BadInputFile
    | Raise e => Raise e
    | Ok (k, (gs, e)) =>
      let* s := match k with NSERCG => merge_nserc (c_grants c) gs | _ => Ok (gjoin (c_grants c) gs) end in
      read_grants ext fs' {| c_grants := s; c_types := add_kind k (c_types c); c_bad := c_bad c || match e with Some _ => true | None => false end;
        c_errors := match e with Some x => dset (fname f) x (c_errors c) | None => c_errors c end |}
    end
  end.
Definition from_dir (ext : str) (es : list dentry) : res collected :=
  read_grants ext (dlisted ext es) {| c_grants := []; c_types := []; c_bad := false; c_errors := [] |}.
End Dir.
