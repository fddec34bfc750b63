(** Equality and hashes of records and grants, and sets of grants that are changed while they are in the set
    (mkRecord.py 75-104, 128-146; grants/baseGrant.py 14-29, 96-110; mkCollection.py 117-145).

    Simplifications: of an object only its class, its id, its values, its error and whether it is bad are kept; what str gives for the values and the hash of a text are
    parameters, and so is what update makes of the fields of an NSERC grant (nsercGrant.py 19-26, see GrantModel.v); a set is the list of its entries, each the hash the element had when it was added and a reference to it. Classes a user derives are left out. *)
From Coq Require Import List ZArith Lia Bool Arith.
From Coq Require Import String.
From Verif Require Import Base.
Import ListNotations.
Local Open Scope list_scope.

(** the classes of which there are objects: Record and Grant can be made directly, the others come from files or from records *)
Inductive cls := RecordC | WosC | ScopusC | ProQuestC | MedlineC | GrantC | MedlineGC | ScopusGC | NsercC | NsfC | CihrC | FallbackC.
#[global] Instance EqDec_cls : EqDec cls.
Proof. intros x y; unfold EqDec; decide equality. Defined.
Definition a_grant (c : cls) : bool := match c with GrantC | MedlineGC | ScopusGC | NsercC | NsfC | CihrC | FallbackC => true | _ => false end.
(** issubclass(c, d): mkRecord.py:229, WOS/recordWOS.py:14, scopus/recordScopus.py:58, proquest/recordProQuest.py:11, medline/recordMedline.py:13 and the classes of grants/ *)
Definition derived (c d : cls) : bool := eqb c d || match d with RecordC => true | GrantC => a_grant c | _ => false end.

Section Identity.
Context {V : Type}.
(** str(d.values()), and hash *)
Variable shown : list V -> str.
Variable hash : str -> Z.
Variable nserc_fields : dict str V -> dict str V -> dict str V.
(** mkRecord.py:75-87 *)
Record obj := mkObj { o_cls : cls; o_id : str; o_bad : bool; o_error : str; o_data : dict str V }.
(** mkRecord.py:90-104 *)
Definition obj_hash (o : obj) : Z := hash (if o_bad o then shown (dvals (o_data o)) ++ o_error o else o_id o).
(** mkRecord.py:128-146; None for NotImplemented *)
Definition eq_method (x y : obj) : option bool := if derived (o_cls y) (o_cls x) then Some (Z.eqb (obj_hash x) (obj_hash y)) else None.
(** x == y: the method of y goes first if its class is derived from that of x; if neither knows, two objects are compared by identity and are different *)
Definition obj_eq (x y : obj) : bool :=
  let '(a, b) := if derived (o_cls y) (o_cls x) && negb (eqb (o_cls x) (o_cls y)) then (eq_method y x, eq_method x y) else (eq_method x y, eq_method y x) in
  match a with Some r => r | None => match b with Some r => r | None => false end end.

(** ** sets of grants *)
Record world := mkWorld { w_objs : list obj; w_set : list (Z * nat) }.
Inductive action :=
| Add (r : nat)                        (* c.add(g), mkCollection.py:120-133 *)
| Discard (r : nat)                    (* c.discard(g), mkCollection.py:135-145 *)
| Store (r : nat) (key : str) (v : V)  (* g[key] = v, baseGrant.py:23-25 *)
| Delete (r : nat) (key : str)         (* del g[key], baseGrant.py:28-29 *)
| Update (r q : nat).                  (* g.update(h), baseGrant.py:96-110, nsercGrant.py:19-26 *)
Definition set_obj (r : nat) (o : obj) (l : list obj) : list obj := firstn r l ++ match skipn r l with [] => [] | _ :: l' => o :: l' end.
Definition with_data (o : obj) (d : dict str V) : obj := mkObj (o_cls o) (o_id o) (o_bad o) (o_error o) d.
(** the entry is found when looking for the object number r: the hashes are the same, and it is the object itself or equal to it *)
Definition finds (w : world) (r : nat) (e : Z * nat) : bool :=
  match nth_error (w_objs w) r, nth_error (w_objs w) (snd e) with
  | Some o, Some o' => Z.eqb (fst e) (obj_hash o) && (Nat.eqb (snd e) r || obj_eq o' o)
  | _, _ => false
  end.
(** g in c *)
Definition contains (w : world) (r : nat) : bool := existsb (finds w r) (w_set w).
Fixpoint remove_first {A} (p : A -> bool) (l : list A) : list A :=
  match l with [] => [] | x :: l' => if p x then l' else x :: remove_first p l' end.
Definition act (w : world) (a : action) : world :=
  match a with
  | Add r =>
    match nth_error (w_objs w) r with
    | Some o => if contains w r then w else mkWorld (w_objs w) (w_set w ++ [(obj_hash o, r)])
    | None => w
    end
  | Discard r => mkWorld (w_objs w) (remove_first (finds w r) (w_set w))
  | Store r key v =>
    match nth_error (w_objs w) r with Some o => mkWorld (set_obj r (with_data o (dset key v (o_data o))) (w_objs w)) (w_set w) | None => w end
  | Delete r key =>
    match nth_error (w_objs w) r with Some o => mkWorld (set_obj r (with_data o (ddel key (o_data o))) (w_objs w)) (w_set w) | None => w end
  | Update r q =>
    match nth_error (w_objs w) r, nth_error (w_objs w) q with
    | Some o, Some p =>
      if eqb (o_cls o) NsercC then mkWorld (set_obj r (with_data o (nserc_fields (o_data o) (o_data p))) (w_objs w)) (w_set w)
      else if eqb (o_cls o) (o_cls p) then
        mkWorld (set_obj r (mkObj (o_cls o) (o_id o) (o_bad p || o_bad o) (if o_bad p then o_error p else o_error o) (dupdate (o_data o) (o_data p))) (w_objs w)) (w_set w)
      else w
    | _, _ => w
    end
  end.
Definition acts (w : world) (l : list action) : world := fold_left act l w.
(** for o in c *)
Definition listing (w : world) : list nat := map snd (w_set w).
End Identity.
