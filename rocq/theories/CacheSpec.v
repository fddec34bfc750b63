(** Specification for C46: a collection read with a cache. *)
From Coq Require Import List ZArith Lia Bool Arith Permutation.
From Coq Require Import String.
From Verif Require Import Base PyStr CacheModel.
Import ListNotations.
Local Open Scope list_scope.

(** a file that is not a cache of the records of a directory *)
Definition user_file (f : str) : Prop := forall u, f <> u ++ $"mkRecordDirCache".
(** the versions of files: those at the beginning and those written by users *)
Definition versions (fs : files) (h : list event) : list (str * Z * list N) :=
  map (fun x => (fst x, fst (snd x), snd (snd x))) fs ++ flat_map (fun e => match e with Write f m b => [(f, m, b)] | _ => [] end) h.
(** whenever a file is changed its modification time is one it never had with another content *)
Definition times_tell (fs : files) (h : list event) : Prop := forall f m b b', In (f, m, b) (versions fs h) -> In (f, m, b') (versions fs h) -> b = b'.

Section Spec.
Context {rec : Type} `{EqDec rec}.
Variable dir : str.
Variable parse : kind -> str -> str -> option (list N) -> res (option (str * list rec * option exn)).
Variable enc : stamp * coll rec -> list N.
Variable dec : list N -> res (stamp * coll rec).
Definition running (w : world rec) : Prop := match w_run w with None => False | Some (_, Done _) => False | _ => True end.
(** users change their files while no collection is being made; the constructor is called for records *)
Fixpoint quiet (w : world rec) (h : list event) : Prop :=
  match h with
  | [] => True
  | e :: h' =>
    match e with
    | Call a => a_kind a = Records /\ ~ running w
    | Write f _ _ => user_file f /\ ~ running w
    | Remove f => user_file f /\ ~ running w
    | _ => True
    end /\ quiet (step dir parse enc dec w e) h'
  end.
(** what a call gives *)
Definition returns (a : call) (fs : files) (r : res (coll rec)) (fs' : files) : Prop :=
  exists ts, (forall e, In e ts -> exists n m, e = Tick n m) /\ run dir parse enc dec (Call a :: ts) (mkWorld fs None) = mkWorld fs' (Some (a, Done r)).
Definition uncached (a : call) : call := mkCall (a_kind a) (a_ver a) (a_name a) (a_ext a) false.
(** pickle.load gives back what pickle.dump wrote, and raises an error for a file that was not completely written *)
Definition pickle_ok : Prop := (forall v, dec (enc v) = Ok v) /\ (forall v b more, enc v = b ++ more -> more <> [] -> exists e, dec b = Raise e).
End Spec.
