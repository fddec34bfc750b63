(** python's [re.match] for the constructs used in metaknowledge: characters, concatenation, alternatives, greedy and lazy
    repetition, groups and the end of text.  Backtracking search in python's order of preference (library, trusted model). *)
From Coq Require Import String.
From Verif Require Import Base PyStr.
Set Implicit Arguments.

Inductive rx : Type :=
| RCls (p : char -> bool)                                   (* one character *)
| RCat (a b : rx)
| ROr (a b : rx)
| RRep (greedy : bool) (lo : nat) (hi : option nat) (r : rx) (* r{lo,hi}; [None]: no upper bound *)
| RGrp (n : nat) (r : rx)                                   (* capturing group *)
| REps
| REol.                                                     (* $ *)
Definition caps := nat -> option str.
Definition no_caps : caps := fun _ => None.
Definition set_cap (n : nat) (t : str) (c : caps) : caps := fun m => if Nat.eqb m n then Some t else c m.

Section Match.
Context {X : Type}.
Definition orelse (a b : option X) : option X := match a with Some x => Some x | None => b end.
Section Rep.
(** matching the body once *)
Variable body : str -> caps -> (str -> caps -> option X) -> option X.
Variable greedy : bool.
Fixpoint rep (fuel lo : nat) (hi : option nat) (s : str) (c : caps) (k : str -> caps -> option X) : option X :=
  match fuel with
  | 0 => None
  | S fuel' =>
    let more := match hi with
      | Some 0 => None
      | _ => body s c (fun s' c' => if length s' <? length s then rep fuel' (pred lo) (option_map pred hi) s' c' k else None)
      end in
    let stop := if lo =? 0 then k s c else None in
    if greedy then orelse more stop else orelse stop more
  end.
End Rep.
(** [k] is what follows: it gets the rest of the text and the groups *)
Fixpoint rmatch (r : rx) (s : str) (c : caps) (k : str -> caps -> option X) {struct r} : option X :=
  match r with
  | RCls p => match s with x :: s' => if p x then k s' c else None | [] => None end
  | RCat a b => rmatch a s c (fun s' c' => rmatch b s' c' k)
  | ROr a b => orelse (rmatch a s c k) (rmatch b s c k)
  | RRep g lo hi a => rep (rmatch a) g (S (length s)) lo hi s c k
  | RGrp n a => rmatch a s c (fun s' c' => k s' (set_cap n (firstn (length s - length s') s) c'))
  | REps => k s c
  | REol => match s with [] => k s c | [x] => if (x =? nl)%N then k s c else None | _ => None end
  end.
End Match.
(** re.match(r, s): the groups, or None *)
Definition re_match (r : rx) (s : str) : option caps := rmatch r s no_caps (fun _ c => Some c).

(** notation for transcribing patterns *)
Definition ropt (r : rx) : rx := RRep true 0 (Some 1) r.
Definition rplus (r : rx) : rx := RRep true 1 None r.
Definition rplus_lazy (r : rx) : rx := RRep false 1 None r.
Definition rchar (x : char) : rx := RCls (N.eqb x).
Definition rtext (s : str) : rx := fold_right (fun x r => RCat (rchar x) r) REps s.
Definition rdot : rx := RCls (fun x => negb (x =? nl)%N).
Fixpoint rseq (l : list rx) : rx := match l with [] => REps | [r] => r | r :: l' => RCat r (rseq l') end.
Definition in_range (a b : N) (x : char) : bool := ((a <=? x) && (x <=? b))%N.
