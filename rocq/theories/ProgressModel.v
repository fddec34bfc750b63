(** Model of the progress bar: metaknowledge/progressBar.py. The bar has two threads, the caller's and one that draws; both read and write its attributes.
    Each read or write of an attribute and each write to the terminal is one step, and the steps of the threads may come in any order.

    A schedule is a list of steps; with each one comes what the step may get from outside: the width of the terminal (80 if there is an OSError or an
    AttributeError) and the time since the start. A step of a thread that waits or has ended changes nothing.
    [P] are the numbers between 0 and 1, [percent] is the format {:.1%} and [part p n] is int(p * n); [T] are times, [time] is prepTime (lines 97-104).
    Flushing and sleeping are left out. *)
From Coq Require Import List ZArith Lia Bool Arith.
From Coq Require Import String.
From Verif Require Import Base PyStr TextModel.
Import ListNotations.
Local Open Scope list_scope.

Section Bar.
Variables P T : Type.
Variable percent : P -> str.
Variable part : P -> nat -> nat.
Variable time : T -> nat -> str.

(** what the caller does with a bar: updateVal, finish, jumpUp, and __exit__ or __del__ *)
Inductive call := Update (p : P) (s : option str) | Finish (s : str) | Up | Exit.
(** the steps of the caller *)
Inductive op := SetPer (p : P) | SetText (s : str) | SetFinished | Join | Size | Head | Line | Write (s : str) | UnlessFinished (l : list op).
(** the place in the loop where the drawing thread is, with the values of its local variables *)
Inductive place := PCheck | PSize | PReturn | PPercent | PBar (pct : str) | PBig (pct : str) (n : nat) | PElif (pct : str) (n : nat)
| PTextBig (pct : str) (n : nat) | PRow (pct : str) (n : nat) (d : str) | PBelow (n : nat) (d : str)
| PText (pct : str) | PWrite (d : str) | PDraw (pct : str) (n : nat) | PEnd.
Inductive who := Caller | Drawer.
Record bar := mkBar { finished : bool; per : P; text : str; width : nat (** barMaxLength *); at_ : place; todo : list op; out : list (who * str) }.

Definition esc : char := 27%N.
Definition up : str := esc :: $"[F".
Variables dummy big : bool.
(** lines 49-52, 54-78, 80-82, 36-41 and 46-47 *)
Definition ops_of (c : call) : list op :=
  match c with
  | Update p None => [SetPer p]
  | Update p (Some s) => [SetPer p; SetText s]
  | Finish s => if dummy then [] else [SetFinished; SetText s; Join; Size; Head; Line; Write [nl]]
  | Up => [Write up]
  | Exit => if dummy then [] else [UnlessFinished [SetFinished; Join; Write [nl]]]
  end.
(** lines 11-31 *)
Definition start (p : P) (s : str) (calls : list call) : bar := mkBar false p s 0 (if dummy then PEnd else PCheck) (flat_map ops_of calls) [].
(** lines 72-76 *)
Definition last_line (s : str) (m : nat) (t : T) : str :=
  if length s <? m + 8 - 6 then s ++ $" " ++ time t (m + 8 - length s - 1) else prep_string s (Z.of_nat (m + 8 - 6)) ++ time t 6.
Definition caller_step (w : nat) (t : T) (b : bar) : bar :=
  match todo b with
  | [] => b
  | o :: l =>
    match o with
    | SetPer p => mkBar (finished b) p (text b) (width b) (at_ b) l (out b)
    | SetText s => mkBar (finished b) (per b) s (width b) (at_ b) l (out b)
    | SetFinished => mkBar true (per b) (text b) (width b) (at_ b) l (out b)
    | Join => match at_ b with PEnd => mkBar (finished b) (per b) (text b) (width b) (at_ b) l (out b) | _ => b end
    | Size => mkBar (finished b) (per b) (text b) (w - 8) (at_ b) l (out b)
    | Head => mkBar (finished b) (per b) (text b) (width b) (at_ b) l
                (out b ++ [(Caller, if big then [nl] ++ repeat sp (width b + 8) ++ up else [cr])])
    | Line => mkBar (finished b) (per b) (text b) (width b) (at_ b) l (out b ++ [(Caller, last_line (text b) (width b) t)])
    | Write s => mkBar (finished b) (per b) (text b) (width b) (at_ b) l (out b ++ [(Caller, s)])
    | UnlessFinished l' => mkBar (finished b) (per b) (text b) (width b) (at_ b) (if finished b then l else l' ++ l) (out b)
    end
  end.
(** s.rjust(6, ' ') *)
Definition rjust6 (s : str) : str := repeat sp (6 - length s) ++ s.
(** lines 124, 127, 134 and 136 *)
Definition drawn (pct : str) (n m : nat) : str :=
  if m <=? n then $"[" ++ repeat 61%N n ++ $"]" ++ pct else $"[" ++ repeat 61%N n ++ $">" ++ repeat sp (m - n - 1) ++ $"]" ++ pct.
Definition go (b : bar) (pl : place) : bar := mkBar (finished b) (per b) (text b) (width b) pl (todo b) (out b).
Definition write (b : bar) (pl : place) (s : str) : bar := mkBar (finished b) (per b) (text b) (width b) pl (todo b) (out b ++ [(Drawer, s)]).
(** lines 107-138 *)
Definition drawer_step (w : nat) (t : T) (b : bar) : bar :=
  match at_ b with
  | PCheck => go b (if finished b then PEnd else PSize)
  | PSize => mkBar (finished b) (per b) (text b) (w - 8) PReturn (todo b) (out b)
  | PReturn => write b PPercent [cr]
  | PPercent => go b (PBar (rjust6 (percent (per b))))
  | PBar pct => go b (PBig pct (part (per b) (width b)))
  | PBig pct n => go b (if big && negb (eqb (text b) []) then PTextBig pct n else PElif pct n)
  | PElif pct n => go b (if negb (eqb (text b) []) then PText pct else PDraw pct n)
  | PTextBig pct n => go b (PRow pct n (prep_string (text b) (Z.of_nat (width b) + 8 - 6) ++ time t 6))
  | PRow pct n d => write b (PBelow n d) (drawn pct n (width b))
  | PBelow n d => write b PCheck ([nl] ++ d ++ (if width b <=? n then up else esc :: $"["))
  | PText pct => go b (PWrite (prep_string (text b) (Z.of_nat (width b) + 8 - 6 - 6 - 2) ++ $"[" ++ time t 6 ++ $"]" ++ pct))
  | PWrite d => write b PCheck d
  | PDraw pct n => write b PCheck (drawn pct n (width b) ++ [cr])
  | PEnd => b
  end.
Definition step (b : bar) (e : who * nat * T) : bar := let '(x, w, t) := e in match x with Caller => caller_step w t b | Drawer => drawer_step w t b end.
Definition run (sch : list (who * nat * T)) (b : bar) : bar := fold_left step sch b.
End Bar.
