(** Specification for C77: what may be on the terminal. *)
From Coq Require Import List ZArith Lia Bool Arith.
From Coq Require Import String.
From Verif Require Import Base PyStr TextModel ProgressModel.
Import ListNotations.
Local Open Scope list_scope.

(** the pieces of the output that one of the threads has written *)
Definition by_ (x : who) (l : list (who * str)) : list str :=
  map snd (filter (fun c => match fst c, x with Caller, Caller | Drawer, Drawer => true | _, _ => false end) l).
Section Bar.
Variables P T : Type.
Variable percent : P -> str.
Variable part : P -> nat -> nat.
Variable time : T -> nat -> str.
Variables dummy big : bool.
Notation call := (call P).

(** the last line, on a terminal of the width [w]: the message and the time, if they fit; otherwise the message cut (C60) to leave six characters for the time *)
Definition full_line (s : str) (w : nat) (t : T) (line : str) : Prop :=
  (length s < w - 6 -> line = s ++ $" " ++ time t (w - length s - 1)) /\ (w - 6 <= length s -> line = prep_string s (Z.of_nat w - 6) ++ time t 6).
(** what the caller writes, call by call; the flag says whether the bar has been ended: finish writes its message each time, leaving the with block an end of line
    if the bar has not been ended before; a dummy writes neither *)
Inductive says : bool -> list call -> list str -> Prop :=
| says_nil f : says f [] []
| says_update f p s calls l : says f calls l -> says f (Update P p s :: calls) l
| says_up f calls l : says f calls l -> says f (Up P :: calls) ((27%N :: $"[F") :: l)
| says_finish f s w t line calls l : dummy = false -> 8 <= w -> full_line s w t line -> says true calls l ->
    says f (Finish P s :: calls) ((if big then [nl] ++ repeat sp w ++ (27%N :: $"[F") else [cr]) :: line :: [nl] :: l)
| says_exit calls l : dummy = false -> says true calls l -> says false (Exit P :: calls) ([nl] :: l)
| says_again calls l : dummy = false -> says true calls l -> says true (Exit P :: calls) l
| says_dummy f c calls l : dummy = true -> (c = Exit P \/ exists s, c = Finish P s) -> says f calls l -> says f (c :: calls) l.

(** what is drawn on a terminal of the width [w]: with a text, the text, the time and the percentage; without, a bar and the percentage *)
Definition percentage (p : P) (s : str) : Prop := exists n, s = repeat sp n ++ percent p /\ length s = max 6 (length (percent p)).
Definition text_frame (w : nat) (s : str) (t : T) (p : P) (c : str) : Prop :=
  exists pct, percentage p pct /\ c = prep_string s (Z.of_nat w - 14) ++ $"[" ++ time t 6 ++ $"]" ++ pct.
Definition bar_row (w : nat) (p q : P) (c : str) : Prop :=
  exists pct, percentage p pct /\
  let n := part q (w - 8) in
  (w - 8 <= n -> c = $"[" ++ repeat 61%N n ++ $"]" ++ pct) /\
  (n < w - 8 -> c = $"[" ++ repeat 61%N n ++ $">" ++ repeat 32%N (w - 8 - n - 1) ++ $"]" ++ pct).
End Bar.
