(** python [int(s)] for a string (base 10).  Digits are the ASCII ones; python also
    accepts other Unicode decimal digits, which the model rejects. *)
From Coq Require Import String.
From Verif Require Import Base PyStr.
Set Implicit Arguments.

Definition digit (c : char) : option Z :=
  if ((48 <=? c) && (c <=? 57))%N then Some (Z.of_N (c - 48)) else None.
(** digits, with single underscores allowed between digits; [after] says whether the last character was a digit *)
Fixpoint int_digits (after : bool) (acc : Z) (s : str) : option Z :=
  match s with
  | [] => if after then Some acc else None
  | c :: s' =>
    match digit c with
    | Some d => int_digits true (10 * acc + d) s'
    | None => if (c =? 95)%N && after then int_digits false acc s' else None
    end
  end.
Definition py_int (s : str) : option Z :=
  match strip s with
  | c :: s' =>
    if (c =? 45)%N then option_map Z.opp (int_digits false 0 s')
    else if (c =? 43)%N then int_digits false 0 s'
    else int_digits false 0 (c :: s')
  | [] => None
  end.

Example py_int_examples :
  map py_int [$"12"; $" -7 "; $"+1_000"; $"1__0"; $"_1"; $""; $"12a"; $"007"; $"-"]
  = [Some 12; Some (-7); Some 1000; None; None; None; None; Some 7; None]%Z.
Proof. vm_compute. reflexivity. Qed.
