(** What is read from a tnet file: lines of numbers, with a time in double quotes first if the file has times. *)
From Coq Require Import String.
From Verif Require Import Base PyStr CitationSpec.
Set Implicit Arguments.

(** the numbers of a line, which are separated by single spaces *)
Definition numbers (line : str) : list Z := map number (split_char 32%N line).
(** the lines of a file; the text after the last newline is no line *)
Definition file_lines (text : str) : list str := removelast (split_char 10%N text).
Definition read_file (text : str) : list (list Z) := map numbers (file_lines text).
(** a quoted time, a space, and the rest *)
Definition time_and_rest (line : str) : option (str * str) :=
  match split_char 34%N line with
  | [] :: time :: (32%N :: rest) :: [] => Some (time, rest)
  | _ => None
  end.
Definition read_timed (text : str) : list (option (str * list Z)) :=
  map (fun line => option_map (fun tr => (fst tr, numbers (snd tr))) (time_and_rest line)) (file_lines text).
