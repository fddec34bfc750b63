(** metaknowledge/bin/metaknowledgeMdToNb.py: markdown files are turned into notebooks, which are JSON texts.
    [convert] (lines 96-101), which reads the file and opens the one it writes, is left out: the model starts from the lines that readlines returns. *)
From Coq Require Import List ZArith Lia Bool Arith.
From Coq Require Import String.
From Verif Require Import Base PyStr CitationModel.
Import ListNotations.
Local Open Scope list_scope.

Definition quote : char := 34%N.
(** lines 8, 52: the groups of the match with the regular expression codeRegex: a bracket, any number of digits, a bracket, anything up to a newline *)
Fixpoint digits_then (s : str) : str * str :=
  match s with c :: s' => if digit09 c then (c :: fst (digits_then s'), snd (digits_then s')) else ([], s) | [] => ([], []) end.
Fixpoint to_newline (s : str) : str := match s with c :: s' => if eqb c nl then [] else c :: to_newline s' | [] => [] end.
Definition code_match (line : str) : option (str * str) :=
  match line with
  | c :: s => if eqb c 91%N then match snd (digits_then s) with c2 :: t => if eqb c2 93%N then Some (fst (digits_then s), to_newline t) else None | [] => None end else None
  | [] => None
  end.
(** lines 104-108: the text is stripped of newlines at its beginning, quotation marks are escaped, and each newline closes one string of the list of strings
    and opens another; the last 11 characters are those of the last newline *)
Fixpoint lstrip_nl (s : str) : str := match s with c :: s' => if eqb c nl then lstrip_nl s' else s | [] => [] end.
Definition replace_char (c : char) (t : str) (s : str) : str := flat_map (fun x => if eqb x c then t else [x]) s.
Definition between : str := $"\n"",
     """.
Definition prepared (s : str) : str :=
  let s := lstrip_nl s in
  let s := replace_char quote $"\""" s in
  let s := replace_char nl between s in
  firstn (length s - 11) s.
Inductive kind := Md | Py.
(** lines 111-118 and 120-131; the number of the cell is not written *)
Definition md_cell (s : str) : str := $"{
   ""cell_type"": ""markdown"",
   ""metadata"": {},
   ""source"": [
    """ ++ prepared s ++ $"""
   ]
  }".
Definition py_cell (s : str) : str := $"{
   ""cell_type"": ""code"",
   ""execution_count"": null,
   ""metadata"": {
     ""collapsed"": false
   },
   ""outputs"": [],
   ""source"": [
    """ ++ prepared s ++ $"""
   ]
  }".
Definition write_cell (k : kind) (s : str) : str := match k with Md => md_cell s | Py => py_cell s end.
(** lines 47-50: currentExNum, currentBufferType, stringBuffer, stringResult; the number is None for infinity *)
Record buffer := { num : option str; type : option kind; buf : str; out : list str }.
Definition ends_blank (s : str) : bool := eqb (skipn (length s - 2) s) [nl; nl].
(** lines 51-88 *)
Definition md_step (b : buffer) (line : str) : buffer :=
  let code := code_match line in
  if eqb (buf b) [] then
    match code with
    | Some (n, t) => {| num := Some n; type := Some Py; buf := t ++ [nl]; out := out b |}
    | None => {| num := None; type := Some Md; buf := line; out := out b |}
    end
  else
    match code, type b with
    | Some (n, t), Some Py =>
      if eqb (num b) (Some n) then {| num := num b; type := type b; buf := buf b ++ t ++ [nl]; out := out b |}
      else {| num := Some n; type := Some Py; buf := t ++ [nl]; out := out b ++ [py_cell (buf b)] |}
    | Some (n, t), _ => {| num := Some n; type := Some Py; buf := t ++ [nl]; out := out b ++ [md_cell (buf b)] |}
    | None, Some Md =>
      if eqb line [nl] && ends_blank (buf b) then {| num := num b; type := None; buf := []; out := out b ++ [md_cell (removelast (buf b))] |}
      else {| num := num b; type := type b; buf := buf b ++ line; out := out b |}
    | None, _ => {| num := None; type := Some Md; buf := line; out := out b ++ [py_cell (buf b)] |}
    end.
(** lines 89-93 *)
Definition md_cells (lines : list str) : list str :=
  let b := fold_left md_step lines {| num := None; type := None; buf := []; out := [] |} in
  if eqb (buf b) [] then out b else out b ++ [match type b with Some Md => md_cell (buf b) | _ => py_cell (buf b) end].
(** lines 10-36, 94 *)
Definition start_string : str := $"{
 ""cells"": [
  ".
Definition end_string : str := $"  ],
 ""metadata"": {
   ""kernelspec"": {
   ""display_name"": ""Python 3"",
   ""language"": ""python"",
   ""name"": ""python3""
  },
  ""language_info"": {
   ""codemirror_mode"": {
    ""name"": ""ipython"",
    ""version"": 3
 },
   ""file_extension"": "".py"",
   ""mimetype"": ""text/x-python"",
   ""name"": ""python"",
   ""nbconvert_exporter"": ""python"",
   ""pygments_lexer"": ""ipython3"",
   ""version"": ""3.4.3""
  }
 },
 ""nbformat"": 4,
 ""nbformat_minor"": 0
}".
Definition convert_string (lines : list str) : str := start_string ++ join $",
  " (md_cells lines) ++ end_string.
