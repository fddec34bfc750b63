(** Specification for C81: a reader of JSON texts, and what a notebook made from the lines of a file has to hold. *)
From Coq Require Import List ZArith Bool Arith.
From Coq Require Import String.
From Verif Require Import Base.
Import ListNotations.
Local Open Scope list_scope.

(** ** JSON texts: first the tokens, ... *)
Inductive token := TSign (c : char) | TText (s : str) | TWord (s : str).
Inductive place := Between | InWord (w : str) | InText (t : str) | Escaped (t : str) | Code (t : str) (digits : nat) (v : N) | Wrong.
Definition white (c : char) : bool := existsb (N.eqb c) [32; 9; 10; 13]%N.
Definition sign (c : char) : bool := existsb (N.eqb c) [91; 93; 123; 125; 58; 44]%N.
Definition hex (c : char) : option N :=
  if ((48 <=? c) && (c <=? 57))%N then Some (c - 48)%N else if ((97 <=? c) && (c <=? 102))%N then Some (c - 87)%N else if ((65 <=? c) && (c <=? 70))%N then Some (c - 55)%N else None.
Definition escape (c : char) : option char :=
  match c with 34 => Some 34 | 92 => Some 92 | 47 => Some 47 | 98 => Some 8 | 102 => Some 12 | 110 => Some 10 | 114 => Some 13 | 116 => Some 9 | _ => None end%N.
Definition from_between (ts : list token) (c : char) : list token * place :=
  if white c then (ts, Between) else if sign c then (ts ++ [TSign c], Between) else if (c =? 34)%N then (ts, InText []) else (ts, InWord [c]).
Definition lex_step (st : list token * place) (c : char) : list token * place :=
  let (ts, p) := st in
  match p with
  | Between => from_between ts c
  | InWord w => if white c || sign c || (c =? 34)%N then from_between (ts ++ [TWord w]) c else (ts, InWord (w ++ [c]))
  | InText t => if (c =? 34)%N then (ts ++ [TText t], Between) else if (c =? 92)%N then (ts, Escaped t) else if (c <? 32)%N then (ts, Wrong) else (ts, InText (t ++ [c]))
  | Escaped t => if (c =? 117)%N then (ts, Code t 4 0) else match escape c with Some x => (ts, InText (t ++ [x])) | None => (ts, Wrong) end
  | Code t n v => match hex c, n with Some h, 1 => (ts, InText (t ++ [16 * v + h]%N)) | Some h, S n' => (ts, Code t n' (16 * v + h)%N) | _, _ => (ts, Wrong) end
  | Wrong => (ts, Wrong)
  end.
Definition tokens (s : str) : option (list token) :=
  match fold_left lex_step s ([], Between) with (ts, Between) => Some ts | (ts, InWord w) => Some (ts ++ [TWord w]) | _ => None end.
(** ... then the values; the only numbers this reader knows are natural ones *)
Inductive json := JNull | JBool (b : bool) | JNat (s : str) | JText (s : str) | JList (l : list json) | JDict (l : list (str * json)).
Inductive frame := FList (l : list json) | FDict (l : list (str * json)) (key : str).
Inductive wanted := WValue | WFirst | WKey | WFirstKey | WColon | WNext | WDone (v : json) | WWrong.
Definition put (v : json) (st : list frame) : list frame * wanted :=
  match st with [] => ([], WDone v) | FList l :: st' => (FList (l ++ [v]) :: st', WNext) | FDict l k :: st' => (FDict (l ++ [(k, v)]) k :: st', WNext) end.
Definition word (w : str) : option json :=
  if eqb w $"null" then Some JNull else if eqb w $"true" then Some (JBool true) else if eqb w $"false" then Some (JBool false)
  else if forallb (fun c => (48 <=? c) && (c <=? 57))%N w then Some (JNat w) else None.
Definition wrong : list frame * wanted := ([], WWrong).
Definition value_step (first : bool) (st : list frame) (t : token) : list frame * wanted :=
  match t with
  | TText s => put (JText s) st
  | TWord w => match word w with Some v => put v st | None => wrong end
  | TSign c =>
    if (c =? 91)%N then (FList [] :: st, WFirst) else if (c =? 123)%N then (FDict [] [] :: st, WFirstKey)
    else if first && (c =? 93)%N then match st with FList [] :: st' => put (JList []) st' | _ => wrong end else wrong
  end.
Definition key_step (first : bool) (st : list frame) (t : token) : list frame * wanted :=
  match t, st with
  | TText k, FDict l _ :: st' => (FDict l k :: st', WColon)
  | TSign c, FDict [] _ :: st' => if first && (c =? 125)%N then put (JDict []) st' else wrong
  | _, _ => wrong
  end.
Definition parse_step (s : list frame * wanted) (t : token) : list frame * wanted :=
  let (st, w) := s in
  match w with
  | WValue => value_step false st t
  | WFirst => value_step true st t
  | WKey => key_step false st t
  | WFirstKey => key_step true st t
  | WColon => match t with TSign c => if (c =? 58)%N then (st, WValue) else wrong | _ => wrong end
  | WNext =>
    match t, st with
    | TSign c, FList l :: st' => if (c =? 44)%N then (st, WValue) else if (c =? 93)%N then put (JList l) st' else wrong
    | TSign c, FDict l _ :: st' => if (c =? 44)%N then (st, WKey) else if (c =? 125)%N then put (JDict l) st' else wrong
    | _, _ => wrong
    end
  | _ => wrong
  end.
Definition read_json (s : str) : option json :=
  match tokens s with Some ts => match fold_left parse_step ts ([], WValue) with ([], WDone v) => Some v | _ => None end | None => None end.

(** ** Notebooks *)
(** a cell: whether it is code, and its source, a list of texts *)
Definition cell : Type := bool * list str.
Definition cell_json (c : cell) : json :=
  let source := ($"source", JList (map JText (snd c))) in
  JDict (if fst c then [($"cell_type", JText $"code"); ($"execution_count", JNull); ($"metadata", JDict [($"collapsed", JBool false)]); ($"outputs", JList []); source]
         else [($"cell_type", JText $"markdown"); ($"metadata", JDict []); source]).
Definition notebook (cells : list cell) : json :=
  JDict [($"cells", JList (map cell_json cells));
    ($"metadata", JDict [($"kernelspec", JDict [($"display_name", JText $"Python 3"); ($"language", JText $"python"); ($"name", JText $"python3")]);
      ($"language_info", JDict [($"codemirror_mode", JDict [($"name", JText $"ipython"); ($"version", JNat $"3")]); ($"file_extension", JText $".py"); ($"mimetype", JText $"text/x-python");
        ($"name", JText $"python"); ($"nbconvert_exporter", JText $"python"); ($"pygments_lexer", JText $"ipython3"); ($"version", JText $"3.4.3")])]);
    ($"nbformat", JNat $"4"); ($"nbformat_minor", JNat $"0")].
(** a line of the file: a number in brackets starts a line of code *)
Inductive line_is : str -> option (str * str) -> Prop :=
| is_code n t : Forall (fun c => 48 <= c <= 57)%N n -> line_is ($"[" ++ n ++ $"]" ++ t) (Some (n, t))
| is_text s : ~ (exists n t, Forall (fun c => 48 <= c <= 57)%N n /\ s = $"[" ++ n ++ $"]" ++ t) -> line_is s None.
(** what is to be seen of the line in the notebook *)
Definition shown (s : str) (c : option (str * str)) : bool * str := match c with Some (_, t) => (true, t) | None => (false, s) end.
(** the parts of a text between newlines that are not empty *)
Fixpoint cut (s : str) : list str := match s with [] => [[]] | c :: s' => if (c =? 10)%N then [] :: cut s' else match cut s' with p :: ps => (c :: p) :: ps | [] => [[c]] end end.
Definition pieces (s : str) : list str := filter (fun p => negb (eqb p [])) (cut s).
(** lines of code next to each other that have the same number *)
Fixpoint runs (ls : list (option (str * str))) : list (str * list str) :=
  match ls with
  | [] => []
  | None :: ls' => runs ls'
  | Some (n, t) :: ls' =>
    let later := runs ls' in
    match ls' with
    | Some (m, _) :: _ => if eqb n m then match later with (_, ts) :: rs => (n, t :: ts) :: rs | [] => [(n, [t])] end else (n, [t]) :: later
    | _ => (n, [t]) :: later
    end
  end.
Fixpoint no_blank_first (ts : list str) : list str := match ts with [] :: ts' => no_blank_first ts' | _ => ts end.
