(** Reading ProQuest files: metaknowledge/proquest/recordProQuest.py, metaknowledge/proquest/proQuestHandlers.py.

    A file is its decoded text; the branches for UnicodeDecodeError are not modelled, nor the source file names and line numbers of errors. *)
From Coq Require Import List ZArith Lia Bool Arith.
From Coq Require Import String.
From Verif Require Import Base PyStr PyInt JournalModel.
Import ListNotations.
Local Open Scope list_scope.

Definition pfields := dict str (list str).
(** '_' * 60 + '\n' *)
Definition ruler : str := repeat 95%N 60 ++ [nl].
(** currentEntry: the names Name and url set by the parser itself (compared with is), None, or a tag from a line *)
Inductive entry_at := AtName | AtUrl | AtNone | AtTag (t : str).
(** line.split(': '): the first part, and the others joined again *)
Definition tag_split (l : str) : str * str := match cut $": " l with Some (a, b) => (a, b) | None => (l, []) end.
(** recordProQuest.py:88-108; also the lines that are left *)
Fixpoint pparse (ls : list str) (st : entry_at) (d : pfields) : res pfields * list str :=
  match ls with
  | [] => (Raise StopIteration, [])
  | l :: ls' =>
    if eqb l ruler then (Ok d, ls')
    else if eqb l [nl] then pparse ls' st d
    else
      let tagged :=
        if mem 58%N l && negb (starts_with $"http://" l) then
          let '(t, v) := tag_split l in
          pparse ls' (if eqb t $"Author" then AtUrl else AtTag t) (dset t [rstrip v] d)
        else
          match st with
          | AtTag t => match dget t d with Some vs => pparse ls' st (dset t (vs ++ [rstrip l]) d) | None => (Raise KeyError, ls') end
          | _ => (Raise KeyError, ls')
          end in
      match st with
      | AtName => pparse ls' AtNone (dset $"Name" [rstrip l] d)
      | AtUrl => pparse ls' AtNone (dset $"url" [rstrip l] d)
      | _ => tagged
      end
  end.
Definition proquest_parse (ls : list str) : res pfields * list str := pparse ls AtName [].

(** ProQuestRecord objects *)
Record prec := mkPrec { pid : str; pdata : pfields; pbad : bool; perr : option exn }.
(** recordProQuest.py:41-46 *)
Definition prec_of (d : pfields) : res prec :=
  match dget $"ProQuest document ID" d with
  | Some (v :: _) => Ok (mkPrec ($"PROQUEST:" ++ v) d false None)
  | Some [] => Raise IndexError
  | None => Ok (mkPrec $"PROQUEST:MISSING" d true (Some BadProQuestRecord))
  end.
(** recordProQuest.py:17-47 for lines; nothing raises BadProQuestRecord *)
Definition proquest_record (ls : list str) : res prec * list str :=
  match proquest_parse ls with
  | (Ok d, rest) => (prec_of d, rest)
  | (Raise e, rest) => (Raise e, rest)
  end.

(** Equality of records, mkRecord.py:90-104, 128-146 *)
Inductive pkey := PGood (i : str) | PBad (vs : list (list str)) (e : option exn).
#[global] Instance EqDec_pkey : EqDec pkey.
Proof. intros x y; unfold EqDec; decide equality; apply eq_dec. Defined.
Definition pkey_of (r : prec) : pkey := if pbad r then PBad (dvals (pdata r)) (perr r) else PGood (pid r).
Definition padd (r : prec) (s : list prec) : list prec := if mem (pkey_of r) (map pkey_of s) then s else s ++ [r].

(** line.split('. ')[0] and '. '.join of the others *)
Definition dot_split (l : str) : str * str := match cut $". " l with Some (a, b) => (a, b) | None => (l, []) end.
Definition bibliography : str := $"Bibliography" ++ [nl].
(** proQuestHandlers.py:69-78. None: StopIteration or ValueError *)
Fixpoint contents (ls : list str) (names : dict Z str) : option (dict Z str * list str) :=
  match ls with
  | _ :: l :: ls' =>
    if eqb l bibliography then match ls' with _ :: _ :: _ :: ls'' => Some (names, ls'') | _ => None end
    else
      let '(n, t) := dot_split l in
      match py_int n with
      | Some z => contents ls' (dset z (init_ t) names)
      | None => None
      end
  | _ => None
  end.
(** R.get('Title'), the first line of the field *)
Definition title_of (r : prec) : option str := match dget $"Title" (pdata r) with Some (v :: _) => Some v | _ => None end.
(** line[9:].split(' of ')[0] *)
Definition doc_number (l : str) : str := match cut $" of " (skipn 9 l) with Some (a, _) => a | None => skipn 9 l end.
(** proQuestHandlers.py:79-100. The flag tells if there is an error; [fuel] bounds the number of entries, and the KeyErrors of the record
    parser and of nameDict leave the function *)
Fixpoint documents (fuel : nat) (ls : list str) (names : dict Z str) (recs : list prec) : res (list prec * bool) :=
  match fuel with
  | 0 => Raise RuntimeError
  | S fuel' =>
    match ls with
    | [] => Ok (recs, true)
    | l :: ls' =>
      if eqb l bibliography then Ok (recs, false)
      else if starts_with $"Document " l then
        match py_int (doc_number l) with
        | None => Ok (recs, true)
        | Some n =>
          match proquest_record ls' with
          | (Raise StopIteration, _) => Ok (recs, true)
          | (Raise e, _) => Raise e
          | (Ok r, rest) =>
            match dget n names with
            | None => Raise KeyError
            | Some t =>
              if eqb (title_of r) (Some t) then
                match rest with
                | [] => Ok (padd r recs, true)
                | _ :: rest' => documents fuel' rest' names (padd r recs)
                end
              else Ok (recs, true)
            end
          end
        end
      else Ok (recs, true)
    end
  end.
(** proQuestHandlers.py:57-103 *)
Definition proquest_file (content : str) : res (list prec * bool) :=
  let ls := lines (translate content) in
  if length ls <? 12 then Ok ([], true)
  else match contents (skipn 12 ls) [] with
       | None => Ok ([], true)
       | Some (names, rest) => documents (S (length rest)) rest names []
       end.

(** proQuestHandlers.py:25-37: one round of the loop, and the lines that are left; None: StopIteration *)
Definition check_round (ls : list str) : option (bool * list str) :=
  match ls with
  | [] => None
  | a :: ls1 => if eqb a ruler then
      match ls1 with
      | [] => None
      | b :: ls2 => if eqb b [nl] then
          match ls2 with [] => None | c :: ls3 => Some (eqb c ($"Report Information from ProQuest" ++ [nl]), ls3) end
          else Some (false, ls2)
      end
      else Some (false, ls1)
  end.
Definition is_proquest_file (content : str) : bool :=
  match check_round (lines (translate content)) with
  | None => false
  | Some (true, _) => true
  | Some (false, rest) => match check_round rest with Some (b, _) => b | None => false end
  end.
