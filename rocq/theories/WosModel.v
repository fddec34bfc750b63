(** Reading and writing Web of Science files: metaknowledge/WOS/recordWOS.py and
    metaknowledge/WOS/wosHandlers.py, and the WOS part of RecordCollection.writeFile.

    A file is its decoded text (a list of code points).  Decoding utf-8 itself, and
    the branch for UnicodeDecodeError, are not modelled; dropping the byte order
    mark and translating newlines are.  The source file and line numbers kept for
    error messages are not modelled, and messages are reduced to their kind. *)
From Coq Require Import String.
From Verif Require Import Base PyStr.
Set Implicit Arguments.

Definition fields := dict str (list str).

(** recordWOS.py 173-201, recordParser.  [tl] is tagList with its last entry first.
    Returns also the lines not yet consumed. *)
Fixpoint rparse (ls : list str) (tl : list (str * list str)) : res fields * list str :=
  match ls with
  | [] => (Raise BadWOSRecord, [])                                       (* 190-191 *)
  | l :: rest =>
    if length l <? 3 then (Raise BadWOSRecord, rest)                     (* 174-176 *)
    else if starts_with $"ER" l then                                     (* 177-180, then 193-201 *)
      let tagList := rev tl in
      let retdict := fold_left (fun d e => dset (fst e) (snd e) d) tagList [] in
      (if length retdict =? length tagList then Ok retdict else Raise BadWOSRecord, rest)
    else if negb (eqb (nth 2 l nl) sp) then (Raise BadWOSFile, rest)     (* 181-183 *)
    else if starts_with [sp; sp; sp] l then                              (* 184-186 *)
      match tl with
      | [] => (Raise IndexError, rest)                                   (* tagList[-1] *)
      | (t, vs) :: tl' => rparse rest ((t, vs ++ [init_ (skipn 3 l)]) :: tl')
      end
    else rparse rest ((firstn 2 l, [init_ (skipn 3 l)]) :: tl)           (* 189 *)
  end.

(** WOSRecord objects.  [werr]: the error attribute, by kind. *)
Record wrec := mkWrec { wid : str; wfields : fields; wbad : bool; werr : option exn }.

(** recordWOS.py 60-91 with the dict made by the parser.  When the parser raises
    BadWOSRecord the dict is empty (83), so UT is missing and lines 87-91 replace the
    error by "Missing WOS number". *)
Definition rec_of_fields (d : fields) : res wrec :=
  match dget $"UT" d with
  | Some (u :: _) => Ok (mkWrec u d false None)
  | Some [] => Raise IndexError
  | None => Ok (mkWrec $"WOS:Missing" d true (Some BadWOSRecord))
  end.
Definition wos_record (ls : list str) : res wrec * list str :=
  match rparse ls [] with
  | (Ok d, rest) => (rec_of_fields d, rest)
  | (Raise BadWOSRecord, rest) => (rec_of_fields [], rest)
  | (Raise e, rest) => (Raise e, rest)
  end.

(** recordWOS.py 72-76: WOSRecord(text) *)
Definition record_of_text (s : str) : res wrec :=
  fst (wos_record (map (fun l => l ++ [nl]) (split_char nl s))).

(** Equality of records, mkRecord.py 90-104 and 128-146: the id, or for a bad record the
    fields and the error.  (Collisions of python's hash are not modelled.) *)
Inductive wkey := KGood (i : str) | KBad (vs : list (list str)) (e : option exn).
#[global] Instance EqDec_wkey : EqDec wkey.
Proof. intros x y; unfold EqDec; decide equality; apply eq_dec. Defined.
Definition rkey (r : wrec) : wkey := if wbad r then KBad (dvals (wfields r)) (werr r) else KGood (wid r).
(* plst.add(r) *)
Definition radd (r : wrec) (s : list wrec) : list wrec :=
  if mem (rkey r) (map rkey s) then s else s ++ [r].

(** wosHandlers.py 77-79: skip to the line after one starting with ER; None is StopIteration *)
Fixpoint skip_to_ER (ls : list str) : option (list str) :=
  match ls with
  | [] => None
  | s :: rest => if eqb (firstn 2 s) $"ER" then Some rest else skip_to_ER rest
  end.

Inductive ferror := EndsBeforeEF | EFNotAtEnd | OutOfFuel.

(** wosHandlers.py 62-101, the loop over records.  [f] bounds the number of iterations (each consumes a
    line; [wos_fuel] in WosProofs.v shows it is never reached).  Any exception other than BadWOSFile raised
    by WOSRecord(...) ends the reading and is discarded by [finally: return] (98-101). *)
Fixpoint wos_loop (f : nat) (ls : list str) (plst : list wrec) : list wrec * option ferror :=
  match f with
  | O => (plst, Some OutOfFuel)
  | S f' =>
    match ls with
    | [] => (plst, Some EndsBeforeEF)                                    (* 94-95 *)
    | l :: rest =>
      if isspace l then wos_loop f' rest plst                            (* 67-68 *)
      else if starts_with $"EF" l then                                   (* 69-71, 82-87 *)
        (plst, match rest with [] => None | _ => Some EFNotAtEnd end)
      else match wos_record (l :: rest) with                             (* 74 *)
           | (Ok r, rest') => wos_loop f' rest' (radd r plst)
           | (Raise BadWOSFile, rest') =>                                (* 75-81 *)
             match skip_to_ER rest' with
             | Some rest'' => wos_loop f' rest'' plst
             | None => wos_loop f' [] plst                               (* error set, then StopIteration at 64 *)
             end
           | (Raise _, _) => (plst, None)                                (* 98-101 *)
           end
    end
  end.

(** 60-61 *)
Fixpoint skip_header (ls : list str) : option (list str) :=
  match ls with
  | [] => None
  | l :: rest => if contains $"VR 1.0" l then Some rest else skip_header rest
  end.

(** open(..., encoding='utf-8-sig') and iteration over the lines *)
Definition read_lines (content : str) : list str := lines (translate (strip_bom content)).

(** wosHandlers.py 36-101: the records and the error *)
Definition wos_parse (content : str) : list wrec * option ferror :=
  match skip_header (read_lines content) with
  | None => ([], Some EndsBeforeEF)
  | Some ls => wos_loop (S (length ls)) ls []
  end.

(** wosHandlers.py 6-34 *)
Definition is_wos_file (content : str) : bool :=
  existsb (contains $"VR 1.0") (firstn 3 (read_lines content)).

(** recordWOS.py 137-144 *)
Definition write_field (e : str * list str) : str :=
  match snd e with
  | [] => []
  | v :: vs => fst e ++ [sp] ++ v ++ [nl] ++ concat (map (fun w => $"   " ++ w ++ [nl]) vs)
  end.
Definition write_fields (d : fields) : str := concat (map write_field d) ++ $"ER" ++ [nl].
(* 125-136 *)
Definition write_record (r : wrec) : res str :=
  if wbad r then Raise BadWOSRecord else Ok (write_fields (wfields r)).

(** recordCollection.py 225-245 for a collection of WOS records whose recorded type names are [types]:
    the text left in the file, written in the iteration order [rs].  An exception leaves the file
    incomplete; the model only returns the exception. *)
Fixpoint write_all (rs : list wrec) : res str :=
  match rs with
  | [] => Ok []
  | r :: rs' => let* a := write_record r in let* b := write_all rs' in Ok (a ++ [nl] ++ b)
  end.
Definition wos_header : str :=
  [bom] ++ $"FN Thomson Reuters Web of Science" ++ [8482%N; nl] ++ $"VR 1.0" ++ [nl].
Definition write_file (types : list str) (rs : list wrec) : res str :=
  if (length types <? 2) && match rs with [] => true | _ => false end
  then Raise AttributeError           (* 225-226: self.peek() is None when there are no records *)
  else
    let wos := eqb types [$"WOSRecord"] in
    let* body := write_all rs in
    Ok ((if wos then wos_header else []) ++ body ++ (if wos then $"EF" else [])).
