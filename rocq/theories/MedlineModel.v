(** Reading and writing Medline files: metaknowledge/medline/recordMedline.py, metaknowledge/medline/medlineHandlers.py and the
    Medline part of RecordCollection.writeFile.

    A file is its decoded text; latin-1 decodes everything, so the branches for UnicodeDecodeError are never taken and not modelled.
    Source file names and line numbers in messages are not modelled. *)
From Coq Require Import List ZArith Lia Bool Arith.
From Coq Require Import String.
From Verif Require Import Base PyStr JournalModel.
Import ListNotations.
Local Open Scope list_scope.

Definition mfields := dict str (list str).
(** medline/tagProcessing/tagNames.py:4-7 *)
Definition author_tags : list str := [$"AD"; $"AUID"].

Section Medline.
(** python's str.isalpha of one character *)
Variable alpha : char -> bool.
Definition isalpha (s : str) : bool := match s with [] => false | _ => forallb alpha s end.

(** tagDict[tag].append(contents), or a new list (recordMedline.py:118-121) *)
Definition put (t v : str) (d : mfields) : mfields := dset t (match dget t d with Some vs => vs ++ [v] | None => [v] end) d.
(** tagDict[tag][-1] += '\n' + more (recordMedline.py:123) *)
Definition more (t w : str) (d : mfields) : res mfields :=
  match dget t d with
  | None => Raise KeyError
  | Some [] => Raise IndexError
  | Some (v :: vs) => Ok (dset t (removelast (v :: vs) ++ [last (v :: vs) [] ++ [nl] ++ w]) d)
  end.
Definition six : str := $"      ".
(** recordMedline.py:104-127; [tag] and [au] are the current tag and the most recent author. Also the lines that are left *)
Fixpoint mparse (ls : list str) (tag : str) (au : option str) (d : mfields) : res mfields * list str :=
  match ls with
  | [] => (Ok d, [])
  | l :: ls' =>
    let t := rstrip (firstn 4 l) in
    let contents := init_ (skipn 6 l) in
    let other :=
      if eqb (firstn 6 l) six then
        match more tag contents d with Ok d' => mparse ls' tag au d' | Raise e => (Raise e, ls') end
      else if eqb l [nl] then (Ok d, ls')
      else (Raise BadPubmedRecord, ls') in
    if isalpha t then
      match nth_error l 4 with
      | None => (Raise IndexError, ls')
      | Some c =>
        if eqb c 45%N then
          let au' := if eqb t $"AU" then Some contents else au in
          let v := if mem t author_tags then (match au' with Some a => a | None => $"None" end) ++ $" : " ++ contents else contents in
          mparse ls' t au' (put t v d)
        else other
      end
    else other
  end.
Definition medline_parse (ls : list str) : res mfields * list str := mparse ls $"PMID" None [].

(** MedlineRecord objects *)
Record mrec := mkMrec { mid : option str; mdata : mfields; mbad : bool; merr : option exn }.
(** recordMedline.py:41-48 with the dict from the parser. With a BadPubmedRecord from the parser (37-40) the dict is empty, and 44-48
    replace the error by another of the same type *)
Definition mrec_of (d : mfields) : res mrec :=
  match dget $"PMID" d with
  | Some (v :: _) => Ok (mkMrec (Some ($"PMID:" ++ v)) d false None)
  | Some [] => Raise IndexError
  | None => Ok (mkMrec None d true (Some BadPubmedRecord))
  end.
Definition medline_record (ls : list str) : res mrec * list str :=
  match medline_parse ls with
  | (Ok d, rest) => (mrec_of d, rest)
  | (Raise BadPubmedRecord, rest) => (mrec_of [], rest)
  | (Raise e, rest) => (Raise e, rest)
  end.
(** MedlineRecord(text), recordMedline.py:31-35 *)
Definition medline_of_text (s : str) : res mrec := fst (medline_record (map (fun l => l ++ [nl]) (split_char nl s))).

(** Equality of records, mkRecord.py:90-104, 128-146 *)
Inductive mkey := MGood (i : option str) | MBad (vs : list (list str)) (e : option exn).
#[global] Instance EqDec_mkey : EqDec mkey.
Proof. intros x y; unfold EqDec; decide equality; apply eq_dec. Defined.
Definition mkey_of (r : mrec) : mkey := if mbad r then MBad (dvals (mdata r)) (merr r) else MGood (mid r).
(** recSet.add(r) *)
Definition madd (r : mrec) (s : list mrec) : list mrec := if mem (mkey_of r) (map mkey_of s) then s else s ++ [r].

(** medlineHandlers.py:58-89, after the first next(f). The flag tells if there is an error; [fuel] bounds the number of entries, and the
    exceptions that MedlineRecord does not turn into bad records leave the function (the handler of lines 66-75 is for an exception
    nothing raises) *)
Fixpoint med_loop (fuel : nat) (ls : list str) (recs : list mrec) (err : bool) : res (list mrec * bool) :=
  match ls with
  | [] => Ok (recs, err)
  | l :: ls' =>
    match fuel with
    | 0 => Raise RuntimeError
    | S fuel' =>
      if starts_with $"PMID- " l then
        match medline_record ls with
        | (Ok r, rest) => med_loop fuel' rest (madd r recs) err
        | (Raise e, _) => Raise e
        end
      else med_loop fuel' ls' recs (if eqb l [nl] then err else true)
    end
  end.
Definition medline_file (content : str) : res (list mrec * bool) :=
  match lines (translate content) with
  | [] => Raise StopIteration
  | ls => med_loop (length ls) ls [] false
  end.
End Medline.

(** medlineHandlers.py:7-35 *)
Definition is_medline_file (content : str) : bool := existsb (starts_with $"PMID- ") (firstn 2 (lines (translate content))).

(** "{0}{1}- {2}\n".format(tag, ' ' * (4 - len(tag)), v.replace('\n', '\n      ')) *)
Definition indent (v : str) : str := flat_map (fun c => if eqb c nl then nl :: six else [c]) v.
Definition entry (t v : str) : str := t ++ repeat sp (4 - length t) ++ $"- " ++ indent v ++ [nl].
(** val.split(' : '): the first part and the others joined again *)
Definition colon_split (v : str) : str * str := match cut $" : " v with Some (a, b) => (a, b) | None => (v, []) end.
(** recordMedline.py:72-79 *)
Definition author_lines (d : mfields) : dict str (list str) :=
  fold_left (fun m tv => let '(a, w) := colon_split (snd tv) in dset a (match dget a m with Some ls => ls ++ [entry (fst tv) w] | None => [entry (fst tv) w] end) m)
            (flat_map (fun t => map (pair t) (match dget t d with Some vs => vs | None => [] end)) author_tags) [].
(** recordMedline.py:80-88 *)
Definition write_medline (d : mfields) : str :=
  let al := author_lines d in
  concat (map (fun '(t, vs) =>
    if mem t author_tags then []
    else concat (map (fun v => entry t v ++ if eqb t $"AU" then concat (match dget v al with Some ls => ls | None => [] end) else []) vs)) d).
(** recordMedline.py:66-71 *)
Definition write_mrec (r : mrec) : res str := if mbad r then Raise BadPubmedRecord else Ok (write_medline (mdata r)).
Fixpoint write_mrecs (rs : list mrec) : res str :=
  match rs with
  | [] => Ok []
  | r :: rs' => let* a := write_mrec r in let* b := write_mrecs rs' in Ok (a ++ [nl] ++ b)
  end.
(** recordCollection.py:225-245 for a collection whose only type is MedlineRecord (an empty one has no record to ask for the encoding) *)
Definition write_mfile (rs : list mrec) : res str :=
  match rs with
  | [] => Raise AttributeError
  | _ => let* body := write_mrecs rs in Ok ([nl] ++ body)
  end.
