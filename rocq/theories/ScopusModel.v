(** Reading and writing Scopus csv files: metaknowledge/scopus/recordScopus.py, metaknowledge/scopus/scopusHandlers.py and the Scopus part
    of RecordCollection.writeFile.

    A file is its decoded text; the branches for UnicodeDecodeError are not modelled, nor the source file names and line numbers of errors. *)
From Coq Require Import List ZArith Lia Bool Arith.
From Coq Require Import String.
From Verif Require Import Base PyStr Regex.
Import ListNotations.
Local Open Scope list_scope.

Definition comma : char := 44%N.
Definition quo : char := 34%N.
(** recordScopus.py:13-56 *)
Definition scopus_header : list str :=
  [$"Authors"; $"Title"; $"Year"; $"Source title"; $"Volume"; $"Issue"; $"Art. No."; $"Page start"; $"Page end"; $"Page count"; $"Cited by"; $"DOI";
   $"Link"; $"Affiliations"; $"Authors with affiliations"; $"Abstract"; $"Author Keywords"; $"Index Keywords"; $"Molecular Sequence Numbers";
   $"Chemicals/CAS"; $"Tradenames"; $"Manufacturers"; $"Funding Details"; $"Funding Text"; $"References"; $"Correspondence Address"; $"Editors";
   $"Sponsors"; $"Publisher"; $"Conference name"; $"Conference date"; $"Conference location"; $"Conference code"; $"ISSN"; $"ISBN"; $"CODEN";
   $"PubMed ID"; $"Language of Original Document"; $"Abbreviated Source Title"; $"Document Type"; $"Source"; $"EID"].
Definition sfields := dict str str.

(** the pattern (dquote dquote)* dquote, of both expressions *)
Definition rx_pairs (r : rx) : rx := RCat (RRep true 0 None (RGrp 1 (rtext [quo; quo]))) (RCat (rchar quo) (RGrp 2 r)).
(** firstQuotingRegex, recordScopus.py:166: then one other character, or a quote at the end *)
Definition first_quoting : rx := rx_pairs (ROr (RCls (fun c => negb (N.eqb c quo))) (RCat (rchar quo) REol)).
(** innerQuotingRegex, recordScopus.py:167: then one character that is not a quote, a bar or a dollar sign *)
Definition inner_quoting : rx := rx_pairs (RCls (fun c => negb (N.eqb c quo || N.eqb c 124 || N.eqb c 36))).
Definition matches (r : rx) (s : str) : bool := match re_match r s with Some _ => true | None => false end.

(** recordScopus.py:207-210; [ps] is splitRecord with its last element first. None: pop from an empty list *)
Fixpoint gather (ps : list str) (val : str) : option (str * list str) :=
  match ps with
  | [] => None
  | p :: ps' => if matches inner_quoting p then Some (skipn 1 p ++ val, ps') else gather ps' ([comma] ++ p ++ val)
  end.
(** recordScopus.py:188-220 *)
Fixpoint sloop (keys : list str) (ps : list str) (d : sfields) : res sfields :=
  match keys with
  | [] => Ok d
  | k :: ks =>
    match ps with
    | [] => Raise IndexError
    | p :: ps' =>
      if eqb p [] then sloop ks ps' d
      else if eqb (last p 0%N) quo then
        if matches first_quoting p then sloop ks ps' (dset k (init_ (skipn 1 p)) d)
        else match gather ps' ([comma] ++ init_ p) with
             | None => Raise IndexError
             | Some (v, ps'') => sloop ks ps'' (dset k v d)
             end
      else sloop ks ps' (dset k p d)
    end
  end.
(** recordScopus.py:169-221 *)
Definition scopus_parse (header : option (list str)) (record : str) : res sfields :=
  sloop (rev (match header with Some h => h | None => scopus_header end)) (rev (split_char comma (init_ record))) [].

(** ScopusRecord objects *)
Record srec := mkSrec { sid : option str; sdata : sfields; sbad : bool; serr : option exn }.
(** recordScopus.py:76-83 *)
Definition srec_of (d : sfields) : srec :=
  match dget $"EID" d with
  | Some v => mkSrec (Some ($"EID:" ++ v)) d false None
  | None => mkSrec None d true (Some BadScopusRecord)
  end.
(** recordScopus.py:63-83 for a text: an IndexError makes a record without fields *)
Definition scopus_record (header : option (list str)) (line : str) : srec :=
  match scopus_parse header line with Ok d => srec_of d | Raise _ => srec_of [] end.

(** Equality of records, mkRecord.py:90-104, 128-146 *)
Inductive skey := SGood (i : option str) | SBad (vs : list str) (e : option exn).
#[global] Instance EqDec_skey : EqDec skey.
Proof. intros x y; unfold EqDec; decide equality; apply eq_dec. Defined.
Definition skey_of (r : srec) : skey := if sbad r then SBad (dvals (sdata r)) (serr r) else SGood (sid r).
Definition sadd (r : srec) (s : list srec) : list srec := if mem (skey_of r) (map skey_of s) then s else s ++ [r].

(** len(set(a) ^ set(b)) *)
Definition sym_diff (a b : list str) : nat :=
  length (filter (fun x => negb (mem x b)) (nodup eq_dec a)) + length (filter (fun x => negb (mem x a)) (nodup eq_dec b)).
(** openfile.readline()[:-1].split(',') *)
Definition header_of (line : str) : list str := split_char comma (init_ line).
(** scopusHandlers.py:59-76: read(1) takes the first character, whatever it is. No error is ever set *)
Definition scopus_file (content : str) : list srec :=
  let ls := lines (tl (translate content)) in
  let h := header_of (match ls with l :: _ => l | [] => [] end) in
  let header := if sym_diff h scopus_header =? 0 then None else Some h in
  fold_left (fun s l => sadd (scopus_record header l) s) (tl ls) [].
(** scopusHandlers.py:31-41 with the default arguments *)
Definition is_scopus_file (content : str) : bool :=
  match translate content with
  | c :: t =>
    eqb c bom &&
    let ls := lines t in
    existsb (fun l => sym_diff (header_of l) scopus_header <? 3) [nth 0 ls []; nth 1 ls []]
  | [] => false
  end.

(** recordScopus.py:101-105 *)
Definition sget (k : str) (d : sfields) : str := match dget k d with Some v => v | None => [] end.
Definition write_scopus (d : sfields) : str := join [comma] (map (fun k => [quo] ++ sget k d ++ [quo]) scopus_header).
Definition write_srec (r : srec) : res str := if sbad r then Raise BadScopusRecord else Ok (write_scopus (sdata r)).
Fixpoint write_srecs (rs : list srec) : res str :=
  match rs with
  | [] => Ok []
  | r :: rs' => let* a := write_srec r in let* b := write_srecs rs' in Ok (a ++ [nl] ++ b)
  end.
(** recordCollection.py:225-245 for a collection whose only type is ScopusRecord *)
Definition write_sfile (rs : list srec) : res str :=
  match rs with
  | [] => Raise AttributeError
  | _ => let* body := write_srecs rs in Ok ([bom] ++ join [comma] scopus_header ++ [nl] ++ body)
  end.
