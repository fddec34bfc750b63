(** Looking fields up in a record (mkRecord.py ExtendedRecord and the four kinds of records). *)
From Coq Require Import String.
From Verif Require Import Base PyStr TagNames.
Set Implicit Arguments.

(** A special function reads other fields of the same record, [self[k]], and makes a value out of them. *)
Inductive prog (V : Type) : Type :=
| Ret (r : res V)
| Ask (k : str) (f : res V -> prog V).
Arguments Ret {V} r.
Arguments Ask {V} k f.

(** What a kind of record defines: getAltName, tagProcessingFunc applied to the raw field, and specialFuncs ([None]:
    KeyError). Values are immutable here; in python lists are returned by reference. *)
Record rclass (Raw V : Type) := { alt : str -> option str; proc : str -> Raw -> res V; special : str -> option (prog V) }.

Section Lookup.
Context {Raw V : Type}.
Variable cl : rclass Raw V.
(** [_fieldDict] *)
Variable fd : dict str Raw.

(** the field a key stands for: mkRecord.py:346-350, also :323 and :390-393 *)
Definition resolve (key : str) : option (str * Raw) :=
  match dget key fd with
  | Some raw => Some (key, raw)
  | None => match alt cl key with
            | Some a => match dget a fd with Some raw => Some (a, raw) | None => None end
            | None => None
            end
  end.
(** [_computedFields] gets the value under both names: mkRecord.py:357-360 and :330-333 *)
Definition memo (key : str) (v : V) (c : dict str V) : dict str V :=
  let c1 := dset key v c in match alt cl key with Some a => dset a v c1 | None => c1 end.
(** running a special function on the record; [None]: the recursion limit is reached *)
Fixpoint run (get : str -> dict str V -> option (res V * dict str V)) (p : prog V) (c : dict str V) : option (res V * dict str V) :=
  match p with
  | Ret r => Some (r, c)
  | Ask k f => match get k c with Some (r, c') => run get (f r) c' | None => None end
  end.
(** mkRecord.py:337-363 (__getitem__) for string keys; [n] bounds the number of nested lookups *)
Fixpoint getitem (n : nat) (key : str) (c : dict str V) : option (res V * dict str V) :=
  match dget key c with
  | Some v => Some (Ok v, c)
  | None =>
    match n with
    | 0 => None
    | S n' =>
      match resolve key with
      | Some (k, raw) => match proc cl k raw with Ok v => Some (Ok v, memo k v c) | Raise e => Some (Raise e, c) end
      | None =>
        match special cl key with
        | None => Some (Raise KeyError, c)
        | Some p => match run (getitem n') p c with
                    | Some (Ok v, c') => Some (Ok v, memo key v c')
                    | Some (Raise e, c') => Some (Raise e, c')
                    | None => None
                    end
        end
      end
    end
  end.
(** mkRecord.py:319-334 (__contains__) *)
Definition contains_key (n : nat) (key : str) (c : dict str V) : option (res bool * dict str V) :=
  if dhas key fd || match alt cl key with Some a => dhas a fd | None => false end || dhas key c then Some (Ok true, c)
  else match special cl key with
       | None => Some (Ok false, c)
       | Some p => match run (getitem n) p c with
                   | Some (Ok v, c') => Some (Ok true, memo key v c')
                   | Some (Raise KeyError, c') => Some (Ok false, c')
                   | Some (Raise e, c') => Some (Raise e, c')
                   | None => None
                   end
       end.
(** mkRecord.py:366-400 (get); [None] stands for the default *)
Definition get_raw (tag : str) : option Raw := match resolve tag with Some (_, raw) => Some raw | None => None end.
Definition get (n : nat) (tag : str) (c : dict str V) : option (res (option V) * dict str V) :=
  match getitem n tag c with
  | Some (Ok v, c') => Some (Ok (Some v), c')
  | Some (Raise KeyError, c') => Some (Ok None, c')
  | Some (Raise e, c') => Some (Raise e, c')
  | None => None
  end.

(** What a user can do with a record: R[k], k in R, R.get(k), R.get(k, raw = True), and continue with a copy of it or with
    what was pickled and loaded (mkRecord.py:446-452 drops [_computedFields]). *)
Inductive act := ItemOf (k : str) | IsIn (k : str) | GetOf (k : str) | RawOf (k : str) | CopyOf.
Inductive shown := SItem (r : res V) | SIn (r : res bool) | SGet (r : res (option V)) | SRaw (r : option Raw) | SCopy.
Definition perform (n : nat) (a : act) (c : dict str V) : option (shown * dict str V) :=
  match a with
  | ItemOf k => match getitem n k c with Some (r, c') => Some (SItem r, c') | None => None end
  | IsIn k => match contains_key n k c with Some (r, c') => Some (SIn r, c') | None => None end
  | GetOf k => match get n k c with Some (r, c') => Some (SGet r, c') | None => None end
  | RawOf k => Some (SRaw (get_raw k), c)
  | CopyOf => Some (SCopy, [])
  end.
(** what a list of actions shows, in order *)
Fixpoint perform_all (n : nat) (l : list act) (c : dict str V) : option (list shown) :=
  match l with
  | [] => Some []
  | a :: l' => match perform n a c with
               | Some (x, c') => match perform_all n l' c' with Some xs => Some (x :: xs) | None => None end
               | None => None
               end
  end.
End Lookup.

(** ** The special functions *)
Section Programs.
Context {V : Type}.
(** self[k], any exception is passed on *)
Definition ask (k : str) (f : V -> prog V) : prog V := Ask k (fun r => match r with Ok v => f v | Raise e => Ret (Raise e) end).
(** self.get(k): KeyError gives the default *)
Definition ask_get (k : str) (f : option V -> prog V) : prog V :=
  Ask k (fun r => match r with Ok v => f (Some v) | Raise KeyError => f None | Raise e => Ret (Raise e) end).
Variable truthy : V -> bool.
(** the text a field contributes to the citation, e.g. mkRecord.py:639 *)
Variable piece : str -> V -> res str.
(** if self.get(k, False): vals.append(... self.get(k) ...) *)
Definition part (k : str) (f : list str -> prog V) (acc : list str) (orelse : list str -> prog V) : prog V :=
  ask_get k (fun v => match v with
    | Some v => if truthy v then ask k (fun v2 => match piece k v2 with Ok s => f (acc ++ [s])%list | Raise e => Ret (Raise e) end) else orelse acc
    | None => orelse acc
    end).
Fixpoint parts (ks : list str) (fin : list str -> prog V) (acc : list str) : prog V :=
  match ks with
  | [] => fin acc
  | k :: ks' => part k (parts ks' fin) acc (parts ks' fin)
  end.
(** mkRecord.py:615-658 (createCitation with multiCite = False); [cite] joins the parts and makes the Citation *)
Definition create_citation (cite : list str -> res V) : prog V :=
  parts [$"authorsShort"; $"year"]
    (fun acc => let rest := parts [$"volume"; $"beginningPage"; $"DOI"] (fun acc => Ret (cite acc)) in
                part $"j9" rest acc (fun acc => part $"title" rest acc rest)) [].
(** scopus/recordScopus.py:107-164 (createCitation with multiCite = False); [spoilt] is [ret.bad], then year, title and
    journal are read again and set by [mend] *)
Definition scopus_citation (cite : list str -> res V) (spoilt : V -> bool) (mend : V -> option V -> option V -> option V -> res V) : prog V :=
  parts [$"authorsShort"; $"title"; $"year"; $"journal"; $"volume"; $"beginningPage"]
    (fun acc => match cite acc with
       | Ok c => if spoilt c then ask_get $"year" (fun y => ask_get $"title" (fun t => ask_get $"journal" (fun j => Ret (mend c y t j)))) else Ret (Ok c)
       | Raise e => Ret (Raise e)
       end) [].
End Programs.

(** ** The four kinds of records.  [f] gives the tag functions, of which only the names are modelled. *)
Section Kinds.
Context {Raw V : Type}.
Variable f : str -> Raw -> res V.
Variable truthy : V -> bool.
Variable piece : str -> V -> res str.
Variable cite : list str -> res V.
(** the record's id *)
Variable own_id : V.

(** WOS/recordWOS.py:97-113; [same] is the identity of :102 *)
Definition wos_class (same : Raw -> V) (no_grants : V) : rclass Raw V :=
  {| alt := wos_alt;
     proc := fun k raw => if dhas k wos_tags then f k raw else Ok (same raw);
     special := fun k =>
       if eqb k $"selfCitation" then Some (create_citation truthy piece cite)
       else if eqb k $"id" then Some (Ret (Ok own_id))
       else if eqb k $"grants" then Some (Ret (Ok no_grants))
       else None |}.

(** medline/tagProcessing/specialFunctions.py:56-80 *)
Definition medline_same : list (str * str) :=
  [($"j9", $"TA"); ($"grants", $"GR"); ($"authorsShort", $"AU"); ($"authorsFull", $"FAU"); ($"title", $"TI");
   ($"journal", $"JT"); ($"keywords", $"OT"); ($"abstract", $"AB")].
(** medline/tagProcessing/specialFunctions.py:5-54: [g] makes the value out of what was read *)
Definition medline_made (g : str -> list V -> res V) (k : str) : option (prog V) :=
  if eqb k $"year" then Some (ask $"DP" (fun v => match g k [v] with
      | Raise ValueError => ask $"DP" (fun v2 => Ret (g k [v; v2]))
      | r => Ret r
      end))
  else if eqb k $"month" then Some (ask $"DP" (fun v => Ret (g k [v])))
  else if eqb k $"volume" then Some (ask $"VI" (fun v => Ret (g k [v])))
  else if eqb k $"beginningPage" then Some (ask $"PG" (fun v => Ret (g k [v])))
  else if eqb k $"DOI" then Some (ask $"AID" (fun v => Ret (g k [v])))
  else if eqb k $"address" then Some (ask $"AD" (fun v => ask $"AU" (fun v2 => Ret (g k [v; v2]))))
  else None.
(** medline/recordMedline.py:54-64 *)
Definition medline_class (g : str -> list V -> res V) : rclass Raw V :=
  {| alt := medline_alt;
     proc := fun k raw => if mem k medline_known then f k raw else Raise KeyError;
     special := fun k =>
       match medline_made g k with
       | Some p => Some p
       | None =>
         match dget k medline_same with
         | Some t => Some (ask t (fun v => Ret (Ok v)))
         | None =>
           if eqb k $"selfCitation" then Some (create_citation truthy piece cite)
           else if eqb k $"id" then Some (Ret (Ok own_id)) else None
         end
       end |}.

(** scopus/tagProcessing/specialFunctions.py:1-18 *)
Definition scopus_same : list (str * str) :=
  [($"year", $"Year"); ($"volume", $"Volume"); ($"beginningPage", $"Page start"); ($"j9", $"Abbreviated Source Title");
   ($"citations", $"References"); ($"authorsShort", $"Authors"); ($"authorsFull", $"Authors"); ($"title", $"Title");
   ($"journal", $"Source title"); ($"keywords", $"Index Keywords"); ($"abstract", $"Abstract"); ($"id", $"EID")].
(** scopus/recordScopus.py:91-99 *)
Definition scopus_class (spoilt : V -> bool) (mend : V -> option V -> option V -> option V -> res V) : rclass Raw V :=
  {| alt := no_alt;
     proc := fun k raw => if mem k scopus_known then f k raw else Raise KeyError;
     special := fun k =>
       match dget k scopus_same with
       | Some t => Some (ask t (fun v => Ret (Ok v)))
       | None => if eqb k $"selfCitation" then Some (scopus_citation truthy piece cite spoilt mend) else None
       end |}.

(** proquest/tagProcessing/specialFunctions.py:1-18 *)
Definition proquest_same : list (str * str) :=
  [($"authorsShort", $"Author"); ($"keywords", $"Identifier / keyword"); ($"abstract", $"Abstract"); ($"year", $"Degree date");
   ($"title", $"Title")].
(** proquest/recordProQuest.py:54-64; [zero] is the page and [author_word] the string that 'authorsFull' always gives *)
Definition proquest_class (zero author_word : V) : rclass Raw V :=
  {| alt := no_alt;
     proc := f;
     special := fun k =>
       match dget k proquest_same with
       | Some t => Some (ask t (fun v => Ret (Ok v)))
       | None =>
         if eqb k $"selfCitation" then Some (create_citation truthy piece cite)
         else if eqb k $"beginningPage" then Some (Ret (Ok zero))
         else if eqb k $"authorsFull" then Some (Ret (Ok author_word))
         else if eqb k $"id" then Some (Ret (Ok own_id)) else None
       end |}.
End Kinds.

(** WOS/tagProcessing/helpFuncs.py:2 *)
Definition month_dict : dict str Z :=
  [($"SPR", 3); ($"SUM", 6); ($"FAL", 9); ($"WIN", 12); ($"JAN", 1); ($"FEB", 2); ($"MAR", 3); ($"APR", 4); ($"MAY", 5); ($"JUN", 6);
   ($"JUL", 7); ($"AUG", 8); ($"SEP", 9); ($"OCT", 10); ($"NOV", 11); ($"DEC", 12)]%Z.
(** WOS/tagProcessing/helpFuncs.py:4-25 (getMonth); [inr]: a number that is returned as a string *)
Definition get_month (upper : str -> str) (isdigit : str -> bool) (s : str) : res (Z + str) :=
  let parts := split_char 45%N s in
  match dget (upper (hd [] parts)) month_dict with
  | Some m => Ok (inl m)
  | None =>
    let m := upper (last parts []) in
    if isdigit m then Ok (inr m)
    else match dget m month_dict with Some z => Ok (inl z) | None => Raise KeyError end
  end.
(** WOS/tagProcessing/tagFunctions.py:823-842 (month) *)
Definition month (upper : str -> str) (isdigit : str -> bool) (val : list str) : res (Z + str) :=
  match val with
  | [] => Raise IndexError
  | v :: _ => get_month upper isdigit (hd [] (split_char sp v))
  end.
