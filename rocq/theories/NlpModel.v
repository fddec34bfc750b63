(** Model of the tables of words and abstracts: metaknowledge/recordCollection.py 436-553 (forBurst) and 555-695 (forNLP).
    The files written when outputFile is given are in TableFileModel.v; the progress bar is not modelled. *)
From Coq Require Import List ZArith Lia Bool Arith.
From Coq Require Import String.
From Verif Require Import Base PyStr JournalModel TextModel.
Import ListNotations.
Local Open Scope list_scope.

(** ** Python's text functions (library) *)
(** s.replace(old, new) for a text [old] that is not empty *)
Fixpoint replace_from (fuel : nat) (old new s : str) : str :=
  match fuel, s with
  | S fuel', c :: s' =>
    if starts_with old s then new ++ replace_from fuel' old new (skipn (length old) s) else c :: replace_from fuel' old new s'
  | _, _ => s
  end.
Definition replace_all (old new s : str) : str := replace_from (length s) old new s.
(** s[1:-1] *)
Definition inside (s : str) : str := removelast (tl s).

Section Clean.
(** \s, \w and \d of python's re, and str.lower *)
Variables iss isw isd : char -> bool.
Variable lower : str -> str.
(** re.sub(r'\s+', ' ', s); [after]: the last character was one of \s *)
Fixpoint squeeze (after : bool) (s : str) : str :=
  match s with
  | [] => []
  | c :: s' => if iss c then (if after then squeeze true s' else sp :: squeeze true s') else c :: squeeze false s'
  end.
(** the options of both functions *)
Record opts := { o_drop : option (list str); o_lower : bool; o_numbers : bool; o_nonwords : bool; o_white : bool }.
(** recordCollection.py:478-486 and 598-606; the empty expression matches nothing but the empty text *)
Definition other (o : opts) (c : char) : bool :=
  if o_numbers o then (if o_nonwords o then negb (isw c) || isd c else isd c)
  else if o_nonwords o then negb (isw c) else false.
(** recordCollection.py:488-492: the function given to re.sub, for each character that matches *)
Definition others (o : opts) (s : str) : str := filter (fun c => negb (other o c) || eqb c sp) s.
(** recordCollection.py:496-501 *)
Definition drop_words (drop : list str) (s : str) : str :=
  inside (fold_left (fun s w => replace_all (sp :: w ++ [sp]) [sp] s) drop (sp :: s ++ [sp])).
(** recordCollection.py:495-507 *)
Definition burst_text (o : opts) (s : str) : str :=
  let s := match o_drop o with Some drop => drop_words drop s | None => s end in
  let s := if o_white o then squeeze false s else s in
  let s := if o_lower o then lower s else s in
  others o s.
(** recordCollection.py:508-516 *)
Definition burst_words (o : opts) (stemmer : option (str -> str)) (s : str) : list str :=
  let tokens := split_char sp (burst_text o s) in
  match stemmer with Some f => map f tokens | None => tokens end.
(** s.replace('\n', ' ') *)
Definition no_lines (s : str) : str := map (fun c => if eqb c nl then sp else c) s.
(** recordCollection.py:615-642 *)
Definition abstract_text (o : opts) (copyright : bool) (stemmer : option (str -> str)) (s : str) : str * str :=
  let s := match o_drop o with Some drop => drop_words drop (no_lines s) | None => s end in
  let s := if o_white o then squeeze false s else s in
  let '(s, cr) := if copyright then find_copyright isd s else (s, []) in
  let s := if o_lower o then lower s else s in
  let s := others o s in
  let s := match stemmer with Some f => join [sp] (map f (split_char sp s)) | None => s end in
  (s, cr).

(** ** forBurst *)
Section Burst.
Context {R Y : Type}.
(** R['year'] and R[tag], None for a KeyError; the second as the texts of a list joined by spaces or the text of another value *)
Variable year : R -> option Y.
Inductive bvalue := BTexts (l : list str) | BText (s : str).
Variable value : R -> option bvalue.
Definition bvalue_text (v : bvalue) : str := match v with BTexts l => join [sp] l | BText s => s end.
(** recordCollection.py:527-542: the columns year and word *)
Fixpoint for_burst (o : opts) (stemmer : option (str -> str)) (rs : list R) (ys : list Y) (ws : list str) : list Y * list str :=
  match rs with
  | [] => (ys, ws)
  | r :: rs' =>
    match year r with
    | None => for_burst o stemmer rs' ys ws
    | Some y =>
      match value r with
      | None => for_burst o stemmer rs' ys ws
      | Some v =>
        let '(ys, ws) := fold_left (fun yw w => (fst yw ++ [y], snd yw ++ [w])) (burst_words o stemmer (bvalue_text v)) (ys, ws) in
        for_burst o stemmer rs' ys ws
      end
    end
  end.
End Burst.

(** ** forNLP *)
Section Nlp.
(** a cell: a text or another value *)
Context {R X : Type}.
Inductive ncell := NText (s : str) | NOther (x : X).
(** a field of a record: missing (None), a list of values each made a text, or one value *)
Inductive nfield := FList (l : list str) | FOne (c : ncell).
Variable ident : R -> ncell.
Variable get : R -> str -> option nfield.
Definition builtins : list str := [$"id"; $"year"; $"title"; $"keywords"; $"abstract"].
(** lst.remove(x) *)
Fixpoint remove_one (x : str) (l : list str) : list str :=
  match l with [] => [] | y :: l' => if eqb x y then l' else y :: remove_one x l' end.
(** recordCollection.py:655-660: extraColumns, as the caller then has it *)
Definition extra_left (extra : list str) : list str := fold_left (fun l b => if mem b l then remove_one b l else l) builtins extra.
(** R.get(tag, ''), R.get('keywords', []) and R.get('AB', ''). Simplification: the keywords are a list and the abstract is a text *)
Definition get_plain (r : R) (tag : str) : nfield := match get r tag with Some v => v | None => FOne (NText []) end.
Definition get_texts (r : R) (tag : str) : list str := match get r tag with Some (FList l) => l | _ => [] end.
Definition get_text (r : R) (tag : str) : str := match get r tag with Some (FOne (NText s)) => s | _ => [] end.
(** recordCollection.py:678-683 *)
Definition extra_cell (r : R) (tag : str) : nfield :=
  match get r tag with Some (FList l) => FOne (NText (join $"|" l)) | None => FOne (NText []) | Some v => v end.
(** retDict[k].append(v) *)
Definition append (k : str) (v : nfield) (t : dict str (list nfield)) : res (dict str (list nfield)) :=
  match dget k t with Some l => Ok (dset k (l ++ [v]) t) | None => Raise KeyError end.
Fixpoint append_all (l : list (str * nfield)) (t : dict str (list nfield)) : res (dict str (list nfield)) :=
  match l with [] => Ok t | (k, v) :: l' => let* t := append k v t in append_all l' t end.
(** recordCollection.py:667-683: what is appended for one record, in order *)
Definition nlp_row (o : opts) (copyright : bool) (stemmer : option (str -> str)) (extra : list str) (r : R) : list (str * nfield) :=
  let '(a, c) := abstract_text o copyright stemmer (get_text r $"AB") in
  [($"id", FOne (ident r)); ($"year", get_plain r $"year"); ($"title", get_plain r $"title");
   ($"keywords", FOne (NText (join $"|" (get_texts r $"keywords")))); ($"abstract", FOne (NText a))]
  ++ (if copyright then [($"copyright", FOne (NText c))] else [])
  ++ map (fun t => (t, extra_cell r t)) extra.
Fixpoint nlp_rows (o : opts) (copyright : bool) (stemmer : option (str -> str)) (extra : list str) (rs : list R) (t : dict str (list nfield)) : res (dict str (list nfield)) :=
  match rs with
  | [] => Ok t
  | r :: rs' => let* t := append_all (nlp_row o copyright stemmer extra r) t in nlp_rows o copyright stemmer extra rs' t
  end.
(** recordCollection.py:651-695: the table and the list extraColumns of the caller after the call *)
Definition for_nlp (o : opts) (copyright : bool) (stemmer : option (str -> str)) (extra : list str) (rs : list R) : res (dict str (list nfield)) * list str :=
  let extra := extra_left extra in
  let t := map (fun k => (k, [])) (builtins ++ (if copyright then [$"copyright"] else [])) in
  let t := fold_left (fun t k => dset k [] t) extra t in
  (nlp_rows o copyright stemmer extra rs t, extra).
End Nlp.
End Clean.
