(** Specification for C47: NSERC grants that are spread over several rows and files. *)
From Coq Require Import List ZArith Lia Bool Arith.
From Coq Require Import String.
From Verif Require Import Base PyStr TextModel SeriesSpec GrantModel.
Import ListNotations.
Local Open Scope list_scope.

(** a row has texts only, and a key *)
Definition row_ok (r : gfields) : Prop := NoDup (dkeys r) /\ (forall f v, In (f, v) r -> exists s, v = GText s) /\ exists c, c <> [] /\ dget $"Cle" r = Some (GText c).
(** the text of a field, empty if it is missing *)
Definition text_of (f : str) (d : gfields) : str := match dget f d with Some (GText s) => s | _ => [] end.
Definition cle (r : gfields) : str := text_of $"Cle" r.
Definition not_empty (s : str) : bool := match s with [] => false | _ => true end.
(** all the texts a field has in some rows, in order *)
Definition merged (f : str) (rows : list gfields) : str := join $"; " (filter not_empty (map (text_of f) rows)).
Definition rows_with (c : str) (rows : list gfields) : list gfields := filter (fun r => eqb (cle r) c) rows.
(** one good grant for each key, in the order of first occurrence, with the texts of all its rows *)
Definition merges (rows : list gfields) (gs : list grant) : Prop :=
  Forall2 (fun c g => g_kind g = NSERCG /\ g_id g = $"NSERC:" ++ c /\ g_bad g = false /\ forall f, text_of f (g_data g) = merged f (rows_with c rows)) (first_seen (map cle rows)) gs.

(** ** Networks (C61) *)
(** the names one value gives *)
Definition names_in (sep : str) (v : option gval) : list str :=
  match v with
  | Some (GText s) => map strip (split_on (length s) sep s)
  | Some (GTexts l) => map (fun s => strip (hd [] (split_on (length s) sep s))) l
  | _ => []
  end.
(** the keys of a grant whose name contains a word, capitals aside, that are not in a list *)
Definition keys_with (lower : str -> str) (word : str) (d : gfields) (except : list str) : list str :=
  filter (fun k => contains word (lower k) && negb (mem k except)) (dkeys d).
(** the fields a network looks at when [given] was given *)
Definition looked_at (lower : str -> str) (inst : bool) (g : grant) (given : targ) : list str :=
  let tags := match given with TNone => [] | TOne x => [x] | TMany l => l end in
  match g_kind g with
  | NSERCG => tags ++ keys_with lower (if inst then $"institution" else $"name-") (g_data g) tags
  | NSFG => let own := if inst then $"Institution" else $"Investigator" in match given with TMany l => l ++ [own] | _ => own :: tags end
  | _ => tags
  end.
(** the names of one grant, each with its field *)
Definition people (sep : str) (fields : list str) (g : grant) : list (str * str) :=
  flat_map (fun f => map (fun n => (n, f)) (names_in sep (dget f (g_data g)))) fields.
(** no field that is looked at is None *)
Definition readable (fields : list str) (g : grant) : Prop := forall f, In f fields -> dget f (g_data g) <> Some GNone.
(** the number of times [n] is counted in one grant: its place counts *)
Fixpoint places (n : str) (k : nat) (l : list str) : nat :=
  match l with [] => 0 | x :: l' => (if eqb x n then k else 0) + places n (k + 1) l' end.
(** the field under which a name was met first *)
Definition first_field (n : str) (ps : list (str * str)) : option str := dget n ps.

(** ** NSF files (C63) *)
Definition is_leaf (e : element) : bool := match e_children e with [] => true | _ => false end.
Definition named (tag : str) (e : element) : bool := eqb (e_tag e) tag.
Definition grouped (e : element) : bool := named $"Organization" e || named $"Investigator" e.
(** what a leaf says: the last one counts *)
Definition leaf_value (f : str) (top : element) : option gval :=
  match filter (fun c => named f c && is_leaf c && negb (grouped c)) (e_children top) with
  | [] => None
  | c :: l => Some (match e_text (last l c) with Some t => GText t | None => GNone end)
  end.
(** the texts of the elements in an element, of those with some tags or of all *)
Definition texts_named (p : str -> bool) (e : element) : list str := flat_map (fun c => if p (e_tag c) then match e_text c with Some t => [t] | None => [] end else []) (e_children e).
Definition inner_texts (e : element) : list str := texts_named (fun _ => true) e.
(** the texts of the parts of an organization *)
Definition part_texts (part : str) (org : element) : list str :=
  match filter (named part) (e_children org) with
  | [] => []
  | p :: _ => match inner_texts p with [] => [] | ts => [join $"; " ts] end
  end.
(** the texts of an investigator: first names, last names, all others *)
Definition investigator_text (e : element) : str :=
  join $" " (rev (texts_named (eqb $"FirstName") e) ++ texts_named (eqb $"LastName") e) ++ $"; " ++ join $", " (texts_named (fun t => negb (eqb $"FirstName" t || eqb $"LastName" t)) e).
(** the texts that are gathered under a name *)
Definition gathered (f : str) (top : element) : list str :=
  (if eqb f $"Directorate" || eqb f $"Division" then flat_map (part_texts f) (filter (named $"Organization") (e_children top)) else []) ++
  (if eqb f $"Investigator" then map investigator_text (filter (named $"Investigator") (e_children top)) else []) ++
  map (fun c => join $"; " (inner_texts c)) (filter (fun c => named f c && negb (is_leaf c) && negb (grouped c)) (e_children top)).
(** no name is used both ways *)
Definition one_way (top : element) : Prop := forall f, leaf_value f top = None \/ gathered f top = [].

(** ** Medline grants (C62): the text of the parts a grant has *)
Definition whole (d : gfields) : str := join $"/" (filter not_empty [text_of $"number" d; text_of $"code" d] ++ [text_of $"agency" d; text_of $"country" d]).
