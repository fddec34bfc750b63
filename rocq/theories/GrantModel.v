(** Grants: metaknowledge/grants/baseGrant.py, nsercGrant.py, cihrGrant.py, nsfGrant.py, medlineGrant.py, scopusGrant.py, and the merging of files and the
    networks of metaknowledge/grantCollection.py.

    Simplifications: csv.DictReader is the list of its rows and what ended it; ET.parse is the tree it gives; source files and lines are left out; two
    grants are equal when what is hashed is equal, so hash collisions are left out; progress bars are left out. *)
From Coq Require Import List ZArith Lia Bool Arith.
From Coq Require Import String.
From Verif Require Import Base PyStr PyInt JournalModel TextModel Nx NetModel.
Import ListNotations.
Local Open Scope list_scope.

(** values of fields: a text, a list of texts, None *)
Inductive gval := GText (s : str) | GTexts (l : list str) | GNone.
#[global] Instance EqDec_gval : EqDec gval.
Proof. intros x y; unfold EqDec; decide equality; apply eq_dec. Defined.
Definition gfields := dict str gval.
Inductive gkind := MedlineG | ScopusG | NSERCG | NSFG | CIHRG | FallbackG.
#[global] Instance EqDec_gkind : EqDec gkind.
Proof. intros x y; unfold EqDec; decide equality. Defined.
Record grant := mkGrant { g_kind : gkind; g_id : str; g_bad : bool; g_err : option exn; g_data : gfields }.

(** mkRecord.py:90-104, 128-146: what is hashed; grants of different classes are different *)
Inductive gkey := KGood (k : gkind) (i : str) | KBad (k : gkind) (vs : list gval) (e : option exn).
#[global] Instance EqDec_gkey : EqDec gkey.
Proof. intros x y; unfold EqDec; decide equality; apply eq_dec. Defined.
Definition gkey_of (g : grant) : gkey := if g_bad g then KBad (g_kind g) (dvals (g_data g)) (g_err g) else KGood (g_kind g) (g_id g).
(** Sets keep the hash an element had when it was added. *)
Record member := mkMember { m_key : gkey; m_grant : grant }.
Definition gset := list member.
(** x in s *)
Definition gfinds (g : grant) (m : member) : bool := eqb (m_key m) (gkey_of g) && eqb (gkey_of (m_grant m)) (gkey_of g).
Definition gmem (g : grant) (s : gset) : bool := existsb (gfinds g) s.
(** s.add(x) *)
Definition gadd (g : grant) (s : gset) : gset := if gmem g s then s else s ++ [mkMember (gkey_of g) g].
(** s |= t; the hashes are those kept in t. In CPython the elements of t are not compared with each other if s is empty; this is left out: it makes a difference only if two elements of t
    have become equal after they were added *)
Definition gjoin (s t : gset) : gset :=
  fold_left (fun s m => if existsb (fun m' => eqb (m_key m') (m_key m) && eqb (gkey_of (m_grant m')) (gkey_of (m_grant m))) s then s else s ++ [m]) t s.
(** s.remove(x) *)
Fixpoint gremove (g : grant) (s : gset) : res gset :=
  match s with
  | [] => Raise KeyError
  | m :: s' => if gfinds g m then Ok s' else let* r := gremove g s' in Ok (m :: r)
  end.

(** ** NSERC *)
(** str(v) as format writes it, for what a csv row can have *)
Definition gshow (v : gval) : str := match v with GText s => s | GNone => $"None" | GTexts l => join $", " l end.
Section Nserc.
Variable hash : str -> Z.
(** nsercGrant.py:8-17 *)
Definition nserc (original : str) (d : gfields) : grant :=
  match dget $"Cle" d with
  | None | Some (GText []) => mkGrant NSERCG ($"NSERC:" ++ dec_Z (hash original)) true (Some BadGrant) d
  | Some v => mkGrant NSERCG ($"NSERC:" ++ gshow v) false None d
  end.
(** nsercGrant.py:19-26; also the exception that ended it *)
Fixpoint update_fields (items : list (str * gval)) (d : gfields) : gfields * option exn :=
  match items with
  | [] => (d, None)
  | (f, v) :: items' =>
    if eqb v (GText []) then update_fields items' d
    else match dget f d with
         | None | Some (GText []) => update_fields items' (dset f v d)
         | Some (GText s) => update_fields items' (dset f (GText (s ++ $"; " ++ gshow v)) d)
         | Some _ => (d, Some TypeError)
         end
  end.
Definition nserc_update (g other : grant) : grant * option exn :=
  let '(d, e) := update_fields (g_data other) (g_data g) in (mkGrant (g_kind g) (g_id g) (g_bad g) (g_err g) d, e).
(** baseGrant.py:96-110 for the other classes *)
Definition base_update (g other : grant) : grant :=
  if eqb (g_kind g) (g_kind other)
  then mkGrant (g_kind g) (g_id g) (g_bad g || g_bad other) (if g_bad other then g_err other else g_err g) (dupdate (g_data g) (g_data other))
  else g.

(** nsercGrant.py:91-95: the first element that is equal is updated *)
Fixpoint update_first (g : grant) (s : gset) : gset * option exn :=
  match s with
  | [] => ([], None)
  | m :: s' => if eqb (gkey_of (m_grant m)) (gkey_of g)
               then let '(g', e) := nserc_update (m_grant m) g in (mkMember (m_key m) g' :: s', e)
               else let '(r, e) := update_first g s' in (m :: r, e)
  end.
(** nsercGrant.py:82-106. A row is its last line and its fields; [ended] is what the reading of rows ended with, None for their end *)
Fixpoint nserc_rows (rows : list (str * gfields)) (ended : option exn) (s : gset) : gset * option exn :=
  match rows with
  | [] => (s, match ended with Some _ => Some BadGrant | None => None end)
  | (l, d) :: rows' =>
    let g := nserc l d in
    if gmem g s
    then match update_first g s with (s', None) => nserc_rows rows' ended s' | (s', Some _) => (s', Some BadGrant) end
    else nserc_rows rows' ended (gadd g s)
  end.
Definition nserc_file (rows : list (str * gfields)) (ended : option exn) : gset * option exn := nserc_rows rows ended [].

(** ** Several files: grantCollection.py:93-114 *)
(** lines 102-104 *)
Definition overlap (new s : gset) : dict str grant :=
  fold_left (fun o m => if gmem (m_grant m) s then dset (g_id (m_grant m)) (m_grant m) o else o) new [].
(** lines 105-106 *)
Fixpoint remove_all (gs : list grant) (s : gset) : res gset :=
  match gs with [] => Ok s | g :: gs' => let* s' := gremove g s in remove_all gs' s' end.
(** lines 107-109 *)
Fixpoint update_all (o : dict str grant) (s : gset) : res gset :=
  match s with
  | [] => Ok []
  | m :: s' =>
    let g := m_grant m in
    match dget (g_id g) o with
    | None => let* r := update_all o s' in Ok (m :: r)
    | Some g' =>
      match g_kind g with
      | NSERCG => match nserc_update g g' with
                  | (g1, None) => let* r := update_all o s' in Ok (mkMember (m_key m) g1 :: r)
                  | (_, Some e) => Raise e
                  end
      | _ => let* r := update_all o s' in Ok (mkMember (m_key m) (base_update g g') :: r)
      end
    end
  end.
(** lines 102-110 *)
Definition merge_body (s new : gset) : res gset :=
  let o := overlap new s in
  let* new' := remove_all (dvals o) new in
  let* s' := update_all o s in
  Ok (gjoin s' new').
(** len(grants & grantsSet) > 0; the hashes are those kept in the sets *)
Definition meets (s new : gset) : bool :=
  existsb (fun m => existsb (fun m' => eqb (m_key m') (m_key m) && eqb (gkey_of (m_grant m')) (gkey_of (m_grant m))) s) new.
(** lines 93-110 *)
Definition merge_nserc (s new : gset) : res gset := if meets s new then merge_body s new else Ok (gjoin s new).
(** grantCollection.py:84-120 for files that are all of NSERC: the grants and the files that had errors *)
Fixpoint nserc_files (files : list (str * (list (str * gfields) * option exn))) (s : gset) (errs : dict str exn) : res (gset * dict str exn) :=
  match files with
  | [] => Ok (s, errs)
  | (f, (rows, ended)) :: files' =>
    let '(new, e) := nserc_file rows ended in
    let* s' := merge_nserc s new in
    nserc_files files' s' (match e with Some x => dset f x errs | None => errs end)
  end.
End Nserc.

(** ** Medline and Scopus *)
(** medlineGrant.py:6-45 *)
Definition medline_fields (s : str) : gfields * option exn :=
  match rev (split_char 47%N s) with
  | [] => ([($"country", GText s)], Some BadGrant)
  | [c] => ([($"country", GText s)], Some BadGrant)
  | c :: a :: r =>
    let base := [($"country", GText c); ($"agency", GText a)] in
    (match r with
     | [x] => if length x =? 2 then base ++ [($"code", GText x)] else base ++ [($"number", GText x)]
     | [x; y] => if length x =? 2 then base ++ [($"code", GText x); ($"number", GText y)] else base ++ [($"number", GText (y ++ $"/" ++ x))]
     | _ => base ++ [($"number", GText (join $"/" (rev r)))]
     end, None)
  end.
Definition gtext (f : str) (d : gfields) : str := match dget f d with Some v => gshow v | None => [] end.
Definition medline_id (d : gfields) : str :=
  if dhas $"number" d then gtext $"number" d ++ $"/" ++ gtext $"code" d ++ $"-" ++ gtext $"country" d
  else gtext $"code" d ++ $"-" ++ gtext $"agency" d ++ $"-" ++ gtext $"country" d.
Definition medline_grant (s : str) : grant :=
  let '(d, e) := medline_fields s in mkGrant MedlineG (medline_id d) (match e with Some _ => true | None => false end) e d.
(** scopusGrant.py:6-33; split never gives an empty list *)
Definition scopus_fields (s : str) : gfields :=
  match rev (split_on (length s) $", " s) with
  | [] => [($"agency", GText s)]
  | [a] => [($"agency", GText a)]
  | [a; b] => [($"agency", GText a); ($"agencyCode", GText b)]
  | a :: b :: c :: _ => [($"agency", GText a); ($"agencyCode", GText b); ($"code", GText c)]
  end.
Definition scopus_grant (s : str) : grant :=
  let d := scopus_fields s in mkGrant ScopusG (gtext $"code" d ++ $"-" ++ gtext $"agencyCode" d ++ $"-" ++ gtext $"agency" d) false None d.

(** ** CIHR, NSF and other files *)
(** cihrGrant.py:8-18; [base] is the name of the file, [line] the number of the line; :0=20 pads the number with zeros after its sign *)
Definition pad20 (z : Z) : str :=
  let digits := dec_N (Z.abs_N z) in
  if (z <? 0)%Z then $"-" ++ repeat 48%N (19 - length digits) ++ digits else repeat 48%N (20 - length digits) ++ digits.
Definition line_id (base : str) (line : N) (h : Z) : str := base ++ $"-l:" ++ dec_N line ++ $"-" ++ pad20 h.
Definition cihr (hash : str -> Z) (base : str) (line : N) (original : str) (d : gfields) : grant :=
  let bad := match dget $"PI Names" d with None | Some (GText []) => true | _ => false end in
  mkGrant CIHRG (line_id base line (hash original)) bad (if bad then Some BadGrant else None) d.
(** baseGrant.py:134-138 *)
Definition fallback (hash : str -> Z) (base : str) (line : N) (original : str) (d : gfields) : grant :=
  mkGrant FallbackG (line_id base line (hash original)) false None d.
(** cihrGrant.py:39-59, baseGrant.py:173-192 *)
Definition other_file (mk : N -> str -> gfields -> grant) (rows : list (N * str * gfields)) (ended : option exn) : gset * option exn :=
  (fold_left (fun s r => gadd (mk (fst (fst r)) (snd (fst r)) (snd r)) s) rows [], match ended with Some _ => Some BadGrant | None => None end).

(** elements of a tree: tag, text, children *)
Inductive element := Elem (tag : str) (text : option str) (children : list element).
Definition e_tag (e : element) : str := let 'Elem t _ _ := e in t.
Definition e_text (e : element) : option str := let 'Elem _ t _ := e in t.
Definition e_children (e : element) : list element := let 'Elem _ _ c := e in c.
(** the texts of the children *)
Definition child_texts (e : element) : list str := flat_map (fun c => match e_text c with Some t => [t] | None => [] end) (e_children e).
(** d[tag].append(s), with a new list if the tag is missing; AttributeError for what is not a list *)
Definition append_to (tag s : str) (d : gfields) : res gfields :=
  match dget tag d with
  | None => Ok (dset tag (GTexts [s]) d)
  | Some (GTexts l) => Ok (dset tag (GTexts (l ++ [s])) d)
  | Some _ => Raise AttributeError
  end.
Definition findall (tag : str) (e : element) : list element := filter (fun c => eqb (e_tag c) tag) (e_children e).
(** nsfGrant.py:77-96 *)
Definition nsf_part (part : str) (org : element) (d : gfields) : res gfields :=
  match findall part org with
  | [] => Ok d
  | p :: _ => match child_texts p with [] => Ok d | ts => append_to part (join $"; " ts) d end
  end.
Definition nsf_org (org : element) (d : gfields) : res gfields := let* d' := nsf_part $"Directorate" org d in nsf_part $"Division" org d'.
(** nsfGrant.py:97-109 *)
Definition nsf_name (inv : element) : str :=
  let '(name, other) := fold_left (fun no c =>
    match e_text c with
    | None => no
    | Some t => if eqb (e_tag c) $"FirstName" then (t :: fst no, snd no) else if eqb (e_tag c) $"LastName" then (fst no ++ [t], snd no) else (fst no, snd no ++ [t])
    end) (e_children inv) ([], []) in
  join $" " name ++ $"; " ++ join $", " other.
(** nsfGrant.py:114-127 *)
Definition nsf_other (e : element) (d : gfields) : res gfields :=
  if eqb (e_tag e) $"Organization" || eqb (e_tag e) $"Investigator" then Ok d
  else match e_children e with
       | [] => Ok (dset (e_tag e) (match e_text e with Some t => GText t | None => GNone end) d)
       | _ => append_to (e_tag e) (join $"; " (child_texts e)) d
       end.
(** nsfGrant.py:69-128 for the element Award *)
Definition nsf_fields (top : element) : res gfields :=
  let* d1 := iter nsf_org (findall $"Organization" top) [] in
  let* d2 := iter (fun inv d => append_to $"Investigator" (nsf_name inv) d) (findall $"Investigator" top) d1 in
  iter nsf_other (e_children top) d2.
(** nsfGrant.py:10-20; [base] is the name of the file. str of a list is not modelled: AwardID never has children *)
Definition nsf_grant (base : str) (d : gfields) : grant :=
  match dget $"AwardID" d with
  | None | Some (GText []) => mkGrant NSFG ($"NSF:" ++ base) true (Some BadGrant) d
  | Some v => mkGrant NSFG ($"NSF:" ++ gshow v) false None d
  end.

(** ** Investigators *)
(** the argument tags: None, a text or a list *)
Inductive targ := TNone | TOne (t : str) | TMany (l : list str).
Section Invest.
Variable lower : str -> str.
(** s.split(sep) *)
Definition py_split (sep s : str) : res (list str) := match sep with [] => Raise ValueError | _ => Ok (split_on (length s) sep s) end.
Fixpoint firsts (sep : str) (l : list str) : res (list str) :=
  match l with [] => Ok [] | x :: l' => let* p := py_split sep x in let* r := firsts sep l' in Ok (hd [] p :: r) end.
(** baseGrant.py:52-73 with _getTag *)
Fixpoint investigators_at (tags : list str) (sep : str) (d : gfields) : res (list (str * str)) :=
  match tags with
  | [] => Ok []
  | t :: tags' =>
    let* here := match dget t d with
                 | None => Ok []
                 | Some (GText s) => py_split sep s
                 | Some (GTexts l) => firsts sep l
                 | Some GNone => Raise TypeError
                 end in
    let* r := investigators_at tags' sep d in
    Ok (map (fun n => (strip n, t)) here ++ r)
  end.
(** for k in keys: if ... and k not in tags: tags.append(k) *)
Definition more_tags (part : str) (d : gfields) (tags : list str) : list str :=
  fold_left (fun ts k => if contains part (lower k) && negb (mem k ts) then ts ++ [k] else ts) (dkeys d) tags.
Definition tag_list (t : targ) : list str := match t with TNone => [] | TOne x => [x] | TMany l => l end.
(** the tags that are looked at; nsercGrant.py:36-42, 53-59, nsfGrant.py:31-36, 47-52 *)
Definition all_tags (inst : bool) (g : grant) (t : targ) : list str :=
  match g_kind g with
  | NSERCG => more_tags (if inst then $"institution" else $"name-") (g_data g) (tag_list t)
  | NSFG => let own := if inst then $"Institution" else $"Investigator" in
            match t with TNone => [own] | TOne x => [own; x] | TMany l => l ++ [own] end
  | _ => tag_list t
  end.
(** a list that was given is changed: its value after the call *)
Definition tags_after (inst : bool) (g : grant) (t : targ) : targ := match t with TMany _ => TMany (all_tags inst g t) | _ => t end.
Definition investigators (inst : bool) (g : grant) (t : targ) (sep : str) : res (list (str * str)) := investigators_at (all_tags inst g t) sep (g_data g).

(** ** grantCollection.py:145-229 *)
Definition field_ := $"field".
(** lines 189-195, 197-203 and 213-219 *)
Definition meet (counted : bool) (f n : str) (g : graph str) : res (graph str) :=
  if has_node g n then (if counted then node_incr n cnt_ (VInt 1) g else Ok g)
  else Ok (add_node n (if counted then [(cnt_, VInt 1); (field_, VStr f)] else [(field_, VStr f)]) g).
(** lines 204-209 *)
Definition tie (weighted : bool) (u v : str) (g : graph str) : res (graph str) :=
  if weighted then (if has_edge g u v then edge_incr u v weight (VInt 1) g else Ok (add_edge u v [(weight, VInt 1)] g))
  else Ok (add_edge u v [] g).
Fixpoint meet_all (counted weighted : bool) (l : list (str * str)) (g : graph str) : res (graph str) :=
  match l with
  | [] => Ok g
  | x :: l' =>
    let* g1 := meet counted (snd x) (fst x) g in
    let* g2 := iter (fun y g => let* g' := meet counted (snd y) (fst y) g in tie weighted (fst x) (fst y) g') l' g1 in
    meet_all counted weighted l' g2
  end.
Definition meet_grant (counted weighted : bool) (l : list (str * str)) (g : graph str) : res (graph str) :=
  match l with
  | [] => Ok g
  | [x] => meet counted (snd x) (fst x) g
  | _ => meet_all counted weighted l g
  end.
Fixpoint co_loop (inst counted weighted : bool) (sep : str) (t : targ) (gs : list grant) (g : graph str) : res (graph str) * targ :=
  match gs with
  | [] => (Ok g, t)
  | x :: gs' =>
    match investigators inst x t sep with
    | Raise e => (Raise e, tags_after inst x t)
    | Ok l => match meet_grant counted weighted l g with
              | Raise e => (Raise e, tags_after inst x t)
              | Ok g' => co_loop inst counted weighted sep (tags_after inst x t) gs' g'
              end
    end
  end.
(** the graph, and the value of a list given as targetTags afterwards *)
Definition co_network (inst counted weighted : bool) (sep : str) (t : targ) (gs : list grant) : res (graph str) * targ :=
  co_loop inst counted weighted sep t gs (empty_graph false).
End Invest.
