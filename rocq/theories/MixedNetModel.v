(** Networks of citations of collections with records of several databases: createCitation and get('citations') of the four kinds of
    records, and networkCitation and networkCoCitation of CiteNetModel.v over them. *)
From Coq Require Import List ZArith Lia Bool Arith.
From Coq Require Import String.
From Verif Require Import Base PyStr CitationModel RecordModel GrantModel ValuesModel WosNetModel MixedModel Nx.
From Verif Require CiteNetModel WosModel MedlineModel ScopusModel ProQuestModel.
Import ListNotations.
Local Open Scope list_scope.

(** citation.py:64-151: citations made by the two expressions; those of Scopus with the string they are made of *)
Inductive acite := CWos (c : citation) | CScopus (original : str) (c : scitation).

Section MixedNet.
Variables upper lower title : str -> str.
Variable all_digits : str -> bool.
Variables word num : char -> bool.
Variable int_of : str -> Z.

(** the text that scopus/recordScopus.py:128-144 puts together; what is done with it afterwards is in [any_self] *)
Definition text_of (parts : list str) : res fvalue := Ok (FText (concat parts)).
Definition not_spoilt (v : fvalue) : bool := false.
Definition no_mend (c : fvalue) (y t j : option fvalue) : res fvalue := Ok c.
Definition look (r : anyrec) (key : str) : res (option fvalue) := any_get upper lower title all_digits word num int_of text_of not_spoilt no_mend r key.
Definition scopus_of (s : str) : acite := CScopus s (CitationModel.scopus_citation word num int_of upper s).
(** scopus/recordScopus.py:159-162: a citation that is bad gets year, name and journal from the record *)
Definition mended (c : scitation) (y : option fvalue) (t j : option fvalue) : scitation :=
  let text o := match o with Some (FText s) => upper s | _ => [] end in
  {| s_author := s_author c; s_year := Some (match y with Some (FInt z) => z | _ => 0%Z end); s_journal := Some (text j); s_bad := s_bad c; s_id := s_id c;
     s_attributes := dset $"journal" (Some (text j)) (dset $"name" (Some (text t)) (s_attributes c)) |}.
(** R.createCitation(): mkRecord.py:615-658 and scopus/recordScopus.py:107-164; the fields read are nested twice at most *)
Definition made (x : option (res fvalue * dict str fvalue)) : res acite :=
  match x with
  | Some (Ok (FCites [c]), _) => Ok (CWos c)
  | Some (Ok _, _) => Raise EOther                     (* does not happen, the program ends with [cite] *)
  | Some (Raise e, _) => Raise e
  | None => Raise RuntimeError
  end.
Definition any_self (r : anyrec) : res acite :=
  match r with
  | AnyWos r => let* c := wos_own upper lower title all_digits r in Ok (CWos c)
  | AnyMedline r => made (run (getitem (medline_kind upper title all_digits r) (MedlineModel.mdata r) 2) (create_citation truthy piece (cite upper title)) [])
  | AnyProQuest r => made (run (getitem (proquest_kind upper title r) (ProQuestModel.pdata r) 2) (create_citation truthy piece (cite upper title)) [])
  | AnyScopus s =>
    match run (getitem (scopus_kind upper word num int_of text_of not_spoilt no_mend) (ScopusModel.sdata s) 2)
              (RecordModel.scopus_citation truthy scopus_piece text_of not_spoilt no_mend) [] with
    | Some (Ok (FText t), _) =>
      let c := CitationModel.scopus_citation word num int_of upper t in
      if s_bad c then
        let* y := look r $"year" in let* n := look r $"title" in let* j := look r $"journal" in Ok (CScopus t (mended c y n j))
      else Ok (CScopus t c)
    | Some (Ok _, _) => Raise EOther                   (* does not happen *)
    | Some (Raise e, _) => Raise e
    | None => Raise RuntimeError
    end
  end.
(** R.get('citations'), [] if missing.  The strings that citations of Scopus are made of are those that
    scopus/tagProcessing/tagFunctions.py:61-68 splits the field into. *)
Definition any_cites (r : anyrec) : res (list acite) :=
  let* o := look r $"citations" in
  match o, r with
  | None, _ => Ok []
  | Some (FCites l), _ => Ok (map CWos l)
  | Some (FScopusCites l), AnyScopus s =>
    let texts := match dget $"References" (ScopusModel.sdata s) with Some v => split_at $"; " v | None => [] end in
    Ok (map (fun p => CScopus (fst p) (snd p)) (combine texts l))
  | _, _ => Raise AttributeError
  end.

(** the result of isJournal for a journal, as in WosNetModel.v *)
Variable journal : option str -> option str.
Definition a_id (c : acite) : str := match c with CWos c => c_id c | CScopus _ c => s_id c end.
Definition a_attributes (c : acite) : attributes := match c with CWos c => wos_attributes c | CScopus _ c => s_attributes c end.
Definition a_original (c : acite) : str := match c with CWos c => c_original c | CScopus s _ => s end.
(** an attribute that does not exist is [None] *)
Definition a_year (c : acite) : option (option Z) :=
  match c with CWos c => Some (c_year c) | CScopus _ c => match s_year c with Some y => Some (Some y) | None => None end end.
Definition a_journal (c : acite) : option str := match dget $"journal" (a_attributes c) with Some o => o | None => None end.
(** citation.py:193-206 *)
Definition a_anonymous (c : acite) : bool :=
  match dget $"author" (a_attributes c) with Some (Some a) => eqb a $"[Anonymous]" | Some None => false | None => true end.
Definition any_api : CiteNetModel.cite_api acite name :=
  {| CiteNetModel.cid := fun c => IText (a_id c);
     CiteNetModel.cattr := fun t c =>
       match t with
       | CiteNetModel.Full => None                     (* not asked for *)
       | CiteNetModel.Original => Some (IText (a_original c))
       | CiteNetModel.Author => option_map opt_name (dget $"author" (a_attributes c))
       | CiteNetModel.Journal => option_map opt_name (dget $"journal" (a_attributes c))
       | CiteNetModel.Year => option_map (fun y => match y with Some z => INum z | None => INone end) (a_year c)
       end;
     CiteNetModel.truthy_id := fun i => match i with IText [] | INone => false | INum z => negb (Z.eqb z 0) | _ => true end;
     CiteNetModel.id_val := fun i => match i with IText s => VStr s | INum z => VInt z | INone => VNone end;
     CiteNetModel.cyear := a_year;
     CiteNetModel.is_journal := fun c => match journal (a_journal c) with Some _ => true | None => false end;
     CiteNetModel.full_journal := fun c => match journal (a_journal c) with Some s => s | None => $"None" end;
     CiteNetModel.is_anon := a_anonymous;
     CiteNetModel.cstr := a_original;
     CiteNetModel.all_but_doi := fun c => all_but_doi (a_id c) (a_attributes c) |}.
(** R.id; that of a record without one, None, is shown as a text (simplified) *)
Definition any_id (r : anyrec) : str :=
  let text o := match o with Some i => i | None => $"None" end in
  match r with AnyWos r => WosModel.wid r | AnyMedline r => text (MedlineModel.mid r) | AnyScopus r => text (ScopusModel.sid r) | AnyProQuest r => ProQuestModel.pid r end.
(** a record, its own citation and what it cites *)
Definition seen_any := (anyrec * acite * list acite)%type.
(** a field whose value cannot be made is shown as None (simplified: the code raises) *)
Definition any_rapi : CiteNetModel.rec_api seen_any acite :=
  {| CiteNetModel.own := fun s => snd (fst s);
     CiteNetModel.cites := fun s => snd s;
     CiteNetModel.rid := fun s => any_id (fst (fst s));
     CiteNetModel.rget := fun s t => match look (fst (fst s)) t with Ok (Some v) => shown_value v | _ => CiteNetModel.TVal VNone end |}.
(** as in WosNetModel.v *)
Fixpoint see_any (rs : list anyrec) : res (list seen_any) :=
  match rs with
  | [] => Ok []
  | r :: rs' => let* c := any_self r in let* l := any_cites r in let* ss := see_any rs' in Ok ((r, c, l) :: ss)
  end.
(** recordCollection.py:1179-1292, networkCitation *)
Definition any_citation (o : CiteNetModel.opts) (directed recordToCite : bool) (rs : list anyrec) : res (graph name) :=
  let* ss := see_any rs in CiteNetModel.citation any_api any_rapi upper o directed recordToCite ss.
(** recordCollection.py:1075-1177, networkCoCitation *)
Definition any_co_citation (o : CiteNetModel.opts) (rs : list anyrec) : res (graph name) :=
  let* ss := see_any rs in CiteNetModel.co_citation any_api any_rapi upper o ss.
End MixedNet.
