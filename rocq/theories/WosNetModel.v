(** From the fields of WOS records to networks: the look-up of RecordModel.v with the tag functions of ValuesModel.v
    (mkRecord.py:337-400, WOS/recordWOS.py:97-113), the citation of a record made from what is looked up
    (mkRecord.py:615-658), and the networks of CiteNetModel.v over such records (recordCollection.py:942-1292). *)
From Coq Require Import List ZArith Lia Bool Arith.
From Coq Require Import String.
From Verif Require Import Base PyStr CitationModel RecordModel GrantModel ValuesModel Nx.
From Verif Require NetModel CiteNetModel WosModel.
Import ListNotations.
Local Open Scope list_scope.

(** ** Fields *)
(** bool(v) *)
Definition truthy (v : fvalue) : bool :=
  match v with
  | FText [] | FTexts [] | FCites [] | FScopusCites [] | FGrants [] | FLists [] | FNames [] | FTuples [] => false
  | FInt z => negb (Z.eqb z 0)
  | _ => true
  end.
(** a value as part of a text; lists are not modelled, there are none under the tags that are read in this way *)
Definition as_text (v : fvalue) : res str :=
  match v with FText s => Ok s | FInt z => Ok (dec_Z z) | _ => Raise TypeError end.
(** mkRecord.py:637-651: what a field adds to the citation *)
Definition piece (k : str) (v : fvalue) : res str :=
  if eqb k $"authorsShort" then
    match v with FTexts (a :: _) => Ok (no_commas a) | FText (c :: _) => Ok (no_commas [c]) | FTexts [] | FText [] => Raise IndexError | _ => Raise AttributeError end
  else if eqb k $"volume" then let* s := as_text v in Ok ($"V" ++ s)
  else if eqb k $"beginningPage" then let* s := as_text v in Ok ($"P" ++ s)
  else if eqb k $"DOI" then let* s := as_text v in Ok ($"DOI " ++ s)
  else as_text v.

Section WosNet.
Variables upper lower title : str -> str.
Variable all_digits : str -> bool.
(** mkRecord.py:658 *)
Definition cite (parts : list str) : res fvalue := let* c := wos_citation upper title (join $", " parts) in Ok (FCites [c]).
(** WOS/recordWOS.py:97-113 *)
Definition kind_of (r : WosModel.wrec) : rclass (list str) fvalue :=
  wos_class (wos_value upper lower title all_digits) truthy piece cite (FText (WosModel.wid r)) FTexts (FGrants []).
(** R.get(key); nothing is cached yet (see C27), look-ups are nested twice at most *)
Definition wos_get (r : WosModel.wrec) (key : str) : res (option fvalue) :=
  match get (kind_of r) (WosModel.wfields r) 2 key [] with Some (x, _) => x | None => Raise RuntimeError end.
(** R.createCitation() *)
Definition wos_own (r : WosModel.wrec) : res citation :=
  match run (getitem (kind_of r) (WosModel.wfields r) 1) (create_citation truthy piece cite) [] with
  | Some (Ok (FCites [c]), _) => Ok c
  | Some (Ok _, _) => Raise EOther                    (* does not happen, the program ends with [cite] *)
  | Some (Raise e, _) => Raise e
  | None => Raise RuntimeError
  end.
(** R.get('citations'), [] if missing *)
Definition wos_cites (r : WosModel.wrec) : res (list citation) :=
  let* o := wos_get r $"citations" in
  match o with None => Ok [] | Some (FCites l) => Ok l | Some _ => Raise AttributeError end.
(** R.get('authorsFull', []), or the short ones: recordCollection.py:1021-1024 *)
Definition wos_authors (short : bool) (r : WosModel.wrec) : res (list str) :=
  let* o := wos_get r (if short then $"authorsShort" else $"authorsFull") in
  match o with None => Ok [] | Some (FTexts l) => Ok l | Some _ => Raise TypeError end.

(** ** Networks *)
(** names of nodes: texts, and the years and Nones that getattr can give *)
Inductive name := IText (s : str) | INum (z : Z) | INone.
#[global] Instance EqDec_name : EqDec name.
Proof. intros x y; unfold EqDec; decide equality; apply eq_dec. Defined.
Definition opt_name (o : option str) : name := match o with Some s => IText s | None => INone end.
(** the result of isJournal for a journal, [None] being False; the database is that of JournalModel.v *)
Variable journal : option str -> option str.
Definition wos_api : CiteNetModel.cite_api citation name :=
  {| CiteNetModel.cid := fun c => IText (c_id c);
     CiteNetModel.cattr := fun t c =>
       match t with
       | CiteNetModel.Full => None                     (* not asked for *)
       | CiteNetModel.Original => Some (IText (c_original c))
       | CiteNetModel.Author => Some (opt_name (c_author c))
       | CiteNetModel.Journal => Some (opt_name (c_journal c))
       | CiteNetModel.Year => Some (match c_year c with Some z => INum z | None => INone end)
       end;
     CiteNetModel.truthy_id := fun i => match i with IText [] | INone => false | INum z => negb (Z.eqb z 0) | _ => true end;
     CiteNetModel.id_val := fun i => match i with IText s => VStr s | INum z => VInt z | INone => VNone end;
     CiteNetModel.cyear := fun c => Some (c_year c);
     CiteNetModel.is_journal := fun c => match journal (c_journal c) with Some _ => true | None => false end;
     CiteNetModel.full_journal := fun c => match journal (c_journal c) with Some s => s | None => $"None" end;
     CiteNetModel.is_anon := is_anonymous;
     CiteNetModel.cstr := c_original;
     CiteNetModel.all_but_doi := fun c => all_but_doi (c_id c) (wos_attributes c) |}.
(** a record, its own citation and what it cites *)
Definition seen := (WosModel.wrec * citation * list citation)%type.
Definition shown_value (v : fvalue) : CiteNetModel.tval :=
  match v with
  | FText s => CiteNetModel.TStr s
  | FTexts l => CiteNetModel.TList l
  | FInt z => CiteNetModel.TVal (VInt z)
  | _ => CiteNetModel.TVal VNone                       (* simplified: none of the other values is modelled here *)
  end.
(** a field whose value cannot be made is shown as None (simplified: the code raises) *)
Definition wos_rapi : CiteNetModel.rec_api seen citation :=
  {| CiteNetModel.own := fun s => snd (fst s);
     CiteNetModel.cites := fun s => snd s;
     CiteNetModel.rid := fun s => WosModel.wid (fst (fst s));
     CiteNetModel.rget := fun s t => match wos_get (fst (fst s)) t with Ok (Some v) => shown_value v | _ => CiteNetModel.TVal VNone end |}.
(** all that is read of the records; the first exception met ends the method (simplified: with several, which one it is
    can differ from the code, where reading and building alternate) *)
Fixpoint see (rs : list WosModel.wrec) : res (list seen) :=
  match rs with
  | [] => Ok []
  | r :: rs' => let* c := wos_own r in let* l := wos_cites r in let* ss := see rs' in Ok ((r, c, l) :: ss)
  end.
(** recordCollection.py:1179-1292, networkCitation *)
Definition wos_citation_network (o : CiteNetModel.opts) (directed recordToCite : bool) (rs : list WosModel.wrec) : res (graph name) :=
  let* ss := see rs in CiteNetModel.citation wos_api wos_rapi upper o directed recordToCite ss.
(** recordCollection.py:1075-1177, networkCoCitation *)
Definition wos_co_citation (o : CiteNetModel.opts) (rs : list WosModel.wrec) : res (graph name) :=
  let* ss := see rs in CiteNetModel.co_citation wos_api wos_rapi upper o ss.
(** recordCollection.py:942-1073, networkCoAuthor without detailedInfo, dropNonJournals and citeProfile *)
Fixpoint all_authors (short : bool) (rs : list WosModel.wrec) : res (list (list str)) :=
  match rs with [] => Ok [] | r :: rs' => let* l := wos_authors short r in let* ls := all_authors short rs' in Ok (l :: ls) end.
Definition wos_co_author (short weighted counted : bool) (rs : list WosModel.wrec) : res (graph str) :=
  let* ls := all_authors short rs in CiteNetModel.co_author (fun l => l) (fun _ => true) (fun _ => []) weighted false counted ls.
End WosNet.
(** the options of networkCitation and networkCoCitation when none are given, but for dropAnon, which is False for the
    first and True for the second: recordCollection.py:1075, 1179, 1138-1145, 1250-1256 *)
Definition default_opts (dropAnon : bool) : CiteNetModel.opts :=
  {| CiteNetModel.o_type := CiteNetModel.Full; CiteNetModel.o_anon := dropAnon; CiteNetModel.o_journals := false; CiteNetModel.o_words := [];
     CiteNetModel.o_core := false; CiteNetModel.o_info := true; CiteNetModel.o_full := false;
     CiteNetModel.o_values := [$"id"; $"authorsFull"; $"year"; $"title"; $"journal"; $"volume"; $"beginningPage"];
     CiteNetModel.o_detailed := false; CiteNetModel.o_cr := false; CiteNetModel.o_count := true; CiteNetModel.o_weighted := true |}.
(** recordCollection.py:1294-1347, networkBibCoupling: the citation network it starts from *)
Definition coupling_opts : CiteNetModel.opts := CiteNetModel.coupling_opts false false.
