(** Specification for C103: what records of the four databases are cited as, and what they cite. *)
From Coq Require Import List ZArith Bool Arith.
From Coq Require Import String.
From Verif Require Import Base PyStr CitationModel WosNetSpec WosTagsSpec MixedModel MixedSpec.
From Verif Require WosModel MedlineModel ScopusModel ProQuestModel.
Import ListNotations.
Local Open Scope list_scope.

(** ** Fields *)
(** a field with one text, empty if it is missing *)
Definition text_in (d : dict str str) (tag x : str) : Prop := (dget tag d = None /\ x = []) \/ dget tag d = Some x.
Definition first_in (d : dict str (list str)) (tag x : str) : Prop := (dget tag d = None /\ x = []) \/ exists more, dget tag d = Some (x :: more).
(** a field with several texts and something in between *)
Definition list_in (d : dict str str) (tag between : str) (l : list str) : Prop :=
  (dget tag d = None /\ l = []) \/ (dget tag d = Some (join between l) /\ l <> [] /\ forall s, In s l -> no_part between s).
(** the year, none if the field is missing *)
Definition year_in (d : dict str str) (tag : str) (y : option Z) : Prop :=
  match y with None => dget tag d = None | Some y => y <> 0%Z /\ dget tag d = Some (dec_Z y) end.
(** the names that all databases share are not the names of fields of the record *)
Definition shared_names : list str := [$"id"; $"authorsShort"; $"authorsFull"; $"year"; $"title"; $"journal"; $"j9"; $"volume"; $"beginningPage"; $"citations"].
Definition all_apart {Raw} (d : dict str Raw) : Prop := forall k, In k shared_names -> apart d k.

(** ** Medline: the volume is a word, the page stands before a hyphen, the DOI is marked *)
Definition m_year_in (d : dict str (list str)) (y : option Z) : Prop :=
  match y with None => dget $"DP" d = None | Some y => y <> 0%Z /\ exists v more, dget $"DP" d = Some (v :: more) /\ starts_with_year y v end.
Definition m_volume_in (d : dict str (list str)) (x : str) : Prop :=
  (dget $"VI" d = None /\ x = []) \/
  exists rest more, dget $"VI" d = Some ((x ++ rest) :: more) /\ ~ In 32%N x /\ (rest = [] \/ exists q, rest = $" " ++ q).
Definition m_page_in (d : dict str (list str)) (x : str) : Prop :=
  (dget $"PG" d = None /\ x = []) \/
  exists before rest more, dget $"PG" d = Some ((before ++ x ++ rest) :: more) /\ ~ In 32%N x /\ ~ In 45%N x /\ ~ In 59%N x /\
    (before = $"suppl " \/ (before = [] /\ x <> $"suppl")) /\ (rest = [] \/ (exists q, rest = $" " ++ q) \/ (exists q, rest = $"-" ++ q) \/ (exists q, rest = $"; " ++ q)).
Definition m_doi_in (d : dict str (list str)) (x : str) : Prop :=
  (dget $"AID" d = None /\ x = []) \/
  (exists ids, dget $"AID" d = Some ids /\ x = [] /\ forall s a, In s ids -> s <> a ++ $" [doi]") \/
  (exists before rest, dget $"AID" d = Some (before ++ (x ++ $" [doi]") :: rest) /\ forall s a, In s before -> s <> a ++ $" [doi]").

(** ** What a record is cited as *)
Definition year_text (y : option Z) : list str := match y with Some y => [dec_Z y] | None => [] end.
(** author, year, journal or title, volume, page and DOI *)
Definition written (author : list str) (year : list str) (j9 title volume page doi : str) : str :=
  join $", " (author ++ year ++ after [] (match j9 with [] => title | _ => j9 end) ++ after $"V" volume ++ after $"P" page ++ after $"DOI " doi).
(** Scopus: AUTHOR, TITLE (YEAR) JOURNAL, VOLUME, PP. PAGE *)
Definition ended (s close : str) : str := match s with [] => [] | _ => s ++ close end.
Definition no_brackets (s : str) : str := filter (fun x => negb ((x =? 40) || (x =? 41))%N) s.
Definition scopus_written (authors : list str) (title : str) (y : option Z) (journal volume page : str) : str :=
  match authors with [] => [] | a :: _ => no_comma a ++ $", " end
  ++ match title with [] => [] | _ => no_brackets title ++ $" " end
  ++ match y with None => [] | Some y => $"(" ++ dec_Z y ++ $") " end
  ++ ended journal $", " ++ ended volume $", " ++ match page with [] => [] | _ => $"PP. " ++ page end.
Definition own_text (r : anyrec) (t : str) : Prop :=
  match r with
  | AnyWos r => year_ok r /\ t = reference_text r
  | AnyMedline r => let d := MedlineModel.mdata r in all_apart d /\ apart d $"DOI" /\ (apart d $"IS" \/ apart d $"ISSN") /\
      exists authors y j9 title volume page doi, authors = match dget $"AU" d with Some l => l | None => [] end /\ m_year_in d y /\ first_in d $"TA" j9 /\ first_in d $"TI" title /\
        m_volume_in d volume /\ m_page_in d page /\ m_doi_in d doi /\
        t = written (match authors with [] => [] | a :: _ => [no_comma a] end) (year_text y) j9 title volume page doi
  | AnyScopus r => let d := ScopusModel.sdata r in all_apart d /\
      exists authors title y journal volume page, list_in d $"Authors" $", " authors /\ text_in d $"Title" title /\ year_in d $"Year" y /\ text_in d $"Source title" journal /\
        text_in d $"Volume" volume /\ text_in d $"Page start" page /\ t = scopus_written authors title y journal volume page
  (* of the author of a thesis the first letter only *)
  | AnyProQuest r => let d := ProQuestModel.pdata r in all_apart d /\ apart d $"DOI" /\
      exists author date title, first_in d $"Author" author /\ first_in d $"Degree date" date /\ first_in d $"Title" title /\
        t = written (match author with [] => [] | c :: _ => [no_comma [c]] end) (after [] date) [] title [] [] []
  end.
(** the references of a record, none in Medline and ProQuest *)
Definition references (r : anyrec) (l : list str) : Prop :=
  match r with
  | AnyWos r => l = lines_of $"CR" r
  | AnyScopus r => list_in (ScopusModel.sdata r) $"References" $"; " l
  | _ => l = []
  end.

(** the id of a record; records of Medline and Scopus that have none are bad *)
Definition own_id (r : anyrec) : str :=
  match r with
  | AnyWos r => WosModel.wid r
  | AnyMedline r => match MedlineModel.mid r with Some i => i | None => $"None" end
  | AnyScopus r => match ScopusModel.sid r with Some i => i | None => $"None" end
  | AnyProQuest r => ProQuestModel.pid r
  end.

(** ** Names of nodes *)
Section Names.
Variables upper title : str -> str.
Variables word num : char -> bool.
Variable int_of : str -> Z.
Definition scopus_id (s : str) : str := s_id (scopus_citation word num int_of upper s).
(** the name of what is written like [s] in the database of [r] *)
Definition named (r : anyrec) (s : str) : str := match r with AnyScopus _ => scopus_id s | _ => id_of upper title s end.
(** works of the unknown: those of [Anonymous] in the one, those whose author cannot be read in the other *)
Definition nobody (r : anyrec) (s : str) : bool :=
  match r with AnyScopus _ => match s_author (scopus_citation word num int_of upper s) with None => true | Some _ => false end | _ => unknown upper title s end.
End Names.
