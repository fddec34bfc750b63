(** Model of the functions that make values of the texts of a record: metaknowledge/WOS/tagProcessing/tagFunctions.py,
    metaknowledge/medline/tagProcessing/tagFunctions.py and specialFunctions.py, metaknowledge/scopus/tagProcessing/tagFunctions.py,
    metaknowledge/proquest/tagProcessing/tagFunctions.py. *)
From Coq Require Import List ZArith Lia Bool Arith.
From Coq Require Import String.
From Verif Require Import Base PyStr PyInt JournalModel TextModel CitationModel RecordModel GrantModel.
Import ListNotations.
Local Open Scope list_scope.

(** what the functions return *)
Inductive fvalue :=
| FText (s : str) | FTexts (l : list str) | FInt (z : Z)
| FCites (l : list citation) | FScopusCites (l : list scitation) | FGrants (l : list grant)
| FLists (d : dict str (list str)) | FNames (d : dict str str) | FTuples (l : list (list str)).

(** ** Building blocks: python expressions that several functions consist of *)
(** val[0] *)
Definition first (val : list str) : res str := match val with [] => Raise IndexError | v :: _ => Ok v end.
(** s.split(sep) *)
Definition split_at (sep s : str) : list str := split_on (length s) sep s.
(** int(s) *)
Definition to_int (s : str) : res fvalue := match py_int s with Some z => Ok (FInt z) | None => Raise ValueError end.
Definition month_value (r : res (Z + str)) : res fvalue := match r with Ok (inl z) => Ok (FInt z) | Ok (inr s) => Ok (FText s) | Raise e => Raise e end.

Section Wos.
Variables upper lower title : str -> str.
Variable all_digits : str -> bool.
Definition f_first (val : list str) : res fvalue := let* v := first val in Ok (FText v).
Definition f_same (val : list str) : res fvalue := Ok (FTexts val).
Definition f_words (val : list str) : res fvalue := Ok (FText (join $" " val)).
Definition f_upper_words (val : list str) : res fvalue := Ok (FText (upper (join $" " val))).
Definition f_items (val : list str) : res fvalue := Ok (FTexts (split_at $"; " (join $" " val))).
Definition f_int (val : list str) : res fvalue := let* v := first val in to_int v.
Definition f_stripped (val : list str) : res fvalue := let* v := first val in Ok (FText (strip v)).
(** tagFunctions.py:268 language, :352 confSponsors, :970 abstract, :1100 authKeywords, :1228 keywords *)
Definition f_language (val : list str) : res fvalue := Ok (FText (join $", " val)).
Definition f_sponsors (val : list str) : res fvalue := Ok (FTexts (split_at $", " (join $", " val))).
Definition f_abstract (val : list str) : res fvalue := Ok (FText (join [nl] val)).
Definition f_lower_items (val : list str) : res fvalue := Ok (FTexts (split_at $"; " (lower (join $" " val)))).
Definition f_upper_items (val : list str) : res fvalue := Ok (FTexts (split_at $"; " (upper (join $" " val)))).
(** tagFunctions.py:394-419 *)
Fixpoint f_address_list (val : list str) : res (list str) :=
  match val with
  | [] => Ok []
  | a :: val' =>
    match a with
    | [] => Raise IndexError
    | c :: _ => let* l := f_address_list val' in Ok ((if eqb c 91%N then join $"] " (tl (split_at $"] " a)) else a) :: l)
    end
  end.
Definition f_address (val : list str) : res fvalue := let* l := f_address_list val in Ok (FTexts l).
(** tagFunctions.py:505-527 *)
Fixpoint f_cites (val : list str) : res (list citation) :=
  match val with [] => Ok [] | c :: val' => let* x := wos_citation upper title c in let* l := f_cites val' in Ok (x :: l) end.
Definition f_citations (val : list str) : res fvalue := let* l := f_cites val in Ok (FCites l).
(** tagFunctions.py:1075-1098 *)
Definition f_year (val : list str) : res fvalue := let* v := first val in if length v =? 4 then to_int v else Raise ValueError.
(** tagFunctions.py:823-842 *)
Definition f_month (val : list str) : res fvalue := month_value (month upper all_digits val).
(** tagFunctions.py:1293-1355: the functions of the tags, which are at the lines 7-1291 *)
Definition wos_funcs : dict str (list str -> res fvalue) :=
  [($"PT", f_first); ($"AF", f_same); ($"GP", f_first); ($"BE", f_same); ($"AU", f_same); ($"BA", f_same); ($"BF", f_same); ($"CA", f_first); ($"ED", f_same);
   ($"TI", f_words); ($"SO", f_upper_words); ($"SE", f_words); ($"BS", f_words); ($"LA", f_language); ($"DT", f_first); ($"CT", f_words); ($"CY", f_first);
   ($"HO", f_words); ($"CL", f_words); ($"SP", f_sponsors); ($"DE", f_lower_items); ($"ID", f_upper_items); ($"AB", f_abstract); ($"C1", f_address);
   ($"RP", f_first); ($"EM", f_items); ($"RI", f_items); ($"OI", f_items); ($"FU", f_items); ($"FX", f_words); ($"CR", f_citations); ($"NR", f_int);
   ($"TC", f_int); ($"Z9", f_int); ($"PU", f_upper_words); ($"PI", f_upper_words); ($"PA", f_words); ($"SC", f_items); ($"SN", f_first); ($"EI", f_first);
   ($"BN", f_items); ($"J9", f_first); ($"JI", f_upper_words); ($"PD", f_month); ($"PY", f_year); ($"VL", f_stripped); ($"IS", f_first); ($"PN", f_first);
   ($"SU", f_words); ($"SI", f_first); ($"MA", f_first); ($"BP", f_stripped); ($"EP", f_stripped); ($"AR", f_first); ($"PG", f_int); ($"WC", f_items);
   ($"DI", f_first); ($"D2", f_first); ($"GA", f_first); ($"UT", f_first); ($"PM", f_first)].
(** WOS/recordWOS.py:100-103: other tags are left as they are *)
Definition wos_value (tag : str) (val : list str) : res fvalue := match dget tag wos_funcs with Some f => f val | None => Ok (FTexts val) end.

(** ** Medline *)
(** medline/tagProcessing/tagFunctions.py:219-230 (AD): a dictionary, later entries of an author replace earlier ones *)
Definition m_address (val : list str) : dict str (list str) :=
  fold_left (fun d v => let parts := split_at $" : " v in
    dset (hd [] parts) (filter (fun s => negb (eqb s [])) (split_char 59%N (filter (fun c => negb (eqb c nl)) (join $" : " (tl parts))))) d) val [].
(** medline/tagProcessing/tagFunctions.py:314-323 (AUID) *)
Definition m_ids (val : list str) : dict str str :=
  fold_left (fun d v => let parts := split_at $" : " v in dset (hd [] parts) (join $" : " (tl parts)) d) val [].
(** medline/tagProcessing/tagFunctions.py:351-434; the tags of the other functions return their argument *)
Definition medline_first : list str := [$"PG"; $"VI"; $"DP"; $"TI"; $"OTO"; $"AB"; $"TA"; $"JT"].
Definition medline_value (tag : str) (val : list str) : res fvalue :=
  if mem tag medline_first then f_first val
  else if eqb tag $"PMID" then let* v := first val in Ok (FText ($"PMID:" ++ v))
  else if eqb tag $"AD" then Ok (FLists (m_address val))
  else if eqb tag $"AUID" then Ok (FNames (m_ids val))
  else if eqb tag $"GR" then Ok (FGrants (map medline_grant val))
  else Ok (FTexts val).

(** the special functions, over the fields of a record; R[k] for the tags they read. Alternative names of tags are left out *)
Definition fields := dict str (list str).
Definition raw_field (d : fields) (k : str) : res (list str) := match dget k d with Some v => Ok v | None => Raise KeyError end.
Definition one_text (d : fields) (k : str) : res str := let* v := raw_field d k in first v.
(** re.search(r'-?\d{1,4}', s), \d being 0 to 9 *)
Fixpoint take_digits (n : nat) (s : str) : str :=
  match n, s with S n', c :: s' => if digit09 c then c :: take_digits n' s' else [] | _, _ => [] end.
Fixpoint search_number (s : str) : option str :=
  match s with
  | [] => None
  | c :: s' =>
    match take_digits 4 (c :: s') with
    | d :: ds => Some (d :: ds)
    | [] => if eqb c 45%N then match take_digits 4 s' with d :: ds => Some (45%N :: d :: ds) | [] => search_number s' end else search_number s'
    end
  end.
(** medline/tagProcessing/specialFunctions.py:5-15 *)
Definition m_year (d : fields) : res Z :=
  let* dp := one_text d $"DP" in
  let w := hd [] (split_char sp dp) in
  match py_int w with
  | Some z => Ok z
  | None => match search_number w with
            | None => Ok 0%Z
            | Some n => match py_int n with Some z => Ok z | None => Raise ValueError end
            end
  end.
(** specialFunctions.py:17-24 *)
Definition m_month (d : fields) : res (Z + str) :=
  let* dp := one_text d $"DP" in
  match split_char sp dp with
  | _ :: m :: _ => get_month upper all_digits m
  | _ => Raise KeyError
  end.
(** specialFunctions.py:26-27 *)
Definition m_volume (d : fields) : res str := let* v := one_text d $"VI" in Ok (hd [] (split_char sp v)).
(** specialFunctions.py:29-34 *)
Definition m_page (d : fields) : res str :=
  let* p := one_text d $"PG" in
  let p := if starts_with $"suppl " p then skipn 6 p else p in
  Ok (filter (fun c => negb (eqb c 59%N)) (hd [] (split_char 45%N (hd [] (split_char sp p))))).
(** specialFunctions.py:36-42 *)
Definition ends_with (t s : str) : bool := starts_with (rev t) (rev s).
Fixpoint find_doi (l : list str) : res str :=
  match l with
  | [] => Raise KeyError
  | a :: l' => if ends_with $" [doi]" a then Ok (firstn (length a - 6) a) else find_doi l'
  end.
Definition m_doi (d : fields) : res str := let* l := raw_field d $"AID" in find_doi l.
(** specialFunctions.py:44-45 *)
Definition m_main_address (d : fields) : res str :=
  let* ad := raw_field d $"AD" in
  let* au := raw_field d $"AU" in
  let* a := first au in
  match dget a (m_address ad) with Some l => first l | None => Raise KeyError end.

(** ** Scopus *)
Variables word num : char -> bool.
Variable int_of : str -> Z.
(** scopus/tagProcessing/tagFunctions.py:4-23, :25-68 *)
Definition s_commas (v : str) : res fvalue := Ok (FTexts (split_at $", " v)).
Definition s_semis (v : str) : res fvalue := Ok (FTexts (split_at $"; " v)).
Definition s_plain_semis (v : str) : res fvalue := Ok (FTexts (split_at $";" v)).
Definition s_text (v : str) : res fvalue := Ok (FText v).
Definition s_grants (v : str) : res fvalue := Ok (FGrants (map scopus_grant (split_at $"; " v))).
Definition s_cites (v : str) : res fvalue := Ok (FScopusCites (map (CitationModel.scopus_citation word num int_of upper) (split_at $"; " v))).
Definition scopus_funcs : dict str (str -> res fvalue) :=
  [($"Authors", s_commas); ($"Title", s_text); ($"Year", to_int); ($"Source title", s_text); ($"Volume", s_text); ($"Issue", s_text); ($"Art. No.", s_text);
   ($"Page start", s_text); ($"Page end", s_text); ($"Page count", to_int); ($"Cited by", to_int); ($"DOI", s_text); ($"Link", s_text); ($"Affiliations", s_text);
   ($"Authors with affiliations", s_semis); ($"Abstract", s_text); ($"Author Keywords", s_semis); ($"Index Keywords", s_semis);
   ($"Molecular Sequence Numbers", s_text); ($"Chemicals/CAS", s_text); ($"Tradenames", s_semis); ($"Manufacturers", s_semis); ($"Funding Details", s_grants);
   ($"References", s_cites); ($"Correspondence Address", s_semis); ($"Editors", s_text); ($"Sponsors", s_plain_semis); ($"Publisher", s_text);
   ($"Conference name", s_text); ($"Conference date", s_text); ($"Conference location", s_text); ($"Conference code", to_int); ($"ISSN", s_text);
   ($"ISBN", s_semis); ($"CODEN", s_text); ($"PubMed ID", s_text); ($"Language of Original Document", s_semis); ($"Abbreviated Source Title", s_text);
   ($"Document Type", s_text); ($"Source", s_text); ($"EID", s_text)].
Definition scopus_value (tag : str) (v : str) : res fvalue := match dget tag scopus_funcs with Some f => f v | None => Raise KeyError end.

(** ** ProQuest *)
(** proquest/tagProcessing/tagFunctions.py:3-30 *)
Definition proquest_single : list str :=
  [$"Author"; $"Title"; $"Advisor"; $"Name"; $"Committee member"; $"Copyright"; $"Country of publication"; $"Database"; $"Degree"; $"Degree date"; $"Department";
   $"Dissertation/thesis number"; $"Document type"; $"Language"; $"Number of pages"; $"Place of publication"; $"ProQuest document ID"; $"Publication year";
   $"School code"; $"Source"; $"Source type"; $"University location"; $"University/institution"; $"ISBN"; $"Publication subject"].
(** proquest/tagProcessing/tagFunctions.py:32-65 *)
Definition proquest_value (tag : str) (val : list str) : res fvalue :=
  if mem tag proquest_single then f_first val
  else if eqb tag $"Classification" then let* v := first val in Ok (FTuples (map (split_at $": ") (split_at $"; " v)))
  else if eqb tag $"Identifier / keyword" then let* v := first val in Ok (FTexts (split_at $", " v))
  else if eqb tag $"Subject" then let* v := first val in Ok (FTexts (split_at $"; " v))
  else Ok (FTexts val).
End Wos.

(** ** Citations of a record itself: mkRecord.py:615-658, scopus/recordScopus.py:107-163 *)
(** get('authorsShort'): a list, or a text, of which [0] is its first character *)
Inductive names := NList (l : list str) | NText (s : str).
Definition name_list (n : names) : list str := match n with NList l => l | NText s => map (fun c => [c]) s end.
(** the values read, made texts; None where there is none or it is empty or 0 *)
Record selfrec := { r_authors : option names; r_year : option str; r_j9 : option str; r_title : option str; r_journal : option str; r_volume : option str;
                    r_page : option str; r_doi : option str }.
Definition no_commas (s : str) : str := filter (fun c => negb (eqb c comma)) s.
Definition authors_of (r : selfrec) : list str := match r_authors r with Some n => map no_commas (name_list n) | None => [] end.
Definition opt_part (f : str -> str) (o : option str) : list str := match o with Some s => [f s] | None => [] end.
(** mkRecord.py:640-652 *)
Definition cite_parts (r : selfrec) : list str :=
  opt_part (fun s => s) (r_year r)
  ++ match r_j9 r with Some j => [j] | None => opt_part (fun s => s) (r_title r) end
  ++ opt_part (fun s => $"V" ++ s) (r_volume r) ++ opt_part (fun s => $"P" ++ s) (r_page r) ++ opt_part (fun s => $"DOI " ++ s) (r_doi r).
Section Self.
Variables upper title : str -> str.
(** mkRecord.py:636-639, 658 *)
Definition self_cite (r : selfrec) : res citation :=
  wos_citation upper title (join $", " (match authors_of r with a :: _ => [a] | [] => [] end ++ cite_parts r)).
(** mkRecord.py:631-635, 653-656 *)
Fixpoint cite_each (texts : list str) : res (list citation) :=
  match texts with [] => Ok [] | t :: texts' => let* c := wos_citation upper title t in let* l := cite_each texts' in Ok (c :: l) end.
Definition self_cites (r : selfrec) : res (list citation) :=
  match authors_of r with
  | [] => cite_each [join $", " (cite_parts r)]
  | l => cite_each (map (fun a => join $", " (a :: cite_parts r)) l)
  end.
(** scopus/recordScopus.py:127-144: the texts of which the citations are made *)
Definition scopus_rest (r : selfrec) : str :=
  match r_title r with Some t => filter (fun c => negb (eqb c 40%N || eqb c 41%N)) t ++ $" " | None => [] end
  ++ match r_year r with Some y => $"(" ++ y ++ $") " | None => [] end
  ++ match r_journal r with Some j => j ++ $", " | None => [] end
  ++ match r_volume r with Some v => v ++ $", " | None => [] end
  ++ match r_page r with Some p => $"PP. " ++ p | None => [] end.
Definition scopus_self (r : selfrec) : str := match authors_of r with a :: _ => a ++ $", " | [] => [] end ++ scopus_rest r.
(** scopus/recordScopus.py:145-148 *)
Definition scopus_selves (r : selfrec) : list str :=
  match authors_of r with [] => [scopus_rest r] | l => map (fun a => a ++ scopus_rest r) l end.
End Self.
