(** The tables of tag names and the functions that convert between them (C51, used by C27). *)
From Coq Require Import String.
From Verif Require Import Base PyStr.
Set Implicit Arguments.

(** WOS/tagProcessing/tagFunctions.py:1293-1355 with WOS/tagProcessing/funcDicts.py:5 (the name of a tag is the name of
    its function) *)
Definition wos_tags : dict str str :=
  [($"PT", $"pubType"); ($"AF", $"authorsFull"); ($"GP", $"group"); ($"BE", $"editedBy"); ($"AU", $"authorsShort");
   ($"BA", $"bookAuthor"); ($"BF", $"bookAuthorFull"); ($"CA", $"groupName"); ($"ED", $"editors"); ($"TI", $"title");
   ($"SO", $"journal"); ($"SE", $"seriesTitle"); ($"BS", $"seriesSubtitle"); ($"LA", $"language"); ($"DT", $"docType");
   ($"CT", $"confTitle"); ($"CY", $"confDate"); ($"HO", $"confHost"); ($"CL", $"confLocation"); ($"SP", $"confSponsors");
   ($"DE", $"authKeywords"); ($"ID", $"keywords"); ($"AB", $"abstract"); ($"C1", $"authAddress"); ($"RP", $"reprintAddress");
   ($"EM", $"email"); ($"RI", $"ResearcherIDnumber"); ($"OI", $"orcID"); ($"FU", $"funding"); ($"FX", $"fundingText");
   ($"CR", $"citations"); ($"NR", $"citedRefsCount"); ($"TC", $"wosTimesCited"); ($"Z9", $"totalTimesCited"); ($"PU", $"publisher");
   ($"PI", $"publisherCity"); ($"PA", $"publisherAddress"); ($"SC", $"subjectCategory"); ($"SN", $"ISSN"); ($"EI", $"eISSN");
   ($"BN", $"ISBN"); ($"J9", $"j9"); ($"JI", $"isoAbbreviation"); ($"PD", $"month"); ($"PY", $"year");
   ($"VL", $"volume"); ($"IS", $"issue"); ($"PN", $"partNumber"); ($"SU", $"supplement"); ($"SI", $"specialIssue");
   ($"MA", $"meetingAbstract"); ($"BP", $"beginningPage"); ($"EP", $"endingPage"); ($"AR", $"articleNumber"); ($"PG", $"pageCount");
   ($"WC", $"subjects"); ($"DI", $"DOI"); ($"D2", $"bookDOI"); ($"GA", $"documentDeliveryNumber"); ($"UT", $"wosString");
   ($"PM", $"pubMedID")].
(** medline/tagProcessing/tagNames.py:9-94, as written: two keys occur twice *)
Definition medline_table : list (str * str) :=
  [($"Abstract", $"AB"); ($"CopyrightInformation", $"CI"); ($"Affiliation", $"AD"); ($"InvestigatorAffiliation", $"IRAD");
   ($"ArticleIdentifier", $"AID"); ($"Author", $"AU"); ($"AuthorIdentifier", $"AUID"); ($"FullAuthor", $"FAU");
   ($"BookTitle", $"BTI"); ($"CollectionTitle", $"CTI"); ($"CorporateAuthor", $"CN"); ($"CreateDate", $"CRDT");
   ($"DateCompleted", $"DCOM"); ($"DateCreated", $"DA"); ($"DateLastRevised", $"LR"); ($"DateElectronicPublication", $"DEP");
   ($"DatePublication", $"DP"); ($"Edition", $"EN"); ($"Editor", $"ED"); ($"Editor", $"FED");
   ($"EntrezDate", $"EDAT"); ($"GeneSymbol", $"GS"); ($"GeneralNote", $"GN"); ($"GrantNumber", $"GR");
   ($"Investigator", $"IR"); ($"InvestigatorFull", $"FIR"); ($"ISBN", $"ISBN"); ($"ISSN", $"IS");
   ($"Issue", $"IP"); ($"JournalTitleAbbreviation", $"TA"); ($"JournalTitle", $"JT"); ($"Language", $"LA");
   ($"LocationIdentifier", $"LID"); ($"ManuscriptIdentifier", $"MID"); ($"MeSHDate", $"MHDA"); ($"MeSHTerms", $"MH");
   ($"NLMID", $"JID"); ($"NumberReferences", $"RF"); ($"OtherAbstract", $"OAB"); ($"OtherAbstract", $"OABL");
   ($"OtherCopyright", $"OCI"); ($"OtherID", $"OID"); ($"OtherTerm", $"OT"); ($"OtherTermOwner", $"OTO");
   ($"Owner", $"OWN"); ($"Pagination", $"PG"); ($"PersonalNameSubject", $"PS"); ($"FullPersonalNameSubject", $"FPS");
   ($"PlacePublication", $"PL"); ($"PublicationHistoryStatus", $"PHST"); ($"PublicationStatus", $"PST"); ($"PublicationType", $"PT");
   ($"PublishingModel", $"PUBM"); ($"PubMedCentralIdentifier", $"PMC"); ($"PubMedCentralRelease", $"PMCR"); ($"PubMedUniqueIdentifier", $"PMID");
   ($"RegistryNumber", $"RN"); ($"SubstanceName", $"NM"); ($"SecondarySourceID", $"SI"); ($"Source", $"SO");
   ($"SpaceFlightMission", $"SFM"); ($"Status", $"STAT"); ($"Subset", $"SB"); ($"Title", $"TI");
   ($"TransliteratedTitle", $"TT"); ($"Volume", $"VI"); ($"VolumeTitle", $"VTI"); ($"CommentIn", $"CIN");
   ($"ErratumIn", $"EIN"); ($"ErratumFor", $"EFR"); ($"CorrectedRepublishedIn", $"CRI"); ($"CorrectedRepublishedFrom", $"CRF");
   ($"DatasetIn", $"DDIN"); ($"DatasetUseReportedIn", $"DRIN"); ($"PartialRetractionIn", $"PRIN"); ($"PartialRetractionOf", $"PROF");
   ($"RepublishedIn", $"RPI"); ($"RepublishedFrom", $"RPF"); ($"RetractionIn", $"RIN"); ($"RetractionOf", $"ROF");
   ($"UpdateIn", $"UIN"); ($"UpdateOf", $"UOF"); ($"SummaryForPatients", $"SPIN"); ($"OriginalReportIn", $"ORI")].
(** a python dict literal: later entries replace the value of earlier ones *)
Definition dict_of (l : list (str * str)) : dict str str := fold_left (fun d p => dset (fst p) (snd p) d) l [].
Definition medline_names : dict str str := dict_of medline_table.
(** medline/tagProcessing/tagFunctions.py:351-434, the keys *)
Definition medline_known : list str :=
  [$"IR"; $"FIR"; $"PROF"; $"PUBM"; $"CN"; $"MHDA"; $"LID"; $"EDAT"; $"OCI"; $"SB"; $"DA"; $"PMCR";
   $"PG"; $"GS"; $"VI"; $"UOF"; $"OWN"; $"ORI"; $"MID"; $"PMID"; $"PMC"; $"RIN"; $"RPF"; $"CIN";
   $"FPS"; $"TT"; $"PHST"; $"EFR"; $"PST"; $"SPIN"; $"AU"; $"FED"; $"NM"; $"SO"; $"IP"; $"OABL";
   $"CRDT"; $"DDIN"; $"MH"; $"DP"; $"GN"; $"CRF"; $"TI"; $"CRI"; $"OT"; $"ROF"; $"OTO"; $"OID";
   $"PT"; $"RPI"; $"AB"; $"EN"; $"AD"; $"LA"; $"TA"; $"JT"; $"IRAD"; $"PS"; $"IS"; $"PL";
   $"CTI"; $"FAU"; $"VTI"; $"DCOM"; $"BTI"; $"CI"; $"STAT"; $"DRIN"; $"RF"; $"UIN"; $"LR"; $"SFM";
   $"EIN"; $"AID"; $"PRIN"; $"DEP"; $"AUID"; $"SI"; $"ISBN"; $"RN"; $"JID"; $"GR"].
(** medline/tagProcessing/tagNames.py:4-7 *)
Definition author_based : list str := [$"AD"; $"AUID"].
(** scopus/recordScopus.py:13-56 *)
Definition scopus_header : list str :=
  [$"Authors"; $"Title"; $"Year"; $"Source title"; $"Volume"; $"Issue";
   $"Art. No."; $"Page start"; $"Page end"; $"Page count"; $"Cited by"; $"DOI";
   $"Link"; $"Affiliations"; $"Authors with affiliations"; $"Abstract"; $"Author Keywords"; $"Index Keywords";
   $"Molecular Sequence Numbers"; $"Chemicals/CAS"; $"Tradenames"; $"Manufacturers"; $"Funding Details"; $"Funding Text";
   $"References"; $"Correspondence Address"; $"Editors"; $"Sponsors"; $"Publisher"; $"Conference name";
   $"Conference date"; $"Conference location"; $"Conference code"; $"ISSN"; $"ISBN"; $"CODEN";
   $"PubMed ID"; $"Language of Original Document"; $"Abbreviated Source Title"; $"Document Type"; $"Source"; $"EID"].

(** scopus/tagProcessing/tagFunctions.py:25-68, the keys *)
Definition scopus_known : list str :=
  [$"Authors"; $"Title"; $"Year"; $"Source title"; $"Volume"; $"Issue";
   $"Art. No."; $"Page start"; $"Page end"; $"Page count"; $"Cited by"; $"DOI";
   $"Link"; $"Affiliations"; $"Authors with affiliations"; $"Abstract"; $"Author Keywords"; $"Index Keywords";
   $"Molecular Sequence Numbers"; $"Chemicals/CAS"; $"Tradenames"; $"Manufacturers"; $"Funding Details"; $"References";
   $"Correspondence Address"; $"Editors"; $"Sponsors"; $"Publisher"; $"Conference name"; $"Conference date";
   $"Conference location"; $"Conference code"; $"ISSN"; $"ISBN"; $"CODEN"; $"PubMed ID";
   $"Language of Original Document"; $"Abbreviated Source Title"; $"Document Type"; $"Source"; $"EID"].

(** WOS/tagProcessing/helpFuncs.py:27-35 (makeBiDirectional) *)
Definition bidirectional (d : dict str str) : dict str str := fold_left (fun t p => dset (snd p) (fst p) t) d d.
(** WOS/tagProcessing/helpFuncs.py:37-45 (reverseDict) *)
Definition reverse_dict (d : dict str str) : dict str str := fold_left (fun t p => dset (snd p) (fst p) t) d [].

(** WOS/tagProcessing/funcDicts.py:7, :12, :14 *)
Definition full_to_tag : dict str str := reverse_dict wos_tags.
Definition wos_names : dict str str := bidirectional wos_tags.
Definition tags_and_names : list str := dkeys wos_names.
(** medline/tagProcessing/tagNames.py:96 *)
Definition medline_converter : dict str str := bidirectional medline_names.

(** getAltName: WOS/recordWOS.py:97-98, medline/recordMedline.py:54-55; scopus/recordScopus.py:91-92 and
    proquest/recordProQuest.py:54-55 always give None *)
Definition wos_alt (k : str) : option str := dget k wos_names.
Definition medline_alt (k : str) : option str := dget k medline_converter.
Definition no_alt (k : str) : option str := None.

Section Upper.
(** python [str.upper] *)
Variable upper : str -> str.
(** WOS/tagProcessing/funcDicts.py:9, :16 *)
Definition full_to_tag_upper : dict str str := fold_left (fun t p => dset (upper (fst p)) (snd p) t) full_to_tag [].
Definition tags_and_names_upper : list str := map upper tags_and_names.
(** WOS/tagProcessing/funcDicts.py:41-66 (normalizeToTag), for string arguments *)
Definition normalize_to_tag (s : str) : res str :=
  let u := upper s in
  if negb (mem u tags_and_names_upper) then Raise KeyError
  else match dget u full_to_tag_upper with Some t => Ok t | None => Ok u end.
End Upper.
(** WOS/tagProcessing/funcDicts.py:68-89 (normalizeToName) *)
Definition normalize_to_name (s : str) : res str :=
  if negb (mem s tags_and_names) then Raise KeyError
  else match dget s wos_tags with Some n => Ok n | None => Ok s end.
(** WOS/tagProcessing/funcDicts.py:91-105 (isTagOrName) *)
Definition is_tag_or_name (s : str) : bool := mem s tags_and_names.
(** WOS/tagProcessing/funcDicts.py:20-37 (tagToFull); raising a string is a TypeError *)
Definition tag_to_full (s : str) : res str := match dget s wos_tags with Some n => Ok n | None => Raise TypeError end.

(** upper case of ASCII text *)
Definition ascii_char (c : char) : bool := (c <? 128)%N.
Definition ascii_upper (s : str) : str := map (fun c : char => if ((97 <=? c) && (c <=? 122))%N then (c - 32)%N else c) s.
