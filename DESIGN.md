# Formal model of metaknowledge in Rocq: design

Source: `/repo` (UWNETLAB/metaknowledge, python), read as text.  Model and proofs: `/verif/rocq/theories`.

## Conventions

* Python strings are lists of code points (`str := list N`).  Character classes (white space) are the Python ones.
  Case mapping is ASCII unless a definition says otherwise.
* A python `set` is a duplicate-free list.  Its iteration order is unspecified in python, so theorems quantify over
  every list order (the list *is* the order the run happened to use) and, where the API promises it, prove order
  independence.
* A python `dict` is an insertion-ordered association list without duplicate keys.
* Exceptions are values (`Ok`/`Raise`).
* A networkx graph is a node dictionary plus an adjacency dictionary of dictionaries (`Nx.v`), an undirected edge
  being stored under both ends as networkx does; `edges` lists edges in networkx's order, each once.  Semantics:
  networkx 2.0 - 2.3.
* External things (pickle, file system, `hash`, regular expressions too big to model) are explicit parameters
  quantified in the theorem; nothing is an axiom.
* Files: `*Model.v` definitions with citations of the source lines; `*Spec.v` small independent specifications;
  `*Proofs.v` lemmas; `Properties*.v` the property theorems with, beside them, examples meeting the hypotheses.

## Plan per property

| id | modelled | proof |
|----|----------|-------|
| C01-C06, C10 | `Collection` methods as functions on a state record (members, name, bad, errors, collected types) | induction over a history of operations, refinement to membership predicates |
| C07, C08 | `chunk`, `split` loops over an arbitrary iteration order | loop invariant on list of chunks |
| C09 | `CollectionWithIDs` lookups | case analysis and induction on the members |
| C11-C13 | `rankedSeries`, `timeSeries`, `cooccurrenceCounts` | counting lemmas over folds on dictionaries; stable sort |
| C14-C20 | the network builders over a networkx model | each loop is shown equal to a sum over records (order independence follows) ; known wrong counts are refuted and characterised exactly |
| C21-C23 | WOS record writer/parser, file writer/reader as line machines | induction on lines; round trips |
| C24-C26 | Medline, Scopus, ProQuest writers/parsers | the same |
| C27 | `ExtendedRecord` look-up with its memo dictionary | invariant: memo holds only processed values; induction over lookup histories |
| C28, C29 | `Citation`, with a model of the regular expression | totality by structural matching; equivalence |
| C30-C36 | `graphHelpers` | filter/fold lemmas, handshake by induction on edges |
| C37, C38 | `diffusion` | sums over folds |
| C39-C45, C48 | rest of `RecordCollection` | folds over the records |
| C46 | cache validity as a state machine over directory snapshots; pickle an abstract codec with truncation | case analysis, crash point = any prefix of the written bytes |
| C47 | grant update | dictionary lemmas |
| C49 | glimpse table layout, and the glimpse of a collection on top of the ranked series | arithmetic on lengths; cells described by a separate specification |
| C50 | journal database as a dictionary | refutation plus what does hold |
| C51 | tag tables copied from the source | finite check lifted to all strings |
| C52 | `_bibFormatter` | arithmetic on slices; refutation plus what does hold |
| C54, C55 | the same lookup model | from the memo invariant of C27 |
| C56, C57 | `Citation.Extra`, `allButDOI`, the attributes an object has; the databases as dictionaries, the process dictionary as state | case analysis; dictionary lemmas |
| C37, C38, C58, C59 | diffusionCount, diffusionGraph (plain and labelled), tables, diffusionAddCountsFromSource, with records as views | loops shown equal to sums over references; order independence by permutation; wrong documented behaviour refuted |
| C60 | `TextModel.prep_string` | arithmetic of slices, parity of the width |
| C61 | grants as dictionaries, the network loops | invariant over names met and links made, then sums over grants |
| C62 | the two splitters | split and join are inverse; witnesses for equal grants |
| C63 | trees, the parser's three loops | the tree as a list of steps, last text and gathered texts |
| C64 | choice of citations, the set in any order, the counting dictionary, the seven columns | induction; the counts as numbers of equal citations; sums over classes |
| C65 | replacing texts, the drop list, white space, case and deletion with any kinds of characters | replacement on words between spaces; a relation for runs of white space |
| C66 | the two columns built in one loop | one list of pairs |
| C67 | the dictionary of columns, the rows appended, the list of the caller | what goes into a column; columns all different |
| C68 | the lists of columns with their aliasing, the cells, the rows through the csv writer of C36, the files of a divided collection as a dictionary | what the csv reader gives back; columns in first-seen order; files by first 200 characters |
| C69 | the ID, the lines and the file with the exception that ends it | lines got back by splitting; the words of the ID as a division of the words of the title; induction over the records |
| C70 | the set of copyrights over C44 | membership and no duplicates |
| C71 | the table of functions of WOS tags and each function | for each tag the value is given by an equation; lists by inverting split and join |
| C72 | createCitation of records and of Scopus records, the texts they build | the built text has the documented form of C28 after upper(), so the citation and its ID follow; multiCite by induction over the authors |
| C73 | the functions of Medline tags and the special functions year, month, volume, beginningPage, DOI, address | cutting at the first separator; dictionaries of authors by the last entry |
| C74 | the functions of Scopus and ProQuest tags | split inverts join |
| C75 | UTF-8 and latin-1 as functions on bytes, the four detectors and processors, the loop over the handlers, the name | decode and encode are inverse by induction on bytes with arithmetic; each detector by an equivalence; the kind by cases |
| C76 | writeFile as bytes, reading as bytes | the file theorems of C22 to C25 for texts, plus that no earlier detector fits; prefixes: decoding commutes with append, the lines of a prefix are a truncation of the lines |
| C77 | the attributes of a bar, the loop of its thread with one step per read or write of an attribute and per write, the calls as lists of steps, an arbitrary schedule | invariants over all schedules: what is still to be said, joins come after the flag, a measure of the steps left to the drawing thread and to the caller; layouts by C60 |
| C78 | the four builders with an edgeAttribute; a multigraph is a graph of its nodes and a list of edges with keys and weights | as C14-C16, each link made once for each key: the edges with a key tally the links made with it; a run that meets a key twice with weights raises |
| C79 | lists as cells of a heap, one for each member; nodes refer to cells | invariant over the members: which cell a node refers to, and which values each cell holds; the exact set of values |
| C80 | the loop over the records, the pairs of names and the live iteration over the edges of a node, on the graphs of Nx.v | an order on graphs (nothing lost, changes only at later names) kept by each step; induction over the names and the records |
| C81 | the loop over the lines, the preparation of texts and the templates; a reader of JSON texts as specification | the reader is two folds (characters to tokens, tokens to values), so that it can be followed through concatenations; simulation of the buffer by lists of lines; invariants of that |
| C82 | detectors, dispatch and parsers of grant files over the csv state machine, with the number and text of each row's last line; PEP 479 as a parameter | a table is any text in which values are written as they are or in quotes; induction over rows, with a lemma that carries the row-by-row reading of csv over to numbered lines; sets of grants by an invariant; refuted: files without faults make the collection bad since python 3.7, a last row that is cut off is lost, equal bad rows merge, edited CIHR files are read as unknown ones, csv errors escape |
| C83 | The program as a function from the lines typed and the files that exist to an outcome and a log of questions, files and marks; a monad with the outcomes value, exit and exception; loops on the number of lines left | invariants of the log kept by every step (files known, overwriting only after a yes), induction on the loops against relations that say what lines ask for, witnesses for what the menus promise wrongly |
| C84 | the Scopus pattern and the construction of the citation (citation.py:63, 74-104; already in `CitationModel.v`) | soundness and completeness of the matcher against a declarative match relation, uniqueness of the division of a reference, a reading function for the source |
| C85 | dropNonJournals and tags over any elements with a publication type that may raise | filter characterisation over the collection invariant WF |
| C86 | bytes of a record of each of the four kinds, of a collection | C21 and C76: the written text of a WOS record is its source text; witnesses for Medline and Scopus |
| C87 | the loop over the files of a directory, with the detectors and parsers of all four kinds of files | loop invariant: the collection so far is the union of the collections (C75) of the files so far; order, ignored entries and reading back (C76) follow |
| C88 | records as dicts of references into a heap, with memoised values; histories of copies, lookups and changes in place | invariant: raw cells are unchanged and each computed cell belongs to one record; for grants a simulation by separate dicts |
| C89 | graphStats and the networkx functions it calls | each statistic shown equal to a count stated with nodes and edges only; bounds by injecting edges into ordered pairs of nodes; texts by computing the six blocks for a symbolic request |
| C90 | reading a directory with files of all kinds | invariant over the files: what is not of NSERC is the first of each, what is of NSERC is the merge of all before; the two parts of the set do not influence each other |
| C91 | the csv files written with outputFile | reading back what the excel writer wrote by induction over fields and rows; the rows are those of C11, C12, C66 and C67 |
| C92 | writeGraph as a list of events on a disk | the names by computation on paths; reading back from C36; a history by induction over the calls; interruptions by looking at every prefix of the events |
| C93 | the lines of `writeTnetFile` written out as text, with and without `timeString` | a small reader of tnet text (split at newlines, quotes and spaces) gives back the ids of the ends and the weight of each edge, by induction over the edges; acceptance of two-mode multigraphs; counterexamples for the times |
| C94 | the networks of the records of WOS files | theorems of C17-C20, C27, C28, C71, C76 composed; the spec speaks of the lines under tags only |
| C95 | the citeProfile branch of networkCoAuthor, with shared dictionaries | the graph part is split off (the run is the co-author run plus a run of reference steps), the steps are described by induction from the right, steps are regrouped by records |
| C96 | getj9dict and isJournal with all their arguments, on a directory of databases | case analysis on the choice; the dictionary read is described by look-ups, the answers follow from it |
| C97 | the calls of f.write by all kinds of records, with their encoding, as events on a disk | every run is an opening and a list of appended bytes; the texts by induction over the records and over the parts; a stopped run holds a prefix, and C76_interrupted does the rest |
| C98 | the csv writer and reader for any delimiter and quote, and lines with all three kinds of ends | a character between quotes is kept whether or not it ends a line; induction over the text, the row and the rows |
| C99 | the mapping methods of records on top of the lookups of C27 | the invariant on kept values of C27, by induction over histories and over the tags walked |
| C100 | rankedSeries, timeSeries, cooccurrenceCounts and the tag networks over records with the look-up of WosNetModel.v | what a look-up gives is related to the lines by the theorems of C71 and C27, then C11 - C15 are applied |
| C101 | the series, tables and networks of C11 - C15 over records of four kinds with the look-ups of RecordModel.v and the tag functions of ValuesModel.v | a look-up by a common name is resolved to the field, whose value C71 - C74 give; then as for C100 |
| C102 | the authors of a record of any database and what the network, the number and the genders make of them | the look-ups of C101 with the shape of the value, C17 and C45; the ProQuest case refuted for every such collection |
| C103 | networkCitation and networkCoCitation over records of the four databases (MixedNetModel.v) | the record's own text per database by running createCitation over the values of the fields; then C18 and C19; names never shared by a comma and full stop argument |
| C104 | ScopusModel's writer and reader, look-ups and networks of MixedModel.v and MixedNetModel.v | C25 gives the fields read; look-ups depend on one column each; congruence of counts and networks in what is read of a record; a missing column is followed through the tag functions |
| C105 | years as numbers or texts, counted and sorted | told years of the four databases read as in C101, counting invariant as for C12, sorting total on each kind |
| C106 | state machine of the file of names and the table in memory | csv reader on written rows as in C78, last row wins by induction, invariant of histories without restart, empty file as an absorbing state |
| C107 | rich comparison of python with its order of methods, hashes, sets with the hashes kept, histories of changes | case analysis of classes; an invariant of the set (hashes current, classes and ids different) over histories |
| C108 | localCitesOf, localCiteStats and citeFilter over the records and citations of C103 | the generic theorems of C40-C42 for the citations that C103 shows to be those of the references; edges of networkCitation by C103_citation_partial |
| C109 | genderStats and authGenders over the records of C101 | look-ups of the full names by database, cutting of names by induction, counts by C45 |
| C110 | the two texts of a record over the four kinds of MixedModel.v, and its grants | the look-ups of C101 reduce title and grants to the fields in the file; the representation is taken apart at the first blank, which no class name has |
| C111 | the text and the ID that a citation keeps, with the setting when it was made and when it is shown; class and name of collections | the parts of a text are told apart by the first character that no class name has; the refutations are general or by a witness |

## What is modelled

| file | source | not modelled |
|------|--------|--------------|
| `CollectionModel.v`, `CollectionHeap.v` | `mkCollection.py` classes `Collection`, `CollectionWithIDs` (set operations, errors, copies, chunk, split, look-ups) | progress bars, `__repr__` texts, `glimpse` |
| `WosModel.v` | `WOS/wosHandlers.py`, `WOS/recordWOS.py` parser and writer, `RecordCollection.writeFile` for Web of Science | decoding of bytes |
| `Nx.v` | networkx `Graph`/`DiGraph` (library, trusted model) | multigraphs, views |
| `GraphHelpersModel.v` | `graphHelpers.py` except the csv functions and `graphStats` | progress bars, the `timeString` option |
| `CsvModel.v` | python's `csv` writer and reader (library, trusted model) | other dialects |
| `GraphFileModel.v` | `readGraph`, `writeEdgeList`, `writeNodeAttributeFile` | file names and `overwrite` are in `GraphSaveModel.v`; encoding fallback not modelled |
| `RecordView.v`, `SeriesModel.v` | `mkCollection.py` `rankedSeries`, `timeSeries`, `cooccurrenceCounts` | the csv output files |
| `NetModel.v` | `mkCollection.py` `networkMultiLevel`, `networkOneMode`, `networkTwoMode`, `networkMultiMode` | `edgeAttribute` is in `KeyNetModel.v`, `nodeAttribute` in `AttrNetModel.v`; progress bars, argument checks left out |
| `CiteNetModel.v` | `recordCollection.py` `networkCoAuthor`, `networkCoCitation`, `networkCitation`, `networkBibCoupling`, `addToNetwork`, `makeID`, `makeNodeTuple`, `filterCites` | `expandedCore` is in `ExpandModel.v`, `citeProfile` in `CiteProfileModel.v`; argument checks, progress bars left out; citations are equal when their ids are (no hash collisions) |
| `TagNames.v`, `RecordModel.v` | `mkRecord.py` `ExtendedRecord.__getitem__`, `__contains__`, `get`, `__getstate__`, `createCitation` (which fields it reads); the tag tables and special functions of the four kinds of records; `WOS/tagProcessing/funcDicts.py`; `getMonth` | what the tag functions compute (arbitrary functions in the theorems); values are immutable, whereas python returns the memoised list itself |
| `Regex.v`, `CitationModel.v` | `citation.py` 61-261: both regular expressions run by a model of python's backtracking matcher (trusted model of `re`), `Citation.__init__`, ID, hash, equality, `isAnonymous`, `allButDOI`, `Extra` | `FAST_CITES` is False; `str.upper`, `str.title`, `\\w`, `\\d`, `int` of non-ASCII digits, `hash` are parameters |
| `JournalModel.v` | `journalAbbreviations/backend.py` 56-226 (page parser, `updatej9DB`, `getj9dict('both')`, `addToDB`, `excludeFromDB`); `citation.py` 263-391 (`isJournal` with default arguments, `FullJournalName`, `addToDB`, `filterNonJournals`) | `dbm` files are dictionaries; download and saving of raw pages are parameters; the other arguments are in `JournalOptModel.v` |
| `DiffusionModel.v` | diffusion.py: makeNodeID, diffusionCount (extraValue, compareCounts, tables of a tag), diffusionGraph, its labelled multigraph as a list of edges, diffusionAddCountsFromSource without extraType | argument checks, the table for 'raw', progress bar, extraType of AddCounts |
| `recordCollection.py` 698-897, 1362-1615, `mkRecord.py` subDict and authGenders, `nameGender.py` nameStringGender, `mkCollection.py` getID | AnalysisModel.v | a record is seen through its year, citations, id, tags; str.upper, str.title and the name file are parameters; progress bars and floats left out; hashes of different citation IDs taken to differ |
| `TextModel.v`, `TextSpec.v`, `TextProofs.v`, `RegexLang.v`, `PropertiesText.v` | recordCollection.py findCopyright; mkRecord.py `_bibFormatter`; RCglimpse.py makeHeader, makeTable, prepEntry and the sizes chosen by `_glimpse`; progressBar.py prepString | `datetime.now`, the series shown by a glimpse are parameters here (see `GlimpseModel.v`); texts with newlines inside a glimpse |
| `MedlineModel.v` | `medline/recordMedline.py` parser, `MedlineRecord.__init__`, `writeRecord`; `medline/medlineHandlers.py`; `RecordCollection.writeFile` for Medline | decoding of bytes, source file and line of errors; `str.isalpha` is a parameter |
| `ScopusModel.v` | `scopus/recordScopus.py` parser (both regular expressions run by the model of `re`), `ScopusRecord.__init__` for texts, `writeRecord`; `scopus/scopusHandlers.py`; `RecordCollection.writeFile` for Scopus | decoding of bytes, `createCitation`, source file and line |
| `ProQuestModel.v` | `proquest/recordProQuest.py` parser and `ProQuestRecord.__init__` for lines; `proquest/proQuestHandlers.py` (`isProQuestFile`, `proQuestParser`) | decoding errors, source file and line numbers, `tagProcessing` for ProQuest |
| `CacheModel.v` | reading a directory (`recordCollection.py` 104-146, 160-166; `grantCollection.py` 59-125, 135-138), `Collection._loadFromCache`, `_createCache`, as a machine whose steps are the effects on the directory; users, other calls and crashes between any two steps | sub-directories, links, permissions; `os.listdir` and loading with its checks are single steps; file readers and pickle are parameters |
| `GrantModel.v` | `grants/*.py`: NSERC rows, update and files, CIHR, NSF trees, fallback, Medline and Scopus grant texts; equality of grants (`mkRecord.py` 90-146); `grantCollection.py` 84-120 (merging of files), 145-229 (networks); getInvestigators and getInstitutions | csv and xml are given as rows and trees; source files and lines; hash collisions; isInstitution; file detection is in GrantFileModel.v |
| `CiteTableModel.v` | `mkRecord.py` 546-589, 792-832; `recordCollection.py` 900-940: getCitations with its tables | a fraction is kept as numerator and denominator; a scalar given as values is already put in a list; a year and a citation are never equal keys |
| `NlpModel.v` | `recordCollection.py` 436-553 (forBurst), 555-695 (forNLP) | \\s, \\w, \\d, lower and the stemmer are parameters; the keywords are a list and the abstract a text; the files written for outputFile are in TableFileModel.v, the progress bar is not modelled |
| `WriteCsvModel.v` | `recordCollection.py` 247-371 (writeCSV) | default delimiter and quotes of the file; texts are written at the close; what is in a file when the function raises is not modelled; firstTags and onlyTheseTags are not the same list |
| `BibModel.v` | `mkRecord.py` 697-767 (bibString); `recordCollection.py` 373-434 (writeBib, findProbableCopyright) | str.title is a parameter; year and month are texts; the lookups of a record are given as fields of `brec` |
| `ValuesModel.v` | WOS/tagProcessing/tagFunctions.py, medline/tagProcessing/tagFunctions.py and specialFunctions.py, scopus/tagProcessing/tagFunctions.py, proquest/tagProcessing/tagFunctions.py, mkRecord.py 615-658, scopus/recordScopus.py 107-163 | str.upper, lower, title and isdigit are parameters; alternative names of Medline tags in the special functions are left out; the attributes ScopusRecord.createCitation sets on bad citations are left out; \d in Medline years is 0 to 9 |
| `FileModel.v` | fileHandlers.py 36-58, recordCollection.py 91-107 and 225-245, the open() calls of the four handlers | files are their bytes; the codecs utf-8 and latin-1 are modelled, other encodings that a platform might use by default are not; a decoding error is one event (the parser sees no lines), whereas Python decodes in blocks; paths are POSIX |
| `ProgressModel.v` | progressBar.py 11-138 | flush, sleep and the start of the thread are left out; formats of numbers and int(p * n) are parameters; the width the system reports (or 80 after an error) comes with each step |
| `KeyNetModel.v` | mkCollection.py 855-938, 1075-1172, 1231-1305 with edgeAttribute | the order of edges in networkx is left out; what iterating over a lone value gives is a parameter; values of the attribute can be hashed |
| `AttrNetModel.v` | mkCollection.py 866-867, 913-920, 930-937 | the attribute is kept beside the graph, and its steps come after those of the graph for each record |
| `ExpandModel.v` | recordCollection.py 1792-1812 | the names of a record (createCitation, makeID) are a parameter |
| `NotebookModel.v` | bin/metaknowledgeMdToNb.py 8-36, 46-94, 104-131 | starts from the lines; file names and argument parsing are left out |
| `GrantFileModel.v` | grants/baseGrant.py 116-192, cihrGrant.py 20-60, nsercGrant.py 64-106, nsfGrant.py 56-132, fileHandlers.py 24-32, grantCollection.py 41-59, 132 | ET.parse is the tree it gives; values beyond the last column are left out; interrupts are left out; a directory of mixed files is left out (NSERC ones: C47) |
| `CliModel.v` | `bin/metaknowledgeCLI.py`; `graphHelpers.py` 139-165 (names of the files of a graph); `setup.py` 46-47 | Lines, files and answers only; what is printed, interrupts and failing writes are left out; the making of networks, `str.upper`, `float`, `abspath` are parameters; paths with `~` and the difference of files and directories are left out |
| `RegexSem.v`, `ScopusCiteProofs.v` | what a pattern of Regex.v matches, without the order of the search; the pattern of citation.py:63 | no model of its own: uses `CitationModel.v` and `ValuesModel.v` |
| `GlimpseModel.v`, `GlimpseSpec.v`, `GlimpseProofs.v`, `PropertiesGlimpse.v` | RCglimpse.py `_glimpse`: the columns asked for, the series shown and the two lines of the header | the class name, the time, reading of tags and `str` of values are parameters |
| `DropModel.v` | recordCollection.py 192-214, mkCollection.py 511-523 | r['pubType'] and str.upper are parameters; a type that is no text equals no text |
| `BytesModel.v` | mkRecord.py 176-190, recordCollection.py 172-177, encoding() of the four kinds | fields are lists of lines, for Scopus texts |
| `DirModel.v`, `DirSpec.v` | recordCollection.py 108-147 | without cache (CacheModel.v has it); the directory does not change while it is read; os.listdir gives names with the bytes of files |
| `CopyModel.v`, `CopySpec.v` | mkRecord.py 108-113, 192-213, 337-363, 389-395, 446-452, baseGrant.py 23-29 and 96-101, recordWOS.py 96-112, the WOS functions that return their argument | the functions of the tags do not raise; special functions read raw fields; a change in place gives the object a new value; Medline, Scopus and ProQuest records are not instantiated |
| `StatsModel.v` | `graphHelpers.py` 734-842 | networkx isolates, density and transitivity transcribed; floats kept as exact quotients, their text a parameter; int to float conversion exact |
| `GrantDirModel.v` | `grantCollection.py` 59-73, 84-120, 131 | no cache (C50), no progress bar; sets are lists in the order of insertion; the elements of a set that is joined to an empty one are compared with each other, which CPython leaves out |
| `TableFileModel.v` | `mkCollection.py` 608-631, 732-736, `recordCollection.py` 546-551, 682-694 | str() of values is a parameter; the file is its text on a system that writes line ends as they are; the csv writer of the dialect excel is written out |
| `GraphSaveModel.v` | `graphHelpers.py` 137-170, 207-210, 216, 231-235, 256, 300-307, 322 | POSIX paths, the present directory does not change, no links; whether a file can be opened and the home directories are parameters; an open file has what was written to it when an exception ends the call |
| `DiffusionTableModel.v` | diffusion.py 276-344 (the tables) | records of the type 'raw' are looked at through their tags, their values and the number of their authors; an extraValue is not the empty string |
| `TnetModel.v` | graphHelpers.py:344-445 (text of the file, `timeString`) | a multigraph is its nodes and the list of its keyed edges; `str()` of values only for whole numbers, text, booleans and None; a key is its text |
| `WosNetModel.v` | `mkRecord.py:337-400, 615-658`, `WOS/recordWOS.py:97-113`, `recordCollection.py:942-1347` put together | composition of RecordModel, ValuesModel, CitationModel and CiteNetModel; which of several exceptions is raised can differ; a shown field whose value cannot be made is None (this does not happen for usable records) |
| `CiteProfileModel.v` | recordCollection.py 983-1079 (networkCoAuthor with citeProfile) | the dictionaries are a heap indexed by the number of the record that made them; a citation is its ID and its text |
| `JournalOptModel.v` | backend.py 10-12, 114-172 (getj9dict with all arguments); citation.py 290-311, 350-361 | the files are dictionaries under their names; the pages that can be downloaded do not change between two updates |
| `WriteFileModel.v` | recordCollection.py 215-245; writeRecord of recordWOS.py 125-144, recordMedline.py 65-88, recordScopus.py 101-105, recordProQuest.py 67-68 | events on a disk, one for each f.write; a file left open by an exception is taken to have what was written; line ends of POSIX; no links |
| `CsvDialectModel.v` | recordCollection.py 328-331, 367 (csvDelimiter, csvQuote), with the csv module of CPython for any dialect and files opened with newline = '' | delimiter and quote are single characters |
| `RecordMapModel.v` | mkRecord.py 114-121, 402-443, 533-544, 591-613 | ItemsView and ValuesView are consumed whole; the tag functions and the test for None are parameters, as in RecordModel.v |
| `WosTagsModel.v` | mkCollection.py:569-1110 over WOS records | values of all records are looked up before a network is built; citations are counted by their IDs; no stemmers |
| `MixedModel.v` | `mkRecord.py:321-400` over `medline/recordMedline.py:52-64`, `scopus/recordScopus.py:89-99`, `proquest/recordProQuest.py:52-64`; `mkCollection.py:569-1110` over such records | the values of a record that nobody looked at before (C27: earlier looks do not matter); years that are texts are not modelled; no stemmers |
| `AuthorsModel.v` | recordCollection.py:351, 745, 885-892, 942-1073; genders/nameGender.py:68-69; mkRecord.py:677-686 over the four kinds of records | no detailedInfo, dropNonJournals or citeProfile (see C17); the table of names is a parameter |
| `MixedNetModel.v` | mkRecord.py:615-658, scopus/recordScopus.py:107-164, citation.py:64-151, recordCollection.py:1075-1292 over records of all four classes | R.id None shown as text; a value that raises is shown as None in the info of a node |
| `RereadSpec.v`, `PropertiesReread.v` (no new model) | ScopusModel.v, MixedModel.v, MixedNetModel.v put together | as there |
| `YearsModel.v` | mkCollection.py:665-747 (timeSeries with a tag), recordCollection.py:1362-1397 (yearSplit), over the records of MixedModel.v | sorting a list with numbers and texts raises TypeError, as any sort by comparisons does |
| `NamesModel.v` | nameGender.py:28-69 (downloadData, getMapping, nameStringGender, recordGenders), mkRecord.py:677-686 (authGenders), recordCollection.py:885-892 (genderStats) | the file of names is its decoded text; what a download does, and where it stops, is a parameter; str.title is a parameter |
| `IdentityModel.v` | `mkRecord.py:75-104, 128-146`, `grants/baseGrant.py:14-29, 96-110`, `mkCollection.py:117-145` | classes as an enumeration with the derivation of /repo; str of the values, the hash of a text and the fields that NSERC updates give are parameters; a set is the list of its entries with the hashes kept |
| `ScopusSelfModel.v` | `scopus/recordScopus.py:107-164` (createCitation, with and without multiCite) | the year is given as the number the record has |
| `MixedCiteModel.v` | recordCollection.py 1425-1457, 1474-1501, 1534-1615 over records of four databases | the citations of all records are read before the loop |
| `MixedRpysModel.v` | recordCollection.py 755-869 over records of four databases | citations and years of all records are read before the counting |
| `GenderModel.v` | recordCollection.py 871-897, mkRecord.py 660-695, nameGender.py 48-69 over records of four databases | fractions are numerators and the denominator; names of all records are read before the counting |
| `ShowModel.v` | mkRecord.py:150-174, WOS/recordWOS.py:110-111, medline/tagProcessing/specialFunctions.py:58 | texts of titles that are no texts (do not occur) are not modelled |
| `MixedDropModel.v` | recordCollection.py:192-214 over MixedModel.v | equality of records is a parameter, see C107 |
| `MixedTableModel.v` | recordCollection.py:900-940, mkRecord.py:792-832 over MixedCiteModel.v | without field and values, with pandasFriendly |
| `MixedDictModel.v` | recordCollection.py:698-753, mkRecord.py:115-118, 591-613 over MixedModel.v | without longNames, raw, numAuthors and genderCounts; all values are read before the table is filled |
| `MixedMultiModel.v` | mkCollection.py:1184-1312 over MixedModel.v | without stemmer and edgeAttribute; all values are read before the network is made |
| `CiteShowModel.v` | citation.py:151-172, mkCollection.py:273-277, over CitationModel.v and CollectionModel.v | the classes of collections are an enumeration |
| `PropertiesMixedBad.v`, `PropertiesMixedParts.v` (no new model) | recordCollection.py:1534-1615 (citeFilter: bad, anonymous, V, P, misc) over MixedCiteModel.v | as there |
| `MixedGlimpseModel.v` | mkCollection.py:525-567, RCglimpse.py:18-40 over MixedModel.v and GlimpseModel.v | the text of the citation kept for an ID is a parameter |

## Findings (places where the code does not do what its documentation says)

Each is proved: as a `_refuted` theorem with a witness, or inside the exact (`_partial`) characterisation.

* Collections: `<=` and `<` compare only sizes; binary operators lose the left operand's errors; the recorded type
  names are not kept in step with the members; a collection made from a generator is empty.
* Web of Science reader: every damaged record gets the same empty fields and error, so all of them collapse to one; a
  record with a malformed tag line is silently dropped; a blank line inside a field stops the reading silently.
* Web of Science writer: header and footer are only written if the recorded type names are exactly `{WOSRecord}`.
* `dropNodesByDegree` counts only outgoing edges of directed graphs.
* `mergeGraphs` overwrites the target's attributes where the incremented attribute is missing, and raises
  `AttributeError` when no edge attribute is to be incremented.
* `writeEdgeList` raises on any graph with an edge if `extraInfo=False` or `allSameAttribute=True`.
* `writeGraph`/`readGraph`: a carriage return in a label comes back as a newline; a missing attribute comes back as
  the empty string.
* `rankedSeries(pandasMode=True, greatestFirst=False)` is still greatest first; `giveRanks=True` without
  `giveCounts=False` raises; `timeSeries()` without tag ignores `limitTo`.
* `networkTwoMode`/`networkMultiMode`: a value first met without any partner loses one occurrence from its count;
  without counts `networkMultiMode` glues the tag to the type at every occurrence (`AUAU`).
| C17 | `networkCoAuthor` counts an author once for itself and once as the partner of every author listed before it, so the count is the sum of its positions |
| C19 | `networkCitation(weighted = False, nodeType = 'author')` (also journal, year) raises `UnboundLocalError` as soon as there is an edge |
| C19 | `recordToCite = False` has no effect without weights; with author, journal or year nodes in a directed network the edges still go from the record to the citation and every weight stays 1 |
| C19 | a record whose own citation has an empty id makes co-citation edges between the works it cites |
| C19 | a record's own node starts with count 1 only if the record comes before the records citing it, so counts depend on the iteration order |
| C54 | `ED` and `OAB` have no tag function (`tagNames.py` lists the names Editor and OtherAbstract twice), so `R["ED"]` raises `KeyError` although `"ED" in R`; the same for `Funding Text` of Scopus and for a WOS month that is not understood |
| C55 | `R["authorsFull"]` of a ProQuest record is the string `Author`, not the authors |
| C51 | `tagToFull` of an unknown tag executes `raise("...")`, a `TypeError`, instead of a `KeyError` |
| C28 | The ID is not a function of author, year and journal: with year 0 (or an author made only of dots) the year is part of the ID of a complete citation but not of one with something left over, so `DOE J, 0, NATURE` and `DOE J, 0, NATURE, X` differ (`C28_id_refuted`).  The `misc` attribute is only the first unexpected character (always a comma).  Scopus citations that do not match are compared case-sensitively (`C28_scopus_case_refuted`). |
| C29, C57 | `Citation.addToDB(invert = True)` puts an empty text instead of a list into the dictionary of the process; every later `isJournal` of that journal, and so `filterNonJournals`, raises IndexError.  After `addToDB(name)` `FullJournalName()` is the first letter of the name.  Before the first `isJournal` call `addToDB` raises AttributeError (after writing the database). |
| C50 | `updatej9DB` compares the downloaded names with themselves, so a new name of a known abbreviation is never stored; of an abbreviation on two pages only the names of the later page are stored (`C50_new_name_refuted`). |
| C56 | `Extra()` raises AttributeError for every Scopus citation (`C56_scopus_refuted`). |
| C37 | two sources with the same citation: the last one iterated takes all counts, the other is missing from the result, so the result depends on set order (`C37_order_refuted`) |
| C37 | compareCounts does not pass useAllAuthors on: with `useAllAuthors=False` it can raise KeyError (`C37_compare_refuted`) |
| C58 | with extraValue and compareCounts the SourceCount column of a tag table looks up the name of the tag instead of the value, so it is always 0 (`C58_source_count_refuted`) |
| C38 | edges go from source to target, the documentation says from target to source (`C38_direction_refuted`) |
| C38 | for type 'raw' (the default) or a tag holding one string the value itself is iterated: nodes are the Record's tags, or the characters of the string (`C38_lone_refuted`) |
| C38 | labelEdgesBy uses the target's tag, documented as the source's (`C38_label_refuted`); targets without the tag are left out; weighted labelled edges are never merged |
| C59 | `nodes_iter` was removed in networkx 2: diffusionAddCountsFromSource always raises AttributeError there (`C59_add_refuted`) |
| C40 | a Scopus citation string that cannot be parsed has no attribute year, journal or author: localCiteStats by one of them raises AttributeError for the whole collection (`C40_unreadable_refuted`) |
| C41 | localCitesOf(Record) always raises ValueError (an `if` where `elif` is meant) and a citation string is looked up as an id only, never parsed (`C41_record_refuted`, `C41_string_refuted`) |
| C42 | citeFilter on journal, V, P or misc: a citation whose part is None ends the search in that record, so later matching citations are not seen (`C42_hidden_refuted`); the blank key with field year raises ValueError (`C42_blank_refuted`); a Scopus citation that could not be read has no author attribute and `isAnonymous` answers True for it, so records are found with field 'anonymous' for a citation that names nobody as anonymous (`C42_unread_refuted`) |
| C43 | rpys: a citation to a year up to 1000 or from 2100 on makes the call without bounds raise TypeError (`C43_default_refuted`); a single year as dropYears raises TypeError (`C43_drop_refuted`); abs-deviation can be negative (`C43_absolute_refuted`) |
| C45 | two authors with the same full name in one record are counted once (`C45_total_refuted`); asFractions without author names raises ZeroDivisionError (`C45_empty_refuted`) |
| C48 | makeDict overwrites the long names in the list the caller passes as onlyTheseTags (model: `normal_tags` is the list after the call) |
| C49 | a glimpse with a title longer than its column, or with ranks over 99, has lines wider than the terminal (`C49_title_refuted`, `C49_rank_refuted`); a compact glimpse in a terminal of 6 rows and 55 to 75 columns raises IndexError (`C49_six_rows_refuted`) |
| C52 | _bibFormatter keeps only the first `len // max * max` characters of a text that is too long; one that is short enough without its quotation marks becomes empty (`C52_lost_refuted`) |
| C60 | prepString gives more characters than asked for when the room is less than 6 (`C60_narrow_refuted`) |
| C24 | Addresses and author ids (AD, AUID) are read after the first line of the author and looked for under the whole author when written, so they are lost for an author on two lines, an author with ` : ` in the name and before the first author; two authors of one name each get the addresses of both (`C24_long_author_refuted`, `C24_mark_refuted`, `C24_no_author_refuted`, `C24_same_name_refuted`).  A line such as `AB` raises IndexError out of the reading of the whole file (`C24_short_line_refuted`); a file without final newline loses its last character (`C24_no_newline_refuted`); one bad line loses all fields of its record (`C24_bad_line_refuted`). |
| C25 | A quoted value with a comma is only recognised if its first character other than a quote is not a comma, `|` or `$` (the `[^"|$]` of the expression was meant as an alternative): otherwise it swallows the columns before it, always (`C25_corrupted`, `C25_dollar_refuted`).  A file with the usual columns in another order is read as if they were in the usual order (`C25_order_refuted`).  The last character of a file without final newline is lost (`C25_no_newline_refuted`).  Missing values come back empty and fields that are not columns are lost (`C25_absent_refuted`, `C25_extra_refuted`).  Cells beyond the number of columns are dropped at the beginning of the line, so the others move (`C25_reading` with extra cells). |
| C26 | A continuation line with a colon begins a new field (`C26_colon_refuted`).  Of repeated tags only the last is kept (`C26_twice_refuted`).  The line after the author is taken for the link whatever it is (`C26_no_link_refuted`).  Untagged text after the link or the name, and a document number that is not in the table of contents, are KeyErrors that escape from the reading of the file (`C26_key_refuted`, `C26_number_refuted`). |
| C46 | A call interrupted while it writes the cache leaves a file for which `pickle.load` raises EOFError; only PickleError, KeyError and FileNotFoundError are caught, so every later cached call raises and the file is never removed (`C46_interrupted_refuted`, for every directory and every content once the file is empty).  Modification times are asked after the files were read: a change in between is cached with the old content and the new time, and later calls give the old collection (`C46_race_refuted`).  For grants the cache file is itself listed: every second `GrantCollection(dir, cached=True)` raises FileNotFoundError (`C46_grants_refuted`). |
| C47 | Values that both grants have are kept twice (`Cle` becomes 7; 7) (`C47_duplicates_refuted`); a missing value of a short csv row becomes the text None or ends the update halfway with TypeError (`C47_missing_refuted`); a row without a key that is there three times gives two grants, because the update changes the hash of a member of the set (`C47_bad_refuted`).  On Python 3.7 and later `csvAndLinesReader` raises StopIteration inside a generator, so that every csv file of grants ends with an error although all its rows were read (modelled by the parameter `ended`). |
| C61 | Node counts are sums of places, not numbers of listings: in one grant A, B, C get 1, 2, 3 (`C61_count_refuted`).  A list given as targetTags is changed by the call; NSF grants add Investigator each time, so the second NSF grant has its investigators twice, with self-loops and weight 4 (`C61_tags_refuted`). |
| C62 | Medline grants without a number are equal whenever their countries are (`C62_agency_refuted`); Scopus drops all but the last three parts (`C62_dropped_refuted`). |
| C63 | An element that is there both as a text and as a group raises AttributeError, which no caller catches, or loses the group; a text that is there twice is kept once (`C63_same_name_refuted`). |
| C64 | A citation whose year (or author …) is missing is not dropped by `field='year'` when it has the attribute with the value None, which all Web of Science citations do; it shows up as a row with None (`C64_missing_refuted`). No year counts as a year in `fraction-cites-year`. |
| C65 | A dropped word that follows another occurrence of itself stays: with dropList ['a'], 'a a cat' becomes 'a cat' (`C65_drop_refuted`; `C65_drop_partial` says exactly which words stay). Deleting characters after the white space was made single leaves double spaces: 'a - b' becomes 'a  b' (`C65_spaces_refuted`). |
| C66 | Such double spaces make rows with an empty word (`C66_empty_refuted`). |
| C67 | An extra column named twice (or 'copyright' together with removeCopyright) gives columns of different lengths (`C67_ragged_refuted`); the names of the table's own columns are removed from the list of the caller (`C67_caller_refuted`). |
| C68 | A value of a list with the delimiter in it makes its cell ambiguous (`C68_list_refuted`); values that are the same in their first 200 characters share one file and overwrite each other (`C68_split_refuted`); the lists firstTags and onlyTheseTags of the caller are changed: names become tags, and all fields of the records are appended (`C68_caller_refuted`). |
| C69 | Every entry has the type misc, although the documentation says article for PT J (`C69_type_refuted`), and the fields have their tags, not their long names (`C69_entry`); different records can have the same ID (`C69_nice_refuted`); a bad record is not passed over but ends writeBib with BadRecord, as only BadWOSRecord is caught (`C69_bad_refuted`). |
| C71 | An address line that starts with `[` and has no `] ` becomes an empty text, an empty line raises IndexError; the month `2001-05` is returned as the text `05`; `partNumber` and `meetingAbstract` do not return what their documentation says (a number, a text with EPA-). |
| C72 | createCitation of a ProQuest record takes the first character of the author's name for the author; multiCite of a Scopus record joins author and title without `, `, unlike the single citation. |
| C73 | A Medline date such as `Spring 1998` gives the year 0; the page field `12;15` gives the page 1215; of several address entries of an author only the last is kept, and line breaks within it are removed without a space, which joins words. |
| C75 | A ProQuest file with one extra rule before its heading is not recognised, because the first look consumes the second rule; a header line of Scopus without line end loses its last character. |
| C76 | A Medline or Scopus file with `VR 1.0` in its first three lines, for example in the title of the first record, is taken for a WOS file: all records are lost, and the collection is bad and empty. |
| C77 | With secondRow and a text, an unfinished bar writes the escape sequence ESC [ without its final F (progressBar.py line 128), so the cursor stays in the second row and the next row is written one line lower; only a full bar writes ESC [ F. |
| C78 | networkOneMode and networkMultiLevel with an edgeAttribute and edgeWeight raise ValueError as soon as two values are met again with the same value of the attribute (line 890 asks a multigraph for an edge without its key), so no weight is ever above 1. A lone text as attribute is split into characters, a lone number (year) raises TypeError. |
| C78 | networkMultiMode with an edgeAttribute raises NameError (edgeVals is never defined) if any member has values under two of the tags, so that the argument never works. |
| C78 | networkTwoMode with an edgeAttribute gives one occurrence too few to a value that is first met in a member without the attribute. |
| C79 | Nodes that are met for the first time in the same member share one list: whatever is appended for one of them later shows up at all of them, so a node has values of members in which it does not occur (mkCollection.py lines 917, 920, 934, 937). |
| C80 | expandRecs makes every copied node a neighbour of itself (line 1811-1812 also copies the edge to the copy made just before), replaces the weight of an edge the copy already had by that of the original instead of adding it, does not copy the edges into a node of a directed network, and, without weights on an undirected network, can raise RuntimeError because it adds edges to the node it iterates over. |
| C81 | metaknowledgeMdToNb.py does not escape backslashes or control characters: code with an escape sequence is changed or the notebook cannot be read at all (line 106). If the file ends without a newline after a line of text, the last eleven characters are cut off (line 107). |
| C82 | Python 3.7 and later turn the StopIteration that ends csvAndLinesReader into a RuntimeError, which the parsers take for a decoding issue: every CIHR, NSERC and other csv grant file makes the collection bad, and a last row that is cut off inside quotes is lost. Rows of CIHR files without PI Names and with equal values become one grant. A CIHR file whose first lines were edited is read as a csv file of unknown kind, its first line taken for the header. csv.Error escapes from the detectors of CIHR and NSERC files. |
| C83 | Filters *above some weight* and *above some degree* of the command line program drop what is below (`C83_edges_above_refuted`, `C83_nodes_above_refuted`): lines 275 and 281 pass the maximum as minWeight and minDegree. |
| C83 | In a directed network *Drop isolates* also drops nodes that are only pointed at (`C83_isolates_refuted`), as in a citation network most cited works are. |
| C83 | The console offered by every menu ends in a TypeError (`C83_console_refuted`): inputMenu returns None after it, and every caller passes that to int(). |
| C83 | Tags with small letters, i.e. those of Scopus and ProQuest records, cannot be entered (`C83_tag_refuted`): what is typed is turned into capitals before it is looked up. |
| C83 | Going over citations, what is not a journal is marked in the default database, not the one that was named (`C83_skipped_refuted`). |
| C83 | With --name existing files are overwritten without a question (`C83_named_refuted`); the question about the files of a graph does not name them (a literal {}). |
| C83 | The exit status of a session that ends well is 1, as that of one that fails (`C83_status_refuted`): mkCLI returns 1 and the entry point passes it to sys.exit. |
| C83 | writeGraph with a name that ends in a slash does not write into that directory, and an empty name gives ._edgeList.csv (`C83_slash_refuted`): normpath removes the slash before the branch that looks for it. |
| C84 | `Citation('Doe J., On things (1999) Nature, pp. 12-15', scopusMode=True)` has V = 'PP' and no P: the pattern takes the first word after the journal as the volume. The same happens in ScopusRecord.createCitation for records without a volume. A first author such as O'Brien J. makes the reference unusable. |
| C49 | a plain glimpse in a terminal of 6 rows and 55 to 75 columns shows all entries except the last of each column, instead of none, because the height is -1 and `rows[:-1]` is taken (`C49_six_plain_refuted`) |
| C85 | dropNonJournals raises KeyError if a record that is not bad has no publication type, after it has dropped the bad records |
| C86 | bytes of a Medline record are not its text (`PMID 12` for `PMID- 12`), bytes of a Scopus record have one character in each line; bytes of an empty collection raise AttributeError |
| C88 | a copy shares with the original the lists that lookups hand out unprocessed (AU, AF, BA, BE, BF, ED and unknown tags of WOS records, and all raw values): changing one changes both, although copy() promises a completely decoupled copy |
| C89 | graphStats writes counts with {:G}: from a million on they are rounded to six digits (1234567 nodes are shown as 1.23457E+06). |
| C90 | GrantCollection(directory) raises TypeError, although each file alone is read without an error, if a row of one NSERC file is too short and another file has the same Cle (C90_missing_refuted). Rows without Cle that occur twice in a file change after they were put into the set: the set is then searched in vain (KeyError for the whole directory, C90_bad_refuted) or holds two equal grants (C90_twice_refuted). The order of os.listdir decides the order of the merged texts (C90_order_refuted). |
| C91 | The file of forBurst has no header although that of forNLP has one: a reader that takes the names from the first row loses the first word (C91_burst_header_refuted). With an extra column given twice forNLP writes the first record's value in the row of the second (C91_nlp_rows_refuted). The file of timeSeries does not say how often a value occurs in a year (C91_time_counts_refuted), and greatestFirst makes no difference to it. |
| C92 | writeGraph normalises the path first, so that the branches for a directory (graphHelpers.py 152-160) are reached for the root only: out/ gives out_edgeList.csv beside the directory, the tilde gives /home/u_edgeList.csv beside the home directory, and the empty name gives ._edgeList.csv (C92_inside_refuted, C92_names_ex). With edgeInfo = False the call empties the file of edges before it fails with UnboundLocalError (C92_edgeInfo_refuted). An interruption after the file of edges leaves the new edges with the old nodes, which readGraph reads as one graph (C92_mixture_refuted). |
| C58 | with the type 'raw' and an extraValue given by the tag of the records ('PY' rather than 'year') the column of that tag is filled from two sides and is longer than the others; numAuthors fails for a record without authors; extraMapping is not applied to the counts of the sources; an extraValue equal to the sourceType replaces the column of the sources (`C58_clash_refuted`, `C58_authors_refuted`, `C58_mapping_refuted`, `C58_same_refuted`) |
| C59 | with an extraType, an extra value that reads like the diffusionLabel replaces the count (`C59_label_refuted`) |
| C93 | `writeTnetFile` with `timeString` never looks at the attribute of that name: it writes the key of the edge in a multigraph, raises TypeError for every simple graph (leaving an empty file and the ids set), and does not escape double quotes in keys, so different graphs can have the same file (`C93_time_refuted`, `C93_simple_refuted`, `C93_quote_refuted`). |
| C94 | a PY field that is not of four characters (the year is looked up for the citation of the record itself) raises ValueError out of networkCitation, networkCoCitation and networkBibCoupling for the whole collection; a two letter tag j9 in a file would hide J9. |
| C95 | `detailedInfo.copy()` copies the attributes of a new author but not the dictionary of the citation profile in it, so all authors first listed by one record share one profile: it counts the citations of the records of all of them, and each record once for every position up to theirs. One record by A and B with one citation gives both the count 3; citations of a later record by B alone show up at A. |
| C96 | The dictionary of journals is read once per process, so dbname, manualDB and returnDict of every later isJournal are ignored. Asking for a missing manual database downloads the publisher list into it (and leaves an empty one if the download fails). An empty database under another name makes getj9dict call itself without end, since the update always goes to the default one. A journal excluded with Citation.addToDB(invert = True) is not reported by checkIfExcluded in the same process. |
| C97 | writeFile opens the file before it looks at the records, so that one bad record (or a ProQuest record) destroys what was in the file before; the collection is not checked first. The documentation says that the suffix is .isi, it is .txt. A collection of WOS and Scopus records is written without header and cannot be read again. |
| C98 | With csvDelimiter and csvQuote equal (accepted by Python before 3.13) writeCSV writes a file whose columns cannot be told apart. |
| C102 | proquest/tagProcessing/specialFunctions.py gives a string for authorsFull (the constant Author) and for authorsShort, where the other databases give lists: networkCoAuthor makes a node of each letter, num-Authors counts letters and genderStats counts six unknown names for each ProQuest record. |
| C103 | A reference of Scopus that can be read is named `AUTHOR I., YEAR, JOURNAL` with the full stop of the initials, and citations of the other databases lose their full stops: the two names are never equal, so a collection with records of both databases never has a link between a Scopus record and a WOS record, and never merges a work that both cite (C103_same_work_refuted). |
| C104 | scopus/recordScopus.py:105 writes a missing column as an empty quoted cell, and scopusRecordParser reads that as an empty value and not as a missing one: after writing and reading, a record without a year raises ValueError in get('year'), createCitation, timeSeries and all citation networks of its collection, and a record without references cites one work with an empty name. |
| C105 | ProQuest years are texts: yearSplit silently drops every thesis whatever the range (TypeError with dropMissingYears = False), and timeSeries of papers and theses together raises TypeError. |
| C106 | downloadData opens the target before it reads the archive, so a damaged archive or a full disk leaves an empty or cut file of names that is taken for the table ever after: with an empty file every question raises StopIteration, with a cut one names are silently Unknown. nameStringGender returns its GenderException instead of raising it, and useUK is ignored once any file is there. |
| C107 | A plain `Record` equals a `WOSRecord` and a `ScopusRecord` with its id, which are not equal to each other. Bad records with the same values under different tags are equal. After `g['x'] = 'y'` for a bad grant g of a collection c, `g in c` is False although c lists it, `c.discard(g)` does nothing and `c.add(g)` makes c list it twice; the same after g.update(h) with a bad h. |
| C26 | A continuation line with a colon that is not followed by a blank (12:30) becomes a field whose name is the whole line, with its line end (`C26_no_blank_refuted`). |
| C34 | With negative weights a degree of -1 is counted in the last place of the degree distribution and one below minus the length raises IndexError (`C34_negative_refuted`). |
| C72 | `ScopusRecord.createCitation(multiCite=True)` leaves out the separator between author and title, so that none of the citations is usable and each has its raw text as ID (`C72_scopus_multi_refuted`, `C72_scopus_other_refuted`). |
| C92 | An empty name for a network, or a lone dot, gives files called `._edgeList.csv` (`C92_here_refuted`). |
| C105 | A Scopus record whose Year is a text such as `in press` makes `yearSplit` and `timeSeries` of the whole collection raise (`C105_in_press_refuted`). |
| C103 | Without dropAnon, one Scopus reference that the expression cannot read makes networkCoCitation with nodeType author, journal or year raise AttributeError, since such citations have none of these attributes and pass the filter (`C103_kinds_refuted`). |
| C108 | localCiteStats by author, journal or year raises AttributeError for a collection with one Scopus reference that cannot be read (recordCollection.py:1440), while citeFilter passes over it. |
| C109 | proquest/tagProcessing/specialFunctions.py:11 gives the word Author, not the field, as authorsFull: each ProQuest record has six authors named A, u, t, h, o and r, all of unknown gender. The names of Scopus records have no comma, so genderStats knows the gender of none of their authors. |
| C110 | the common name grants is commented out for Scopus (scopus/tagProcessing/specialFunctions.py:9, where it would stand for References) and for ProQuest, so grants told by Scopus files are only found under Funding Details. |
| C85 | dropNonJournals works on collections of Web of Science only: one record of another database makes it raise KeyError, and with dropBad the bad records are gone by then. |
| C48 | makeDict with onlyTheseTags replaces the common names by tags of Web of Science (recordCollection.py:724-726), so asking a collection of Scopus or ProQuest records for title gives a column TI of None although R.get of title has the titles. |
| C111 | A citation made while FAST_CITES is set keeps no original text, so that str and repr raise AttributeError once the setting is off; names of combined collections have no brackets, so that different combinations have the same name |
| C108 | citeFilter for anonymous references, and every option that drops anonymous ones, takes each Scopus reference that cannot be read for anonymous, whoever wrote it (`C108_anonymous`, citation.py:203-206) |

## Trusted base

Coq 8.16.1 kernel.  `Print Assumptions` is run in the sources after every property theorem; each answers
"Closed under the global context": no axiom is used, not even one of the standard library.
