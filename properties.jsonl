{"id": "C01", "title": "A collection behaves as a mathematical set", "statement": "After any sequence of add, discard, remove, pop, clear, |=, &=, ^= and -= the members of a Collection are exactly those the same operations on a mathematical set would leave; len is its cardinality (no element is held twice); remove and pop raise KeyError exactly when the element is absent / the collection is empty, and a call that raises leaves the members unchanged.", "quantifier": "every initial collection, every finite history of operations, every iteration order of the underlying set", "why_tests_cant": "histories are unbounded and iteration order is unspecified; tests run a handful of fixed histories", "anchors": ["metaknowledge/mkCollection.py:Collection.add", "metaknowledge/mkCollection.py:Collection.discard", "metaknowledge/mkCollection.py:Collection.remove", "metaknowledge/mkCollection.py:Collection.pop", "metaknowledge/mkCollection.py:Collection.clear", "metaknowledge/mkCollection.py:Collection.__ior__", "metaknowledge/mkCollection.py:Collection.__iand__", "metaknowledge/mkCollection.py:Collection.__ixor__", "metaknowledge/mkCollection.py:Collection.__isub__"]}
{"id": "C02", "title": "Only allowed types enter a collection", "statement": "add refuses (CollectionTypeError, collection unchanged) every object that is not an instance of the collection's declared allowed types, and the in-place operators only combine collections of the same class, so in every history a collection only ever holds allowed objects; the recorded type names are those of the members.", "quantifier": "every history of operations and every operand", "why_tests_cant": "the invariant is over all histories", "anchors": ["metaknowledge/mkCollection.py:Collection.add", "metaknowledge/mkCollection.py:Collection.__ior__"]}
{"id": "C03", "title": "Binary operators do not disturb their operands", "statement": "a|b, a&b, a^b, a-b return a new collection whose members are the union, intersection, symmetric difference and difference; the operands keep their members, name, bad flag and errors, and the result is bad whenever either operand is.", "quantifier": "every pair of collections", "why_tests_cant": "unbounded pairs; aliasing bugs show only on later mutation", "anchors": ["metaknowledge/mkCollection.py:Collection.__or__", "metaknowledge/mkCollection.py:Collection.__and__", "metaknowledge/mkCollection.py:Collection.__xor__", "metaknowledge/mkCollection.py:Collection.__sub__"]}
{"id": "C04", "title": "Error information survives combining collections", "statement": "Combining two collections, in place or with a binary operator, keeps every error recorded in either operand whenever the result is marked bad.", "quantifier": "every pair of collections with any error dictionaries", "why_tests_cant": "needs all combinations of bad flags and error maps", "anchors": ["metaknowledge/mkCollection.py:Collection.__ior__", "metaknowledge/mkCollection.py:Collection.__or__"]}
{"id": "C05", "title": "Comparison of collections", "statement": "== holds exactly when the two collections have the same members; <= and >= used as subset tests.", "quantifier": "every pair of collections", "why_tests_cant": "a size comparison agrees with subset on most test data", "anchors": ["metaknowledge/mkCollection.py:Collection.__eq__", "metaknowledge/mkCollection.py:Collection.__le__", "metaknowledge/mkCollection.py:Collection.__ge__"]}
{"id": "C06", "title": "A copy is independent", "statement": "After copy(), no sequence of operations on the copy changes the original and vice versa; initially both have the same members, name, types and errors.", "quantifier": "every history of operations on either object", "why_tests_cant": "unbounded histories", "anchors": ["metaknowledge/mkCollection.py:Collection.copy"]}
{"id": "C07", "title": "chunk partitions", "statement": "chunk(maxSize) returns collections whose members, taken together, are exactly the members of the original, no member in two chunks, each chunk has at most max(1,maxSize) members, all chunks but the last have exactly that many, and the original is unchanged.", "quantifier": "every collection, every maxSize, every iteration order", "why_tests_cant": "sizes are unbounded and the off-by-one cases depend on size modulo maxSize", "anchors": ["metaknowledge/mkCollection.py:Collection.chunk"]}
{"id": "C08", "title": "split partitions and empties", "statement": "split(maxSize) hands every member to exactly one of the returned collections, subject to the same size bound, and leaves the original empty, not bad and without errors.", "quantifier": "every collection, every maxSize, every pop order", "why_tests_cant": "as C07", "anchors": ["metaknowledge/mkCollection.py:Collection.split"]}
{"id": "C09", "title": "ID lookups agree with membership", "statement": "containsID(i) is True iff some member has id i; getID(i) returns a member with id i iff there is one and None otherwise; discardID(i) and removeID(i) remove exactly the members hit by the lookup and leave the rest; removeID raises KeyError iff no member has the id.", "quantifier": "every collection and id", "why_tests_cant": "unbounded", "anchors": ["metaknowledge/mkCollection.py:CollectionWithIDs.containsID", "metaknowledge/mkCollection.py:CollectionWithIDs.getID", "metaknowledge/mkCollection.py:CollectionWithIDs.discardID", "metaknowledge/mkCollection.py:CollectionWithIDs.removeID"]}
{"id": "C10", "title": "Bad entries are separated exactly", "statement": "badEntries() returns exactly the members whose bad attribute is set, dropBadEntries() leaves exactly the others.", "quantifier": "every collection", "why_tests_cant": "unbounded", "anchors": ["metaknowledge/mkCollection.py:CollectionWithIDs.badEntries", "metaknowledge/mkCollection.py:CollectionWithIDs.dropBadEntries"]}
{"id": "C11", "title": "rankedSeries counts every occurrence", "statement": "rankedSeries(tag) lists each distinct value once, with the number of times it occurs over all entries, ordered by count (greatest first by default), ties in first-seen order; with giveRanks equal counts share a rank, ranks start at 1 and are consecutive.", "quantifier": "every collection, tag, filter and option set", "why_tests_cant": "counts must be right for every multiset of values", "anchors": ["metaknowledge/mkCollection.py:CollectionWithIDs.rankedSeries"]}
{"id": "C12", "title": "timeSeries counts per year", "statement": "timeSeries(tag) reports each (value, year) pair that occurs with the number of entries of that year having the value, sorted by year.", "quantifier": "every collection and tag", "why_tests_cant": "unbounded", "anchors": ["metaknowledge/mkCollection.py:CollectionWithIDs.timeSeries"]}
{"id": "C13", "title": "cooccurrenceCounts is the true co-occurrence table", "statement": "cooccurrenceCounts(t1,t2)[a][b] is the number of records in which a occurs under t1 and b under t2 (times multiplicity) and no other keys appear.", "quantifier": "every collection and pair of tags", "why_tests_cant": "unbounded", "anchors": ["metaknowledge/mkCollection.py:CollectionWithIDs.cooccurrenceCounts"]}
{"id": "C14", "title": "One/multi-level networks: counts and weights", "statement": "In networkOneMode/networkMultiLevel the nodes are exactly the values that occur, count is the number of occurrences, and the weight of {u,v} is the number of (record, i<j) position pairs carrying u and v, independent of the record order.", "quantifier": "every collection and tag list, every iteration order", "why_tests_cant": "unbounded graphs; order independence is a statement about all permutations", "anchors": ["metaknowledge/mkCollection.py:CollectionWithIDs.networkMultiLevel", "metaknowledge/mkCollection.py:CollectionWithIDs.networkOneMode"]}
{"id": "C15", "title": "Two-mode network: edges only between modes, weights and counts right", "statement": "networkTwoMode(t1,t2): edge weight of (a,b) is the number of records in which they co-occur (with multiplicity); node count is the number of records/occurrences of the value.", "quantifier": "every collection and pair of tags", "why_tests_cant": "the miscount shows only for particular orders of records", "anchors": ["metaknowledge/mkCollection.py:CollectionWithIDs.networkTwoMode"]}
{"id": "C16", "title": "Multi-mode network weights", "statement": "networkMultiMode(tags): every pair of values from different tags in a record contributes one to its edge weight and nothing else does; node counts.", "quantifier": "every collection and tag list", "why_tests_cant": "unbounded", "anchors": ["metaknowledge/mkCollection.py:CollectionWithIDs.networkMultiMode"]}
{"id": "C17", "title": "Co-author network", "statement": "networkCoAuthor: the weight of {a,b} is the number of records listing both (with multiplicity); the count attribute of an author is the number of records listing them.", "quantifier": "every collection", "why_tests_cant": "a count is wrong only when a record has two or more authors", "anchors": ["metaknowledge/recordCollection.py:RecordCollection.networkCoAuthor"]}
{"id": "C18", "title": "Co-citation network", "statement": "networkCoCitation: weight of {u,v} is the number of records citing both after filtering; count is the number of citations of the node; filtered citations never appear.", "quantifier": "every collection and option set", "why_tests_cant": "unbounded", "anchors": ["metaknowledge/recordCollection.py:RecordCollection.networkCoCitation", "metaknowledge/recordCollection.py:addToNetwork", "metaknowledge/recordCollection.py:filterCites"]}
{"id": "C19", "title": "Citation network", "statement": "networkCitation: an edge is present exactly between a record's own citation and each of its cited works, directed as requested; weights count repetitions.", "quantifier": "every collection and option set", "why_tests_cant": "unbounded", "anchors": ["metaknowledge/recordCollection.py:RecordCollection.networkCitation", "metaknowledge/recordCollection.py:addToNetwork"]}
{"id": "C20", "title": "Bibliographic coupling network", "statement": "networkBibCoupling: the weight of {r,s} is the number of cited works the two records share, and there is no edge between records sharing none.", "quantifier": "every collection", "why_tests_cant": "unbounded, order dependent incremental computation", "anchors": ["metaknowledge/recordCollection.py:RecordCollection.networkBibCoupling"]}
{"id": "C21", "title": "WOS record write/parse round trip", "statement": "Writing a WOS record and parsing the text gives back the same fields in the same order.", "quantifier": "every record whose tags have two characters and whose values contain no newline", "why_tests_cant": "all field contents", "anchors": ["metaknowledge/WOS/recordWOS.py:WOSRecord.writeRecord", "metaknowledge/WOS/recordWOS.py:recordParser"]}
{"id": "C22", "title": "WOS collection file round trip", "statement": "writeFile on a WOS collection followed by reading the file gives back exactly the same records with no error.", "quantifier": "every collection of good WOS records", "why_tests_cant": "all collections and contents", "anchors": ["metaknowledge/recordCollection.py:RecordCollection.writeFile", "metaknowledge/WOS/wosHandlers.py:wosParser"]}
{"id": "C23", "title": "WOS reader reports damage", "statement": "If the file is truncated before its EF line, or has text after it, the reader returns an error; if it returns no error, every record block of the file is represented.", "quantifier": "every text file, every truncation point", "why_tests_cant": "crash points and malformed texts are unbounded", "anchors": ["metaknowledge/WOS/wosHandlers.py:wosParser", "metaknowledge/WOS/recordWOS.py:recordParser"]}
{"id": "C24", "title": "Medline record round trip", "statement": "Writing a Medline record and parsing the text gives back the same fields.", "quantifier": "every record with well formed tags and values", "why_tests_cant": "all contents", "anchors": ["metaknowledge/medline/recordMedline.py:MedlineRecord.writeRecord", "metaknowledge/medline/recordMedline.py:medlineRecordParser"]}
{"id": "C25", "title": "Scopus record round trip", "statement": "Writing a Scopus record and parsing the line gives back the same fields.", "quantifier": "every record with well formed values", "why_tests_cant": "all contents", "anchors": ["metaknowledge/scopus/recordScopus.py:ScopusRecord.writeRecord", "metaknowledge/scopus/recordScopus.py:scopusRecordParser"]}
{"id": "C26", "title": "ProQuest parsing", "statement": "Every tagged line of a ProQuest record appears under its tag, continuation lines are appended to the field they follow.", "quantifier": "every record text", "why_tests_cant": "all contents", "anchors": ["metaknowledge/proquest/recordProQuest.py:proQuestRecordParser"]}
{"id": "C27", "title": "Record lookups are transparent to caching", "statement": "The value of R[k], k in R and R.get(k) does not depend on which lookups were made before, and the short tag and the long name of a field give the same value.", "quantifier": "every record and every history of lookups", "why_tests_cant": "memoisation bugs depend on the history", "anchors": ["metaknowledge/mkRecord.py:ExtendedRecord.__getitem__", "metaknowledge/mkRecord.py:ExtendedRecord.__contains__", "metaknowledge/mkRecord.py:ExtendedRecord.get"]}
{"id": "C28", "title": "Citation parsing is total and identity is an equivalence", "statement": "Citation(s) never raises for a WOS citation string, its ID is determined by author, year and journal, equality is an equivalence relation compatible with hash, and depends on the string only up to case.", "quantifier": "every string", "why_tests_cant": "regular-expression corner cases are unbounded", "anchors": ["metaknowledge/citation.py:Citation.__init__", "metaknowledge/citation.py:Citation.ID", "metaknowledge/citation.py:Citation.__eq__"]}
{"id": "C29", "title": "filterNonJournals partitions", "statement": "filterNonJournals(cites) and filterNonJournals(cites, invert=True) split the list: each citation is in exactly one, in order.", "quantifier": "every list of citations", "why_tests_cant": "unbounded", "anchors": ["metaknowledge/citation.py:filterNonJournals"]}
{"id": "C30", "title": "dropEdges keeps exactly the edges in range", "statement": "After dropEdges every remaining edge has minWeight <= weight <= maxWeight, every such edge remains unchanged, nodes stay, loops go iff asked.", "quantifier": "every graph and bounds", "why_tests_cant": "unbounded", "anchors": ["metaknowledge/graphHelpers.py:dropEdges"]}
{"id": "C31", "title": "dropNodesByDegree", "statement": "After dropNodesByDegree exactly the nodes whose degree (weighted if asked) was in range remain, with the edges among them.", "quantifier": "every graph and bounds", "why_tests_cant": "unbounded", "anchors": ["metaknowledge/graphHelpers.py:dropNodesByDegree"]}
{"id": "C32", "title": "dropNodesByCount", "statement": "After dropNodesByCount exactly the nodes whose count is in range remain, with the edges among them.", "quantifier": "every graph and bounds", "why_tests_cant": "unbounded", "anchors": ["metaknowledge/graphHelpers.py:dropNodesByCount"]}
{"id": "C33", "title": "mergeGraphs", "statement": "mergeGraphs(target, added): nodes and edges of the result are the union; the increment attributes are added where both have them; attributes of the target take precedence.", "quantifier": "every pair of graphs", "why_tests_cant": "attribute clashes", "anchors": ["metaknowledge/graphHelpers.py:mergeGraphs"]}
{"id": "C34", "title": "Degree sums", "statement": "getNodeDegrees: the degrees sum to twice the edge (weight) total and in/out degrees sum to the total each.", "quantifier": "every graph", "why_tests_cant": "unbounded", "anchors": ["metaknowledge/graphHelpers.py:getNodeDegrees"]}
{"id": "C35", "title": "Tnet output", "statement": "writeTnetFile writes each edge once with ids numbered from one without gaps, distinct per node; in two-mode every line runs from a source-mode to the other mode.", "quantifier": "every graph", "why_tests_cant": "unbounded", "anchors": ["metaknowledge/graphHelpers.py:writeTnetFile"]}
{"id": "C36", "title": "Edge list and attribute list round trip", "statement": "writeGraph followed by readGraph gives back the same nodes, edges and attributes (as text).", "quantifier": "every graph whose labels are plain", "why_tests_cant": "unbounded", "anchors": ["metaknowledge/graphHelpers.py:writeEdgeList", "metaknowledge/graphHelpers.py:writeNodeAttributeFile", "metaknowledge/graphHelpers.py:readGraph"]}
{"id": "C37", "title": "diffusionCount totals", "statement": "diffusionCount: the count of a source (or of a value of the source tag) is the number of references in the target collection that name a source having it; with extraValue the same count is split by the values of the citing records; it does not depend on the iteration order; compareCounts pairs it with the count within the source collection.", "quantifier": "every pair of collections", "why_tests_cant": "unbounded", "anchors": ["metaknowledge/diffusion.py:diffusionCount"]}
{"id": "C38", "title": "diffusionGraph edges", "statement": "diffusionGraph: there is an edge between a value of a source and a value of a target exactly if the target cites the source, directed from target to source as documented; its weight is the number of such references; the nodes are the values of all records, flagged source/target; with labelEdgesBy there is one edge per reference and label.", "quantifier": "every pair of collections", "why_tests_cant": "unbounded", "anchors": ["metaknowledge/diffusion.py:diffusionGraph"]}
{"id": "C39", "title": "yearSplit selects by year", "statement": "yearSplit(a,b) returns exactly the records with a year in [a,b]; consecutive ranges partition the dated records.", "quantifier": "every collection and pair of years", "why_tests_cant": "unbounded", "anchors": ["metaknowledge/recordCollection.py:RecordCollection.yearSplit"]}
{"id": "C40", "title": "localCiteStats counts every citation", "statement": "localCiteStats gives each key the number of citations having it; the counts sum to the number of citations with that key.", "quantifier": "every collection", "why_tests_cant": "unbounded", "anchors": ["metaknowledge/recordCollection.py:RecordCollection.localCiteStats"]}
{"id": "C41", "title": "localCitesOf", "statement": "localCitesOf(x) returns exactly the records citing x, for x a Record, id, citation string or Citation.", "quantifier": "every collection and argument", "why_tests_cant": "unbounded", "anchors": ["metaknowledge/recordCollection.py:RecordCollection.localCitesOf"]}
{"id": "C42", "title": "citeFilter and its reverse partition", "statement": "citeFilter(k,f) returns exactly the records with a citation matching k in field f, and reverse=True returns the rest.", "quantifier": "every collection, key and field", "why_tests_cant": "unbounded", "anchors": ["metaknowledge/recordCollection.py:RecordCollection.citeFilter"]}
{"id": "C43", "title": "rpys", "statement": "rpys: the years are consecutive, counts are the numbers of citations to each year, abs-deviation is count minus the median of the five-year window.", "quantifier": "every collection and year range", "why_tests_cant": "unbounded", "anchors": ["metaknowledge/recordCollection.py:RecordCollection.rpys"]}
{"id": "C44", "title": "findCopyright splits without loss", "statement": "The two strings returned concatenate to the abstract, up to trailing white space.", "quantifier": "every string", "why_tests_cant": "all contents", "anchors": ["metaknowledge/recordCollection.py:findCopyright"]}
{"id": "C45", "title": "genderStats totals", "statement": "genderStats sums to the number of authors over all records; with asFractions the values sum to one.", "quantifier": "every collection", "why_tests_cant": "unbounded", "anchors": ["metaknowledge/recordCollection.py:RecordCollection.genderStats"]}
{"id": "C46", "title": "Cache is used only when valid; crashes are harmless", "statement": "With cached=True the collection loaded equals the one parsed from the files unless no file's modification time changed; a cache left by an interrupted write is not used and does not raise.", "quantifier": "every directory history and crash point", "why_tests_cant": "crash points", "anchors": ["metaknowledge/mkCollection.py:Collection._loadFromCache", "metaknowledge/mkCollection.py:Collection._createCache"]}
{"id": "C47", "title": "NSERC grants merge", "statement": "Updating one NSERC grant with another keeps all information of both fields, joined by \"; \" without duplicates; other fields keep their values.", "quantifier": "every pair of grants", "why_tests_cant": "unbounded", "anchors": ["metaknowledge/grants/nsercGrant.py:NSERCGrant.update"]}
{"id": "C48", "title": "makeDict is rectangular", "statement": "makeDict returns columns all of length equal to the number of records, the i-th entries belonging to the i-th record.", "quantifier": "every collection and tag selection", "why_tests_cant": "unbounded", "anchors": ["metaknowledge/recordCollection.py:RecordCollection.makeDict"]}
{"id": "C49", "title": "glimpse table width", "statement": "Every line of a glimpse has the same width whatever the terminal width and contents, and the lines show the most frequent values of every column in order with their ranks.", "quantifier": "every table and width", "why_tests_cant": "unbounded", "anchors": ["metaknowledge/RCglimpse.py:makeTable"]}
{"id": "C50", "title": "Journal database update", "statement": "After updatej9DB every journal name found on the pages is in the database under its abbreviation, and no earlier name is lost.", "quantifier": "every database and every set of pages", "why_tests_cant": "unbounded", "anchors": ["metaknowledge/journalAbbreviations/backend.py:updatej9DB"]}
{"id": "C51", "title": "WOS tag names", "statement": "Converting a tag to its long name and back gives the tag; every tag accepted by the tag test is either.", "quantifier": "every string", "why_tests_cant": "must hold for every string", "anchors": ["metaknowledge/WOS/tagProcessing/funcDicts.py:normalizeToTag"]}
{"id": "C52", "title": "BibTeX values keep their text", "statement": "A string longer than the maximum is split in pieces which together are the whole string.", "quantifier": "every string and length", "why_tests_cant": "lengths modulo the maximum", "anchors": ["metaknowledge/mkRecord.py:_bibFormatter"]}
{"id": "C53", "title": "A RecordCollection made from an iterable holds its records", "statement": "RecordCollection(iterable) holds exactly the records the iterable yields, and raises if it yields anything else.", "quantifier": "every iterable of records, including one-shot iterators", "why_tests_cant": "every length, contents and kind of iterable", "anchors": ["metaknowledge/recordCollection.py:RecordCollection.__init__"]}
{"id": "C54", "title": "What is in a record can be read", "statement": "k in R is true exactly when R[k] does not raise KeyError.", "quantifier": "every record of every kind and every key", "why_tests_cant": "every set of fields and every key", "anchors": ["metaknowledge/mkRecord.py:ExtendedRecord.__contains__", "metaknowledge/mkRecord.py:ExtendedRecord.__getitem__"]}
{"id": "C55", "title": "The common field names work for every kind of record", "statement": "R[name] for a common name such as title, authorsFull or year is the value of the field of that kind of record that holds it, whatever was looked up before.", "quantifier": "every Medline, Scopus and ProQuest record and every history of lookups", "why_tests_cant": "every set of fields and every history", "anchors": ["metaknowledge/medline/tagProcessing/specialFunctions.py", "metaknowledge/scopus/tagProcessing/specialFunctions.py", "metaknowledge/proquest/tagProcessing/specialFunctions.py"]}
{"id": "C56", "title": "Texts of a citation", "statement": "Extra() lists the volume, page, DOI and unexpected values that are present; allButDOI() is the ID followed by the same values without the DOI, so without a DOI it is the ID followed by Extra().", "quantifier": "every citation", "why_tests_cant": "all combinations of values", "anchors": ["metaknowledge/citation.py:Citation.Extra", "metaknowledge/citation.py:Citation.allButDOI"]}
{"id": "C57", "title": "Journals added or excluded by the user", "statement": "After addToDB or excludeFromDB isJournal answers by the manual database first and by the downloaded one otherwise, for the added abbreviations and, unchanged, for all others; a citation that adds its journal makes isJournal true for it in the running process.", "quantifier": "every pair of databases, every addition and every abbreviation", "why_tests_cant": "unbounded", "anchors": ["metaknowledge/journalAbbreviations/backend.py:addToDB", "metaknowledge/journalAbbreviations/backend.py:excludeFromDB", "metaknowledge/journalAbbreviations/backend.py:getj9dict", "metaknowledge/citation.py:Citation.addToDB"]}
{"id": "C58", "title": "diffusionCount tables", "statement": "diffusionCount(pandasFriendly=True): the columns have equal length and each row holds a source value, its count in the targets, its count in the sources and, with an extra tag, the extra value the counts are restricted to.", "quantifier": "every pair of collections and tag", "why_tests_cant": "unbounded", "anchors": ["metaknowledge/diffusion.py:diffusionCount"]}
{"id": "C59", "title": "diffusionAddCountsFromSource", "statement": "diffusionAddCountsFromSource gives every node of the graph its diffusion count (0 if it has none) and changes nothing else.", "quantifier": "every graph and counts dictionary", "why_tests_cant": "unbounded", "anchors": ["metaknowledge/diffusion.py:diffusionAddCountsFromSource"]}
{"id": "C60", "title": "Progress texts have the width asked for", "statement": "The text of a progress bar is as wide as the room given to it: a shorter text is followed by spaces, of a longer one the beginning and the end are shown around three dots.", "quantifier": "every text and width", "why_tests_cant": "unbounded texts, parity of the width", "anchors": ["metaknowledge/progressBar.py:_ProgressBar.prepString"]}
{"id": "C61", "title": "Co-investigator and co-institution networks", "statement": "networkCoInvestigator: two names are joined by an edge whose weight is the number of times they are listed together in a grant; each name is one node with the field it was found in and a count of the times it is listed; the arguments are not changed.", "quantifier": "every list of grants, tags and separator", "why_tests_cant": "unbounded", "anchors": ["metaknowledge/grantCollection.py:GrantCollection.networkCoInvestigator", "metaknowledge/grants/nsfGrant.py:NSFGrant.getInvestigators", "metaknowledge/grants/nsercGrant.py:NSERCGrant.getInvestigators"]}
{"id": "C62", "title": "Grant texts of Medline and Scopus", "statement": "A grant made from the text in a record keeps its parts (number, code, agency and country); grants with different texts are different.", "quantifier": "every text", "why_tests_cant": "must hold for every string", "anchors": ["metaknowledge/grants/medlineGrant.py:MedlineGrant", "metaknowledge/grants/scopusGrant.py:ScopusGrant"]}
{"id": "C63", "title": "NSF award files", "statement": "The fields of an NSF grant hold all texts of the award: a text for a simple element, the texts of all elements of that name for nested ones, one name per investigator.", "quantifier": "every tree", "why_tests_cant": "unbounded trees", "anchors": ["metaknowledge/grants/nsfGrant.py:parserNSFGrant"]}
{"id": "C64", "title": "Tables of citations", "statement": "getCitations makes one row for each different citation that has the field (with one of the values if some are given), with its text, year, journal and author; the counts are how often it occurs, this divided by the number of all of them, and this divided by the number of those of its year; the numbers add up.", "quantifier": "every list of records, field, values and order of the set", "why_tests_cant": "unbounded lists, every order of a set", "anchors": ["metaknowledge/recordCollection.py:RecordCollection.getCitations", "metaknowledge/mkRecord.py:Record.getCitations", "metaknowledge/mkRecord.py:_pandasPrep"]}
{"id": "C65", "title": "Cleaned texts", "statement": "forNLP and forBurst clean a text as asked: words of the drop list that stand between spaces are dropped, white space becomes single spaces, and numbers and characters of no word are deleted; no other character is lost or moved.", "quantifier": "every text, drop list, set of options and kinds of characters", "why_tests_cant": "must hold for every string", "anchors": ["metaknowledge/recordCollection.py:RecordCollection.forNLP", "metaknowledge/recordCollection.py:RecordCollection.forBurst"]}
{"id": "C66", "title": "Tables for burst analysis", "statement": "forBurst makes a row for each word of the field of each record that has a year and the field, with the year of that record; a word is what stands between two spaces of the cleaned text.", "quantifier": "every list of records, tag, stemmer and options", "why_tests_cant": "unbounded", "anchors": ["metaknowledge/recordCollection.py:RecordCollection.forBurst"]}
{"id": "C67", "title": "Tables for natural language processing", "statement": "forNLP makes a table whose columns all have one cell per record, the n-th cells coming from the n-th record: the five columns of its own, the copyright if asked for, and the extra columns.", "quantifier": "every list of records, extra columns and options", "why_tests_cant": "unbounded", "anchors": ["metaknowledge/recordCollection.py:RecordCollection.forNLP"]}
{"id": "C68", "title": "The csv file of a collection", "statement": "writeCSV writes a csv file with one row for each record, in order, and one column for each field asked for, those to be first before the others, with the numbers of authors and of genders if asked for; a csv reader gets back the texts of the values; divided by a tag there is one such file for each value, with the records that have it.", "quantifier": "every list of records, set of options and values without carriage returns", "why_tests_cant": "unbounded", "anchors": ["metaknowledge/recordCollection.py:RecordCollection.writeCSV"]}
{"id": "C69", "title": "Bibtex entries", "statement": "bibString gives one line for the ID, one for the authors and one for each field with its text; the ID is the own one of the record, or made of author, year, month and the longest words of the title; the type tells articles from other records; writeBib writes the entries of all records in order and passes over bad ones.", "quantifier": "every record, collection and set of options", "why_tests_cant": "must hold for every text and list", "anchors": ["metaknowledge/mkRecord.py:Record.bibString", "metaknowledge/recordCollection.py:RecordCollection.writeBib"]}
{"id": "C70", "title": "Probable copyrights", "statement": "findProbableCopyright lists each copyright text that is found in an abstract, once, and nothing else.", "quantifier": "every list of abstracts", "why_tests_cant": "unbounded lists of all strings", "anchors": ["metaknowledge/recordCollection.py:RecordCollection.findProbableCopyright"]}
{"id": "C71", "title": "The fields of a WOS record give the values that their texts say", "statement": "For every list of lines of a field: single line fields give the first line, texts the lines joined by spaces (in capitals for journal names and publishers), lists exactly their items however they were divided into lines, numbers the number written there, the year a number of four digits (else an error), the month the number of the month or first month of the season, addresses the address without the names before it, references a citation for each line; other tags give the lines unchanged.", "quantifier": "all tags with a function in the WOS table, all lists of lines, all item lists whose items do not contain the separator", "why_tests_cant": "tests check one record; splitting and joining must be inverse for every item list and every way of breaking it into lines", "anchors": ["metaknowledge/WOS/tagProcessing/tagFunctions.py", "metaknowledge/WOS/tagProcessing/helpFuncs.py:getMonth", "metaknowledge/WOS/recordWOS.py:WOSRecord.tagProcessingFunc"]}
{"id": "C72", "title": "The citation of a record is equal to references to it", "statement": "createCitation of a record with author, year and abbreviated journal gives a complete citation with these and with the volume, page and DOI of the record; it is equal to the citation that any reference with the same author, year and journal becomes; with multiCite there is one citation for each author, namely the one the record would have if this were its only author, and one citation without authors if there are none.", "quantifier": "all records whose author, year, journal, volume, page and DOI have no commas (the DOI: no line breaks), all references of the documented form, any title() and any upper() that works character by character and leaves ASCII capitals, digits and separators", "why_tests_cant": "networks join records to references by this equality; tests look at single records", "anchors": ["metaknowledge/mkRecord.py:Record.createCitation", "metaknowledge/citation.py:Citation", "metaknowledge/scopus/recordScopus.py:ScopusRecord.createCitation"]}
{"id": "C73", "title": "The fields of a Medline record give the values that their texts say", "statement": "The year is the number the date of publication starts with, the month that of its second word, the volume the first word of its field, the page what stands before dash, semicolon or space, the DOI the first identifier marked as one (else KeyError), addresses and identifiers of an author those of its entry, the main address the first one of the first author; PMID gets its prefix; unknown tags are unchanged.", "quantifier": "all records: any years, months, texts, identifiers and entries of authors, with names without colons and addresses without semicolons and line breaks", "why_tests_cant": "each value is cut out of free text; what must hold for all texts is that the cut is in the right place", "anchors": ["metaknowledge/medline/tagProcessing/tagFunctions.py", "metaknowledge/medline/tagProcessing/specialFunctions.py"]}
{"id": "C74", "title": "The fields of Scopus and ProQuest records give the values that their texts say", "statement": "Lists are split into exactly their items (authors at commas, sponsors at semicolons, the others at semicolon and space), funding details and references into one grant or citation for each item, numbers are read, other columns are the texts of the file, unknown columns raise KeyError; ProQuest single fields are their first line, keywords, subjects and classifications (code and name) their items, other fields unchanged.", "quantifier": "all items without the separator, all numbers, all column names", "why_tests_cant": "splitting must be inverse to joining for all lists of items", "anchors": ["metaknowledge/scopus/tagProcessing/tagFunctions.py", "metaknowledge/proquest/tagProcessing/tagFunctions.py"]}
{"id": "C75", "title": "Files are decoded and recognised by what is in them", "statement": "Text of characters other than surrogates survives encoding and decoding, and bytes decode to at most one text. A file is taken for a WOS file exactly if it is UTF-8 and one of its first three lines contains VR 1.0, for a Medline file exactly if one of its first two lines starts with PMID- , for a ProQuest file if the three lines of its heading are at the start or after what the first look has consumed, for a Scopus file if it starts with a byte order mark and one of its first two lines has the usual columns up to two; the first of these kinds that fits decides. All records of the collection are of this kind, which alone is among the collected types; parser errors make the collection bad and list the file; other files raise BadInputFile, files without the extension a TypeError; the name is that of the file unless one is given.", "quantifier": "all sequences of bytes, all paths, names and extensions", "why_tests_cant": "the space of files is unbounded and the kinds overlap; a test only shows the kind of one file", "anchors": ["metaknowledge/recordCollection.py:RecordCollection.__init__", "metaknowledge/fileHandlers.py:unrecognizedFileHandler", "metaknowledge/WOS/wosHandlers.py:isWOSFile", "metaknowledge/medline/medlineHandlers.py:isMedlineFile", "metaknowledge/proquest/proQuestHandlers.py:isProQuestFile", "metaknowledge/scopus/scopusHandlers.py:isScopusFile"]}
{"id": "C76", "title": "Collections written to a file and read from it are the same, down to the bytes", "statement": "A collection of records that were read from files can be written and read again as RecordCollection: the same records, of the same type, without errors (WOS always; Medline and Scopus if the text VR 1.0 is not in the file). If the writing of a WOS file stops at any byte, even inside a character, reading the file raises BadInputFile or gives a collection that is bad and names the file.", "quantifier": "all collections of WOS records read from UTF-8 files, all writable Medline and Scopus records, all crash points between two bytes", "why_tests_cant": "crash points and contents cannot be enumerated; recognition, decoding and parsing must fit together for all of them", "anchors": ["metaknowledge/recordCollection.py:RecordCollection.writeFile", "metaknowledge/recordCollection.py:RecordCollection.__init__", "metaknowledge/fileHandlers.py"]}
{"id": "C77", "title": "The progress bar of two threads ends, and its messages are not mixed", "statement": "For every order in which the steps of the caller and of the thread that draws may come: the calls of a progress bar return if both threads keep getting turns; what the caller writes is the message of each finish with the time, once each, and one end of line when a with block is left that has not been finished; all that is drawn is on the terminal before that, and nothing is drawn afterwards; each line drawn is made of values and texts that the bar was given and, on a terminal of at least twenty columns, exactly as wide as a width that the terminal had.", "quantifier": "all sequences of calls to a bar, all interleavings of the two threads, all widths of the terminal at each step and all times", "why_tests_cant": "the races depend on when the threads are switched; a test sees a few schedules and the terminal of the machine it runs on", "anchors": ["metaknowledge/progressBar.py: _ProgressBar"]}
{"id": "C78", "title": "Networks with an edge attribute have one edge for each value met", "statement": "With an edgeAttribute, networkTwoMode gives a multigraph with exactly one edge for each two values and each value of the attribute that some member has together, its weight being the number of times they were met in all members, so that different values of the attribute are never added up; networkOneMode and networkMultiLevel do so as far as they return at all.", "quantifier": "all collections and iteration orders, all values under the tags and the attribute, one, two or many modes, with or without weights and counts, directed or not", "why_tests_cant": "the number of times two values and a key are met depends on all members, and the failures need a pair that is met again with the same key", "anchors": ["metaknowledge/mkCollection.py: networkMultiLevel (855-938), networkOneMode, networkTwoMode (1075-1172), networkMultiMode (1231-1305)"]}
{"id": "C79", "title": "The attribute of a node collects the values of the members it occurs in", "statement": "With a nodeAttribute, networkOneMode and networkMultiLevel give every node the values of the attribute of all members in which the node occurs, and of no others.", "quantifier": "all collections and iteration orders, all values under the modes and the attribute", "why_tests_cant": "nodes that are first met in the same member share one list object, so that what a node gets depends on the later members of all nodes it was first met with", "anchors": ["metaknowledge/mkCollection.py: networkMultiLevel (866-867, 913-920, 930-937), networkOneMode"]}
{"id": "C80", "title": "Expanding the records of a network copies them and touches nothing else", "statement": "With expandedCore, networkCitation and networkCoCitation give every later author of a record whose earlier author is a node the edges and attributes of that node; existing nodes and edges stay, and nothing between nodes that no record names changes.", "quantifier": "all graphs, collections and orders of their records", "why_tests_cant": "the records are expanded one after the other in the graph that is being changed, and the copies made for one record are found again by later ones", "anchors": ["metaknowledge/recordCollection.py: expandRecs (1792-1812), networkCoCitation, networkCitation"]}
{"id": "C81", "title": "Notebooks made of markdown files hold every line", "statement": "metaknowledge-mdToNb turns a markdown file into a notebook that can be read as JSON; its cells hold every line that is not blank, in order, lines that begin with a number in brackets being code and those next to each other with the same number one cell.", "quantifier": "all files", "why_tests_cant": "the cells are cut out by a loop with a buffer, and JSON strings are made by replacing characters and cutting off the end", "anchors": ["metaknowledge/bin/metaknowledgeMdToNb.py: convertString, stringPreprossesing, writeMDcell, writePYcell"]}
{"id": "C82", "title": "Grant files", "statement": "A GrantCollection made from a file reads it as the kind of file it is: an xml file with one award is an NSF grant, a csv file named after CIHR or NSERC is read as theirs, any other csv file that is not from Scopus gives one grant for each row, with the values of the row under the names of the columns and an identifier that tells the line. A file that can be read makes a collection without errors; any other file is refused with BadInputFile, a wrong extension with GrantCollectionException.", "quantifier": "every table, every way of quoting its values, every file name", "why_tests_cant": "all texts, quotings and numbers of rows", "anchors": ["metaknowledge/grantCollection.py:GrantCollection.__init__", "metaknowledge/fileHandlers.py:grantProcessors", "metaknowledge/grants/baseGrant.py:parserFallbackGrantFile", "metaknowledge/grants/cihrGrant.py:parserCIHRfile", "metaknowledge/grants/nsercGrant.py:parserNSERCfile"]}
{"id": "C83", "title": "The command line program does what its menus say", "statement": "The metaknowledge program makes the network that is chosen with the tags that are entered, applies the filters as they are called in the menu, one after the other, overwrites no existing file unless the user has just said yes, and marks journals in the database that was named. Lines that a menu or a question does not understand are passed over, q ends the program, and the exit status is 0 when it has done its work.", "quantifier": "all lines typed, all files that exist, all networks, all answers", "why_tests_cant": "what happens depends on the whole sequence of lines typed and on the files that exist, also on those written earlier in the session", "anchors": ["metaknowledge/bin/metaknowledgeCLI.py", "metaknowledge/graphHelpers.py: writeGraph (139-165)"]}
{"id": "C84", "title": "Scopus references are read into author, year, journal, volume, issue and pages", "statement": "Citation(text, scopusMode=True) of a reference written AUTHOR, further authors and title (YEAR) JOURNAL, VOLUME (ISSUE), PP. PAGES has exactly these parts (in capitals), and a text that is not of the form AUTHOR, ... (YEAR) SOURCE gives a bad citation. (False as it stands for a reference that has pages but no volume: PP becomes its volume and the pages are lost. Also false for names with an apostrophe: the whole reference is rejected.)", "quantifier": "all texts, all upper-casing functions, all classes of word characters and digits that keep brackets, commas and full stops out", "why_tests_cant": "the pattern backtracks over five optional or repeated parts; whether another division of the text is preferred depends on everything that follows, for every length and number of authors", "anchors": ["metaknowledge/citation.py:Citation.__init__", "metaknowledge/citation.py:Citation.scopusCiteRegex", "metaknowledge/scopus/recordScopus.py:ScopusRecord.createCitation"]}
{"id": "C85", "title": "dropNonJournals keeps exactly the records of the type asked for, and tags lists the tags in use", "statement": "dropNonJournals leaves in the collection exactly the records of the publication type asked for, or with invert exactly the others, and with dropBad no bad record; name and collected types stay. With and without invert it divides the collection in two. tags() lists every tag that some record has, once. (A record that stays and has no publication type makes it raise, after the bad records have been dropped.)", "quantifier": "all collections, types and options, any publication types", "why_tests_cant": "the collection is rebuilt from a comprehension over all records, and what is left after an exception depends on where it happens", "anchors": ["metaknowledge/recordCollection.py:RecordCollection.dropNonJournals", "metaknowledge/mkCollection.py:CollectionWithIDs.tags"]}
{"id": "C86", "title": "The bytes of a record are its text in the file", "statement": "bytes(R) of a record that was read from a file is the text it has there, so that reading it again gives an equal record; bytes(RC) of a WOS collection is what writeFile writes, without header and end. Bad records have no bytes and raise BadRecord. (False for Medline and Scopus records.)", "quantifier": "all records read from UTF-8 files, all collections of them", "why_tests_cant": "the text is rebuilt from the parsed fields, for every number of fields and lines and for all characters", "anchors": ["metaknowledge/mkRecord.py:ExtendedRecord.__bytes__", "metaknowledge/recordCollection.py:RecordCollection.__bytes__"]}
{"id": "C87", "title": "The collection of a directory is the union of those of its files", "statement": "RecordCollection(directory) has the records of all files in the directory that have the extension and are no caches, each kept once if it is in several files, whatever the order in which the files are listed; its types are those of the files, its errors name exactly the files whose collections are bad, and it raises exactly if a file cannot be read (files of no known kind are passed over if no extension is asked for). Subdirectories, other files and caches make no difference. WOS collections written into one directory are read back together.", "quantifier": "all directories, contents of files as bytes, extensions and orders of listing", "why_tests_cant": "the loop carries five accumulators over any number of files of four kinds; duplicates, errors and unknown files can come in any order", "anchors": ["metaknowledge/recordCollection.py:RecordCollection.__init__", "metaknowledge/fileHandlers.py:recordHandlers"]}
{"id": "C88", "title": "A copy of a record is decoupled from the original", "statement": "R.copy() has the fields of R, and whatever is then done with one of the two, also changing objects that its lookups returned, the other one keeps its fields and its values; this holds for any number of copies and copies of copies, and for grants with set, deleted and updated fields. (False for lists that are handed out unprocessed, such as the authors of a WOS record: the copy and the original share them.)", "quantifier": "all records, numbers of copies and histories of lookups, copies and changes", "why_tests_cant": "whether two records share an object depends on the whole history of lookups, copies and memoised values", "anchors": ["metaknowledge/mkRecord.py:Record.copy", "metaknowledge/mkRecord.py:ExtendedRecord.__getstate__", "metaknowledge/mkRecord.py:ExtendedRecord.__getitem__", "metaknowledge/grants/baseGrant.py:Grant"]}
{"id": "C89", "title": "Statistics of a graph", "statement": "graphStats with makeString=False returns a tuple as long as the request whose elements are, place by place, the number of nodes, the number of edges (each undirected edge once), the number of nodes touched by no edge, the number of loops, the edges over the possible edges, and the proportion of closed triads; it never divides by zero, and an unknown name is refused with RuntimeError. The transitivity lies between 0 and 1 and so does the density. With makeString=True it gives each statistic asked for once, in a fixed order, as lines or as one sentence, with the counts written in full.", "quantifier": "every graph, directed or not, with any nodes, edges and loops; every list of names; both text forms", "why_tests_cant": "The tests compare sentences for a dozen graphs without checking the numbers against a definition; repeated, reordered or refused names, empty graphs and large counts are not run.", "anchors": ["metaknowledge/graphHelpers.py: graphStats"]}
{"id": "C90", "title": "Directories of grant files", "statement": "Making a grant collection from a directory gives a collection only if each file with the extension could be read alone (or is of no known kind while no extension was asked for). The collection then has the grants of all the files, one of those that are the same; grants of NSERC that are spread over several files become one grant with all the texts of each field in the order of the files. The kinds of grants, the errors and whether it is bad come from the files, and files of other kinds, directories and files without the extension make no difference.", "quantifier": "all directories: all lists of files and directories with any texts and names, all extensions, all hash functions, before and after python 3.7", "why_tests_cant": "Tests read one directory with a few files of NSERC, and never rows without a key or with missing values", "anchors": ["metaknowledge/grantCollection.py:GrantCollection.__init__", "metaknowledge/grants/nsercGrant.py:NSERCGrant.update", "metaknowledge/fileHandlers.py:grantProcessors"]}
{"id": "C91", "title": "Files of series and tables", "statement": "With outputFile, rankedSeries writes a csv file with the name of the tag and count, then each permitted value with its number of occurrences in the order of the series, whatever else is asked for; timeSeries writes each value with its different years in the order they are met; forBurst writes each year and word; forNLP writes the names of the columns and one row for each record. A csv reader gives back exactly these rows, also if values have commas, quotes or ends of lines. No file is written if the call of rankedSeries fails.", "quantifier": "all collections, tags, limits, flags and extra columns, all texts that a csv file can hold (no carriage return or NUL, at most 131072 characters)", "why_tests_cant": "Tests only look whether a file exists, with values that need no quotes", "anchors": ["metaknowledge/mkCollection.py:CollectionWithIDs.rankedSeries", "metaknowledge/mkCollection.py:CollectionWithIDs.timeSeries", "metaknowledge/recordCollection.py:RecordCollection.forBurst", "metaknowledge/recordCollection.py:RecordCollection.forNLP"]}
{"id": "C92", "title": "Graphs saved on disk", "statement": "writeGraph names its two files after the path that is given, with the direction of the graph and the suffix asked for; the two names differ, and those of graphs saved under different paths too. A graph that the format can hold is there after the call and can be read back, and no other file is touched; so any number of graphs saved one after another under different paths are all there. With overwrite off no file that was there before is touched. If the call is interrupted at any time, the file of nodes is touched only when that of edges is finished.", "quantifier": "all graphs with text labels, all paths, suffixes and options, all disks, any sequence of calls, any point of interruption", "why_tests_cant": "Tests write one graph to one name in the present directory and delete the files; no test looks at other files, options that fail, or interruptions", "anchors": ["metaknowledge/graphHelpers.py:writeGraph", "metaknowledge/graphHelpers.py:writeEdgeList", "metaknowledge/graphHelpers.py:writeNodeAttributeFile", "metaknowledge/graphHelpers.py:readGraph"]}
{"id": "C93", "title": "The text of tnet files", "statement": "When writeTnetFile returns, reading the text of the file back, line by line, gives for each edge in order the ids of its two ends (source mode first), and its weight if weights are asked for; the ids are those now on the nodes, their places in the graph counted from 1.  With a timeString, each line starts with the time of the edge in double quotes and the rest is the same.", "quantifier": "all two-mode graphs and multigraphs, mode names, weights that are whole numbers, keys", "why_tests_cant": "The text must be readable for every graph and weight, which examples cannot cover; the behaviour with times is not tested at all.", "anchors": ["metaknowledge/graphHelpers.py: writeTnetFile"]}
{"id": "C94", "title": "Networks of the records of a WOS file hold what the lines of the file say", "statement": "For records read from WOS files, networkCitation, networkCoCitation, networkCoAuthor and networkBibCoupling have the nodes, edges and weights that the AU, AF, PY, J9, TI, VL, BP, DI and CR lines give: a record is named by its first author, year and journal, an edge leads from a record to every reference line, its weight is the number of those lines, references to a record of the collection lead to that record, and saving and reading the collection in any order changes none of this.", "quantifier": "all sets of records that can be read from WOS files with usable years, all reference lines, all orders", "why_tests_cant": "the path from a file to a network crosses the parser, the tag functions, the regular expression for citations and the graph code; tests check single files", "anchors": ["metaknowledge/WOS/recordWOS.py:WOSRecord", "metaknowledge/mkRecord.py:ExtendedRecord.__getitem__", "metaknowledge/mkRecord.py:Record.createCitation", "metaknowledge/recordCollection.py:RecordCollection.networkCitation", "metaknowledge/recordCollection.py:RecordCollection.networkCoCitation", "metaknowledge/recordCollection.py:RecordCollection.networkCoAuthor", "metaknowledge/recordCollection.py:RecordCollection.networkBibCoupling"]}
{"id": "C95", "title": "Citation profiles of a co-author network", "statement": "networkCoAuthor(citeProfile = True) gives the network that citeProfile = False gives, and each node has the text of the different citations of the records of that author, in the order of their first occurrence, and how often each was counted.", "quantifier": "every list of records, whatever their authors, citations, details and the IDs and texts of the citations are, and every setting of weighted, dropNonJournals and count", "why_tests_cant": "The counters of different authors are one shared dictionary when the same record added them, so what a node shows depends on the whole history of first listings; a test with one record by one author sees nothing of it.", "anchors": ["metaknowledge/recordCollection.py: networkCoAuthor"]}
{"id": "C96", "title": "The arguments of isJournal", "statement": "isJournal(dbname, manualDB, returnDict, checkIfExcluded) answers from the databases it is asked to use: the full name or False, and with checkIfExcluded whether the journal is marked as excluded. It does not change the databases.", "quantifier": "every content of the database files, every name and choice of databases, every journal field, every history of earlier questions and changes", "why_tests_cant": "The answer depends on a dictionary that the first question of the process reads and that later arguments do not refresh, and on files that may be missing; a test asks one question in one process with the shipped files.", "anchors": ["metaknowledge/citation.py: Citation.isJournal, Citation.addToDB", "metaknowledge/journalAbbreviations/backend.py: getj9dict, updatej9DB"]}
{"id": "C97", "title": "What is on the disk after writeFile", "statement": "writeFile changes one file only: the one named, or for no name or an empty one that with the first 200 characters of the name of the collection and .txt. It returns if and only if that file can be opened, there is a record or more than one type, all records can be written and all characters have codes in the encoding; the file then holds the first lines of the kind (if there is one type), the records with a line end after each, and EF for WOS records. If it raises, nothing was done, or the file holds the records before the one that could not be written or the text before the character without code. If the program is stopped at any time the file is untouched or holds the first bytes of that. After a failed or stopped writing of WOS records the file, unless untouched or complete, is reported as malformed when it is read. What was in the file is lost when a record cannot be written, and files of collections of two kinds of records are not recognized when read.", "quantifier": "all collections of records of the four kinds, good or bad, in all orders, all sets of types, names, contents of the disk, and all points at which the program stops", "why_tests_cant": "Tests write good records to fresh files. That a failed writing never leaves a file that is taken for a complete one is about all records, all orders and every byte at which the program may stop.", "anchors": ["metaknowledge/recordCollection.py:RecordCollection.writeFile", "metaknowledge/WOS/recordWOS.py:WOSRecord.writeRecord", "metaknowledge/medline/recordMedline.py:MedlineRecord.writeRecord", "metaknowledge/scopus/recordScopus.py:ScopusRecord.writeRecord", "metaknowledge/proquest/recordProQuest.py:ProQuestRecord.writeRecord"]}
{"id": "C98", "title": "Csv files with any delimiter and quote", "statement": "The file that writeCSV writes with any delimiter and any quote character, different from each other and no line ends, gives back to a csv reader that is told the two (and that leaves line ends alone) one row for each record with exactly the text of each cell, whatever characters the texts hold: delimiters, quotes, line ends and carriage returns. The columns and cells do not depend on the two characters. With the comma and the double quote the file is that of C68. If the same character is given for both, the columns are mixed up.", "quantifier": "all records, fields, options, delimiters and quote characters; texts without null characters and up to 131072 characters, the limit of the csv module", "why_tests_cant": "Tests write with a comma and texts without special characters; the claim is for all texts and pairs of characters.", "anchors": ["metaknowledge/recordCollection.py:RecordCollection.writeCSV"]}
{"id": "C99", "title": "Records are mappings of their tags", "statement": "Iterating over a record gives the tags of its entry in the file, in order, and len is their number. items() and values() give for each of these tags, in that order, what R[tag] gives on a record nobody has touched, and end with the exception of the first tag that cannot be read; with raw = True they give the texts of the file. subDict(tags) has exactly the tags asked for as keys, each with what get gives, None when the record has no such tag, and raises what the first tag that cannot be read raises. title is R[title] or Untitled record, and authors is the full names or, when there are none, the short ones. All this holds whatever was looked up, walked or asked for before, and none of it changes what later lookups give.", "quantifier": "all WOS, Medline, Scopus and ProQuest records (WOS and Medline: no field under both of its names), all contents, all tag functions, all histories of lookups, walks, subDict, title and authors", "why_tests_cant": "the values are kept after the first look, so what is shown could depend on any earlier history", "anchors": ["metaknowledge/mkRecord.py:Record.__iter__,Record.__len__,ExtendedRecord.values,ExtendedRecord.items,ExtendedRecord.subDict,ExtendedRecord.title,ExtendedRecord.authors,ExtendedRecord.__getitem__"]}
{"id": "C100", "title": "Series, tables and networks of tags hold what the lines of WOS files tell", "statement": "For the records of WOS files and any of the documented tags but the month (PD) and the addresses (C1), written as two letters or by its long name, rankedSeries counts each name, word, number or reference as often as the lines under the tag tell it; timeSeries does so for each year; cooccurrenceCounts, networkOneMode, networkMultiLevel and networkTwoMode count the pairs of them told by the same record. Names are told one per line, lists by their separators however they are divided into lines, texts by putting their lines together, references by their IDs.", "quantifier": "all lists of records read from WOS files with usual years, all documented tags but PD and C1 and their names, all options", "why_tests_cant": "The functions count over fields that are looked up by tag or name, parsed and memoised; tests can only compare counts of a few tags in fixed files.", "anchors": ["metaknowledge/mkCollection.py:rankedSeries", "metaknowledge/mkCollection.py:timeSeries", "metaknowledge/mkCollection.py:cooccurrenceCounts", "metaknowledge/mkCollection.py:networkMultiLevel", "metaknowledge/mkCollection.py:networkTwoMode", "metaknowledge/WOS/recordWOS.py:WOSRecord", "metaknowledge/mkRecord.py:ExtendedRecord.__getitem__"]}
{"id": "C101", "title": "Series, tables and networks of collections with records of several databases", "statement": "In a collection with records of WOS, Medline, Scopus and ProQuest, rankedSeries, timeSeries, cooccurrenceCounts, networkOneMode, networkMultiLevel, networkTwoMode and networkMultiMode with the names that the databases share (authorsShort, authorsFull, title, journal, j9, keywords, abstract, year, volume, beginningPage, citations) count what the fields of each record tell in its own database: each author, keyword, title or year of each record once for each time it is there, nothing for a record that has no such field. networkMultiMode leaves out empty texts and the number 0, and counts a node once too few if the first record to tell it tells things under one name only.", "quantifier": "all lists of records of the four databases in all orders (WOS and Medline records as read from files), all contents of the fields, all options; timeSeries for records whose years are numbers, which those of ProQuest are not", "why_tests_cant": "Each database has fields of its own names and separators, and the common names are resolved by three tables and by functions; tests use collections of one database.", "anchors": ["metaknowledge/mkCollection.py:rankedSeries", "metaknowledge/mkCollection.py:timeSeries", "metaknowledge/mkCollection.py:cooccurrenceCounts", "metaknowledge/mkCollection.py:networkMultiLevel", "metaknowledge/mkCollection.py:networkTwoMode", "metaknowledge/mkCollection.py:networkMultiMode", "metaknowledge/mkRecord.py:ExtendedRecord.__getitem__", "metaknowledge/medline/recordMedline.py:MedlineRecord.specialFuncs", "metaknowledge/scopus/recordScopus.py:ScopusRecord.specialFuncs", "metaknowledge/proquest/recordProQuest.py:ProQuestRecord.specialFuncs"]}
{"id": "C102", "title": "Authors of records of several databases", "statement": "For a collection with records of any of the databases, networkCoAuthor has a node for each author that a record names and no other, an edge between two of them with the number of times they are named together, the column num-Authors has the number of authors that the record names, and genderStats counts the genders of the names, each name of a record once.", "quantifier": "all collections read from files, both kinds of names, every option of weights and counts, every table of names", "why_tests_cant": "A test uses one record of each database; that all authors and nothing else are taken must hold for every list of names and every mixture of records.", "anchors": ["metaknowledge/recordCollection.py:RecordCollection.networkCoAuthor", "metaknowledge/recordCollection.py:RecordCollection.genderStats", "metaknowledge/genders/nameGender.py:recordGenders", "metaknowledge/proquest/tagProcessing/specialFunctions.py:proQuestSpecialTagToFunc"]}
{"id": "C103", "title": "Citation networks of collections with records of several databases", "statement": "For every collection of records of WOS, Medline, Scopus and ProQuest whose author, year, journal or title, volume, page and DOI are written in the usual way in the fields of their own database, networkCitation and networkCoCitation are made: a node is named after what its own database gives (author, year, journal of the WOS form for WOS, Medline and ProQuest; of the Scopus form for Scopus, the whole text if it cannot be read), the weight of an edge is the number of references under which the one cites the other (citation) or of pairs of references in one record (co-citation, without works of the unknown), and each node shows whether a record of the collection has its name and the ID of the last such record.  That the same work has one node wherever it is cited is false: what can be read in a reference of Scopus never has a name that the other databases give.", "quantifier": "all lists of records of the four databases, all texts of their fields of the described forms, all references", "why_tests_cant": "the networks combine four parsers, the look-up rules of four classes and two citation expressions; a test has one file of one database", "anchors": ["metaknowledge/recordCollection.py: networkCitation, networkCoCitation", "metaknowledge/mkRecord.py: createCitation, get", "metaknowledge/scopus/recordScopus.py: createCitation", "metaknowledge/citation.py: Citation"]}
{"id": "C104", "title": "Scopus collections written and read again", "statement": "Writing a collection of Scopus records with writeFile and reading the file again gives records with the same ids in the same order, and everything looked up, counted or drawn from them (rankedSeries, timeSeries, cooccurrenceCounts, networkMultiLevel, networkTwoMode, networkCitation, networkCoCitation) is what it was.", "quantifier": "every collection of Scopus records that can be written and read, every field name, every option", "why_tests_cant": "Which columns are empty differs from record to record; tests use records that have the columns asked for, and the failures show only in what is done with the collection later.", "anchors": ["metaknowledge/scopus/recordScopus.py:ScopusRecord.writeRecord", "metaknowledge/scopus/recordScopus.py:scopusRecordParser", "metaknowledge/scopus/recordScopus.py:ScopusRecord.createCitation", "metaknowledge/recordCollection.py:RecordCollection.writeFile", "metaknowledge/scopus/scopusHandlers.py:scopusParser"]}
{"id": "C105", "title": "Years of collections of several databases", "statement": "yearSplit(a, b) of a collection with records of several databases keeps the records whose year is a number from a to b, in their order; without dropMissingYears it raises TypeError exactly if some record has no number as its year. timeSeries(tag) lists each value once for every year in which it occurs, with the number of occurrences in that year, ordered by the years. The years of ProQuest records are texts: no range ever holds a thesis, series over theses alone are ordered as texts, and a series in which a value occurs both in a paper and in a thesis raises TypeError.", "quantifier": "all collections of WOS and Medline records of files, Scopus and ProQuest records with any fields, all ranges, tags, limits and orders", "why_tests_cant": "The kinds of the years depend on which records with which fields happen to be together; no sample covers all mixtures.", "anchors": ["metaknowledge/recordCollection.py:RecordCollection.yearSplit", "metaknowledge/mkCollection.py:CollectionWithIDs.timeSeries", "metaknowledge/proquest/tagProcessing/tagFunctions.py", "metaknowledge/proquest/tagProcessing/specialFunctions.py"]}
{"id": "C106", "title": "Genders of names, from the file of names to the counts", "statement": "The gender of a name family, first is that of the last row of the table of names with that first name, letters written as in a title, and Unknown without such a row. The table is read from the file of names at the first question, and downloaded and kept if there is no such file. All questions of one process are answered from one table, whatever happens to the file and the network meanwhile. A failed download raises, also for genderStats, and a download that is interrupted should not be taken for the table later. genderStats counts the different names of each record by these genders.", "quantifier": "all tables of names, all names, all histories of questions, changes of the file, network failures, interrupted downloads and restarts", "why_tests_cant": "Histories with failures at any point and tables of any size cannot be enumerated, and tests do not cut off downloads.", "anchors": ["metaknowledge/genders/nameGender.py:getMapping", "metaknowledge/genders/nameGender.py:downloadData", "metaknowledge/genders/nameGender.py:nameStringGender", "metaknowledge/genders/nameGender.py:recordGenders", "metaknowledge/mkRecord.py:authGenders", "metaknowledge/recordCollection.py:RecordCollection.genderStats"]}
{"id": "C107", "title": "Which records are the same, and collections of grants that are changed", "statement": "Equality of records is reflexive and symmetric, and equal records have equal hashes. Among records read from files it is transitive too; two good ones are equal exactly if they have the same class and the same id, two bad ones if they have the same class and what is shown of their values and errors is the same (hash collisions aside). A grant can be changed while it is in a collection: after any history of adding, discarding, setting, deleting and updating, a good grant is in the collection exactly if one with its class and id was added and not discarded since, and the collection lists it once. (Not transitive with plain Record objects; bad records are equal whatever their tags are; a bad grant that is changed, or a good one updated with a bad one, is still listed but no longer found.)", "quantifier": "all records and grants of all classes, all hash functions and all ways of showing values, all histories of changes", "why_tests_cant": "a hash that changes while the object is in a set shows up only in histories that mix changes and lookups; tests compare two records once", "anchors": ["metaknowledge/mkRecord.py:Record.__hash__", "metaknowledge/mkRecord.py:Record.__eq__", "metaknowledge/grants/baseGrant.py:Grant.__setitem__", "metaknowledge/grants/baseGrant.py:Grant.update", "metaknowledge/mkCollection.py:Collection.add", "metaknowledge/mkCollection.py:Collection.discard"]}
{"id": "C108", "title": "Who cites what in collections with records of several databases", "statement": "For a collection with records of WOS, Medline, Scopus and ProQuest, localCitesOf of the ID of one of its records returns exactly the records with a reference that is named like it, and none for other texts; it agrees with the edges of networkCitation; localCiteStats gives each name the number of references to it, over all records; citeFilter by text, author or year, and for bad or anonymous references, returns exactly the records with a reference that answers and, with reverse, exactly the others; rpys gives each year the number of references to it that are at least two years older than the record that has them, with the deviations and ranks of C43.", "quantifier": "all lists of records of the four databases of the forms of C103, all keys", "why_tests_cant": "the answers combine four parsers and two expressions for citations with three loops over the collection, and must agree with a fourth", "anchors": ["metaknowledge/recordCollection.py:RecordCollection.localCitesOf", "metaknowledge/recordCollection.py:RecordCollection.localCiteStats", "metaknowledge/recordCollection.py:RecordCollection.rpys", "metaknowledge/recordCollection.py:RecordCollection.citeFilter", "metaknowledge/citation.py:Citation"]}
{"id": "C109", "title": "Genders of the authors over several databases", "statement": "For a collection with records of WOS, Medline and Scopus, genderStats counts for each record the different full names of its authors as its file has them, each as the gender of the first word after the comma; names without a comma are unknown. authGenders of a record has each name once with its gender. As fractions the three numbers are divided by their sum, and with no names the call raises ZeroDivisionError. (All authors of Scopus records are unknown, since their names have no comma, and each ProQuest record counts as six unknown authors, the letters of the word Author.)", "quantifier": "all lists of records of the databases, all name tables", "why_tests_cant": "the names come from three parsers, and the counts must hold for all of them", "anchors": ["metaknowledge/recordCollection.py:RecordCollection.genderStats", "metaknowledge/mkRecord.py:ExtendedRecord.authGenders", "metaknowledge/genders/nameGender.py:recordGenders", "metaknowledge/proquest/tagProcessing/specialFunctions.py"]}
{"id": "C110", "title": "What records show as texts and which grants they have", "statement": "The text of a record is the name of its class with its title, or with its ID if it has no title. Two good records show the same representation exactly if they are of the same class and have the same ID; all bad records of a class show the same. The grants of a record are those its Medline field GR tells; records of other databases have none.", "quantifier": "all records of the four databases read from files", "why_tests_cant": "titles, IDs and grants are arbitrary texts, and whether two representations can collide depends on all pairs of records", "anchors": ["metaknowledge/mkRecord.py: Record.__str__, Record.__repr__", "metaknowledge/WOS/recordWOS.py: specialFuncs", "metaknowledge/medline/tagProcessing/specialFunctions.py"]}
{"id": "C111", "title": "What citations and collections show as texts", "statement": "str of a citation is the very text it was made of, and in lists (repr) citations of different texts show differently. With the setting FAST_CITES a citation shows its ID instead, equal citations show the same, and IDs and equality are as without. Collections show their class and their name and nothing else; the name of a combination holds the names of both and the operator. False: that FAST_CITES can be switched off at any time (citations made before have no text then, str raises AttributeError), and that the name tells how a collection was made (a - b - c and a - (b - c) have the same).", "quantifier": "all texts, of WOS and Scopus references, good or bad; both settings when the citation is made and when it is shown; all collections and names", "why_tests_cant": "texts and names are arbitrary, and the setting can change between making and showing; the tests never switch it.", "anchors": ["metaknowledge/citation.py:Citation.__init__", "metaknowledge/citation.py:Citation.__str__", "metaknowledge/citation.py:Citation.__repr__", "metaknowledge/mkCollection.py:Collection.__repr__", "metaknowledge/mkCollection.py:Collection.__str__", "metaknowledge/constants.py:FAST_CITES"]}
