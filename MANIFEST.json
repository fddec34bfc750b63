{
 "claims": [
  {
   "property": "C01",
   "status": "proved",
   "theorems": [
    "C01_history_refines_set",
    "C01_contains",
    "C01_peek",
    "C01_len_is_cardinality"
   ],
   "note": "Any history of add/discard/remove/pop/clear/in-place operators refines the mathematical set of members, for every iteration order."
  },
  {
   "property": "C02",
   "status": "partial",
   "theorems": [
    "C02_only_allowed_types",
    "C02_recorded_types_refuted"
   ],
   "note": "Only members of the allowed type get in. That recorded type names match the members is refuted: they are not recorded by the iterable constructor or removed by discard."
  },
  {
   "property": "C03",
   "status": "proved",
   "theorems": [
    "C03_or",
    "C03_and",
    "C03_sub",
    "C03_xor",
    "C03_plus"
   ],
   "note": "Members of a|b, a&b, a-b, a^b, a+b; independence of the operands is C06_no_command_changes_another_collection."
  },
  {
   "property": "C04",
   "status": "partial",
   "theorems": [
    "C04_inplace_keeps_errors",
    "C04_binary_keeps_errors_refuted",
    "C04_binary_errors_partial"
   ],
   "note": "In-place operators keep both error dicts. For the binary operators this is refuted: the left operand errors are lost; exact result proved."
  },
  {
   "property": "C05",
   "status": "partial",
   "theorems": [
    "C05_eq_is_same_members",
    "C05_equal_collections_hash_equal",
    "C05_subset_implies_le_partial",
    "C05_le_is_subset_refuted"
   ],
   "note": "== is equality of members and agrees with hash. <= is refuted as subset (it compares only the sizes); subset implies <=."
  },
  {
   "property": "C06",
   "status": "proved",
   "theorems": [
    "C06_no_command_changes_another_collection",
    "C06_copy_is_equal",
    "C06_references_are_invisible"
   ],
   "note": "Reference-level heap model: every program with any number of collections behaves as if collections were values."
  },
  {
   "property": "C07",
   "status": "proved",
   "theorems": [
    "C07_chunk_partitions"
   ],
   "note": "chunk partitions the members in pieces of the maximum size."
  },
  {
   "property": "C08",
   "status": "proved",
   "theorems": [
    "C08_split_partitions_and_empties"
   ],
   "note": "split partitions and empties the receiver."
  },
  {
   "property": "C09",
   "status": "proved",
   "theorems": [
    "C09_containsID",
    "C09_getID"
   ],
   "note": "containsID/getID agree with the members."
  },
  {
   "property": "C10",
   "status": "proved",
   "theorems": [
    "C10_badEntries"
   ],
   "note": "badEntries/dropBadEntries select exactly by the bad flag."
  },
  {
   "property": "C11",
   "status": "partial",
   "theorems": [
    "C11_counts",
    "C11_ranks",
    "C11_pandas_partial",
    "C11_values",
    "C11_other_failures_pass",
    "C11_pandas_lowest_first_refuted",
    "C11_counts_supersede_ranks_refuted",
    "C11_order_independent"
   ],
   "note": "Counts, ranks, bare list and table mode: exact contents and order. Partial because the table is always greatest first (refuted for greatestFirst=False), and asking for ranks while counts are on raises although the documentation says counts supersede."
  },
  {
   "property": "C12",
   "status": "proved",
   "theorems": [
    "C12_by_year",
    "C12_records"
   ],
   "note": "Exact list of (value, year) with counts, order and ties; without tag exact list of the dated members (limitTo is ignored there)."
  },
  {
   "property": "C13",
   "status": "proved",
   "theorems": [
    "C13_cooccurrence"
   ],
   "note": "Exact table for every set of counted tags."
  },
  {
   "property": "C14",
   "status": "proved",
   "theorems": [
    "C14_one_mode",
    "C14_counts_and_weights",
    "C14_order_independent"
   ],
   "note": "Exact nodes, counts, edges and weights for every option combination; order independence. C14_one_mode: the network of one field, the same claim for oneModeNetwork."
  },
  {
   "property": "C15",
   "status": "partial",
   "theorems": [
    "C15_edges",
    "C15_counts_partial",
    "C15_counts_refuted"
   ],
   "note": "Edges, weights, directions, nodes and types exact. Counts: exact formula; equal to the number of occurrences when every member with values under the first tag also has values under the second; refuted otherwise (one occurrence lost, depending on the iteration order)."
  },
  {
   "property": "C16",
   "status": "partial",
   "theorems": [
    "C16_edges",
    "C16_counts_partial",
    "C16_counts_refuted"
   ],
   "note": "Edges, weights and nodes exact. Counts: exact formula; equal to the number of occurrences unless a value is first met in a member with values under one tag only (refuted there). Without counts the type is the concatenation of all tags met."
  },
  {
   "property": "C17",
   "status": "partial",
   "theorems": [
    "C17_weights",
    "C17_weight_is_records",
    "C17_counts_partial",
    "C17_counts_refuted",
    "C17_order_independent"
   ],
   "note": "Nodes, edges, weights and details exact; order independence. Counts: exact formula (sum of the positions at which the author is listed), right only for authors always listed first; refuted otherwise."
  },
  {
   "property": "C18",
   "status": "proved",
   "theorems": [
    "C18_made",
    "C18_counts_and_weights",
    "C18_weight_is_records",
    "C18_attributes",
    "C18_order_independent",
    "C18_detailed"
   ],
   "note": "For every option set: success condition, exact nodes, counts, edges, weights and node attributes; order independence."
  },
  {
   "property": "C19",
   "status": "partial",
   "theorems": [
    "C19_edges_partial",
    "C19_made_partial",
    "C19_counts_partial",
    "C19_attributes_partial",
    "C19_direction_refuted",
    "C19_unweighted_refuted",
    "C19_empty_name_refuted",
    "C19_counts_refuted"
   ],
   "note": "Exact nodes, edges, directions, weights, year differences and counts for citation nodes, and for author/journal/year nodes with weights unless directed with recordToCite=False. Refuted outside: unweighted author/journal/year networks always raise, recordToCite=False is ignored without weights, directed author networks with recordToCite=False go the wrong way, an empty record name joins the cited works, counts depend on the order."
  },
  {
   "property": "C20",
   "status": "proved",
   "theorems": [
    "C20_shared_works",
    "C20_edges"
   ],
   "note": "For every iteration order: nodes and weights exact, and an edge exactly between different records that share a cited work."
  },
  {
   "property": "C21",
   "status": "proved",
   "theorems": [
    "C21_written_text_is_the_source_text",
    "C21_rereading_gives_the_record",
    "C21_fields_roundtrip"
   ],
   "note": "Both directions: text written for a record read from any file is its source text, and reparsing gives the record."
  },
  {
   "property": "C22",
   "status": "partial",
   "theorems": [
    "C22_file_roundtrip",
    "C22_any_collection_refuted"
   ],
   "note": "Proved for collections whose recorded type names are exactly WOSRecord; refuted in general (a collection made by an operator or from a list is written without header and footer)."
  },
  {
   "property": "C23",
   "status": "partial",
   "theorems": [
    "C23_interrupted_file_is_reported",
    "C23_text_after_EF_is_reported",
    "C23_reader_terminates",
    "C23_ids_distinct",
    "C23_malformed_record_is_dropped_alone_partial",
    "C23_dropped_record_is_reported_refuted",
    "C23_stopped_reading_is_reported_refuted",
    "C23_each_damaged_record_is_kept_refuted"
   ],
   "note": "Every truncation point of a written file and any text after EF is reported. Damage inside a file is not: counterexamples for a silently dropped record, silently stopped reading and merged damaged records; the exact effect of a malformed line is proved."
  },
  {
   "property": "C24",
   "status": "partial",
   "theorems": [
    "C24_reading",
    "C24_fields_partial",
    "C24_reparse_partial",
    "C24_file_partial",
    "C24_long_author_refuted",
    "C24_mark_refuted",
    "C24_no_author_refuted",
    "C24_same_name_refuted",
    "C24_short_line_refuted",
    "C24_no_newline_refuted",
    "C24_bad_line_refuted",
    "C24_text",
    "C24_written_text_partial"
   ],
   "note": "Reading is proved for every well formed text; the round trip for every record whose author fields belong to distinct one-line authors, for single records, parsed texts and files. Refuted without these conditions. C24_text: a record given as a text, with or without a newline at its end; C24_written_text_partial: what writeRecord writes gives the record again as a text."
  },
  {
   "property": "C25",
   "status": "partial",
   "theorems": [
    "C25_reading",
    "C25_short",
    "C25_doubled",
    "C25_corrupted",
    "C25_record_partial",
    "C25_file_partial",
    "C25_absent_refuted",
    "C25_dollar_refuted",
    "C25_order_refuted",
    "C25_no_newline_refuted",
    "C25_extra_refuted"
   ],
   "note": "Reading and round trip are proved for every value that is readable; for the others it is proved that they are always corrupted. Refuted: absent values, other column orders, files without final newline."
  },
  {
   "property": "C26",
   "status": "partial",
   "theorems": [
    "C26_white",
    "C26_no_blank_refuted",
    "C26_reading",
    "C26_file",
    "C26_listed",
    "C26_colon_refuted",
    "C26_twice_refuted",
    "C26_no_link_refuted",
    "C26_key_refuted",
    "C26_number_refuted"
   ],
   "note": "Proved for every record without colons in its continuation lines and with a link after the author, and for whole files that agree with their table of contents; for every file, records are only kept when their title is listed. The statement is refuted for continuation lines with a colon, repeated tags and missing links. C26_white lists the blank characters exactly. C26_no_blank_refuted: a colon without a blank also begins a field, with the whole line as its name."
  },
  {
   "property": "C27",
   "status": "proved",
   "theorems": [
    "C27_wos",
    "C27_medline",
    "C27_scopus",
    "C27_proquest"
   ],
   "note": "For all four kinds of records and arbitrary tag functions, any history of R[k], k in R, get and copies. Condition for WOS and Medline: the record does not hold the same field under both its names (example shows it is needed)."
  },
  {
   "property": "C28",
   "status": "partial",
   "theorems": [
    "C28_parse",
    "C28_documented_form",
    "C28_id_partial",
    "C28_id_refuted",
    "C28_id_identifies",
    "C28_equality",
    "C28_case",
    "C28_scopus_case_refuted"
   ],
   "note": "The pattern reads every string left to right (C28_parse, with a full model of the backtracking matcher). The ID claim holds unless the year is 0 or the author empty (refuted there); case insensitivity is refuted for Scopus strings that do not match."
  },
  {
   "property": "C29",
   "status": "partial",
   "theorems": [
    "C29_partition",
    "C29_excluded_refuted"
   ],
   "note": "Holds for databases read in this process; refuted after Citation.addToDB(invert=True)."
  },
  {
   "property": "C30",
   "status": "proved",
   "theorems": [
    "C30_dropEdges",
    "C30_dropEdges_raises",
    "C30_dropEdges_succeeds"
   ],
   "note": "Exact surviving edges, nothing else changes; exact conditions for raising and what state is left then."
  },
  {
   "property": "C31",
   "status": "partial",
   "theorems": [
    "C31_dropNodesByDegree_partial",
    "C31_directed_partial",
    "C31_directed_refuted",
    "C31_raises"
   ],
   "note": "Undirected graphs: exact. Directed graphs: only out-edges are counted (refuted as a degree, exact statement proved as partial)."
  },
  {
   "property": "C32",
   "status": "proved",
   "theorems": [
    "C32_dropNodesByCount",
    "C32_succeeds"
   ],
   "note": "Exact surviving nodes and edges; raises exactly for a missing or non-numeric count."
  },
  {
   "property": "C33",
   "status": "partial",
   "theorems": [
    "C33_mergeGraphs_partial",
    "C33_target_precedence_refuted",
    "C33_without_edge_attribute_refuted"
   ],
   "note": "Counts and weights add up when both graphs carry the incremented attributes; refuted: target attributes are overwritten when the attribute is missing, and a falsy edge attribute raises."
  },
  {
   "property": "C34",
   "status": "partial",
   "theorems": [
    "C34_degrees",
    "C34_succeeds",
    "C34_distribution",
    "C34_weight",
    "C34_negative_refuted"
   ],
   "note": "Degrees equal the sum of the weights of the incident edges for in, out and both; the distribution counts nodes per degree. C34_weight says what the weight of an edge is; with negative weights the distribution counts from the end of the list or raises (C34_negative_refuted)."
  },
  {
   "property": "C35",
   "status": "proved",
   "theorems": [
    "C35_tnet",
    "C35_accepts_two_mode_graphs"
   ],
   "note": "Every edge between the two modes is written once with distinct indices per mode."
  },
  {
   "property": "C36",
   "status": "partial",
   "theorems": [
    "C36_roundtrip",
    "C36_same_attributes_roundtrip",
    "C36_any_label_refuted",
    "C36_other_options_raise_refuted",
    "C36_nodes_read"
   ],
   "note": "Proved for labels, names and values without carriage return or NUL and at most 131072 characters; refuted for a carriage return; the non-default options of writeEdgeList raise on every graph with an edge. C36_nodes_read: a node file with short rows."
  },
  {
   "property": "C37",
   "status": "partial",
   "theorems": [
    "C37_count",
    "C37_raw",
    "C37_order",
    "C37_compare",
    "C37_order_refuted",
    "C37_compare_refuted"
   ],
   "note": "count, raw records, order independence and comparison proved; a citation naming two sources refutes order independence"
  },
  {
   "property": "C38",
   "status": "partial",
   "theorems": [
    "C38_graph",
    "C38_edges",
    "C38_labelled",
    "C38_parallel",
    "C38_direction_refuted",
    "C38_lone_refuted",
    "C38_label_refuted"
   ],
   "note": "edges, weights, nodes and flags proved for what iterating the values gives; direction, raw/str values and labels contradict the documentation"
  },
  {
   "property": "C39",
   "status": "proved",
   "theorems": [
    "C39_select",
    "C39_strict",
    "C39_partition"
   ],
   "note": "selection, strict mode and partition proved for every collection; the year is a number, a text or missing"
  },
  {
   "property": "C40",
   "status": "partial",
   "theorems": [
    "C40_counts_partial",
    "C40_raises",
    "C40_lists",
    "C40_unreadable_refuted"
   ],
   "note": "exact counts, keys and sums when every citation has the attribute; unreadable Scopus citations make the call raise (refuted in general)"
  },
  {
   "property": "C41",
   "status": "partial",
   "theorems": [
    "C41_citation",
    "C41_id_partial",
    "C41_record_refuted",
    "C41_string_refuted"
   ],
   "note": "Citation and id arguments proved; Record arguments always raise and citation strings are never parsed (refuted)"
  },
  {
   "property": "C42",
   "status": "partial",
   "theorems": [
    "C42_scan_partial",
    "C42_filter_partial",
    "C42_reverse",
    "C42_hidden_refuted",
    "C42_blank_refuted",
    "C42_unread_refuted"
   ],
   "note": "exact scan semantics for all inputs, documented meaning when no citation lacks the part; hidden citations, the blank year key and unread Scopus citations passing for anonymous refuted; reverse partitions"
  },
  {
   "property": "C43",
   "status": "partial",
   "theorems": [
    "C43_table_partial",
    "C43_rank",
    "C43_raises",
    "C43_absolute_refuted",
    "C43_default_refuted",
    "C43_drop_refuted"
   ],
   "note": "years, counts, medians, deviations and ranks proved for every set order; documented defaults, single dropped year and absolute value refuted"
  },
  {
   "property": "C44",
   "status": "proved",
   "theorems": [
    "C44_split",
    "C44_phrase",
    "C44_dated",
    "C44_none"
   ],
   "note": "find_copyright with the digits of \\d as a parameter; the dated forms are specified as strings and proved to be the language of the regular expression."
  },
  {
   "property": "C45",
   "status": "partial",
   "theorems": [
    "C45_counts",
    "C45_total_partial",
    "C45_fractions",
    "C45_name",
    "C45_total_refuted",
    "C45_empty_refuted"
   ],
   "note": "three counts characterised, total proved for distinct names; duplicate names and the empty collection refuted; fractions as numerators over a common denominator, floats not modelled"
  },
  {
   "property": "C46",
   "status": "partial",
   "theorems": [
    "C46_same_partial",
    "C46_same",
    "C46_ends",
    "C46_reload",
    "C46_interrupted_refuted",
    "C46_race_refuted",
    "C46_grants_refuted",
    "C46_read"
   ],
   "note": "Proved for every history of calls, user changes between calls and crashes: the result is that of reading again, or, after a crash only, the error of the incomplete cache (refuted that it does not raise). A change during a call can make the cache stale (refuted). pickle is a pair of functions with the two properties of pickle_ok. C46_read states for a directory read without a cache: the name of the collection, its types, its records and its errors, over every schedule of the files."
  },
  {
   "property": "C47",
   "status": "partial",
   "theorems": [
    "C47_update_partial",
    "C47_file_partial",
    "C47_directory_partial",
    "C47_duplicates_refuted",
    "C47_missing_refuted",
    "C47_bad_refuted",
    "C47_other_kinds",
    "C47_errors_partial"
   ],
   "note": "Proved for rows of texts with a key: update, one file, any number of files. Refuted: no duplicates, missing values, rows without a key. C47_other_kinds: update between other kinds of grants; C47_errors_partial: which files are reported."
  },
  {
   "property": "C48",
   "status": "partial",
   "theorems": [
    "C48_table",
    "C48_long",
    "C48_mixed",
    "C48_mixed_refuted"
   ],
   "note": "columns and entries proved for all tag selections; KeyError for a tag without a long name C48_mixed: the table over the records of the four databases, with or without a list of names and without the extra columns. C48_mixed_refuted: the names that all databases share (title, authorsShort, year, keywords, abstract) are replaced by the tags of Web of Science, so that the columns are empty for all records of Scopus and ProQuest."
  },
  {
   "property": "C49",
   "status": "partial",
   "theorems": [
    "C49_cells_partial",
    "C49_plain",
    "C49_six_plain_refuted",
    "C49_collection_partial",
    "C49_unreadable",
    "C49_mixed_partial",
    "C49_compact_partial",
    "C49_default",
    "C49_long",
    "C49_title_refuted",
    "C49_rank_refuted",
    "C49_six_rows_refuted"
   ],
   "note": "Compact: exact width, and what every line shows, for headings that fit, ranks of at most two digits and headers that fit; refuted with long titles, ranks over 99, and six rows in a narrow terminal. C49_collection_partial states it of the glimpse of a collection: the columns are the values of the records from the most frequent one with their dense ranks. C49_plain is the version that is not compact. Values and titles are taken to have no newlines. C49_mixed_partial: the same for collections with records of several databases, in terms of what their fields tell; which of several texts of the same reference is shown is a parameter."
  },
  {
   "property": "C50",
   "status": "partial",
   "theorems": [
    "C50_update_partial",
    "C50_new_name_refuted",
    "C50_no_list",
    "C50_not_fetched"
   ],
   "note": "Old entries stay and new abbreviations are stored; new names of known abbreviations are not (refuted). C50_no_list, C50_not_fetched: a page without a list or that cannot be fetched stops the update."
  },
  {
   "property": "C51",
   "status": "proved",
   "theorems": [
    "C51_round_trip",
    "C51_accepted",
    "C51_to_tag"
   ],
   "note": "Over all strings; upper-casing is any function that is the usual one on ASCII text."
  },
  {
   "property": "C52",
   "status": "partial",
   "theorems": [
    "C52_short",
    "C52_braces",
    "C52_pieces_partial",
    "C52_zero",
    "C52_lost_refuted"
   ],
   "note": "Exactly which beginning of the text survives; the rest is lost (refuted). Not modelled: str() of numbers."
  },
  {
   "property": "C53",
   "status": "partial",
   "theorems": [
    "C53_from_reiterable",
    "C53_rejects_foreign",
    "C53_from_generator_refuted"
   ],
   "note": "False for one-shot iterators (consumed by the type check); proved for re-iterable arguments."
  },
  {
   "property": "C54",
   "status": "partial",
   "theorems": [
    "C54_readable_partial",
    "C54_refuted"
   ],
   "note": "Proved for every kind of record when the tag functions raise no KeyError; refuted for Medline ED and OAB, Scopus Funding Text and unknown months of WOS."
  },
  {
   "property": "C55",
   "status": "partial",
   "theorems": [
    "C55_medline",
    "C55_scopus",
    "C55_proquest_partial",
    "C55_proquest_refuted"
   ],
   "note": "Medline and Scopus fully, ProQuest except authorsFull, which is refuted. Condition: the record has no field called like the common name."
  },
  {
   "property": "C56",
   "status": "partial",
   "theorems": [
    "C56_texts",
    "C56_no_doi",
    "C56_scopus_refuted"
   ],
   "note": "Proved for WOS citations; Extra raises for every Scopus citation."
  },
  {
   "property": "C57",
   "status": "partial",
   "theorems": [
    "C57_supersedes",
    "C57_excluded",
    "C57_session_partial",
    "C57_full_name_refuted",
    "C57_first_refuted",
    "C57_stored"
   ],
   "note": "Proved for a new process; in the running process partly (refuted: full name, first use)."
  },
  {
   "property": "C58",
   "status": "partial",
   "theorems": [
    "C58_table",
    "C58_extra_partial",
    "C58_source_count_refuted",
    "C58_raw",
    "C58_names",
    "C58_clash_refuted",
    "C58_authors_refuted",
    "C58_mapping_refuted",
    "C58_same_refuted"
   ],
   "note": "tables of a tag and of raw records, cell by cell; refuted: SourceCount with an extra tag, clashing column names, records without authors, extraMapping"
  },
  {
   "property": "C59",
   "status": "partial",
   "theorems": [
    "C59_add_partial",
    "C59_add_refuted",
    "C59_text_partial",
    "C59_extra_partial",
    "C59_label_refuted",
    "C59_extra_refuted"
   ],
   "note": "proved for networkx 1, for keys that are strings or are not, with and without extraType; always fails with networkx 2; an extra value equal to the label replaces the count"
  },
  {
   "property": "C60",
   "status": "partial",
   "theorems": [
    "C60_width",
    "C60_fits",
    "C60_cut",
    "C60_narrow_refuted"
   ],
   "note": "Every text and every width of at least 6; refuted below."
  },
  {
   "property": "C61",
   "status": "partial",
   "theorems": [
    "C61_network_partial",
    "C61_list_partial",
    "C61_count_refuted",
    "C61_tags_refuted",
    "C61_tags",
    "C61_separator"
   ],
   "note": "Proved for tags None or one name, and for lists with grants that have no own name fields; counts are sums of places (exact), so the count claim is refuted; lists of tags are changed (exact for NSF, refuted). C61_separator: an empty separator is an error."
  },
  {
   "property": "C62",
   "status": "partial",
   "theorems": [
    "C62_medline",
    "C62_code",
    "C62_agency_refuted",
    "C62_bad",
    "C62_scopus",
    "C62_dropped_refuted",
    "C62_identifier"
   ],
   "note": "Parts are kept (proved); different texts can be equal grants (refuted). C62_identifier: the identifiers of Medline grants."
  },
  {
   "property": "C63",
   "status": "partial",
   "theorems": [
    "C63_fields_partial",
    "C63_same_name_refuted"
   ],
   "note": "Proved for all trees that use no name both ways; refuted otherwise."
  },
  {
   "property": "C64",
   "status": "partial",
   "theorems": [
    "C64_table",
    "C64_everything",
    "C64_total",
    "C64_year_total",
    "C64_plain",
    "C64_record",
    "C64_list",
    "C64_missing_refuted"
   ],
   "note": "field given: C64_table, C64_plain, C64_record, C64_list; no field: C64_everything; sums: C64_total, C64_year_total. The documented dropping of citations without the field is refuted where the attribute is None."
  },
  {
   "property": "C65",
   "status": "partial",
   "theorems": [
    "C65_burst",
    "C65_abstract",
    "C65_one",
    "C65_letters",
    "C65_spaces",
    "C65_copyright",
    "C65_stemmer",
    "C65_drop_partial",
    "C65_drop_apart",
    "C65_drop_refuted",
    "C65_spaces_refuted"
   ],
   "note": "C65_burst, C65_abstract: cleaning without a drop list, exact and unique (C65_one); C65_letters: nothing else is lost; C65_drop_partial: exactly which words a drop list leaves, C65_drop_apart: all of them dropped if no two are neighbours; false in general (C65_drop_refuted), and single spaces are not guaranteed (C65_spaces_refuted)."
  },
  {
   "property": "C66",
   "status": "proved",
   "theorems": [
    "C66_rows",
    "C66_words",
    "C66_tokens",
    "C66_empty_refuted"
   ],
   "note": "C66_rows, C66_words, C66_tokens; empty words occur (C66_empty_refuted)."
  },
  {
   "property": "C67",
   "status": "partial",
   "theorems": [
    "C67_table_partial",
    "C67_ragged_refuted",
    "C67_caller_refuted"
   ],
   "note": "C67_table_partial: for different extra columns that do not clash with copyright; otherwise refuted (C67_ragged_refuted); the list of the caller changes (C67_caller_refuted)."
  },
  {
   "property": "C68",
   "status": "partial",
   "theorems": [
    "C68_file_partial",
    "C68_long",
    "C68_list_partial",
    "C68_list_refuted",
    "C68_split_partial",
    "C68_caller",
    "C68_split_refuted",
    "C68_caller_refuted"
   ],
   "note": "C68_file_partial: columns and cells as read back by a csv reader, if no text has a carriage return and the tags to be first are different; C68_long: KeyError for fields without long name; C68_split_partial: one file per value; refuted: list cells, long values, lists of the caller."
  },
  {
   "property": "C69",
   "status": "partial",
   "theorems": [
    "C69_entry",
    "C69_wos_entry",
    "C69_id",
    "C69_wos_id",
    "C69_nice_partial",
    "C69_nice_refuted",
    "C69_type",
    "C69_type_refuted",
    "C69_bad",
    "C69_file_partial",
    "C69_bad_refuted",
    "C69_head"
   ],
   "note": "C69_entry and C69_wos_entry: lines of an entry if the texts have one line; C69_id, C69_wos_id, C69_nice_partial: the ID (not unique: refuted); C69_file_partial: the file, with the exception for a bad record (refuted that there is none); C69_type: always misc (refuted). C69_head: the file begins with lines that are comments, and entries follow them."
  },
  {
   "property": "C70",
   "status": "proved",
   "theorems": [
    "C70_copyrights"
   ],
   "note": "C70_copyrights, the order of the set not being specified."
  },
  {
   "property": "C71",
   "status": "partial",
   "theorems": [
    "C71_month_after",
    "C71_first",
    "C71_stripped",
    "C71_lines",
    "C71_text",
    "C71_capitals",
    "C71_abstract",
    "C71_list",
    "C71_keywords",
    "C71_sponsors",
    "C71_number",
    "C71_year",
    "C71_month",
    "C71_address_partial",
    "C71_address_refuted",
    "C71_citations",
    "C71_other",
    "C71_documented_refuted",
    "C71_month_refuted"
   ],
   "note": "All tags of the table have an equation; addresses are proved for lines with a closing bracket, the rest is refuted. The month can be a text (refuted witness); the documentation of two tags is refuted. C71_month_after: the month is read from the last part if the first is none."
  },
  {
   "property": "C72",
   "status": "partial",
   "theorems": [
    "C72_scopus",
    "C72_scopus_filled",
    "C72_scopus_read",
    "C72_scopus_multi",
    "C72_scopus_multi_refuted",
    "C72_scopus_other_refuted",
    "C72_self",
    "C72_reference",
    "C72_multi",
    "C72_nobody",
    "C72_proquest_refuted",
    "C72_scopus_refuted"
   ],
   "note": "For records with author, year and abbreviated journal; ProQuest and the multiCite of Scopus are refuted. Also C72_scopus: the citation of a Scopus record has its author, year, journal, volume and page (a page only with a volume, see C84). C72_scopus_filled, C72_scopus_read, C72_scopus_multi: the citations that stand for a Scopus record. C72_scopus_multi_refuted: with multiCite they are never usable unless a text has commas of its own, since the separator after the author is left out; C72_scopus_other_refuted: the ID then is the raw text."
  },
  {
   "property": "C73",
   "status": "partial",
   "theorems": [
    "C73_missing",
    "C73_year_partial",
    "C73_year_refuted",
    "C73_month",
    "C73_volume",
    "C73_page_partial",
    "C73_page_refuted",
    "C73_doi",
    "C73_addresses_partial",
    "C73_addresses_refuted",
    "C73_ids",
    "C73_main",
    "C73_others"
   ],
   "note": "Year for dates that start with it, page where the semicolon is followed by a space, addresses for the last entry of an author; the other cases are refuted. C73_missing: a tag whose field is missing raises KeyError."
  },
  {
   "property": "C74",
   "status": "proved",
   "theorems": [
    "C74_lists",
    "C74_others",
    "C74_proquest"
   ],
   "note": "All columns of Scopus and all fields of ProQuest."
  },
  {
   "property": "C75",
   "status": "proved",
   "theorems": [
    "C75_utf8",
    "C75_wos_file",
    "C75_medline_file",
    "C75_proquest_file",
    "C75_scopus_file",
    "C75_kind",
    "C75_extension",
    "C75_name",
    "C75_dots"
   ],
   "note": "UTF-8, the four detectors as equivalences, the choice of the kind, extension and name. C75_dots: leading dots belong to the name."
  },
  {
   "property": "C76",
   "status": "partial",
   "theorems": [
    "C76_wos",
    "C76_interrupted",
    "C76_medline_partial",
    "C76_scopus_partial",
    "C76_medline_refuted",
    "C76_scopus_refuted"
   ],
   "note": "WOS without conditions and for every crash point; Medline and Scopus if VR 1.0 is not in the file, the rest is refuted. ProQuest collections cannot be written."
  },
  {
   "property": "C77",
   "status": "partial",
   "theorems": [
    "C77_said",
    "C77_order",
    "C77_over",
    "C77_join",
    "C77_done",
    "C77_drawn",
    "C77_width",
    "C77_second_row_refuted"
   ],
   "note": "All schedules of the two threads; the number formats are parameters. The second row of an unfinished bar ends in a cut escape sequence (refuted). How a terminal shows the output is not modelled."
  },
  {
   "property": "C78",
   "status": "partial",
   "theorems": [
    "C78_level_partial",
    "C78_level_weights_refuted",
    "C78_level_number",
    "C78_two_partial",
    "C78_multi_refuted",
    "C78_multi_single"
   ],
   "note": "Exact for networkTwoMode. The one mode and multi level builders raise with weights when a key is met twice (refuted), networkMultiMode always (refuted)."
  },
  {
   "property": "C79",
   "status": "partial",
   "theorems": [
    "C79_exact_partial",
    "C79_own",
    "C79_alone_partial",
    "C79_alone_refuted"
   ],
   "note": "Exact set of values: those of all members with a node first met in the same member. At least the values of the own members (C79_own); no others only if each member is the first of one node at most (partial), refuted in general."
  },
  {
   "property": "C80",
   "status": "partial",
   "theorems": [
    "C80_nodes",
    "C80_edges",
    "C80_copied",
    "C80_loops_refuted",
    "C80_runs_partial",
    "C80_runs_refuted",
    "C80_weights_refuted",
    "C80_cited_refuted"
   ],
   "note": "Exact set of nodes, attributes of old and new nodes, edges kept and copied, unaffected part. Runs for weighted graphs and directed ones (partial; RuntimeError otherwise possible). Refuted: no loops, weights added, edges into the node copied."
  },
  {
   "property": "C81",
   "status": "partial",
   "theorems": [
    "C81_lines",
    "C81_notebook_partial",
    "C81_backslash_refuted",
    "C81_last_line_refuted"
   ],
   "note": "For files whose lines are all ended and have neither backslashes nor control characters (partial); refuted with backslashes, tabs and for a last line that is not ended."
  },
  {
   "property": "C82",
   "status": "partial",
   "theorems": [
    "C82_other",
    "C82_cihr_partial",
    "C82_nserc_partial",
    "C82_nsf_partial",
    "C82_unknown",
    "C82_extension",
    "C82_errors_refuted",
    "C82_cut_refuted",
    "C82_same_bad_refuted",
    "C82_edited_refuted",
    "C82_csv_error_refuted",
    "C82_empty_lines",
    "C82_cihr_no_table"
   ],
   "note": "CIHR: one grant per row except for bad rows with equal values, which are one grant (refuted); NSERC: for rows with a key (C47); NSF: for awards that use no name both ways (C63). Proved with and without PEP 479; with it no csv file makes a collection without errors (refuted). C82_empty_lines, C82_cihr_no_table: empty lines and files with no table."
  },
  {
   "property": "C83",
   "status": "partial",
   "theorems": [
    "C83_menu",
    "C83_console_refuted",
    "C83_question",
    "C83_network",
    "C83_tag_refuted",
    "C83_filters_partial",
    "C83_filters_end",
    "C83_edges_above_refuted",
    "C83_nodes_above_refuted",
    "C83_isolates_refuted",
    "C83_overwrite",
    "C83_named_refuted",
    "C83_task",
    "C83_both",
    "C83_graph_names",
    "C83_slash_refuted",
    "C83_journals_partial",
    "C83_skipped_refuted",
    "C83_paths",
    "C83_status_refuted",
    "C83_status"
   ],
   "note": "Proved: menus and questions take the first line they understand, the network made is the one asked for, filters are applied as asked for (undirected, without maxima), no file is overwritten without a yes just before, both files of a graph are written or neither, and their names. Refuted: the two maximum filters, isolates of directed networks, the console, tags with small letters, skipped journals, --name, exit status, names ending in a slash. C83_status: the status is 0 exactly when the user ends the session."
  },
  {
   "property": "C84",
   "status": "partial",
   "theorems": [
    "C84_fields",
    "C84_bad",
    "C84_names",
    "C84_divided",
    "C84_title",
    "C84_written",
    "C84_pages_refuted",
    "C84_apostrophe_refuted"
   ],
   "note": "C84_fields / C84_bad (exact: usable iff of the form, any upper-casing) / C84_names / C84_written; C84_pages_refuted (pages without a volume), C84_apostrophe_refuted. C84_names / C84_divided / C84_title: the title begins where no further author does, commas or not; not stated for a lone blank between the last further author and the year."
  },
  {
   "property": "C85",
   "status": "proved",
   "theorems": [
    "C85_kept",
    "C85_partition",
    "C85_untyped",
    "C85_tags",
    "C85_mixed",
    "C85_mixed_fails"
   ],
   "note": "Proved over any records. C85_mixed and C85_mixed_fails: the same with R[pubType] of the four kinds of records. Only records of Web of Science have it, so a collection with one good record of Medline, Scopus or ProQuest raises KeyError, after the bad records were dropped."
  },
  {
   "property": "C86",
   "status": "partial",
   "theorems": [
    "C86_wos",
    "C86_wos_collection",
    "C86_wos_read_back",
    "C86_bad",
    "C86_bad_collection",
    "C86_empty",
    "C86_medline_refuted",
    "C86_scopus_refuted"
   ],
   "note": "WOS: C86_wos, C86_wos_collection, C86_wos_read_back. Refuted for Medline and Scopus records. Bytes of ProQuest records are modelled, but nothing but C86_bad is stated about them."
  },
  {
   "property": "C87",
   "status": "proved",
   "theorems": [
    "C87_union",
    "C87_readable",
    "C87_name",
    "C87_order",
    "C87_ignored",
    "C87_written"
   ],
   "note": ""
  },
  {
   "property": "C88",
   "status": "partial",
   "theorems": [
    "C88_wos_partial",
    "C88_one_more",
    "C88_refuted",
    "C88_grants_partial",
    "C88_apart_partial"
   ],
   "note": "Proved for changes of processed values, for any number of copies and any history; for lists handed out unprocessed it is refuted for every record and tag. Grants: for histories without changes in place."
  },
  {
   "property": "C89",
   "status": "partial",
   "theorems": [
    "C89_powers",
    "C89_tuple",
    "C89_lines",
    "C89_sentence",
    "C89_unknown",
    "C89_bounds",
    "C89_million_refuted",
    "C89_loops_refuted"
   ],
   "note": "C89_tuple, C89_lines, C89_sentence, C89_unknown, C89_bounds hold for every networkx graph and every request. Refuted: from a million on the counts are rounded to six digits, so different graphs get the same text (C89_million_refuted); a graph with loops can have a density above 1 (C89_loops_refuted). The rounding of floats is outside the model: values are exact quotients and their text is a parameter. C89_powers: the text of round counts from a million on."
  },
  {
   "property": "C90",
   "status": "partial",
   "theorems": [
    "C90_collection",
    "C90_nserc_partial",
    "C90_unknown",
    "C90_missing_refuted",
    "C90_bad_refuted",
    "C90_twice_refuted",
    "C90_order_refuted"
   ],
   "note": "C90_collection needs no hypothesis. C90_nserc_partial asks for grants of NSERC that are good and have texts only: the others are refuted (a missing value or a row without Cle can end the reading of the whole directory, or leave a grant twice)."
  },
  {
   "property": "C91",
   "status": "partial",
   "theorems": [
    "C91_ranked",
    "C91_ranked_none",
    "C91_time",
    "C91_time_counts_refuted",
    "C91_time_records",
    "C91_burst",
    "C91_burst_header_refuted",
    "C91_nlp_partial",
    "C91_nlp_rows_refuted"
   ],
   "note": "C91_nlp_partial: for different extra columns that do not clash with copyright (C67); otherwise a row shows values of another record (refuted). forBurst writes no header, so that readers which expect one lose the first word (refuted); the file of timeSeries has no counts (refuted)."
  },
  {
   "property": "C92",
   "status": "proved",
   "theorems": [
    "C92_names",
    "C92_home",
    "C92_two_files",
    "C92_distinct",
    "C92_inside_refuted",
    "C92_saved",
    "C92_kept",
    "C92_history",
    "C92_interrupted",
    "C92_edgeInfo_refuted",
    "C92_mixture_refuted",
    "C92_slashes",
    "C92_here_refuted"
   ],
   "note": "Refuted: a path with a slash at its end does not put the files into that directory; a call that fails can destroy the old file of edges (always with edgeInfo off, C92_edgeInfo_refuted is for every graph with an edge); an interruption between the two files leaves a readable mixture of the old and the new graph. C92_slashes: one or three leading slashes give one, two are kept. C92_here_refuted: names such as a lone dot give files that begin with a dot and an underscore."
  },
  {
   "property": "C93",
   "status": "partial",
   "theorems": [
    "C93_file",
    "C93_timed",
    "C93_accepts",
    "C93_simple_refuted",
    "C93_time_refuted",
    "C93_quote_refuted"
   ],
   "note": "C93_file is the text without times; C93_timed and C93_accepts with the key of the edge as its time, keys without double quote or newline. Refuted: the attribute timeString is not what is written, simple graphs raise TypeError, quotes are not escaped."
  },
  {
   "property": "C94",
   "status": "partial",
   "theorems": [
    "C94_journals",
    "C94_directions",
    "C94_kinds",
    "C94_detailed",
    "C94_citation",
    "C94_cocitation",
    "C94_coauthor",
    "C94_coupling",
    "C94_year_refuted",
    "C94_saved",
    "C94_name",
    "C94_cited"
   ],
   "note": "C94_citation, C94_cocitation, C94_coauthor and C94_coupling state what the networks of records read from WOS files hold in terms of the lines of the file; C94_name and C94_cited give the names of records and the edges between them, C94_saved composes this with writing and reading. C94_year_refuted: one record with a year that is not of four characters makes every citation network fail. C94_directions: the citation network with every choice of directed and recordToCite. C94_kinds: co-citation with authors, journals, years or texts as nodes. C94_detailed: what nodes show with detailedCore. C94_journals: with dropNonJournals the nodes are the references whose journal the database knows."
  },
  {
   "property": "C95",
   "status": "partial",
   "theorems": [
    "C95_profile",
    "C95_own_partial",
    "C95_shared_refuted",
    "C95_foreign_refuted"
   ],
   "note": "Partial because the property is false: the dictionary of a profile is shared by all authors added by the same record, and an author is counted once per earlier co-author as well. C95_profile says exactly what is shown, C95_shared_refuted and C95_foreign_refuted show the two ways in which it is wrong, C95_own_partial when it is right."
  },
  {
   "property": "C96",
   "status": "partial",
   "theorems": [
    "C96_choice",
    "C96_first_answer_partial",
    "C96_first_decides",
    "C96_later_refuted",
    "C96_default",
    "C96_missing_manual_refuted",
    "C96_other_name_refuted",
    "C96_excluded_refuted"
   ],
   "note": "Partial because the property is false of later questions (C96_later_refuted; C96_first_decides says what they answer), of a missing manual database (C96_missing_manual_refuted), of an empty database with its own name (C96_other_name_refuted) and of journals excluded by a citation of the same process (C96_excluded_refuted). The first question with the databases in place is settled by C96_choice and C96_first_answer_partial."
  },
  {
   "property": "C97",
   "status": "proved",
   "theorems": [
    "C97_written",
    "C97_failed",
    "C97_stopped",
    "C97_target",
    "C97_kinds",
    "C97_reported",
    "C97_unwritable",
    "C97_lost_refuted",
    "C97_mixed_refuted"
   ],
   "note": "C97_written: when the call returns and what the file holds then. C97_failed: what the file holds after each exception. C97_stopped: all moments at which the program stops. C97_kinds: the files of collections of one kind are those of C76. C97_reported: failed or interrupted files of WOS records are reported when read. C97_unwritable: one record without text makes the call fail. C97_lost_refuted: the former content of the file is lost if a record is bad. C97_mixed_refuted: files with records of two kinds are written without complaint but not recognized when read."
  },
  {
   "property": "C98",
   "status": "proved",
   "theorems": [
    "C98_file",
    "C98_default",
    "C98_same_refuted"
   ],
   "note": "C98_file: rows and cells got back for all delimiters and quotes and all texts within the limits of the csv module. C98_default: the comma and the double quote give the file of C68. C98_same_refuted: with the same character for both the columns are lost (Python before 3.13 accepts this)."
  },
  {
   "property": "C99",
   "status": "proved",
   "theorems": [
    "C99_wos",
    "C99_medline",
    "C99_scopus",
    "C99_proquest",
    "C99_walk"
   ],
   "note": "C99_wos, C99_medline, C99_scopus, C99_proquest: what each method shows after any history, in terms of single lookups on fresh records. C99_walk: when nothing raises there is one pair for each tag."
  },
  {
   "property": "C100",
   "status": "proved",
   "theorems": [
    "C100_ranked",
    "C100_ranks",
    "C100_years",
    "C100_cooccurrence",
    "C100_levels",
    "C100_two_mode"
   ],
   "note": "Composition of the file reader, the look-up of fields and the tag functions with the counting functions: the specification (WosTagsSpec.v) only speaks about lines. Left out are PD and C1 (their functions are in C71), stemmers and edge attributes (C18, C93)."
  },
  {
   "property": "C101",
   "status": "proved",
   "theorems": [
    "C101_ranked",
    "C101_ranks",
    "C101_years",
    "C101_cooccurrence",
    "C101_levels",
    "C101_two_mode",
    "C101_multi_mode",
    "C101_multi_mode_needed"
   ],
   "note": "A Scopus or ProQuest record may have any fields, as long as none is itself called by the common name. Scopus references and the volumes, pages and DOIs of Medline are not among what is told (C73 and C74 have their values). C101_multi_mode is for things that are neither empty texts nor 0; C101_multi_mode_needed shows that an empty title is no node."
  },
  {
   "property": "C102",
   "status": "partial",
   "theorems": [
    "C102_coauthor_partial",
    "C102_number_partial",
    "C102_genders_partial",
    "C102_letters_refuted",
    "C102_number_refuted",
    "C102_genders_refuted"
   ],
   "note": "Proved for records of WOS, Medline and Scopus. False for ProQuest records, whose authors are a string and not a list: the letters of the word Author (or of the name, with short names) become authors, num-Authors is the length of the name and six unknown genders are counted."
  },
  {
   "property": "C103",
   "status": "partial",
   "theorems": [
    "C103_journals_partial",
    "C103_coupling_partial",
    "C103_citation_partial",
    "C103_cocitation_partial",
    "C103_same_work_refuted",
    "C103_directions_partial",
    "C103_kinds_partial",
    "C103_kinds_made",
    "C103_kinds_refuted"
   ],
   "note": "citation and co-citation networks with the default options; the fields must have the described forms (MixedNetSpec.own_text): a year that is not 0, Medline pages and volumes as in C73, a Medline record not with both IS and ISSN, and no field named like one of the shared names. Other options and the info texts are those of C18 and C19. The refuted part is that works cited in Scopus and in WOS records are one node: they never are. C103_directions_partial: the citation network with every choice of directed and recordToCite. C103_kinds_partial: co-citation with authors, journals, years or texts as nodes when the references of Scopus can be read; C103_kinds_refuted: one that cannot be read makes the network raise AttributeError without dropAnon. C103_journals_partial: dropNonJournals over records of several databases; a Scopus reference that cannot be read says no journal. C103_kinds_made: with dropAnon every kind of network of co-citations is made, whatever the references are; C103_kinds_partial now asks nothing of the references that are dropped. C103_coupling_partial: bibliographic coupling over records of several databases."
  },
  {
   "property": "C104",
   "status": "partial",
   "theorems": [
    "C104_reads",
    "C104_values_partial",
    "C104_empty_refuted",
    "C104_counts_partial",
    "C104_series_refuted",
    "C104_networks_partial",
    "C104_year_refuted",
    "C104_references_refuted"
   ],
   "note": "Proved for what all records have: look-ups (C104_values_partial), series, tables and networks of fields (C104_counts_partial), citation and co-citation networks if every record has authors, title, year, journal, references and the columns the nodes tell of (C104_networks_partial). Refuted in general, for every such collection, where a column is missing: writeRecord writes an empty quoted cell, which is read as a value. The look-up then gives an empty text, a list with an empty text, or a ValueError for numbers (C104_empty_refuted); a record without references cites a work with the empty name (C104_references_refuted); one record without a year and no time series, citation network or co-citation network of the collection can be made any more (C104_series_refuted, C104_year_refuted)."
  },
  {
   "property": "C105",
   "status": "partial",
   "theorems": [
    "C105_in_press_refuted",
    "C105_split",
    "C105_strict",
    "C105_theses_refuted",
    "C105_series_partial",
    "C105_mixed_refuted"
   ],
   "note": "C105_split, C105_strict, C105_series_partial and the raising cases C105_theses_refuted and C105_mixed_refuted. What would be expected, that years of theses are years, is false. C105_in_press_refuted: one Scopus record whose year is not a number makes yearSplit and timeSeries raise."
  },
  {
   "property": "C106",
   "status": "partial",
   "theorems": [
    "C106_first",
    "C106_download",
    "C106_offline",
    "C106_no_pair",
    "C106_raises_refuted",
    "C106_history",
    "C106_one_table",
    "C106_interrupted_refuted",
    "C106_cut_refuted",
    "C106_uk_refuted",
    "C106_stats"
   ],
   "note": "C106_first, C106_download, C106_offline, C106_no_pair, C106_history, C106_one_table and C106_stats. False: that an interrupted download is made up for (C106_interrupted_refuted, C106_cut_refuted), that useUK chooses the table (C106_uk_refuted), that names without a pair raise (C106_raises_refuted)."
  },
  {
   "property": "C107",
   "status": "partial",
   "theorems": [
    "C107_laws",
    "C107_ids",
    "C107_bad",
    "C107_transitive",
    "C107_transitive_refuted",
    "C107_tags_refuted",
    "C107_history_partial",
    "C107_lost_refuted",
    "C107_update_refuted",
    "C107_fields",
    "C107_flags"
   ],
   "note": "C107_laws, C107_ids, C107_bad, C107_transitive; C107_history_partial: histories of good grants with ids whose hashes are apart. Refuted: transitivity with plain Records, tags of bad records, changed bad grants (C107_lost_refuted), updates with bad grants (C107_update_refuted). C107_fields gives the class, id and fields of each grant after any history of storing, deleting, updating, adding and discarding (fields of NSERC grants under update are those of C41). C107_flags gives whether each grant is bad and with which error after any history, and that a bad one stays bad."
  },
  {
   "property": "C108",
   "status": "partial",
   "theorems": [
    "C108_bad",
    "C108_anonymous",
    "C108_local",
    "C108_network",
    "C108_stats",
    "C108_filter_partial",
    "C108_stats_refuted",
    "C108_journal_partial",
    "C108_to",
    "C108_parts_partial",
    "C108_rpys_partial",
    "C108_table"
   ],
   "note": "C108_local, C108_network (agreement with networkCitation), C108_stats, C108_filter_partial (text, author and year; for the other fields see below). C108_stats_refuted: by author, journal or year localCiteStats raises AttributeError as soon as one Scopus reference cannot be read. C108_rpys_partial: the table of rpys (years, counts, deviations, ranks) from the years the references say and those of the records; what C43 refutes and text years of records with references are excluded. C108_journal_partial: citeFilter by journal finds exactly the records with a reference whose journal contains the text, up to the first reference in the style of Web of Science that has no journal (the loop stops there, so later references are not seen). C108_to: localCitesOf given a citation gives the records of all databases citing it. C108_table: getCitations without a field gives one row for each cited work of all databases, with what one reference to it says and the number of references to it, out of all references. C108_bad and C108_anonymous: citeFilter for bad and for anonymous references; a Scopus reference that cannot be read counts as both. C108_parts_partial: citeFilter by V, P and misc, where as with journals the search in a record ends at the first reference that lacks the part."
  },
  {
   "property": "C109",
   "status": "partial",
   "theorems": [
    "C109_stats",
    "C109_scopus_refuted",
    "C109_theses_refuted"
   ],
   "note": "C109_stats (counts, fractions as numerators and denominator, authGenders). C109_scopus_refuted: collections of Scopus records have only unknown authors; C109_theses_refuted: six unknown authors for each ProQuest record. Floats and the download of the name table are not modelled."
  },
  {
   "property": "C110",
   "status": "partial",
   "theorems": [
    "C110_text",
    "C110_repr",
    "C110_bad",
    "C110_bad_refuted",
    "C110_grants_wos",
    "C110_grants",
    "C110_grants_refuted"
   ],
   "note": "C110_text, C110_repr, C110_bad and C110_grants hold for all records read from files. Two further expectations fail: C110_bad_refuted (a good record of Web of Science whose UT is BAD shows as a bad one) and C110_grants_refuted (the field Funding Details of Scopus is read as grants, but the common name grants does not stand for it, so R.get of grants gives nothing). C110_grants_wos: R[grants] of a record of Web of Science is an empty list, not a KeyError."
  },
  {
   "property": "C111",
   "status": "partial",
   "theorems": [
    "C111_cites",
    "C111_fast",
    "C111_switched_refuted",
    "C111_switched_partial",
    "C111_collections",
    "C111_combined",
    "C111_in_place",
    "C111_combined_refuted"
   ],
   "note": "C111_cites, C111_fast, C111_collections, C111_combined and C111_in_place hold without conditions. Two expectations fail: C111_switched_refuted (made with FAST_CITES, shown without: AttributeError for every text; C111_switched_partial is the other direction) and C111_combined_refuted (a - b - c and a - (b - c) show the same)."
  }
 ]
}