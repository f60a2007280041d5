{"id": "C01", "title": "VLQ encoding round-trips", "statement": "For every integer v with |v| < 2^30, base64vlq_encode(v) returns a string which, read by the Source Map v3 base64-VLQ rules and followed by any further text, decodes to exactly v and leaves exactly that further text.", "quantifier": "every i32 v with |v| < 2^30, every trailing text, overflow checks on or off", "why_tests_cant": "2^31 values times every continuation of the text; the unit test tables stop at |v| = 255.", "anchors": ["src/base64_vlq.rs:base64vlq_encode", "src/base64_vlq.rs:to_vlq_signed", "src/base64.rs:encode"]}
{"id": "C02", "title": "VLQ text shape", "statement": "The string returned by base64vlq_encode(v) is never empty, contains only base64 alphabet characters (so never ',' or ';'), every character but the last has the continuation bit and the last has not, and for |v| < 2^30 it is the shortest such string: its length is exactly the number of base-32 digits of the signed-VLQ value (1 to 7).", "quantifier": "every i32 v for which the call returns", "why_tests_cant": "Ranges over the whole i32 domain; separator-freedom is what makes every mappings string parseable.", "anchors": ["src/base64_vlq.rs:base64vlq_encode"]}
{"id": "C03", "title": "VLQ behaviour on the whole i32 range", "statement": "A caller relies on base64vlq_encode for every i32. The code round-trips exactly when |v| < 2^30: for every other i32 it returns a one-character string that decodes to another number, except i32::MIN, which panics when overflow checks are on.", "quantifier": "every i32 v, both overflow modes", "why_tests_cant": "Exactness at both ends of the range needs all 2^32 values.", "anchors": ["src/base64_vlq.rs:to_vlq_signed", "src/base64_vlq.rs:base64vlq_encode"]}
{"id": "C04", "title": "VLQ sequences are uniquely decodable", "statement": "Concatenating the encodings of any list of values (|v| < 2^30) and decoding field by field gives the list back; hence two different lists never give the same text.", "quantifier": "every finite list of in-range values", "why_tests_cant": "Unbounded lists.", "anchors": ["src/base64_vlq.rs:base64vlq_encode", "src/generator.rs:serialize_mappings"]}
{"id": "C05", "title": "base64 digit table", "statement": "base64::encode(n) is Some exactly for 0 <= n < 64, gives the RFC 4648 character for n, and never gives the same character for two numbers.", "quantifier": "every i32 n", "why_tests_cant": "All i32 inputs; the test checks three.", "anchors": ["src/base64.rs:encode"]}
{"id": "C06", "title": "ArraySet without duplicates keeps first occurrences in order", "statement": "After any sequence of add(s, false) calls on a new set, to_vec is the list of distinct strings in order of first addition, and size is its length. After any history, add(s, d) appends s if d is true or s is new and changes nothing otherwise.", "quantifier": "every finite sequence of added strings", "why_tests_cant": "Unbounded histories.", "anchors": ["src/array_set.rs:ArraySet::add", "src/array_set.rs:ArraySet::to_vec", "src/array_set.rs:ArraySet::from_array"]}
{"id": "C07", "title": "ArraySet lookups agree", "statement": "After any sequence of add calls with either duplicate flag on a new set or one made by from_array: has(s) iff s occurs in to_vec; index_of(s) is the first position of s in to_vec; at(i) is element i of to_vec and None for a negative or too large i; at(index_of(s)) = s; size is the number of distinct elements.", "quantifier": "every history of adds with any flags (fewer than 2^31 of them), every string, every i32 index", "why_tests_cant": "Unbounded histories, all indices.", "anchors": ["src/array_set.rs:ArraySet"]}
{"id": "C08", "title": "ArraySet indices are stable", "statement": "Further add calls never change the index already reported for a string and never remove or move an element of to_vec; they only append at the end.", "quantifier": "every reachable set, every later sequence of adds", "why_tests_cant": "Unbounded histories.", "anchors": ["src/array_set.rs:ArraySet::add", "src/array_set.rs:ArraySet::index_of"]}
{"id": "C09", "title": "binary_search::search is safe on any input", "statement": "For any haystack shorter than 2^31 - 1, sorted or not, any needle, any comparison results and any bias, search terminates without index or overflow panic and returns -1 or a valid index; -1 for an empty haystack.", "quantifier": "every haystack, needle, comparison function and bias", "why_tests_cant": "Arbitrary, even inconsistent, comparison functions.", "anchors": ["src/binary_search.rs:search", "src/binary_search.rs:recursive_search"]}
{"id": "C10", "title": "search with greatest-lower-bound bias", "statement": "On a haystack sorted consistently with the comparison, the default bias returns the index of the greatest element that is not above the needle (an equal one if there is one), and -1 exactly when every element is above the needle.", "quantifier": "every haystack sorted w.r.t. the comparisons, every needle, any bias value other than 2", "why_tests_cant": "All sizes and all positions of the needle.", "anchors": ["src/binary_search.rs:search", "src/binary_search.rs:recursive_search"]}
{"id": "C11", "title": "search with least-upper-bound bias", "statement": "On a haystack sorted consistently with the comparison, bias 2 returns the index of the least element that is not below the needle (an equal one if there is one), and -1 exactly when every element is below the needle.", "quantifier": "every haystack sorted w.r.t. the comparisons, every needle", "why_tests_cant": "All sizes and all positions of the needle.", "anchors": ["src/binary_search.rs:search", "src/binary_search.rs:recursive_search"]}
{"id": "C12", "title": "search returns the first of equal elements", "statement": "When search returns an index, no smaller index holds an element equal to the one found (sorted haystack), so among duplicates the smallest index is returned.", "quantifier": "every sorted haystack with any number of duplicates, every needle, both biases", "why_tests_cant": "All run lengths.", "anchors": ["src/binary_search.rs:search"]}
{"id": "C13", "title": "strcmp is a total order with absent last", "statement": "util::strcmp is 0 exactly on equal arguments, antisymmetric, transitive, compares present strings by code point order and orders None after every string; its value is always -1, 0 or 1.", "quantifier": "every pair/triple of optional strings", "why_tests_cant": "All strings.", "anchors": ["src/util.rs:strcmp"]}
{"id": "C14", "title": "Mapping comparison is a total preorder on well-formed mappings", "statement": "For mappings whose positions are non-negative and whose original position is present iff the source is present, compare_by_generated_pos_inflated never panics, is antisymmetric in sign and transitive, orders by generated line, generated column, source, original line, original column, name, and is 0 exactly for mappings equal in all of these.", "quantifier": "every pair/triple of well-formed mappings, both overflow modes", "why_tests_cant": "Three independent unbounded mappings.", "anchors": ["src/util.rs:compare_by_generated_pos_inflated", "src/generator.rs:validate_mapping"]}
{"id": "C15", "title": "Where the mapping comparison is not an order", "statement": "Callers hand compare_by_generated_pos_inflated to a sort, which needs a consistent order. For mappings where only one side has an original position it is not transitive, and for positions of mixed sign it panics on overflow (checks on) or reports the reverse order (checks off).", "quantifier": "existence over all mappings", "why_tests_cant": "A counterexample found by search shows nothing about which inputs are safe; C14 and C15 together delimit them.", "anchors": ["src/util.rs:compare_by_generated_pos_inflated"]}
{"id": "C16", "title": "MappingList.to_array is a sorted permutation", "statement": "After any interleaving of add and to_array calls with well-formed mappings, to_array returns every added mapping exactly once and in non-decreasing (generated line, generated column) order.", "quantifier": "every interleaving of adds and to_array calls", "why_tests_cant": "Unbounded histories; the sorted flag and last element are hidden state.", "anchors": ["src/mapping_list.rs:MappingList::add", "src/mapping_list.rs:MappingList::to_array", "src/mapping_list.rs:generated_position_after"]}
{"id": "C17", "title": "MappingList order is stable and to_array is repeatable", "statement": "If mappings are added in non-decreasing generated position, to_array returns them in insertion order; if not, it returns the stable full-comparison sort; a second to_array with no add in between returns the same list and changes nothing.", "quantifier": "every history of adds", "why_tests_cant": "Unbounded histories.", "anchors": ["src/mapping_list.rs:MappingList::add", "src/mapping_list.rs:MappingList::to_array"]}
{"id": "C18", "title": "When MappingList order depends on insertion order", "statement": "Users expect to_array to depend only on what was added. It does when generated positions are pairwise distinct: two histories adding the same mappings in any order give the same list. With equal positions it does not: two insertion orders of the same mappings give different lists.", "quantifier": "every pair of permuted histories with distinct positions; existence for the failing case", "why_tests_cant": "All permutations of unbounded lists.", "anchors": ["src/mapping_list.rs:MappingList::add", "src/mapping_list.rs:generated_position_after"]}
{"id": "C19", "title": "Generating the map never fails for valid mappings", "statement": "For a generator without sourceRoot, or without contents, after any history of add_mapping calls with valid mappings and at most 2^31 different sources and names (C14 form, generated lines >= 1), producing the JSON never panics, in either overflow mode.", "quantifier": "every history of valid mappings", "why_tests_cant": "Unbounded histories; hidden unwrap, index lookup and subtraction panics.", "anchors": ["src/generator.rs:add_mapping", "src/generator.rs:serialize_mappings", "src/generator.rs:as_json"]}
{"id": "C20", "title": "The mappings text decodes to the added mappings", "statement": "For any history of valid mappings in which no step between consecutive positions reaches 2^30 (C86; in particular if all numbers are below 2^30), decoding the produced mappings string by the Source Map v3 rules and resolving indices in the produced sources and names arrays gives exactly the mappings added: each added mapping occurs, nothing else occurs, in generated order, with names, sources, lines and columns intact.", "quantifier": "every history of valid mappings with steps below 2^30 and at most 2^30 different sources and names (as in all properties with that condition on steps), however many mappings; no contents set if there is a source root (C61 does without)", "why_tests_cant": "The flagship round-trip: unbounded histories, all field deltas.", "anchors": ["src/generator.rs:serialize_mappings", "src/generator.rs:add_mapping", "src/generator.rs:as_json"]}
{"id": "C21", "title": "sources and names list each used string once", "statement": "The produced sources (names) array is the list of distinct sources (names) of the added mappings in order of first use: no duplicates, none missing, none extra; version is 3; file and sourceRoot are those given to new.", "quantifier": "every history of generator calls", "why_tests_cant": "Unbounded histories.", "anchors": ["src/generator.rs:add_mapping", "src/generator.rs:as_json"]}
{"id": "C22", "title": "Repeated mappings are emitted once", "statement": "The decoded mappings are the sorted list with runs of identical neighbours collapsed: two equal neighbouring mappings give one segment and no different mappings are ever collapsed. If the generated positions are distinct, or some mapping is added out of order and the JSON was not produced before, the decoded list has no duplicates at all; otherwise the same mapping can be written twice.", "quantifier": "every history of valid mappings with steps below 2^30; no contents set if there is a source root (C61 does without)", "why_tests_cant": "Unbounded histories.", "anchors": ["src/generator.rs:serialize_mappings"]}
{"id": "C23", "title": "Producing the JSON does not disturb the generator", "statement": "Producing the JSON twice in a row gives the same result; producing it in the middle of a history of valid mappings never changes the set of mappings, sources and names of later results.", "quantifier": "every history with JSON production at any points (with steps below 2^30, C86, with and without it); no contents set if there is a source root (C61 does without)", "why_tests_cant": "Hidden state: to_array sorts in place and flips a flag.", "anchors": ["src/generator.rs:as_json", "src/mapping_list.rs:MappingList::to_array"]}
{"id": "C24", "title": "Line structure of the mappings text", "statement": "The produced mappings string has exactly (last generated line - 1) semicolons, no comma next to a semicolon, another comma or an end of the string, and every segment is one, four or five base64-VLQ numbers of at most seven digits.", "quantifier": "every history of valid mappings; no contents set if there is a source root (C61 does without)", "why_tests_cant": "Unbounded histories.", "anchors": ["src/generator.rs:serialize_mappings"]}
{"id": "C25", "title": "sourcesContent alignment", "statement": "Readers rely on sourcesContent[i] being the content of sources[i]. For a generator without sourceRoot this holds for every i exactly when the sources with content come before all sources without: entries without content are dropped, shifting all later ones.", "quantifier": "every generator state without sourceRoot", "why_tests_cant": "All subsets of sources that have content.", "anchors": ["src/generator.rs:as_json", "src/generator.rs:generate_sources_contents"]}
{"id": "C26", "title": "set_source_content: last write wins", "statement": "Without sourceRoot, after any history of calls, the content recorded for a source is that of the last set_source_content for it, none if that call removed it or there was none; calls for other sources do not matter; sourcesContent is absent exactly when no content at all is recorded.", "quantifier": "every history of set_source_content/add_mapping calls", "why_tests_cant": "Unbounded histories.", "anchors": ["src/generator.rs:set_source_content", "src/generator.rs:as_json"]}
{"id": "C27", "title": "Mapping validation is not enforced", "statement": "skip_validation = false suggests invalid mappings are refused. The flag never influences any result; add_mapping accepts every mapping, however invalid (apart from arithmetic overflow between far-apart coordinates when overflow checks are on); a mapping that has a source but no original position and is alone at its generated position makes producing the JSON panic.", "quantifier": "every generator and mapping", "why_tests_cant": "Universally quantified over states and mappings.", "anchors": ["src/generator.rs:add_mapping", "src/generator.rs:validate_mapping", "src/generator.rs:serialize_mappings"]}
{"id": "C28", "title": "Generated lines below 1", "statement": "A generated line below 1 has no v3 encoding. If a history's smallest generated line is below 1, producing the JSON panics when overflow checks are on, whatever else the history did; with checks off the text starts with 2^32 - (1 - line) semicolons.", "quantifier": "every history whose first sorted mapping has line < 1", "why_tests_cant": "The run needs 2^32 steps; no test can finish it.", "anchors": ["src/generator.rs:serialize_mappings"]}
{"id": "C29", "title": "Source map JSON round-trips", "statement": "Serialising a source map value (nested sections included) to JSON text and parsing the text gives the value back whenever its JSON has at most 127 nested brackets; a deeper one is refused on parsing. A text is accepted exactly when it follows the JSON grammar and the field rules.", "quantifier": "every source map value with i32 numbers and arbitrary strings, every nesting; every input text", "why_tests_cant": "Unbounded nesting and strings with escapes.", "anchors": ["src/source_map.rs:SourceMapJson", "src/source_map.rs:Section", "src/generator.rs:as_string", "src/consumer.rs:create_consumer"]}
{"id": "C30", "title": "create_consumer dispatch", "statement": "create_consumer returns Err exactly when the text is not a valid source map JSON, otherwise, if it returns, an indexed consumer exactly when the map has sections and a basic consumer exactly when it has none; a non-sectioned map without sources panics, one with sources is opened exactly when every source URL can be computed.", "quantifier": "every input text and URL", "why_tests_cant": "All inputs.", "anchors": ["src/consumer.rs:create_consumer", "src/consumer.rs:BasicConsumer::from_source_map_json"]}
{"id": "C31", "title": "Short URLs panic", "statement": "compute_source_url, join and relative panic for every source, root or path with fewer than two characters, so a map with sources, one of which, or whose sourceRoot or URL, is empty or one character long cannot be opened. (A too short root or map URL makes compute_source_url panic whatever the source is.)", "quantifier": "every string of length < 2, any other argument, any URL library behaviour, both overflow modes", "why_tests_cant": "All inputs; existing fixtures with sourceRoot \"\" are never opened by the tests.", "anchors": ["src/util.rs:get_url_type", "src/util.rs:join", "src/util.rs:compute_source_url", "src/util.rs:relative"]}
{"id": "C32", "title": "The internal base segment never occurs in the input", "statement": "The path segment used to build the internal base URL is 'p' and the smallest number for which it is not a substring of the URL being processed, found after finitely many attempts, and the base has exactly as many copies as the largest number of non-overlapping '..' in the input.", "quantifier": "every input string of at most 2147483645 characters (the counter is an i32), both overflow modes", "why_tests_cant": "Termination and freshness over all strings.", "anchors": ["src/util.rs:build_unique_segment", "src/util.rs:build_safe_base"]}
{"id": "C33", "title": "Normalising a source", "statement": "For every relative path made of plain segments (at least two characters), compute_source_url(None, path, None) is the unique normal path leading to the same place: no '.' and no 'x/..', only leading '..', whatever their number; doing it again changes nothing more, if two characters are left. Absolute paths, URLs (http(s), file, or another scheme without rules of its own, as in webpack:///./src/a.js) and //host URLs are resolved from their root and keep query and fragment.", "quantifier": "every plain relative or absolute path, URL or scheme-relative URL of any depth; every url crate meeting the stated contract", "why_tests_cant": "Unbounded depth of '..' nesting; correctness of the internal base trick.", "anchors": ["src/util.rs:compute_source_url", "src/util.rs:create_safe_handler", "src/util.rs:build_safe_base", "src/util.rs:compute_relative_url"]}
{"id": "C34", "title": "sourceRoot joins like a directory", "statement": "For plain paths, compute_source_url(Some(root), path, None) is the normalised root/path; a trailing '/' on the root or a leading '/' on the source makes no difference, as the comment in the code promises. The root may be a relative path, an absolute path, a URL (http(s), file, webpack:// and the like) or a //host URL; a URL as source ignores the root, a //host source takes at most its scheme. A root without a path (http://host, file://, webpack://app) counts as one with '/'. If fewer than two characters of the source are left after normalising, it panics.", "quantifier": "every plain root and path", "why_tests_cant": "All paths.", "anchors": ["src/util.rs:compute_source_url", "src/util.rs:join"]}
{"id": "C35", "title": "Query and fragment markers are lost", "statement": "Users rely on a source URL keeping its query and fragment. For a relative source with a query or fragment, with or without a relative sourceRoot, the '?' or '#' is dropped and the text is glued to the path.", "quantifier": "every plain relative path with query/fragment", "why_tests_cant": "Shown for a whole family, not one input.", "anchors": ["src/util.rs:compute_relative_url"]}
{"id": "C36", "title": "Source map URL directory is glued", "statement": "Sources should be resolved against the directory of the source map URL. The directory segments are joined without '/' (for a relative URL query and fragment are glued on as well). Correct results: for a relative map URL without '..' (those with '..' are the subject of C92) exactly with one directory of at least two characters (none or one character: panic), for an absolute path with one directory, for a URL (http(s), file, webpack:// and the like) with at most one; with two or more directories the result is wrong: under a relative map URL always, under an absolute path or a URL for every source without '.' and '..' segments. A source that is not relative is resolved correctly, unless the glued directory has fewer than two characters (panic).", "quantifier": "every plain map URL, every plain source", "why_tests_cant": "All depths.", "anchors": ["src/util.rs:TRIM_FILENAME", "src/util.rs:compute_source_url"]}
{"id": "C37", "title": "relative fails for two non-absolute URLs of the same kind", "statement": "relative(root, target), used by set_source_content, panics for every plain pair of path-absolute or of path-relative arguments and of //host URLs with the same host, so contents cannot be attached that way; for arguments of different kinds or hosts it just normalises the target.", "quantifier": "every pair of plain same-kind arguments, with or without query and fragment", "why_tests_cant": "All pairs.", "anchors": ["src/util.rs:relative", "src/util.rs:replace_if_possible", "src/generator.rs:set_source_content"]}
{"id": "C38", "title": "Source lookup is independent of history", "statement": "Whatever queries were made before, looking up a source gives the same index as on the fresh consumer; a found index is a valid position in get_sources.", "quantifier": "every sequence of queries, every source string", "why_tests_cant": "Unbounded histories; the lookup cache is hidden state.", "anchors": ["src/consumer.rs:find_source_index", "src/consumer.rs:get_sources"]}
{"id": "C39", "title": "create_consumer forgets the map URL", "statement": "Opening the same text and URL with BasicConsumer::new and with create_consumer should give the same answers. Both list the same sources, but create_consumer looks sources up as if no URL had been given.", "quantifier": "every text and URL", "why_tests_cant": "All maps; needs both constructors compared on all inputs.", "anchors": ["src/consumer.rs:BasicConsumer::new", "src/consumer.rs:BasicConsumer::from_source_map_json", "src/consumer.rs:find_source_index"]}
{"id": "C40", "title": "original_position_for never answers under the default bias", "statement": "Users rely on original_position_for to find the mapping at or before a generated position. For every map, history and position it returns None (or panics on bad input) under greatest-lower-bound bias, even for an exact hit.", "quantifier": "every consumer state, position and map", "why_tests_cant": "Universal negative claim.", "anchors": ["src/consumer.rs:BasicConsumer::original_position_for"]}
{"id": "C41", "title": "original_position_for under least-upper-bound bias", "statement": "Under least-upper-bound bias it answers exactly when the first mapping at or after the position lies on the next line (relative to the asked line) and has an original, and then reports that next-line mapping. Lines below 1, negative columns and unreadable mappings panic whatever the bias.", "quantifier": "every consumer state, position and map", "why_tests_cant": "All maps.", "anchors": ["src/consumer.rs:BasicConsumer::original_position_for"]}
{"id": "C42", "title": "generated_position_for finds the nearest mapping", "statement": "When generated_position_for returns a mapping, its generated position and source are those of the nearest mapping of that source in the direction of the bias (an exact one if any); its last column is missing or right, and after compute_column_spans a missing one is given as -1; it returns None exactly when the source is unknown or has no mapping in that direction; every other call panics (bad line or column, unreadable mappings, no name at the source's index).", "quantifier": "every map, history, source, position and bias", "why_tests_cant": "All maps and positions.", "anchors": ["src/consumer.rs:BasicConsumer::generated_position_for"]}
{"id": "C43", "title": "generated_position_for misreports name and original line", "statement": "Users rely on the returned name and original line. The original line returned is one less than the 1-based line, and the name is the entry of names at the source's index; it panics if there is no such entry.", "quantifier": "every successful query", "why_tests_cant": "Characterises all answers.", "anchors": ["src/consumer.rs:BasicConsumer::generated_position_for"]}
{"id": "C44", "title": "all_generated_position_for is off by one line", "statement": "A query for line n, column c returns exactly the mappings of original line n + 1 (1-based), column c, whenever there are any; so the mappings of line n are not returned. An omitted column means column 0.", "quantifier": "every map, history, source, position", "why_tests_cant": "All maps.", "anchors": ["src/consumer.rs:BasicConsumer::all_generated_position_for"]}
{"id": "C45", "title": "Generator to consumer, end to end", "statement": "Opening the generator's output with BasicConsumer::from_source_map or create_consumer and iterating with each_mapping yields exactly the added mappings (0-based, indices resolved through names and sources), in generated order.", "quantifier": "every history of valid mappings with steps below 2^30 (C86); no contents set if there is a source root (C61 does without)", "why_tests_cant": "Composition of the generator, JSON, parser and consumer over unbounded histories.", "anchors": ["src/generator.rs:as_string", "src/consumer.rs:from_source_map", "src/consumer.rs:BasicConsumer::each_mapping"]}
{"id": "C46", "title": "compute_column_spans", "statement": "After compute_column_spans every mapping followed by another on the same line has that one's column as last column; calling it again changes nothing; it never changes positions.", "quantifier": "every map and history", "why_tests_cant": "All maps.", "anchors": ["src/consumer.rs:compute_column_spans"]}
{"id": "C47", "title": "Source contents", "statement": "source_content_for returns the content at the index of the source in get_sources; None if the map has no contents; panics if unknown unless told not to; has_contents_of_all_sources is true iff there are at least as many contents as sources, and then no known source panics; otherwise a known source without a content panics with an index error.", "quantifier": "every map, history, source", "why_tests_cant": "All maps.", "anchors": ["src/consumer.rs:source_content_for", "src/consumer.rs:has_contents_of_all_sources"]}
{"id": "C48", "title": "Malformed mappings", "statement": "With an undecodable mappings string every position query about a known source panics, in any state, while each_mapping returns without calling back; a failed parse leaves the consumer as it was.", "quantifier": "every consumer whose mappings do not parse", "why_tests_cant": "All malformed strings.", "anchors": ["src/consumer.rs:parse_mappings", "src/consumer.rs:BasicConsumer::each_mapping"]}
{"id": "C49", "title": "Opening an indexed map depends on the thread schedule", "statement": "Opening a sectioned map should depend only on the map. Sections are checked under a lock in whatever order worker threads arrive: with strictly increasing offsets it succeeds exactly when the sections arrive in order; every other schedule panics.", "quantifier": "every schedule (permutation of sections), every sectioned map", "why_tests_cant": "All interleavings.", "anchors": ["src/consumer.rs:IndexedConsumer::from_source_map_json"]}
{"id": "C50", "title": "Sequential opening checks the order of sections", "statement": "When sections are processed in order, opening succeeds exactly when version is 3, no section has a url, offsets are non-decreasing starting from (-1,0), and every section map opens; the sections keep their order and offsets plus one. An offset of the largest i32 makes a debug build panic and wraps to the smallest in a release build.", "quantifier": "every sectioned map", "why_tests_cant": "Unbounded number of sections.", "anchors": ["src/consumer.rs:IndexedConsumer::from_source_map_json"]}
{"id": "C51", "title": "Section selection", "statement": "Indexed original_position_for should use the last section starting at or before the position. It uses the last one starting on an earlier line or strictly before the column (the first of several at one offset), so exactly at a section start it consults the previous section; the answer is that of the section's consumer (which has been asked for original positions and contents only, and to compute its column spans exactly if that was asked for) for the position relative to its offset, and its generated position stays relative. A line below 1 is answered with None instead of a panic; a negative column panics exactly if some section starts on an earlier line.", "quantifier": "every opened indexed map and position for which no difference taken overflows (always so from (-1,-1) on if no offset is negative)", "why_tests_cant": "All offsets and positions.", "anchors": ["src/consumer.rs:IndexedConsumer::original_position_for", "src/binary_search.rs:search"]}
{"id": "C52", "title": "Indexed source contents stop at the first section lacking the source", "statement": "source_content_for should find a source in any section. With the default setting it panics if an earlier section that has contents does not know the source; with panics disabled it returns the content from the first section that has contents and knows it (or panics with an index error if that section has too few).", "quantifier": "every opened indexed map and source", "why_tests_cant": "All maps.", "anchors": ["src/consumer.rs:IndexedConsumer::source_content_for"]}
{"id": "C53", "title": "Indexed get_sources", "statement": "get_sources of an indexed map is the concatenation, in order, of the sections' raw sources entries: unlike the basic consumer they are not resolved against sourceRoot.", "quantifier": "every opened indexed map", "why_tests_cant": "All maps.", "anchors": ["src/consumer.rs:IndexedConsumer::get_sources"]}
{"id": "C54", "title": "Indexed reverse queries and iteration always panic", "statement": "generated_position_for, all_generated_position_for and each_mapping on an indexed map with at least one section panic with a borrow error for every argument; with no sections they return nothing.", "quantifier": "every opened indexed map, every argument", "why_tests_cant": "Universal claim over maps and arguments.", "anchors": ["src/consumer.rs:IndexedConsumer::find_source_index", "src/consumer.rs:IndexedConsumer::generated_position_for", "src/consumer.rs:IndexedConsumer::all_generated_position_for", "src/consumer.rs:IndexedConsumer::each_mapping"]}
{"id": "C55", "title": "Indexed original_position_for never answers under the default bias", "statement": "For every opened indexed map and position, indexed original_position_for under greatest-lower-bound bias never returns a mapping.", "quantifier": "every opened indexed map, position", "why_tests_cant": "Universal negative claim.", "anchors": ["src/consumer.rs:IndexedConsumer::original_position_for"]}
{"id": "C56", "title": "relative inverts join for URLs of one origin", "statement": "For two URLs (http(s), file, webpack:// and the like) of the same origin with plain paths without dot segments, joining the root with relative(root, target) gives back the target, unless the target's names begin the root's names (then it does not: the result gains a slash or join panics) or the relative path has fewer than two characters. A target of another origin (scheme, login, host or port differ) is only normalised.", "quantifier": "every pair of plain URLs", "why_tests_cant": "All depths and common prefixes.", "anchors": ["src/util.rs:relative", "src/util.rs:compute_relative_url", "src/util.rs:join"]}
{"id": "C57", "title": "Listed sources can be looked up", "statement": "With relative plain sources, no map URL and no (or a relative plain) sourceRoot, get_sources lists each source normalised below the root; every listed URL is found at its first index; every name written in the map is found too, as the URL it has relative to the map or relative to the root. With a relative map URL a listed source may not be found.", "quantifier": "every such map, every history of calls", "why_tests_cant": "All maps, paths and histories.", "anchors": ["src/consumer.rs:find_source_index", "src/consumer.rs:get_sources", "src/util.rs:compute_source_url"]}
{"id": "C58", "title": "each_mapping is stable and ordered", "statement": "Iterating in generated order reports mappings in order of generated position, and the same ones (up to last columns) whatever was asked before; iterating in original order reports exactly those having an original, ordered by source index, original line and column.", "quantifier": "every map and history", "why_tests_cant": "Unbounded maps and histories; the parsed mappings are hidden mutable state.", "anchors": ["src/consumer.rs:BasicConsumer::each_mapping", "src/consumer.rs:parse_mappings"]}
{"id": "C59", "title": "Indexed contents check and column spans", "statement": "has_contents_of_all_sources of an indexed map is true exactly when it is for every section; computed_column_spans succeeds exactly when it does for every section, and changes each section as the basic operation does, leaving offsets alone.", "quantifier": "every opened indexed map and history", "why_tests_cant": "All maps and histories.", "anchors": ["src/consumer.rs:IndexedConsumer::has_contents_of_all_sources", "src/consumer.rs:IndexedConsumer::computed_column_spans"]}
{"id": "C60", "title": "Overflow checks only ever turn results into panics", "statement": "For every call, and for any history of earlier calls, a build without overflow checks gives exactly the result (value or panic) of a build with them, unless the latter panics with an overflow: the two builds never silently disagree on a call that the checked build completes.", "quantifier": "every function of the generator, list, search, VLQ and URL code, every basic and indexed consumer however opened, every history and query", "why_tests_cant": "Compares two build profiles on all inputs and histories; a test run sees one profile.", "anchors": ["src/generator.rs:SourceMapGenerator", "src/consumer.rs:BasicConsumer", "src/consumer.rs:IndexedConsumer", "src/util.rs:relative", "src/base64_vlq.rs:base64vlq_encode"]}
{"id": "C61", "title": "Contents and mappings do not affect each other", "statement": "Whatever sourceRoot is, the JSON differs from that of the same history without its set_source_content calls in sourcesContent only; so the mappings read back (C20, C22) and the line structure (C24) are unaffected by contents. Whatever the mappings, contents add no panic but those of relative: calls that panic do so with the same panic without the contents, or relative panics, for a sourceRoot, on a content file or a source; with encodable mappings only the latter is possible.", "quantifier": "every history, file, sourceRoot and behaviour of the url crate", "why_tests_cant": "Relates two runs for all histories.", "anchors": ["src/generator.rs:SourceMapGenerator::set_source_content", "src/generator.rs:SourceMapGenerator::generate_sources_contents"]}
{"id": "C62", "title": "With a sourceRoot contents are kept by relative path", "statement": "With sourceRoot set, contents are stored and looked up under the path relative to it: sourcesContent is, for each source, the content of the last set_source_content call whose file has the same relative path, entries without content left out; it is absent when no content is left.", "quantifier": "every history that returns, every root and behaviour of the url crate", "why_tests_cant": "All histories of set/replace/remove under different spellings.", "anchors": ["src/generator.rs:SourceMapGenerator::set_source_content", "src/generator.rs:SourceMapGenerator::generate_sources_contents", "src/util.rs:relative"]}
{"id": "C63", "title": "Classification of references", "statement": "A reference is absolute exactly when it is a non-empty run of letters, digits, '+', '-' or '.' followed by ':/'; scheme-relative exactly when it starts with '//'; path-absolute when it starts with a single '/' and has another character; otherwise a relative path. Texts of less than two characters panic. Windows paths C:/x are absolute URLs, data:... is a relative path.", "quantifier": "every string", "why_tests_cant": "All strings.", "anchors": ["src/util.rs:get_url_type", "src/util.rs:ABSOLUTE_SCHEME"]}
{"id": "C64", "title": "The unused validator accepts exactly the writable mappings", "statement": "validate_mapping, which add_mapping does not call, accepts exactly the mappings with generated line at least 1, columns not negative, and either no original position, source and name, or an original position with line at least 1 and a source: those C20 reads back unchanged.", "quantifier": "every mapping with i32 coordinates", "why_tests_cant": "All combinations of missing parts and coordinates.", "anchors": ["src/generator.rs:SourceMapGenerator::validate_mapping", "src/generator.rs:SourceMapGenerator::add_mapping"]}
{"id": "C65", "title": "Names without source are lost", "statement": "For mappings with a name but no source the JSON lists the name in names, but what is read back has no name; every other mapping is read back as in C20.", "quantifier": "every history of expressible mappings with steps below 2^30 (C86); no contents set if there is a source root (C61 does without)", "why_tests_cant": "All histories.", "anchors": ["src/generator.rs:SourceMapGenerator::serialize_mappings", "src/generator.rs:SourceMapGenerator::add_mapping"]}
{"id": "C66", "title": "original_position_for on generator output", "statement": "For a consumer opened on a generator's output by from_source_map or create_consumer, original_position_for looks for the nearest added mapping in the direction of the bias, and answers with that mapping, its source turned into a URL, exactly when it has a source and lies on the line after the one asked for; otherwise with nothing. It never panics for a valid position.", "quantifier": "every history of generator calls with valid mappings and steps below 2^30 (C86), every history of consumer calls, every position and bias", "why_tests_cant": "All histories and positions; the nearest mapping is a property of the whole set of mappings.", "anchors": ["src/consumer.rs:BasicConsumer::original_position_for", "src/consumer.rs:BasicConsumer::from_source_map", "src/generator.rs:SourceMapGenerator::add_mapping"]}
{"id": "C67", "title": "generated_position_for on generator output", "statement": "For a consumer opened on a generator's output by from_source_map or create_consumer and a known source, generated_position_for finds the nearest added mapping of that source in the direction of the bias and answers with its generated position, but with an original line one too small and the name that has the number of the source; it panics if there are not that many names, and answers nothing if there is no such mapping.", "quantifier": "every history of generator calls with valid mappings and steps below 2^30 (C86), every history of consumer calls, every known source, position and bias", "why_tests_cant": "All histories and positions.", "anchors": ["src/consumer.rs:BasicConsumer::generated_position_for", "src/consumer.rs:BasicConsumer::from_source_map", "src/generator.rs:SourceMapGenerator::add_mapping"]}
{"id": "C68", "title": "all_generated_position_for on generator output", "statement": "For a consumer opened on a generator's output by from_source_map or create_consumer and a known source, all_generated_position_for answers with exactly the mappings added for that source at the column asked for (0 if none) of the line after the one asked for, if there are any; so mappings of the first original line cannot be asked for.", "quantifier": "every history of generator calls with valid mappings and steps below 2^30 (C86), every history of consumer calls, every known source and position", "why_tests_cant": "All histories and positions.", "anchors": ["src/consumer.rs:BasicConsumer::all_generated_position_for", "src/consumer.rs:BasicConsumer::from_source_map", "src/generator.rs:SourceMapGenerator::add_mapping"]}
{"id": "C69", "title": "source_content_for on generator output", "statement": "For a consumer opened on a generator's output by from_source_map or create_consumer and a known source number i, source_content_for answers with the i-th of the texts that were left for the sources in order, missing ones skipped, or panics if there are fewer: the text of the source itself if no source without text comes before one with text. Without any text it answers nothing. With a root, texts are kept by path relative to the root.", "quantifier": "every history of generator calls, every history of consumer calls, every known source", "why_tests_cant": "All histories and orders of sources.", "anchors": ["src/consumer.rs:BasicConsumer::source_content_for", "src/generator.rs:SourceMapGenerator::set_source_content", "src/generator.rs:SourceMapGenerator::generate_sources_contents"]}
{"id": "C70", "title": "Last columns on generator output", "statement": "For a consumer opened on a generator's output, the last generated column in an answer of original_position_for and in each_mapping is where the next added mapping on the same line starts (strictly later unless another mapping was added at the same place), and missing for the last mapping of a line; this holds after compute_column_spans, and before it the column is missing or right. In answers of generated_position_for and all_generated_position_for, and in original order, it is missing or right at any time (generated_position_for gives -1 for a missing one after compute_column_spans).", "quantifier": "every history of generator calls with valid mappings and steps below 2^30 (C86), every history of consumer calls", "why_tests_cant": "The next mapping on a line is a property of the whole set of mappings added in any order.", "anchors": ["src/consumer.rs:BasicConsumer::compute_column_spans", "src/consumer.rs:BasicConsumer::original_position_for", "src/consumer.rs:BasicConsumer::each_mapping"]}
{"id": "C71", "title": "Listed sources under a whole map URL or root", "statement": "With relative plain sources and a URL (http(s), file, webpack:// and the like) for a map URL (and no or a relative root), get_sources lists, for each source, the URL of the source normalised below the root under the directory of the map URL (whose slashes are lost, C36); every listed URL is found at its first index. The names written in the map are found too by a consumer made with new, and never by one from create_consumer, which looks names up without the map URL. With a URL (http(s), webpack:// and the like) as root and no map URL the listed URLs lie below the root, and each is found, also by its written name.", "quantifier": "every such map, URL and root, every history of calls", "why_tests_cant": "All maps, paths, URLs and histories.", "anchors": ["src/consumer.rs:find_source_index", "src/consumer.rs:get_sources", "src/consumer.rs:create_consumer", "src/util.rs:compute_source_url"]}
{"id": "C72", "title": "Added sources are known by their names", "statement": "For a consumer opened on a generator's output by from_source_map (or by create_consumer without URL), every source that was added is found by the name it was added with: as the source whose URL the name has relative to the map, else relative to the root. It is the source itself if all listed URLs differ and there is no root, or the name relative to the map is not the URL of any source.", "quantifier": "every history of generator calls, every root and map URL for which the name has a URL, every history of consumer calls", "why_tests_cant": "All histories, names and behaviours of the url crate.", "anchors": ["src/consumer.rs:find_source_index", "src/consumer.rs:BasicConsumer::from_source_map", "src/generator.rs:SourceMapGenerator::add_mapping"]}
{"id": "C73", "title": "Indexed maps of generator outputs", "statement": "When the sections of an indexed map are outputs of generators, original_position_for answers from the mappings added to the generator of one section: the last one starting on an earlier line or strictly before the column (the first of several at one offset), asked about the position relative to its offset, with the answer of a consumer on that generator alone (C66), its last column given if column spans were computed; if no section starts before, nothing. get_sources lists the sources added to the generators, in order; source_content_for goes through the sections and gives the first answer that is not empty, each section answering with the text left for the source (C69).", "quantifier": "every list of generator histories (valid mappings, steps below 2^30) and offsets, every history of calls on the consumer, however opened", "why_tests_cant": "All bundles, histories and positions.", "anchors": ["src/consumer.rs:IndexedConsumer::original_position_for", "src/consumer.rs:IndexedConsumer::get_sources", "src/consumer.rs:IndexedConsumer::source_content_for", "src/consumer.rs:create_consumer", "src/generator.rs:SourceMapGenerator::as_json"]}
{"id": "C74", "title": "Whether contents are complete", "statement": "On a generator's output has_contents_of_all_sources is true exactly when some text is left and every source of an added mapping has one (kept under its path relative to the root); on an indexed map of such outputs exactly when this holds for every section, so also when there are none.", "quantifier": "every generator history and root, every list of them, every history of calls on the consumer", "why_tests_cant": "All histories.", "anchors": ["src/consumer.rs:has_contents_of_all_sources", "src/generator.rs:SourceMapGenerator::generate_sources_contents", "src/generator.rs:SourceMapGenerator::set_source_content"]}
{"id": "C75", "title": "How a source map is written makes no difference", "statement": "White space, the order of members, members that are not fields of a source map and members that are null make no difference to what is read, also inside sections; create_consumer gives the same result. But a text with an entry of sources, names or sourcesContent that is not a string (null, as other tools write for a missing content) is refused, and so is a version that is not an integer.", "quantifier": "every pair of texts saying the same, every text with such an entry", "why_tests_cant": "All layouts, orders and unknown members at every nesting.", "anchors": ["src/source_map.rs:SourceMapJson", "src/source_map.rs:Section", "src/consumer.rs:create_consumer"]}
{"id": "C76", "title": "join resolves references of every kind in the root", "statement": "join(root, path) is the path resolved in the root taken as a directory, for all sixteen combinations of relative path, absolute path, //host URL and URL (http(s), file, webpack:// and the like): what the path lacks (scheme, host, directory) comes from the root, dot segments are removed, the path's query and fragment are kept and the root's do not count. Exceptions: a URL as path is returned untouched; when both are relative the path's markers '?' and '#' are dropped, and a root whose query and fragment make up a dot segment is excluded.", "quantifier": "every plain root and path of at least two characters", "why_tests_cant": "All kinds and all depths of directories.", "anchors": ["src/util.rs:join", "src/util.rs:with_base", "src/util.rs:ENSURE_DIRECTORY"]}
{"id": "C77", "title": "Names with spaces or characters beyond ASCII", "statement": "A source name with spaces, quotes, angle brackets or characters beyond ASCII behaves exactly as the name with their UTF-8 bytes written %XX: its URL, the path relative to a root, and what is found by it are those of the escaped name. So a relative source is listed normalised below the root and escaped, not as written in the map; it is found both by its written and by its listed name. Existing escapes are kept as they are (other spellings of one byte are different names).", "quantifier": "every reference (relative, absolute, //host or URL) of at least two characters without a space at either end, every root, map URL and history", "why_tests_cant": "All characters and positions.", "anchors": ["src/util.rs:compute_source_url", "src/util.rs:relative", "src/util.rs:with_base", "src/consumer.rs:find_source_index", "src/consumer.rs:get_sources"]}
{"id": "C78", "title": "What a MappingList holds after any history", "statement": "After any sequence of add and to_array calls unsorted_for_each visits, numbered from 0, exactly what the list holds: additions stand at the end, and to_array leaves the list alone when it is sorted by generated position, otherwise it replaces it by its stable sort (by all fields). to_array returns what is then held.", "quantifier": "every history of well-formed mappings", "why_tests_cant": "All histories, interleaved.", "anchors": ["src/mapping_list.rs:MappingList::unsorted_for_each", "src/mapping_list.rs:MappingList::add", "src/mapping_list.rs:MappingList::to_array"]}
{"id": "C79", "title": "Views of a consumer, and consume", "statement": "A consumer made by create_consumer has exactly one of the views basic and indexed: basic if the text has no sections; as_... panics where try_as_... gives None. BasicConsumer::consume hands over a consumer exactly when the text is a source map with sources that all have a URL; for a map without sections it lists the same sources, and answers original_position_for and each_mapping like the created one. IndexedConsumer::consume hands over the created consumer if there are sections, and panics otherwise. Since a URL must be given, a map that opens without URL need not open by consume with the empty one.", "quantifier": "every text, URL and schedule", "why_tests_cant": "All texts.", "anchors": ["src/consumer.rs:Consumer::as_basic_consumer", "src/consumer.rs:Consumer::try_as_basic_consumer", "src/consumer.rs:Consumer::as_indexed_consumer", "src/consumer.rs:Consumer::try_as_indexed_consumer", "src/consumer.rs:BasicConsumer::consume", "src/consumer.rs:IndexedConsumer::consume"]}
{"id": "C80", "title": "No shorter mappings text says the same", "statement": "Of all texts that a v3 reader reads as the same mappings in the same order, the generated one is the shortest, and the only one of that length that does not write zero as minus zero. It has at most 36 characters for each mapping besides one line separator for each line before the last. Two generated maps with the same sources and names that are read as the same mappings have the same mappings text, however they were made.", "quantifier": "every history of valid mappings with steps below 2^30 (C86), for the size every history of mappings of the v3 form wherever they are, with at most 2^31 different sources and names; every other text, both build modes", "why_tests_cant": "Compares with all other texts.", "anchors": ["src/generator.rs:SourceMapGenerator::serialize_mappings", "src/base64_vlq.rs:base64vlq_encode"]}
{"id": "C81", "title": "Adding behind everything only appends", "statement": "The sources and names of a generated map only grow at the end as a history goes on, whatever is added. If moreover all mappings are added in order of generated position, or the later ones strictly behind all earlier ones (the later ones in order, or the earlier ones at distinct positions), the mappings text of the longer history is that of the shorter one followed by nothing or by a separator and more, and a reader reads the earlier mappings followed by further ones. Without these conditions it need not be (earlier mappings at one position may be reordered).", "quantifier": "every history of well-formed mappings (valid and with steps below 2^30 for reading) with any continuation, JSON produced anywhere in between, both build modes", "why_tests_cant": "All pairs of histories.", "anchors": ["src/generator.rs:serialize_mappings", "src/generator.rs:add_mapping", "src/mapping_list.rs:MappingList::to_array"]}
{"id": "C82", "title": "A map copied mapping by mapping reads the same", "statement": "Adding the mappings read from a generated map, in the order read, to a new generator (with any file and root) succeeds and gives a map that is read as the same mappings, with the same sources and names up to order. If the first history added its mappings in order of generated position, sources, names and mappings text of the copy are identical.", "quantifier": "every history of valid mappings with steps below 2^30 (C86), both build modes on both sides", "why_tests_cant": "All histories.", "anchors": ["src/generator.rs:serialize_mappings", "src/generator.rs:add_mapping", "src/generator.rs:as_json"]}
{"id": "C83", "title": "References the url crate refuses panic", "statement": "A source that the url crate refuses to join (such as http://[/a.js), a refused sourceRoot or a refused map URL makes computing the source URL panic, so a map with such a source, or with any source and such a root or URL, is not opened: create_consumer and new panic rather than return an error. Asking an open map about such a name panics too, whatever was asked before; so do join, relative and, under a root, set_source_content. join alone returns a path with a scheme unlooked at. add_mapping accepts such names, so a generator can write maps nobody opens.", "quantifier": "every behaviour of the url crate, every refused text, map, history", "why_tests_cant": "All texts the url crate may refuse; all histories.", "anchors": ["src/util.rs:compute_source_url", "src/util.rs:join", "src/util.rs:with_base", "src/util.rs:relative", "src/util.rs:create_safe_handler", "src/consumer.rs:create_consumer", "src/consumer.rs:find_source_index", "src/generator.rs:SourceMapGenerator::set_source_content"]}
{"id": "C84", "title": "Names like node:fs lose their scheme", "statement": "A source name of a scheme (not http, https, ws, wss, ftp, file) and a text without '/' in front, like node:fs or C:\\src\\a.js, should keep its scheme. Its URL is the text without the scheme (and without the markers of query and fragment), with one '../' more than there are '..' in the name: node:fs becomes ../fs. So names that differ in the scheme only (with as many '..' in it) have the same URL under any root and map URL; below a root the '../' lead out of it (src and node:fs give fs). relative to any root gives the same.", "quantifier": "every such name, plain paths, absolute paths and URLs as root", "why_tests_cant": "All names and roots.", "anchors": ["src/util.rs:compute_source_url", "src/util.rs:create_safe_handler", "src/util.rs:compute_relative_url", "src/util.rs:replace_if_possible", "src/util.rs:relative"]}
{"id": "C85", "title": "Names like C:/src/a.js are URLs", "statement": "A source name of a scheme (not http, https, ws, wss, ftp, file) followed by a path with '/' in front, as a Windows path with a drive letter, is taken for a URL: sourceRoot is ignored, the scheme is written in lower case (c:/src/a.js) and dot segments are removed; join returns it untouched.", "quantifier": "every such name, every plain root or none", "why_tests_cant": "All names and roots.", "anchors": ["src/util.rs:compute_source_url", "src/util.rs:get_url_type", "src/util.rs:join"]}
{"id": "C86", "title": "Positions that are far apart are written wrongly", "statement": "For valid mappings at any positions, producing the JSON never fails (C19), but what is read from it is the added mappings exactly if no step between consecutive positions reaches 2^30 (generated columns count from the last mapping of the line, original lines and columns from the last original position). One larger step is silently written as another number, and everything that counts from it moves. Mappings whose numbers are all below 2^30 need no such step.", "quantifier": "every history of valid mappings, both build modes; no contents set if there is a source root (C61 does without)", "why_tests_cant": "An exact condition over all histories and all i32 positions.", "anchors": ["src/generator.rs:serialize_mappings", "src/base64_vlq.rs:base64vlq_encode"]}
{"id": "C87", "title": "A search looks at few elements", "statement": "search compares the needle with at most log2(n)+1 of the n elements. Besides these it looks only at the answer, its predecessor and the elements just after the answer that are equal to it: changing any other elements does not change the result, even for unsorted lists and comparisons that panic.", "quantifier": "every list (shorter than 2^31-1), every needle, every two comparisons, every bias", "why_tests_cant": "Quantifies over all changes to the other elements of all lists.", "anchors": ["src/binary_search.rs:search", "src/binary_search.rs:recursive_search"]}
{"id": "C88", "title": "An indexed map with one section at the start", "statement": "Wrapping a map as the only section, at offset (0,0), of an indexed map should change nothing. create_consumer opens both or panics alike for both, and after any history of calls original_position_for gives the same answer or panic as the plain map at every position after the first column of line 1; there, and for lines below 1 (where the plain map panics), it answers nothing. has_contents_of_all_sources is the same. source_content_for is the same except that where the plain map has nothing the indexed one panics, unless told not to.", "quantifier": "every map and every pair of texts for it, every history of calls, positions in the i32 range without the least number", "why_tests_cant": "Relates two consumers over all maps and all histories.", "anchors": ["src/consumer.rs:create_consumer", "src/consumer.rs:IndexedConsumer::original_position_for", "src/consumer.rs:IndexedConsumer::source_content_for", "src/consumer.rs:IndexedConsumer::has_contents_of_all_sources"]}
{"id": "C89", "title": "Exactly which plain maps open", "statement": "A map without sections whose sources and sourceRoot are plain references opens without a map URL if and only if every source has at least two characters and, under a sourceRoot, two characters are left of every path when the '/' in front, and then the dot segments and the characters '?' and '#', are taken away; otherwise create_consumer and new panic. So a/.. is fine without a root and fatal with one. The sources of the opened map are then the listed ones in order: the references without dot segments, paths resolved below the root (also those with a '/' in front), references with a host left at their host. Relative paths, and all paths under a root, lose '?' and '#', so that a.vue?x is listed as a.vuex.", "quantifier": "every map text, every list of relative paths, absolute paths, //host references and URLs as sources, with or without query and fragment (a path with one is not empty), no root or a plain root of any of these kinds, up to 2147483643 characters", "why_tests_cant": "Both directions over all lists of sources and all roots.", "anchors": ["src/consumer.rs:create_consumer", "src/consumer.rs:BasicConsumer::new", "src/util.rs:compute_source_url", "src/util.rs:join"]}
{"id": "C90", "title": "Any map can be copied with each_mapping and add_mapping", "statement": "Opening any well-formed v3 map, whoever wrote it, and adding what each_mapping reports (sources and names looked up by index) to a new generator succeeds, whatever was asked before. The copy holds exactly the mappings of the original, with the sources' URLs, in order of generated position, repeated neighbours once; if the original is in order and has at most one mapping per place the copy holds the same list. Sources and names that no mapping uses are left out.", "quantifier": "every well-formed map with valid indices, positions in i32 and steps below 2^30 (C86) in whatever order of equal places, at most 2^30 different sources and names; every history of calls; both build modes on both sides", "why_tests_cant": "All maps, including ones no generator writes.", "anchors": ["src/consumer.rs:BasicConsumer::each_mapping", "src/generator.rs:add_mapping", "src/generator.rs:as_json"]}
{"id": "C91", "title": "Backslashes in source names are slashes, but not in front", "statement": "A source name that is a plain path once its backslashes are slashes, and does not start with a backslash or with a slash and one, gets the same URL as the name with slashes, below any root and for any map URL; relative treats both spellings alike, and after any history a consumer finds both under the same index. A name with a backslash in front (also \\\\host\\share) counts as relative but is resolved from the root: the host is lost and every '..' of the name is put in front of the result again, so the two spellings get different URLs.", "quantifier": "every such name, every root and map URL, every history of queries", "why_tests_cant": "tests use forward slashes only; maps written on Windows have names like src\\a.js, and the kind of a reference is decided on the raw text while the URL library rewrites it", "anchors": ["src/util.rs:get_url_type", "src/util.rs:compute_source_url", "src/util.rs:relative", "src/consumer.rs:BasicConsumer::find_source_index"]}
{"id": "C92", "title": "Dots in a relative map URL bring in an internal name", "statement": "A relative map URL should mean what its normal form means. Let n be the number of '..' in its text (also those inside names, query and fragment), u the number of levels it leads up, and ds the directories it then leads down. The directory taken is n times '..' followed by n-u copies of an internal name (the first of p0, p1, ... not in the text), the names of ds, query and fragment, all run together; if these make up just the internal name it is lost together with one '..'. So d/../ee/f.map puts s.js at ../p0ee/s.js, and dist/app..map at ../p0dist/s.js. Without query and fragment, relative sources come out right exactly if n = u and there is at most one directory, or n = u+1 and there is none; there is a panic exactly if n = 0 and the directories have fewer than two characters together, or n = 1 and the names make up the internal name (d/../f.map, app..map, ../p/0/f.map); in all other cases the result is wrong.", "quantifier": "every plain relative map URL, with dot segments anywhere, every plain source, up to 2147483644 characters", "why_tests_cant": "All placements of dots.", "anchors": ["src/util.rs:TRIM_FILENAME", "src/util.rs:build_safe_base", "src/util.rs:compute_relative_url", "src/util.rs:compute_source_url"]}
{"id": "C93", "title": "File URLs keep their host and drive", "statement": "A source file:///src/a.js, file://host/src/a.js or file:///C:/src/a.js keeps its place below every plain root: only dot segments are removed, and '..' leads neither out of the host nor off the drive. A map URL with a scheme, a host or a leading slash does not change it either (except that a map URL whose directory has fewer than two characters panics). With such a URL as root, relative sources and sources with a leading slash are resolved in it, on the same host and drive; join does the same, returns a file URL as it is, and takes //localhost/a below a file URL for file:///a. A file URL without a drive as map URL is right with at most one directory and wrong with more, as for http (C36).", "quantifier": "every url crate meeting the stated contract, every plain root, file URL with or without drive, plain path, query and fragment", "why_tests_cant": "hosts, drives, dots and roots combine without end", "anchors": ["src/util.rs:compute_source_url", "src/util.rs:join", "src/util.rs:NORMALIZE", "src/util.rs:ENSURE_DIRECTORY"]}
{"id": "C94", "title": "Exactly which plain maps open under a map URL", "statement": "With a map URL that is a relative or absolute path, a //host reference, or a URL (http(s), file, webpack:// and the like), a map without sections opens if and only if it opens without one (C89) and either lists no sources, or two characters are left of the directory taken for the map URL and of every source in its root; otherwise create_consumer and new panic. So a map with the source a/.. opens, but not with a map URL, and with the map URL /f.map only maps without sources open. The directory taken is the one of C36 and C92 (names run together), and every map URL has exactly one. The listed sources are the ones of C89 resolved in that directory, in order.", "quantifier": "every map text, every list of plain sources, no root or a plain root of any kind, no map URL or a plain one, up to 2147483643 characters", "why_tests_cant": "The verdict depends on the lengths of texts after three successive resolutions; tests pick one map URL and one source.", "anchors": ["src/consumer.rs:BasicConsumer::new", "src/consumer.rs:create_consumer", "src/util.rs:compute_source_url"]}
{"id": "C95", "title": "Exactly which indexed maps open", "statement": "An indexed map opens under a given thread schedule if and only if its version is 3, no section has a url, every section map lists sources and all of them are acceptable under its sourceRoot and the map URL (C89, C94), in the order in which the threads take them no section starts before the one taken before (the first not before line -1, column 0), and, in a debug build, no offset is the largest i32; otherwise create_consumer and new panic. The sections are then in the order of the map at their offsets plus one (wrapping in a release build), each knows its sources as resolved in its root and the map URL, and get_sources of the indexed map lists them as written.", "quantifier": "every map text with sections, every schedule, every list of plain sources and roots, no map URL or a plain one", "why_tests_cant": "Needs every schedule and every combination of section errors; a test sees one schedule.", "anchors": ["src/consumer.rs:IndexedConsumer::from_source_map_json", "src/consumer.rs:create_consumer", "src/consumer.rs:IndexedConsumer::get_sources"]}
{"id": "C96", "title": "Exactly which source contents a generator with a sourceRoot can hold", "statement": "With a plain sourceRoot and plain file references of any kind (relative, from the root, //host, whole URL; dots, query and fragment allowed), producing the map succeeds exactly if no content is set or removed for a file of the same non-absolute kind as the root (two relative paths, two absolute paths, two //host URLs of one host), and whenever the JSON is produced either no content is left or no mapped source is of that kind; otherwise it panics. On success sourcesContent lists each source's last content under its name: the normalised reference, or, for a URL of the root's origin, the way from the root's directory to it with '?' and '#' dropped.", "quantifier": "every history of valid mappings with plain references, every plain root, both overflow modes", "why_tests_cant": "whether a history panics depends on every earlier call and on the kinds of all references together; examples cover single calls", "anchors": ["src/generator.rs:set_source_content", "src/generator.rs:generate_sources_contents", "src/generator.rs:as_json", "src/util.rs:relative"]}
{"id": "C97", "title": "Mappings with coordinates of any size", "statement": "In a build with overflow checks add_mapping (and MappingList::add) panics exactly when the mapping lies more than i32::MAX lines, or on the same line more than i32::MAX columns, before the latest mapping so far (the list starts with one at line -1, column -1); whenever to_array returns, it returns exactly the mappings added, in order of generated position, whatever their coordinates and fields. Without overflow checks nothing panics or is lost, but the order may be wrong (with coordinates so far apart that differences wrap, the comparison is no order; a standard library whose sort_by checks for that, from Rust 1.81 on, may panic instead). SourceMapGenerator::from_source_map and apply_sourcemap always panic.", "quantifier": "every history of a mapping list, every list of mappings added to a generator, no bound on coordinates beyond i32", "why_tests_cant": "All histories with coordinates over the whole i32 range.", "anchors": ["src/mapping_list.rs:MappingList::add", "src/mapping_list.rs:MappingList::to_array", "src/mapping_list.rs:generated_position_after", "src/util.rs:compare_by_generated_pos_inflated", "src/generator.rs:SourceMapGenerator::add_mapping", "src/generator.rs:SourceMapGenerator::from_source_map"]}
{"id": "C98", "title": "Inline maps: data: URLs as map URLs", "statement": "When a map is opened with a map URL that has a scheme but no \"//\" (a data: URL of an inline map, or anything like it), its text up to the last '/', with the other '/' removed, is taken for the directory of the map, one level up from where a relative map URL would be (and one more per \"..\" in the URL): with \"data:application/json;base64,eyJ2\" the source \"s.js\" becomes \"../application/s.js\". Of a text without '/', as in \"node:fs\", nothing is taken but one \"..\" per \"..\" in the URL and the query and fragment. Sources are resolved in that directory like in any other (C94); the plain map opens exactly if it lists no sources, or two characters are left of that directory and of every source in its root, and otherwise opening panics (so with \"node:fs\" only maps without sources open); the same for sections of indexed maps (C95). Every such URL has exactly one such directory.", "quantifier": "all plain sources and source roots of every kind, all schemes without special rules, texts, queries and fragments whose directory is of plain characters, both build profiles, total length below the largest i32", "why_tests_cant": "Tests open maps with http map URLs or without one; the base64 text of an inline map has a '/' in any position.", "anchors": ["src/util.rs:200-209", "src/util.rs:311-358", "src/consumer.rs"]}
{"id": "C99", "title": "Exactly which mappings can be written", "statement": "For mappings without negative coordinates, with any of original position, source and name missing: in a build with overflow checks producing the JSON succeeds exactly if every generated line is at least 1 and every mapping with a source has an original position (provided a mapping lacking it shares its generated position with no other; otherwise it can only succeed if one there has the same source and name, and an original position). Everything else is written in either build, whatever order the comparison makes of such mappings (C15); an original position or a name without a source is silently left out, and what is read back is, for every mapping added, its generated position alone if it has no source and otherwise all of it.", "quantifier": "every history of calls, any combination of fields, coordinates from 0 to i32::MAX (below 2^30 for reading back); no contents set if there is a source root (C61 does without)", "why_tests_cant": "The comparison is not transitive on such mappings, so the sorted order is not determined by the set of mappings; whether the result is right for every order and every combination of missing fields cannot be covered by examples.", "anchors": ["src/generator.rs:add_mapping", "src/generator.rs:serialize_mappings", "src/util.rs:compare_by_generated_pos_inflated"]}
{"id": "C100", "title": "Consumers on maps of mappings with any fields", "statement": "A map generated from mappings with any of original position, source and name missing can be opened unless a source has no URL, and each_mapping, original_position_for, generated_position_for and all_generated_position_for answer on it as if only what C99 leaves of the mappings had been added: a mapping that was given an original position but no source is an end of the mapping before it and nothing more. Names given without a source still count when names are numbered, so generated_position_for can answer with a name that no mapping of the map has.", "quantifier": "every history of calls on the generator, any combination of fields, coordinates from 0 up to 2^30, every history of calls on the consumer, every position and bias, any url crate and any source-map-mappings crate that keep their contracts; no contents set if there is a source root (C61 does without)", "why_tests_cant": "Which of the fields a generator's user fills in differs from tool to tool; the answers depend on all mappings, on the order the sort makes of them and on the numbering of names.", "anchors": ["src/generator.rs:serialize_mappings", "src/consumer.rs:original_position_for", "src/consumer.rs:generated_position_for", "src/consumer.rs:all_generated_position_for", "src/consumer.rs:each_mapping"]}
{"id": "C101", "title": "There and back between generated and original positions", "statement": "Users expect the two queries to be inverse. The generated position that generated_position_for answers has, by original_position_for, no original position, whatever the bias; in fact no place where a mapping starts has one. The other way round, the source and original position that original_position_for answers lead generated_position_for back to a mapping with that source and original position: the one that was found, if there is no other, on the line after the one asked for. It answers with the name that has the number of the source and an original line one too small, and panics if there is no such name.", "quantifier": "every map whose sources are listed without repetition and found by the listed URL (C57, C71), every history of calls before and between the two queries, every position and bias", "why_tests_cant": "A test asks both ways at one place of one map; that no place of any map can be reached both ways needs all maps and positions.", "anchors": ["src/consumer.rs:original_position_for", "src/consumer.rs:generated_position_for"]}
{"id": "C102", "title": "What a name finds, for references of every kind", "statement": "find_source_index takes the name first as if the map had no root, relative to the map URL the consumer has kept, and answers with the first listed source of that URL; if there is none it takes the name in the root; it panics exactly if fewer than two characters are left of what it has to resolve on the way, and answers nothing otherwise. It does so after any history of calls. In a consumer that has kept the map URL the name written in the map finds a source (its own or another one at the place the name means without the root), unless nothing is left of the name there, in which case the lookup panics although the source is listed. The URL a source is listed with finds the first source listed with it, unless it is relative and the map URL has been kept, or shorter than two characters (or dots are all that the lost '?' and '#' leave of a file name).", "quantifier": "any sources, root and name that are relative paths, paths from the root, '//host' references or URLs of plain parts, no map URL or one of any of these kinds or like a data: URL, whether kept or not, every history of calls, fewer than 2^31 sources, any url crate that keeps its contract", "why_tests_cant": "Name, root, map URL and listed sources can each be of five kinds, and the two attempts interact with what happens to be listed; a test fixes one combination.", "anchors": ["src/consumer.rs:find_source_index", "src/util.rs:compute_source_url"]}
{"id": "C103", "title": "Names that find the same source can be exchanged", "statement": "Several names can find the same source (C102: \"a/b.js\", \"a/./b.js\", the listed name, ...). Exchanging such names in the calls made on a consumer changes nothing: the same calls panic, with the same panic, and afterwards get_sources, original_position_for, generated_position_for, all_generated_position_for, source_content_for, has_contents_of_all_sources and each_mapping give the same answers, under any of the names; so the cache of looked-up names is never visible. In an indexed map, names that find the same in every section have the same source_content_for. Names that are spellings of one place (equal after resolution, without the root and in it) find the same.", "quantifier": "every opened consumer, every history of calls and every exchange of names in it, all arguments", "why_tests_cant": "the cache could hold an index under one name and be consulted under another; no test looks a source up under two names", "anchors": ["src/consumer.rs:184-224 find_source_index", "src/consumer.rs:236-276 all_generated_position_for", "src/consumer.rs:352-447 source_content_for, generated_position_for", "src/consumer.rs:662-682 IndexedConsumer::source_content_for"]}
{"id": "C104", "title": "Lines put in front of the code only add semicolons", "statement": "Making the same calls on a generator with all generated lines k further down (a banner of k lines) gives, in both build profiles, the same map except that k semicolons stand before its mappings (and the same map if no mapping was added). Conversely, of two consumers opened on a map and on the same map with k semicolons in front, each_mapping of the second reports the mappings of the first, k lines further down, in some order and last columns aside; where no two mappings start at one place, original_position_for k lines further down answers the same, k lines further down, with the same panics; where no two mappings have one original place, generated_position_for answers the same for every source, known or not, k lines further down. Earlier calls on either consumer, which may be different ones, do not matter.", "quantifier": "every history of generator calls with lines from 1 up that leave room for k more; every k >= 0; every canonical mappings text whose numbers, also further down, are below 2^31, fewer than 2^31 sources, any two histories of calls on the two consumers, all positions and biases", "why_tests_cant": "the line is counted in several places (the writer's loop, the decoder, two conversions between 0- and 1-based lines); tests use few fixed lines", "anchors": ["src/generator.rs:101-161 serialize_mappings", "src/generator.rs:184-205 as_json", "src/consumer.rs:292-343 original_position_for", "src/consumer.rs:375-447 generated_position_for", "src/consumer.rs:456-486 each_mapping"]}
{"id": "C105", "title": "What the sources and names are called does not matter", "statement": "Making the same calls on a generator with other names for the files and for the names, distinct ones staying distinct, gives in both build profiles the same result, panics included, except that the lists of sources and names hold the new names: the mappings, the contents, their order and the order of the lists are unchanged. This holds if the mappings were added in order of generated position, or if mappings at one place compare under the new names as under the old; without contents or without a source root. Otherwise what files are called decides which of two mappings at one place is written first, and with a source root contents are found by the name relative to it (both refuted by witnesses).", "quantifier": "every history of generator calls (mappings, contents, earlier JSON), every renaming that is one-to-one on the names used, any source root when no contents are set", "why_tests_cant": "tests fix the names; an index taken from a sorted or hashed list instead of the order of first use, or contents looked up under another name, would show only for some names", "anchors": ["src/generator.rs:40-60 add_mapping", "src/generator.rs:62-74 set_source_content", "src/generator.rs:101-161 serialize_mappings", "src/generator.rs:163-205 generate_sources_contents, as_json", "src/array_set.rs ArraySet"]}
{"id": "C106", "title": "Consumers answer by index: what a map's sources and names are called only shows in the answers' words", "statement": "Take two consumers, opened in any way on maps that have the same mappings text and contents; the sources listed by get_sources and the names of the second are those of the first under some renaming (of any kind, distinct ones may even get the same name), while source root, map URL, file and the rest may differ. Make the same calls on both, naming sources by any names that find the same index (or both nothing) in their consumer. Then the same calls panic, with the same panic, and afterwards all answers are the same up to the renaming: original_position_for and generated_position_for (with last columns), while all_generated_position_for, each_mapping, source_content_for and has_contents_of_all_sources are equal. This does not depend on any assumption about the url or source-map-mappings crates.", "quantifier": "any two opened consumers of such maps, every pair of corresponding histories, all positions, biases and orders; every library for mappings and for URLs", "why_tests_cant": "metamorphic: a lookup by text instead of index, a name taken from the wrong list, or an answer that depends on the source root would show only for some names", "anchors": ["src/consumer.rs:184-224 find_source_index", "src/consumer.rs:236-276 all_generated_position_for", "src/consumer.rs:292-343 original_position_for", "src/consumer.rs:352-447 source_content_for, generated_position_for", "src/consumer.rs:456-469 each_mapping"]}
{"id": "C107", "title": "Where the sections of an indexed map start matters only relative to each other and to the position asked about", "statement": "Take an indexed map, and the same map with k added to the line of every section offset (k of any sign). As long as all lines stay between 0 and i32::MAX - 1 before and after, the two behave alike under every schedule of the section threads, in debug and release builds: opening succeeds for both or panics with the same panic for both; any sequence of calls to get_sources, original_position_for, has_contents_of_all_sources, source_content_for, generated_position_for, all_generated_position_for, computed_column_spans and each_mapping ends in the same panic or in none, if the second consumer's original_position_for calls ask k lines further down; and afterwards original_position_for answers at (line + k, column) exactly what the first consumer answers at (line, column) — including the generated position in the answer, which the code leaves relative to the section — and all other calls answer the same. Nothing is assumed about the url crate or about the library for mappings.", "quantifier": "all indexed maps, shifts k, thread schedules, map URLs, call histories, positions and biases, both build modes", "why_tests_cant": "A test fixes one offset; an absolute line that slips into a comparison only shows at particular lines", "anchors": ["src/consumer.rs:495-573 IndexedConsumer::from_source_map_json", "src/consumer.rs:603-648 original_position_for", "src/consumer.rs:576-601 get_sources", "src/consumer.rs:652-871 the other calls", "src/binary_search.rs:77-111 search"]}
{"id": "C108", "title": "What changes when a map becomes the only section of an indexed map", "statement": "Put a plain map into an indexed map as its only section, at an offset that is not negative. The indexed map opens if and only if the plain map opens (from_source_map_json, same map URL), with the same panic otherwise. After any history of calls that return, original_position_for at a position after the offset answers exactly what the plain map's consumer answers at the position counted from the offset (with the generated position of the answer still counted from the offset), in the state the same history leaves it in: compute_column_spans, source_content_for and the lookups after the offset passed on, everything else not. At the offset itself and before it the answer is nothing; so at the offset (0,0) only the first column of the first line is lost. has_contents_of_all_sources answers the same; source_content_for the same, except that a missing list of contents panics when panic_on_missing is not Some(false); get_sources answers with the sources as written in the map instead of their URLs; generated_position_for and all_generated_position_for panic with the failed borrow_mut and each_mapping with the failed borrow, always. Nothing is assumed about the url crate or about the library for mappings.", "quantifier": "all maps, offsets from (0,0), map URLs, histories of calls, positions from line 1 and column 0, both build modes", "why_tests_cant": "metamorphic: relates two consumers over all histories; a test would compare a few positions and miss the lost first column", "anchors": ["src/consumer.rs:495-573 IndexedConsumer::from_source_map_json", "src/consumer.rs:603-648 original_position_for", "src/consumer.rs:576-601 get_sources", "src/consumer.rs:652-682 has_contents_of_all_sources, source_content_for", "src/consumer.rs:684-871 the other calls"]}
{"id": "C109", "title": "Calls that leave no trace", "statement": "On a BasicConsumer, original_position_for, source_content_for and each_mapping in generated order change nothing a later call could show: take such calls out of any history that does not panic and the rest does not panic either, and every question (original_position_for, generated_position_for, all_generated_position_for, each_mapping in both orders, source_content_for, get_sources, has_contents_of_all_sources) is then answered as with them; two histories that differ only in such calls therefore end alike. On an IndexedConsumer computed_column_spans is the only call that matters: after two histories that both contain it, or both do not, every call is answered alike. And the answer of original_position_for for a position in a section is the one a fresh consumer of that section's own map gives for the position counted from its offset, on which at most compute_column_spans was called: neither the other sections' maps nor the other calls matter. None of this needs anything of the parser's or the url library's behaviour.", "quantifier": "all maps, all histories that do not panic, all offsets in order, all positions in reach, both build modes, all crates' behaviours", "why_tests_cant": "The mappings are parsed lazily by whichever call comes first and the look-up cache is filled on the way, so every order of calls takes another path through the state; tests ask one question on a fresh consumer.", "anchors": ["src/consumer.rs:184-224", "src/consumer.rs:292-373", "src/consumer.rs:456-469", "src/consumer.rs:603-682", "src/consumer.rs:807-811"]}
{"id": "C110", "title": "A consumer goes on answering after a caught panic", "statement": "A program that catches the panics of a consumer's calls can go on using the consumer. After any calls on a BasicConsumer, whichever of them panicked, sources and contents are found as in a fresh consumer, each_mapping reports the mappings of the map, and original_position_for, generated_position_for and all_generated_position_for answer from the mappings reported. A call that panicked, other than generated_position_for, leaves no trace: all questions are answered as before it. If no generated_position_for panicked, the answers are those of a consumer on which only the calls that passed were made. An IndexedConsumer answers as if at most computed_column_spans had been called on it. If that call panics at one section, the sections before it keep their spans and the others are as if it had not been called: a position is answered as by a consumer of its section's own map, with its spans exactly if computed_column_spans was called and it passes on the maps of the sections up to this one.", "quantifier": "All consumers opened from any map, all histories of calls and all positions and sources afterwards, in both build modes; every parser of mappings and every URL crate (the answers of each_mapping and of the three lookups under the contract of the parser).", "why_tests_cant": "The tests stop at the first panic.", "anchors": ["src/consumer.rs:184-224", "src/consumer.rs:236-343", "src/consumer.rs:352-447", "src/consumer.rs:456-469", "src/consumer.rs:603-682", "src/consumer.rs:807-811"]}
{"id": "C111", "title": "A generator goes on working after a caught panic", "statement": "A program that catches the panics of a SourceMapGenerator's calls can go on using the generator. If the mappings passed to add_mapping are ones the format can express, calls that panicked (set_source_content or as_json, because of the source root) leave no trace: the generator is the one on which only the other calls were made, it holds all the mappings, and when as_json passes its text reads back as exactly these mappings. For any mappings, the sources and names written are those of all add_mapping calls, in order of first occurrence, also of those that panicked, while the mappings held are those of the calls that passed; a debug build writes these in order, also after a panic while they were being sorted, and refuses the next mapping exactly if it lies too far before the latest of them; in release builds no add_mapping panics. Without a source root the contents written are those last set; with one, a set_source_content passes exactly if the source has a path relative to the root, whatever panicked before, and the contents written are those last set by the calls that passed, under every spelling with the same relative path. An as_json that panics, other than by comparing mappings while sorting them, panics again in the same way when it is called again.", "quantifier": "All histories of calls on a new generator, any of which may panic, with any file, root and mappings, in both build modes, for every URL crate.", "why_tests_cant": "The tests stop at the first panic; add_mapping lists the source and the name before it compares the mapping with the last one, which only a debug build refuses, and only for positions 2^31 apart.", "anchors": ["src/generator.rs:40-60", "src/generator.rs:62-74", "src/generator.rs:184-205", "src/mapping_list.rs:45-80"]}
{"id": "C112", "title": "What a generated map depends on", "statement": "Two generators with the same file and source root that were given the same mappings, at distinct generated positions but in any order, whose sources and names were first used in the same order and whose contents last set are the same (with a source root: for every path relative to it), produce the same JSON, or panic alike: the order of the other calls, contents that were overwritten and JSON produced earlier do not matter. In a build with overflow checks this holds for mappings with coordinates of any size if both produce JSON. If sources and names were first used in other orders, the lists are permuted and the text differs, but the same mappings are read from both, and consumers opened on the two, after any calls, answer original_position_for alike, last columns aside (or included, once column spans were computed). For a name that finds the same source in both, all_generated_position_for gives the same mappings at a place that has some, and the answers of generated_position_for, if both maps give one and no two mappings share an original position in that source, differ at most in name and last column; but whether it panics can depend on the order (it looks names up by the number of the source, C67; refuted by a witness). Mappings that share a generated position are written in the order of the calls (refuted by a witness).", "quantifier": "all pairs of histories of calls that return, with mappings at distinct generated positions with coordinates from 0 to i32::MAX (any coordinates in debug builds; valid mappings with steps below 2^30 for reading back), every file, source root and url crate, both build modes", "why_tests_cant": "it compares all orders of adding the same mappings; a test fixes one order", "anchors": ["src/generator.rs:40-74 add_mapping, set_source_content", "src/generator.rs:101-205 serialize_mappings, generate_sources_contents, as_json", "src/mapping_list.rs:45-82 add, to_array", "src/consumer.rs:292-343 original_position_for"]}
{"id": "C113", "title": "More mappings change only the answers they give", "statement": "Take two generators with the same source root, the second with the mappings of the first and some more (added at any point), and consumers opened on both under the same map URL, after any calls. If no two of the mappings share a generated position, original_position_for answers alike on both, last columns aside, at every position for which none of the new mappings is the nearest. If a name finds the same source in both and no two mappings share an original position in it, generated_position_for, where both answer, gives the same generated and original position and source unless a new mapping is the nearest; if the new mappings were added by later calls, the second consumer answers whenever the first does, and with the same name. all_generated_position_for, at a place where the first map has mappings, gives these and the new ones at that place. But more mappings can take an answer away: only mappings of the next line are answers (C40), and a new mapping on the line asked about hides them (refuted by a witness).", "quantifier": "all pairs of histories of calls that return, with valid mappings and steps below 2^30, every source root, map URL and url crate, every mapping library that keeps its contract, all positions and biases, both build modes", "why_tests_cant": "it compares the answers of two maps at every position; a test asks about a few positions of one map", "anchors": ["src/generator.rs:40-60 add_mapping", "src/consumer.rs:292-343 original_position_for", "src/consumer.rs:375-447 generated_position_for", "src/consumer.rs:236-276 all_generated_position_for"]}
{"id": "C114", "title": "Which fields of a map a consumer reads", "statement": "Positions: take two plain maps with the same sources, source root, names and mappings, whatever their versions, files and contents. Opened under the same map URL (by new, from_source_map_json or create_consumer) both consumers open or both panic alike; any calls but source_content_for then return on both or panic alike on both, and leave consumers that give the same get_sources, original_position_for, generated_position_for, all_generated_position_for and each_mapping answers. Texts: two plain maps with the same sources, source root and contents, whatever their names and mappings (malformed ones too), give the same source_content_for and has_contents_of_all_sources answers. Indexed maps with the same version and sections answer every query alike, whatever else they say; of a section only its offset, whether it has a url, and its map's sources, root, names, mappings and contents matter. A plain map's version is not looked at; an indexed map's is.", "quantifier": "all pairs of maps, including malformed ones; every map URL, url crate and mapping library; all sequences of calls; both build modes", "why_tests_cant": "it compares two maps that differ in fields that must not matter; a test looks at one map at a time", "anchors": ["src/consumer.rs:17-31 create_consumer", "src/consumer.rs:151-175 from_source_map_json", "src/consumer.rs:495-574 from_source_map_json", "src/consumer.rs:292-343 original_position_for", "src/consumer.rs:352-373 source_content_for"]}
{"id": "C115", "title": "Only the map of the section a position lies in matters", "statement": "A position of an indexed map lies in the last section that starts strictly before it (the first of several at one offset), which is one section at most. Take two positions, in one or two indexed maps opened under the same URL, that lie in sections whose maps have the same sources, source root, names and mappings, at the same place counted from the offset: original_position_for gives the same answer or the same panic, whatever the other sections and the calls made before (computed_column_spans on both or on neither). So sections added behind a position, or in front of the section it lies in, do not change its answer.", "quantifier": "all pairs of indexed maps with offsets below i32::MAX opened in order, all positions for which no difference taken overflows, all histories that return, all biases, every url crate and mapping library, both build modes", "why_tests_cant": "it compares maps with any number of sections; a test has a few sections and asks about a few positions", "anchors": ["src/consumer.rs:495-574 from_source_map_json", "src/consumer.rs:603-650 original_position_for"]}
{"id": "C116", "title": "Indexed maps put one behind the other", "statement": "Take two lists of sections and the indexed maps with the first list, with the second, and with the second behind the first, opened in order under one URL. The joined map opens exactly when both maps do and no section of the second starts before one of the first. After any calls its get_sources are those of the first map and then those of the second; its contents are complete exactly when those of both are; source_content_for with panics disabled answers, or panics, as the first map does, and as the second where the first answers None; and a text the first map finds, with any setting, is found in the joined map too. (For positions see C115.) With the default setting texts of the second map need not be found.", "quantifier": "all pairs of lists of sections with i32 offsets and fewer than 2^31 sources each, all histories that return, every url crate and mapping library, both build modes", "why_tests_cant": "it compares three maps with any number of sections", "anchors": ["src/consumer.rs:495-574 from_source_map_json", "src/consumer.rs:576-601 get_sources", "src/consumer.rs:652-660 has_contents_of_all_sources", "src/consumer.rs:662-682 source_content_for"]}
{"id": "C117", "title": "Answers never cross", "statement": "On one map without sections, after any calls and with one bias: if original_position_for answers for two positions, the answer for the later position is a mapping at or behind the answer for the earlier one. If generated_position_for answers for two original positions of one source, the reported original positions are in the same order too. And where generated_position_for finds nothing, it finds nothing further on in the direction of the bias (before the position for the greatest lower bound, behind it for the least upper bound). In a map with sections the reported generated positions do cross, since they are positions within the section (refuted by a witness).", "quantifier": "every readable map with fewer than 2^31 sources and places below 2^31, all histories that return, all pairs of positions, both biases, every url crate, every mapping library that keeps its contract, both build modes", "why_tests_cant": "it relates the answers for all pairs of positions, after different calls; a test compares single answers with expected ones", "anchors": ["src/consumer.rs:292-343 original_position_for", "src/consumer.rs:375-447 generated_position_for"]}
