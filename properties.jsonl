{"id": "C01", "title": "Parser accepts exactly the documented token-stream language", "statement": "TokenParser.parse succeeds on a string exactly when the string is a sequence of `name { key: \"value\" ... }` tokens separated by spaces (names and keys are non-empty runs of ASCII letters and underscores, values are quoted with backslash escapes for quote and backslash, no key twice in one token), and then returns exactly the tokens that reading of the string denotes; no string has two readings.", "quantifier": "all input strings over all code points", "why_tests_cant": "the input space is infinite; the accept/reject boundary is a language, not a list of cases", "anchors": ["tn/token_parser.py:TokenParser.parse", "tn/token_parser.py:TokenParser.parse_key", "tn/token_parser.py:TokenParser.parse_value"]}
{"id": "C02", "title": "Parser is total: tokens or TokenParseError, never another exception or a hang", "statement": "For every string, TokenParser.parse terminates and either returns tokens or raises TokenParseError; no index error and no non-termination is possible, whatever the truncation point.", "quantifier": "all input strings, including every truncation of every valid stream", "why_tests_cant": "an unguarded index or a loop at end of input shows only on the one input that reaches it", "anchors": ["tn/token_parser.py:TokenParser.read", "tn/token_parser.py:TokenParser.parse_chars", "tn/token_parser.py:TokenParser.parse"]}
{"id": "C03", "title": "Field-value escaping is lossless and self-delimiting", "statement": "Escaping any value and reading it back as a quoted field value returns the original value and stops exactly at the closing quote; no value can end its own field early or swallow what follows.", "quantifier": "all values over all code points, all following texts", "why_tests_cant": "quotes, backslashes and their runs combine without bound", "anchors": ["tn/token_parser.py:escape_value", "tn/token_parser.py:TokenParser.parse_value"]}
{"id": "C04", "title": "Serialising then parsing tokens is the identity", "statement": "For every list of well-named tokens with distinct keys and arbitrary values, parsing the tokens' serialised form gives back tokens with the same names and the same key/value pairs in the emitted order.", "quantifier": "all token lists", "why_tests_cant": "values are arbitrary strings, lists are unbounded", "anchors": ["tn/token_parser.py:Token.string", "tn/token_parser.py:TokenParser.parse"]}
{"id": "C05", "title": "Repeated keys in one token are always rejected", "statement": "A token that names the same key twice is never accepted, wherever the two occurrences are and whatever their values; conversely distinct keys are never rejected as duplicates.", "quantifier": "all token streams with a repeated key", "why_tests_cant": "positions and number of fields are unbounded", "anchors": ["tn/token_parser.py:Token.append"]}
{"id": "C06", "title": "Reordering loses, invents and alters nothing", "statement": "TokenParser.reorder returns a stream whose tokens have, position by position, the same name and the same multiset of key/value pairs as the input stream.", "quantifier": "all accepted streams, all shipped schemas and every duplicate-free custom schema", "why_tests_cant": "field loss depends on combinations of schema, extra keys and absent keys", "anchors": ["tn/token_parser.py:Token.string", "tn/token_parser.py:TokenParser.reorder"]}
{"id": "C07", "title": "Reordering puts schema fields first in schema order, extras after in source order, and preserve_order disables it", "statement": "In the reordered stream the fields named by the token's schema come first, in schema order, followed by the remaining fields in source order; a token carrying preserve_order \"true\", or whose name has no schema, keeps its source order.", "quantifier": "all accepted streams, all schemas", "why_tests_cant": "order is a relation over every pair of fields", "anchors": ["tn/token_parser.py:Token.string", "tn/token_parser.py:TN_ORDERS", "tn/token_parser.py:ITN_ORDERS", "tn/token_parser.py:EN_TN_ORDERS"]}
{"id": "C08", "title": "Reordering is idempotent", "statement": "Reordering the output of reorder (of a stream with at least one token) succeeds and returns the same string.", "quantifier": "all accepted streams, all duplicate-free schemas", "why_tests_cant": "needs every combination of escapes, orders and spacing to reach a fixed point in one step", "anchors": ["tn/token_parser.py:TokenParser.reorder"]}
{"id": "C09", "title": "Serialised token spans are exact", "statement": "The spans reorder_with_spans returns are one per token, in order; slicing the returned string with them gives exactly each token's own text; consecutive spans are separated by exactly one space, and together they cover the whole string.", "quantifier": "all accepted streams", "why_tests_cant": "offset arithmetic must hold for any number and length of tokens", "anchors": ["tn/token_parser.py:TokenParser.reorder_with_spans"]}
{"id": "C10", "title": "Parsed token source spans are exact", "statement": "Each parsed token's (start, end) delimits, in the source string, text that itself parses to just that token; spans are ordered, disjoint, in bounds, and only spaces lie outside them.", "quantifier": "all accepted streams", "why_tests_cant": "the end-of-input case and spacing change the offsets", "anchors": ["tn/token_parser.py:TokenParser.parse"]}
{"id": "C11", "title": "Character and byte offsets of UTF-8 text convert losslessly", "statement": "The byte/character boundary tables built for a text are strictly increasing, mutually inverse, start at 0 and end at the byte (character) length; a byte offset is in the table exactly when it does not split a character.", "quantifier": "all texts over all Unicode scalar values", "why_tests_cant": "1-4 byte characters in any mixture", "anchors": ["tn/alignment.py:_text_boundaries", "tn/alignment.py:_character_spans_to_byte_spans"]}
{"id": "C12", "title": "Traced input spans are non-empty, ordered, disjoint and character aligned", "statement": "Whenever trace_input_spans returns, it returns one span per token, every span is non-empty, lies inside the input, falls on character boundaries, and spans are in token order without overlap.", "quantifier": "all inputs, all token layouts, all transduction paths (any placement of epsilons)", "why_tests_cant": "the path is chosen by an optimiser; label placement is unbounded", "anchors": ["tn/alignment.py:trace_input_spans"]}
{"id": "C13", "title": "Traced input spans attribute every consumed byte to the right token", "statement": "An input byte belongs to token k exactly when it is consumed by a step taken strictly inside token k's text or emitting its first byte (whitespace deleted before anything else of the token excepted), or, if not whitespace, by the step emitting the separator just before it; a token's span is the smallest interval containing its bytes; alignment fails exactly when some token has no byte or an end point splits a character.", "quantifier": "all paths", "why_tests_cant": "needs all interleavings of consuming and emitting steps", "anchors": ["tn/alignment.py:trace_input_spans"]}
{"id": "C14", "title": "Output spans are ordered, disjoint, in bounds and character aligned; the overlap error is unreachable", "statement": "Whenever transduce_with_spans returns, it returns one output span per token, ordered, disjoint, within the output and on character boundaries; the error raised for out-of-order output can never happen on a path that reads the serialised tokens.", "quantifier": "all serialised texts, span layouts and paths", "why_tests_cant": "same as above", "anchors": ["tn/alignment.py:transduce_with_spans"]}
{"id": "C15", "title": "Every output byte is attributed as documented", "statement": "Output emitted inside a token's serialised text belongs to that token; a visible character emitted between tokens belongs to the preceding token; a token that emits nothing gets an empty span at the output position where its text was left; no two tokens share an output byte.", "quantifier": "all paths", "why_tests_cant": "same as above", "anchors": ["tn/alignment.py:transduce_with_spans"]}
{"id": "C16", "title": "Mappings reported by normalize_with_mapping are consistent with the texts", "statement": "Every reported mapping's input_text and output_text are the slices of the input and output at the reported offsets, kind is `equal` iff the slices agree, `delete` iff the output slice is empty (and the input one is not), `replace` otherwise; mappings are in text order without overlap on either side; include_identity=True reports every token and False exactly those not `equal`.", "quantifier": "all inputs, candidates and paths", "why_tests_cant": "offset consistency is a for-all statement over strings", "anchors": ["tn/processor.py:Processor._normalize_candidate_with_mapping"]}
{"id": "C17", "title": "Mapping and normalize agree on the outputs", "statement": "For the same input and n, the outputs of normalize_with_mapping are the outputs of normalize, in the same order.", "quantifier": "all inputs and n, all lattices", "why_tests_cant": "two code paths share one search", "anchors": ["tn/processor.py:Processor.normalize", "tn/processor.py:Processor.normalize_with_mapping", "tn/processor.py:Processor._normalization_candidates"]}
{"id": "C18", "title": "The path walker returns the single linear path or rejects", "statement": "The arc walker terminates on every machine: on an acyclic chain it yields exactly the chain's arcs in order; it rejects branching, cycles and a missing final state.", "quantifier": "all finite machines", "why_tests_cant": "cycle and branching shapes are unbounded", "anchors": ["tn/alignment.py:_linear_arcs"]}
{"id": "C19", "title": "n-best is exactly the best n distinct outputs of all (tag, verbalisation) pairs", "statement": "_normalization_candidates returns, for finite lattices, the first n distinct output strings of the list of all joint candidates sorted by joint weight, then tag rank, then verbalisation rank; the lazy search never returns a candidate too early or misses one.", "quantifier": "all finite lattices, all weights with exact arithmetic, all n", "why_tests_cant": "a best-first frontier bug needs a particular weight pattern", "anchors": ["tn/processor.py:Processor._normalization_candidates", "tn/processor.py:_NormalizationCandidate.weight"]}
{"id": "C20", "title": "n-best outputs are pairwise different, ordered by cost, and short only when exhausted", "statement": "The returned outputs are pairwise distinct, their joint weights never decrease, there are at most n, and there are fewer than n only if no other output exists.", "quantifier": "all finite lattices and n", "why_tests_cant": "same as above", "anchors": ["tn/processor.py:Processor._normalization_candidates"]}
{"id": "C21", "title": "n-best lists are prefix stable", "statement": "For n <= m, the candidates for n are the first n candidates for m; in particular the first candidate is what normalize(text) returns.", "quantifier": "all finite lattices and n <= m", "why_tests_cant": "quantifies over pairs of runs", "anchors": ["tn/processor.py:Processor._normalization_candidates", "tn/processor.py:Processor.normalize"]}
{"id": "C22", "title": "The incremental path stream enumerates every distinct output once, by non-decreasing weight", "statement": "Popping the path stream until it is exhausted yields each distinct output string of the lattice exactly once with its best weight, in non-decreasing weight order, even if successive shortest-path calls break ties differently; a pop returns nothing only when every output has been returned.", "quantifier": "all lattices, all tie-breaking histories of the shortest-path oracle, all numbers of pops", "why_tests_cant": "tie-breaking by the external library is not controllable in tests", "anchors": ["tn/processor.py:_UniqueOutputPathStream"]}
{"id": "C23", "title": "normalize(x) is verbalize(tag(x)) whenever the best tag can be verbalised, and otherwise falls back", "statement": "normalize(x) is a cheapest verbalisation of a cheapest tagging that can be verbalised at all. When the cheapest tagging and its cheapest verbalisation are unique this is verbalize(tag(x)); when the cheapest tagging cannot be verbalised, verbalize(tag(x)) raises but normalize(x) returns the best verbalisable alternative when one exists.", "quantifier": "all lattices", "why_tests_cant": "needs ambiguous lattices of every shape", "anchors": ["tn/processor.py:Processor.normalize", "tn/processor.py:Processor.tag", "tn/processor.py:Processor.verbalize"]}
{"id": "C24", "title": "The n-best search terminates and fails only when nothing can be verbalised", "statement": "For finite lattices the candidate search terminates, and it raises exactly when no tag has any verbalisation.", "quantifier": "all finite lattices and n", "why_tests_cant": "termination", "anchors": ["tn/processor.py:Processor._normalization_candidates"]}
{"id": "C25", "title": "Argument validation of n-best", "statement": "An n that is a bool, not an integer, or below one is rejected before any work, every positive integer is accepted; an empty text returns the documented empty result.", "quantifier": "all argument values", "why_tests_cant": "integers are unbounded", "anchors": ["tn/processor.py:Processor._validate_nbest", "tn/processor.py:Processor.tag", "tn/processor.py:Processor.normalize", "tn/processor.py:Processor.normalize_with_mapping"]}
{"id": "C26", "title": "A loaded bundle is exactly a published one", "statement": "CacheBundle.load returns graphs only if the directory holds exactly the three expected files, the manifest identity equals the requested one and each graph file has the recorded size and digest; hence, for a collision-free digest, the bytes returned are the bytes that were published for that identity.", "quantifier": "all directory contents, all tampering of files after publication", "why_tests_cant": "arbitrary corruption", "anchors": ["tn/cache.py:CacheBundle._load_path", "tn/cache.py:CacheBundle.load"]}
{"id": "C27", "title": "No partial or mixed bundle is ever visible at the bundle path", "statement": "In every reachable state of any number of processes publishing, repairing, recovering and loading the same key, including crashes between any two file operations, the bundle path is absent or holds one complete publication.", "quantifier": "all schedules, all crash points, any number of processes", "why_tests_cant": "schedules and crash points are unbounded", "anchors": ["tn/cache.py:CacheBundle.publish", "tn/cache.py:CacheBundle.recover_residuals", "tn/cache.py:CacheBundle.remove_invalid"]}
{"id": "C28", "title": "Lock-free readers get a consistent pair or nothing", "statement": "A load that runs without the lock, concurrently with any number of writers, returns either nothing or the tagger and verbalizer of one single publication.", "quantifier": "all interleavings of a reader's individual reads with writers' steps", "why_tests_cant": "interleavings", "anchors": ["tn/cache.py:CacheBundle._load_path", "tn/processor.py:Processor.build_fst"]}
{"id": "C29", "title": "A crash never loses the last good bundle", "statement": "Once a complete bundle has been published, after any crash during a later overwrite the next recovery under the lock restores a complete bundle without rebuilding.", "quantifier": "all crash points of publish", "why_tests_cant": "the window between two renames", "anchors": ["tn/cache.py:CacheBundle.publish", "tn/cache.py:CacheBundle.recover_residuals"]}
{"id": "C30", "title": "A failing publish leaves the previous bundle in place", "statement": "If any file operation of publish raises, the bundle path afterwards holds the previous bundle when there was one (unless restoring itself fails), and the temporary directory is not left visible as a bundle.", "quantifier": "all failure points, all retry counts", "why_tests_cant": "fault injection points multiply", "anchors": ["tn/cache.py:CacheBundle.publish", "tn/cache.py:CacheBundle._replace_with_retry"]}
{"id": "C31", "title": "Builders are mutually exclusive and a fresh cache is built once", "statement": "Two processes never hold the build lock of a key together; when several processes ask for the same key without overwrite and none crashes, at most one of them builds and the others load what it published.", "quantifier": "all schedules and process counts", "why_tests_cant": "schedules", "anchors": ["tn/cache.py:CacheBundle.lock", "tn/processor.py:Processor.build_fst"]}
{"id": "C32", "title": "Cache cleanup never touches anything but the three known plain files of a residual", "statement": "Removing a residual bundle unlinks only links (the links themselves) and regular files named like bundle files, in the directory it has checked, never recurses, and leaves the directory untouched when it finds anything else; something that is not a directory is left alone.", "quantifier": "all directory trees and link placements", "why_tests_cant": "filesystem shapes", "anchors": ["tn/cache.py:_remove_flat_bundle", "tn/cache.py:_remove_flat_bundle_impl"]}
{"id": "C33", "title": "Different configurations never share a cache entry", "statement": "Two bundles with different prefix, configuration, source fingerprint, schema or builder identity have different bundle paths, for a collision-free digest; equal configurations have the same path whatever the key order they were written in.", "quantifier": "all configurations", "why_tests_cant": "pairs of configurations", "anchors": ["tn/cache.py:CacheBundle.__init__", "tn/cache.py:_canonical_json", "tn/processor.py:Processor.build_fst"]}
{"id": "C34", "title": "Source fingerprint reacts to edits", "statement": "Changing the content of one source file, or adding or renaming one file, changes the hashed stream; (refuted in general: the framing omits content lengths, so some pairs of different trees hash the same stream).", "quantifier": "all source trees, all edits", "why_tests_cant": "pairs of trees", "anchors": ["tn/cache.py:production_source_fingerprint"]}
{"id": "C35", "title": "File reads return the whole file in spite of short reads and detect concurrent size changes", "statement": "Reading a regular file returns its full content for every sequence of short reads the kernel may return, never more than the limit, and reports a change when the size at the end differs.", "quantifier": "all contents, all short-read schedules", "why_tests_cant": "kernel chunking is not controllable in tests", "anchors": ["tn/cache.py:_read_open_regular"]}
{"id": "C36", "title": "File writes are complete in spite of short writes", "statement": "Writing a payload through _write_all leaves exactly the payload in the file for every short-write schedule, and raises instead of looping when no progress is made.", "quantifier": "all payloads, all short-write schedules", "why_tests_cant": "same", "anchors": ["tn/cache.py:_write_all"]}
{"id": "C37", "title": "Bundle paths stay inside the cache root", "statement": "Every accepted prefix yields bundle, lock and residual paths strictly below the root; every prefix with a separator or dot component is rejected.", "quantifier": "all prefix strings", "why_tests_cant": "strings", "anchors": ["tn/cache.py:CacheBundle.__init__", "tn/cache.py:CacheBundle._assert_under_root"]}
{"id": "C38", "title": "Lock waiting is bounded and honest", "statement": "Acquiring the lock either succeeds while the lock is free or raises CacheLockTimeout no earlier than the deadline; the timeout accepted is always finite and non-negative.", "quantifier": "all clocks, all contention histories, all timeout arguments", "why_tests_cant": "timing", "anchors": ["tn/cache.py:CacheBundle.lock", "tn/cache.py:_configured_lock_timeout"]}
{"id": "C39", "title": "The default cache directory is absolute", "statement": "On POSIX default_cache_dir returns an absolute path whenever the home directories are absolute, uses an absolute override and ignores a relative one (refuted for a relative HOME).", "quantifier": "all environments", "why_tests_cant": "environments", "anchors": ["tn/cache.py:default_cache_dir"]}
{"id": "C40", "title": "Grammar-level value encoding equals the parser's escaping", "statement": "The transducers that write field values implement exactly the escaping TokenParser decodes, and the transducer that reads values back is its inverse: one encoding per value, one value per encoding.", "quantifier": "all strings", "why_tests_cant": "the two implementations are in different languages", "anchors": ["tn/processor.py:Processor.__init__", "tn/token_parser.py:escape_value"]}
{"id": "C41", "title": "Tagging then verbalising a field is the original conversion at the original cost", "statement": "For any conversion graph, writing the raw input with tag_field and reading it with verbalize_field relates exactly the same input/output pairs as the graph.", "quantifier": "all graphs, all inputs and outputs", "why_tests_cant": "graphs are arbitrary relations", "anchors": ["tn/processor.py:Processor.tag_field", "tn/processor.py:Processor.verbalize_field", "tn/processor.py:Processor.input_projection"]}
{"id": "C42", "title": "Every tagging a shipped grammar can produce is a well-formed token stream", "statement": "For the shipped Chinese, Japanese and English inverse grammars, each output of the tagger on each input parses without TokenParseError, with a known token name and known keys. The same holds of the English normalisation grammar for texts without '<' or without quotation marks and backslashes, and fails for a quotation mark between < and >.", "quantifier": "all inputs, all tagger paths, all constructor options", "why_tests_cant": "inputs are unbounded and contain quotes, braces and backslashes", "anchors": ["tn/chinese/normalizer.py", "itn/chinese/inverse_normalizer.py", "tn/japanese/normalizer.py", "itn/japanese/inverse_normalizer.py"]}
{"id": "C43", "title": "Input text cannot forge token structure", "statement": "Whatever quotes, braces, colons or backslashes the input contains, each character token's value is exactly the character read; concatenating the raw values of an all-character tagging gives back the input. In the English inverse grammar words, characters and punctuation marks are the pieces of the text between runs of white space; so in the English normalisation grammar, where a hyphen of a date may be read as a space.", "quantifier": "all input strings", "why_tests_cant": "injection payloads", "anchors": ["tn/chinese/rules/char.py", "tn/processor.py:Processor.__init__"]}
{"id": "C44", "title": "Normalisation is total on character text", "statement": "For the shipped Chinese and Japanese grammars, with any options, every non-empty text of valid characters has a tagging, every tagging has a verbalisation, and so normalize returns for every nbest. The English inverse normalizer returns for every such text without quotation marks and backslashes that does not start or end with white space other than the ASCII space; outside that domain it can raise (\"hi\" in quotation marks, or a final line feed). The English normalizer returns for words and numbers separated by single white-space characters and punctuation; outside that domain it can raise (two spaces, '18+', '#5').", "quantifier": "all texts of valid characters", "why_tests_cant": "inputs are unbounded", "anchors": ["tn/chinese/normalizer.py", "itn/chinese/inverse_normalizer.py"]}
{"id": "C45", "title": "Chinese number reading is correct", "statement": "For every number without leading zeros below 10^12, the Chinese TN number grammar gives exactly one reading, and the value of that reading as a Chinese numeral is the number.", "quantifier": "all numbers 0 <= n < 10^12", "why_tests_cant": "10^12 cases", "anchors": ["tn/chinese/rules/cardinal.py"]}
{"id": "C46", "title": "Rule unions preserve precedence weights and reject empty inventories", "statement": "The tagger union relates what some rule relates, at that rule's cost plus its weight; a rule inventory without taggers (verbalizers) is rejected.", "quantifier": "all rule inventories", "why_tests_cant": "inventories are arbitrary", "anchors": ["tn/processor.py:Processor.tagger_union", "tn/processor.py:Processor.verbalizer_union", "tn/processor.py:RuleSpec"]}
{"id": "C47", "title": "The command line prints exactly a tag line and a text line per input line", "statement": "For text, file and standard input alike each input line, in order, is tagged once and produces exactly two printed texts, the tagging and the normalised text (two output lines unless they contain line feeds); a failure stops after what was printed; only one trailing line terminator is removed from each line, and the lines of a file are its text cut at LF, CRLF and CR.", "quantifier": "all inputs and line contents", "why_tests_cant": "line contents", "anchors": ["tn/cli.py:run", "tn/cli.py:_process_line", "tn/cli.py:_without_line_ending"]}
{"id": "C48", "title": "Boolean options", "statement": "Every accepted spelling maps to the documented boolean and every other string is rejected, case-insensitively; --name, --name V, --name=V and --no-name set that option and nothing else.", "quantifier": "all strings", "why_tests_cant": "strings", "anchors": ["tn/cli.py:_parse_bool", "tn/utils.py:str2bool"]}
{"id": "C49", "title": "ITN data paths stay in the package", "statement": "The inverse-normalisation data path helper returns only paths below the package directory.", "quantifier": "all relative path strings", "why_tests_cant": "path strings", "anchors": ["itn/utils.py:get_abs_path"]}
{"id": "C50", "title": "The C++ runtime splits UTF-8 without losing bytes", "statement": "Splitting a byte string either returns pieces of one to four bytes that concatenate to the string, or, only if some byte is 0xF8 or more, ends the process; on valid UTF-8 each piece is one character and the reported length is the number of characters.", "quantifier": "all byte strings", "why_tests_cant": "byte strings", "anchors": ["runtime/utils/wetext_string.cc"]}
{"id": "C51", "title": "C++ and Python reordering agree on grammar output", "statement": "On token streams without repeated keys, with properly escaped values and, where fields are reordered, only schema fields, the C++ reordering returns the UTF-8 of the Python one, with the tables of five of the six pipelines. On other streams they differ: C++ drops extra fields, lets a repeated key overwrite, keeps stray backslashes, and its Japanese TN table has fewer entries. Both accept the same streams up to repeated keys, and the C++ one never reads out of range.", "quantifier": "all streams, all schemas, all byte strings", "why_tests_cant": "two implementations", "anchors": ["runtime/processor/wetext_token_parser.cc", "tn/token_parser.py"]}
{"id": "C52", "title": "Every constructor option that changes the grammar changes the cache key", "statement": "Two normalizer instances whose grammars may differ have different cache configurations.", "quantifier": "all option settings of all six pipelines", "why_tests_cant": "pairs of option settings", "anchors": ["tn/chinese/normalizer.py", "itn/chinese/inverse_normalizer.py", "tn/japanese/normalizer.py", "tn/processor.py:Processor.build_fst"]}
{"id": "C53", "title": "C++ string helpers", "statement": "Trim removes exactly the blanks at both ends. Split by a non-empty delimiter returns delimiter-free pieces that, joined by the delimiter, give the string back; by an empty delimiter it never ends.", "quantifier": "all byte strings and delimiters", "why_tests_cant": "byte strings", "anchors": ["runtime/utils/wetext_string.cc:Trim", "runtime/utils/wetext_string.cc:Split"]}
{"id": "C54", "title": "The C++ processor picks the schema of the grammar it loads", "statement": "If exactly one of the six file prefixes occurs in the tagger path the processor uses that pipeline's schema; if none occurs it ends the process. (A directory name that contains another prefix can decide instead of the file name.)", "quantifier": "all tagger paths", "why_tests_cant": "path strings", "anchors": ["runtime/processor/wetext_processor.cc:Processor::Processor"]}
{"id": "C55", "title": "Command-line options reach the grammar", "statement": "Every accepted command line yields a processor of the language it names, whose grammar gets for each boolean option the value given on the command line, or the constructor's default; the language that decides which options exist is the language finally used; --text and --file exclude each other.", "quantifier": "all command lines, both directions, all languages", "why_tests_cant": "argument lists are unbounded", "anchors": ["tn/cli.py:parse_args", "tn/cli.py:_selected_language", "tn/cli.py:create_processor"]}
{"id": "C56", "title": "English clock times are written as spoken", "statement": "The English inverse normalizer writes a spoken clock time as that time, whichever of several equally cheap results the engine reports first.", "quantifier": "all engines, all orders of ties", "why_tests_cant": "the order of ties is up to the engine", "anchors": ["itn/english/rules/time.py:Time.build_verbalizer"]}
{"id": "C57", "title": "What tag returns, verbalize accepts", "statement": "For every text normalize accepts, verbalize(tag(text)), which is what the command line prints, returns a text and does not raise. True of the Chinese, Japanese and English inverse grammars; false of the English normalizer ('a.com_').", "quantifier": "all texts of valid characters, all constructor options, all engines returning cheapest paths", "why_tests_cant": "inputs are unbounded", "anchors": ["tn/cli.py:_process_line", "tn/processor.py:Processor.tag", "tn/processor.py:Processor.verbalize"]}
{"id": "C58", "title": "English cardinals are read as the number they are", "statement": "Every number below 10^15, with or without commas, has exactly one English name in the grammar; the name's value is the number, and different numbers have different names; from 10^15 on there is none. The cardinal rule tags a number, signed or not, in exactly one way, and below 10^11 the verbalizer's cheapest result for that token is unique and is a name of the number ('negative' in front if signed). From 10^11 on this is false: 100000000000 is read 'one hundred and billion'.", "quantifier": "all numbers, written with digits or with digits and commas, with or without a sign", "why_tests_cant": "infinitely many numbers, and costs decide among many readings", "anchors": ["tn/english/rules/cardinal.py:Cardinal.build_tagger", "tn/english/rules/cardinal.py:Cardinal.add_optional_and", "tn/english/rules/cardinal.py:Cardinal.build_verbalizer", "tn/english/normalizer.py:Normalizer.build_tagger_and_verbalizer"]}
{"id": "C59", "title": "Spoken English numbers are written as the number they are", "statement": "The English inverse grammar accepts exactly the spoken numbers (below 1000, scales up to sextillion, counting in hundreds, 'and' anywhere between the words) and writes exactly the digits of their value. The cardinal rule tags exactly the spoken numbers from thirteen on, with or without 'minus' or 'negative', and the verbalizer of the whole normalizer has exactly one answer for such a token: the digits, with '-' if signed. The names the English normalizer gives to numbers below 10^15 are read back as the same number; so is the reading it answers with below 10^11, except for 1000 to 1999, all of which are answered 'thousand ...' and not read back at all.", "quantifier": "all texts, all numbers", "why_tests_cant": "infinitely many texts and numbers", "anchors": ["itn/english/rules/cardinal.py:Cardinal.build_tagger", "itn/english/rules/cardinal.py:Cardinal.build_verbalizer", "itn/english/inverse_normalizer.py:InverseNormalizer.build_tagger_and_verbalizer", "tn/english/rules/cardinal.py:Cardinal.build_tagger"]}
{"id": "C60", "title": "Spoken English ordinals are written as the ordinal they are", "statement": "The English inverse grammar reads the ordinal of every spoken number ('twenty first', 'one hundred and twelfth') as that number and in no other way; it reads nothing else as an ordinal, except spoken numbers with 'th' after them ('oneth'). The ordinal rule tags exactly those texts, and the verbalizer of the whole normalizer has exactly one answer for the token of an ordinal: the digits and the suffix English has for them (1st, 2nd, 3rd, 11th, 12th, 13th, 21st, ...).", "quantifier": "all texts, all numbers", "why_tests_cant": "infinitely many texts and numbers", "anchors": ["itn/english/rules/ordinal.py:Ordinal.build_tagger", "itn/english/rules/ordinal.py:Ordinal.build_verbalizer", "itn/english/inverse_normalizer.py:InverseNormalizer.build_tagger_and_verbalizer"]}
{"id": "C61", "title": "Spoken Chinese numbers are written as the number they are", "statement": "With enable_million the Chinese inverse grammar reads exactly the spoken numbers below 10^8 (with 零, 两, 幺, trailing digits as in 两万五, and 十 with or without 一) and writes exactly the digits of their value; without it, numbers from a million on keep 万; 亿 and 兆 are kept and the parts before and after them written so. With standalone numbers enabled, a spoken number is tagged as a cardinal holding the words that were said, and the cheapest answer of the whole verbalizer to that token is unique: the digits of the number. What the Chinese normalizer says for a number below 10^8 so comes back as that number. False is that enable_million only changes the way a number is written: 一百万五 is 1005000 with it and 100万5 without.", "quantifier": "all texts, all numbers, all constructor options", "why_tests_cant": "infinitely many texts and numbers; the grammar is ambiguous and costs decide", "anchors": ["itn/chinese/rules/cardinal.py:Cardinal.build_tagger", "itn/chinese/rules/cardinal.py:Cardinal.build_verbalizer", "itn/chinese/inverse_normalizer.py:InverseNormalizer.build_tagger_and_verbalizer", "itn/chinese/rules/postprocessor.py:PostProcessor", "tn/chinese/rules/cardinal.py:Cardinal.build_tagger"]}
{"id": "C62", "title": "A spoken Chinese number is normalised to its digits", "statement": "normalize of the Chinese inverse normaliser, given a text that is a spoken number below 10^8 the options allow to be written in digits, returns exactly the digits of that number; tag returns one cardinal token that holds the words, and verbalize of that token the digits. What the Chinese normaliser says for a number below 10^8 is normalised back to its digits. Texts that end in 两 are excepted, and rightly: 两 is also a unit of weight, and 十两 becomes 10两 and not 12.", "quantifier": "all spoken numbers, all constructor options, all engines returning cheapest paths", "why_tests_cant": "infinitely many texts; every way to cut the text into tokens of any rule competes", "anchors": ["itn/chinese/inverse_normalizer.py:InverseNormalizer.build_tagger_and_verbalizer", "itn/chinese/rules/measure.py:Measure.build_tagger", "itn/chinese/rules/cardinal.py:Cardinal.build_tagger", "tn/processor.py:Processor.normalize"]}
{"id": "C63", "title": "A text may be cut where no rule reads across", "statement": "For the Chinese and Japanese normalisers and inverse normalisers: if no rule reads an end of the text a together with a beginning of the text b, the possible answers for a followed by b are exactly those for a followed by those for b. So with one possible answer each, normalize of the two parts joined is the two results joined. normalize always returns, and only a cheapest verbalisation of a cheapest tagging.", "quantifier": "all pairs of texts, all constructor options, all engines returning cheapest paths", "why_tests_cant": "every way to cut the joined text into tokens competes, and post-processing could reach across tokens", "anchors": ["tn/chinese/normalizer.py:Normalizer.build_tagger_and_verbalizer", "itn/chinese/inverse_normalizer.py:InverseNormalizer.build_tagger_and_verbalizer", "tn/japanese/normalizer.py:Normalizer.build_tagger_and_verbalizer", "itn/japanese/inverse_normalizer.py:InverseNormalizer.build_tagger_and_verbalizer", "tn/token_parser.py:TokenParser.reorder"]}
{"id": "C64", "title": "Text no rule is about passes character by character", "statement": "For the Chinese and Japanese normalisers and inverse normalisers: text whose characters only the rule of single characters reads is answered character by character, and each character gets exactly what the options say (simplified, dropped as interjection or punctuation, made half-width, marked as out of the charset) and nothing else. Before and after any text that has one possible answer, such text leaves that answer as it is: a spoken Chinese number in the middle of such text is written in digits and the rest is kept.", "quantifier": "all texts of such characters, all constructor options, all engines returning cheapest paths", "why_tests_cant": "infinitely many texts; every way to cut the text into tokens competes", "anchors": ["tn/chinese/rules/char.py:Char", "tn/chinese/rules/postprocessor.py:PostProcessor", "itn/chinese/rules/postprocessor.py:PostProcessor", "tn/japanese/rules/postprocessor.py:PostProcessor", "itn/japanese/rules/preprocessor.py:PreProcessor", "tn/processor.py:Processor.normalize"]}
{"id": "C65", "title": "A written number is said with its value in Chinese", "statement": "normalize of the Chinese normaliser, given a number below 10^12 with or without a sign and with any digits after a point, says the sign, a Chinese numeral that means exactly the number before the point, and the digits after the point one by one; with a percent sign, 百分之 in front. A telephone number (a listed one or any eleven digits) is said digit by digit with 幺 for 1. The number may stand alone or among text that only the rule of single characters reads. Excepted, and rightly, are unsigned numbers made of telephone numbers and dates with a point: 10.5 becomes 十月五日.", "quantifier": "all numbers below 10^12, all signs, all digits after the point, all texts of such characters around it, all constructor options, all engines returning cheapest paths", "why_tests_cant": "infinitely many numbers; every way to cut the text into dates, telephone numbers, numbers and characters competes", "anchors": ["tn/chinese/rules/cardinal.py:Cardinal", "tn/chinese/rules/math.py:Math", "tn/chinese/rules/date.py:Date", "tn/chinese/normalizer.py:Normalizer.build_tagger_and_verbalizer", "tn/chinese/rules/postprocessor.py:PostProcessor", "tn/processor.py:Processor.normalize"]}
{"id": "C66", "title": "A text one rule reads whole is not cut in two", "statement": "For the Chinese normaliser and the Japanese normaliser and inverse normaliser: if some rule reads a whole text for less than two rules can cost (10800, 20400 and 20200), the tagger's cheapest answers for that text are exactly the cheapest of the readings of the whole text by a single rule, and so are the texts normalize can return; texts of telephone digits are excepted for Chinese.", "quantifier": "all texts, all constructor options", "why_tests_cant": "infinitely many texts; every way to cut the text into tokens of any rule competes, and rules have weights of their own inside", "anchors": ["tn/chinese/normalizer.py:Normalizer.build_tagger_and_verbalizer", "tn/japanese/normalizer.py:Normalizer.build_tagger_and_verbalizer", "itn/japanese/inverse_normalizer.py:InverseNormalizer.build_tagger_and_verbalizer", "tn/utils.py:add_weight"]}
{"id": "C67", "title": "A written date is said as a date in Chinese", "statement": "normalize of the Chinese normaliser, given year, month and day, or day, month and year, or year and two-digit month in either order, or two-digit month and day, with '/', '-' or '.' between them, says the year digit by digit and 年, the month as a number and 月, the day as a number and 日, in this order and nothing else. The date may stand alone or among text that only the rule of single characters reads.", "quantifier": "all dates so written (years 1000 to 9999, months and days with or without a leading zero), all texts of such characters around it, all constructor options, all engines returning cheapest paths", "why_tests_cant": "tens of millions of dates in unboundedly many texts; every way to cut the text into dates, fractions, calculations, numbers and characters competes", "anchors": ["tn/chinese/rules/date.py:Date", "tn/chinese/normalizer.py:Normalizer.build_tagger_and_verbalizer", "tn/token_parser.py:TokenParser.reorder", "tn/chinese/rules/postprocessor.py:PostProcessor", "tn/processor.py:Processor.normalize"]}
{"id": "C68", "title": "A written fraction is said as a fraction in Chinese", "statement": "normalize of the Chinese normaliser, given two numbers below 10^12 (each with or without a sign and with any digits after a point) with '/' between them and at most one space on either side of it, says a numeral that means the second number, 分之 and a numeral that means the first one, with the words of the signs and of the digits after the points. The fraction may stand alone or among text that only the rule of single characters reads. Excepted are fractions that are dates as well: 10/5 becomes 十月五日. No date has fewer than four characters or a character that is neither a digit nor a separator.", "quantifier": "all pairs of numbers below 10^12 with all signs and digits after the point, all texts of such characters around them, all constructor options, all engines returning cheapest paths", "why_tests_cant": "infinitely many fractions; every way to cut the text into numbers, dates, calculations and characters competes", "anchors": ["tn/chinese/rules/fraction.py:Fraction", "tn/chinese/rules/math.py:Math", "tn/chinese/rules/date.py:Date", "tn/chinese/normalizer.py:Normalizer.build_tagger_and_verbalizer", "tn/token_parser.py:TokenParser.reorder", "tn/processor.py:Processor.normalize"]}
{"id": "C69", "title": "An amount of money is said as an amount in Chinese", "statement": "normalize of the Chinese normaliser, given a listed currency code or symbol and a number below 10^12 (with or without a sign and with any digits after a point), with at most one space between them, says a numeral that means the number, with the words of the sign and of the digits after the point, and then the name of the currency. The amount may stand alone or among text that only the rule of single characters reads.", "quantifier": "all listed currencies, all numbers below 10^12, all signs, all digits after the point, all texts of such characters around it, all constructor options, all engines returning cheapest paths", "why_tests_cant": "infinitely many amounts; every way to cut the text into letters, units, numbers and characters competes", "anchors": ["tn/chinese/rules/money.py:Money", "tn/chinese/data/money/code.tsv", "tn/chinese/data/money/symbol.tsv", "tn/chinese/normalizer.py:Normalizer.build_tagger_and_verbalizer", "tn/token_parser.py:TokenParser.reorder", "tn/processor.py:Processor.normalize"]}
{"id": "C70", "title": "A written time is said as a time in Chinese", "statement": "normalize of the Chinese normaliser, given hour and minute, or hour, minute and second, with ':' or its full-width form between them, and maybe 'am' or 'pm' in one of five spellings after at most one space, says 上午 or 下午 if it was written, the hour and 点 (两 for 2), the minute and 分 (零 before a single digit, nothing for 00), the second and 秒 (nothing for 00), in this order and nothing else. The time may stand alone or among text that only the rule of single characters reads.", "quantifier": "all times so written, all texts of such characters around it, all constructor options, all engines returning cheapest paths", "why_tests_cant": "a million times in unboundedly many texts; every way to cut the text into times, scores, calculations, numbers and characters competes", "anchors": ["tn/chinese/rules/time.py:Time", "tn/chinese/data/time", "tn/chinese/rules/sport.py:Sport", "tn/chinese/normalizer.py:Normalizer.build_tagger_and_verbalizer", "tn/token_parser.py:TokenParser.reorder", "tn/processor.py:Processor.normalize"]}
{"id": "C71", "title": "A written number is said with its value in Japanese", "statement": "normalize of the Japanese normaliser, given a number below 10^8 written without commas or with one before every three digits, with or without a sign and with any digits after a point, says the sign, a Japanese numeral that means exactly the number before the point, and the digits after the point one by one; with a percent sign, パーセント at the end. With tag_oov, and only then, characters of the answer outside the character set are marked. The number may stand alone or among text that only the rule of single characters reads. Excepted, and rightly, are four digits, a point and a two-digit month below 10 without a sign: 1234.05 becomes 千二百三十四年五月. And with tag_oov the answer is not plain words: the normaliser's own 〇 and ー are outside the character set, 0 becomes <oov>〇</oov>.", "quantifier": "all numbers below 10^8, all signs, all digits after the point, all texts of such characters around it, all constructor options, all engines returning cheapest paths", "why_tests_cant": "infinitely many numbers; every way to cut the text into dates, telephone numbers, numbers and characters competes", "anchors": ["tn/japanese/rules/cardinal.py:Cardinal", "tn/japanese/rules/date.py:Date", "tn/japanese/rules/preprocessor.py:PreProcessor", "tn/japanese/rules/postprocessor.py:PostProcessor", "tn/japanese/normalizer.py:Normalizer.build_tagger_and_verbalizer", "tn/processor.py:Processor.normalize"]}
{"id": "C72", "title": "A written date is said as a date in Japanese", "statement": "normalize of the Japanese normaliser, given year, month and day, or day, month and year, or a year and a month with a leading zero in either order, or a month with a leading zero and a day, with '/', '-' or '.' between them, says a Japanese numeral that means exactly the year and 年, the month as a number and 月, the day as a number and 日, in this order and nothing else. The year may have a comma after its first digit. The date may stand alone or among text that only the rule of single characters reads.", "quantifier": "all dates so written (years 1000 to 9999), all texts of such characters around it, all constructor options, all engines returning cheapest paths", "why_tests_cant": "tens of millions of dates in unboundedly many texts; every way to cut the text into dates, fractions, numbers and characters competes", "anchors": ["tn/japanese/rules/date.py:Date", "tn/japanese/rules/cardinal.py:Cardinal", "tn/japanese/rules/range.py:Range", "tn/japanese/normalizer.py:Normalizer.build_tagger_and_verbalizer", "tn/token_parser.py:TokenParser.reorder", "tn/processor.py:Processor.normalize"]}
{"id": "C73", "title": "A written fraction is said as a fraction in Japanese", "statement": "normalize of the Japanese normaliser, given two numbers below 10^8 (each with or without commas and a sign and with any digits after a point) with '/' between them and at most one space on either side of it, says a numeral that means the second number, 分の and a numeral that means the first one, with the words of the signs and of the digits after the points; with tag_oov, and only then, characters of the answer outside the character set are marked. The fraction may stand alone or among text that only the rule of single characters reads. Excepted are fractions that are dates as well: 2024/1.5 becomes 二千二十四年一月五日. No fraction of two whole numbers without sign and commas is a date.", "quantifier": "all pairs of numbers below 10^8 with all signs and digits after the point, all texts of such characters around them, all constructor options, all engines returning cheapest paths", "why_tests_cant": "infinitely many fractions; every way to cut the text into numbers, dates and characters competes", "anchors": ["tn/japanese/rules/fraction.py:Fraction", "tn/japanese/rules/date.py:Date", "tn/japanese/rules/cardinal.py:Cardinal", "tn/japanese/normalizer.py:Normalizer.build_tagger_and_verbalizer", "tn/token_parser.py:TokenParser.reorder", "tn/processor.py:Processor.normalize"]}
{"id": "C74", "title": "An amount of money is said as an amount in Japanese", "statement": "normalize of the Japanese normaliser, given a listed currency code or symbol and a number below 10^8 (with or without commas and a sign and with any digits after a point), with at most one space between them, says a numeral that means the number, with the words of the sign and of the digits after the point, and then the name of the currency; with tag_oov, and only then, characters of the answer outside the character set are marked. The amount may stand alone or among text that only the rule of single characters reads. The symbol with a full-width dollar sign is not included: full_to_half changes it before it is looked up.", "quantifier": "all listed currencies but one, all numbers below 10^8, all signs, all digits after the point, all texts of such characters around it, all constructor options, all engines returning cheapest paths", "why_tests_cant": "infinitely many amounts; every way to cut the text into letters, units, numbers and characters competes", "anchors": ["tn/japanese/rules/money.py:Money", "tn/japanese/data/money/code.tsv", "tn/japanese/data/money/symbol.tsv", "tn/japanese/rules/preprocessor.py:PreProcessor", "tn/japanese/normalizer.py:Normalizer.build_tagger_and_verbalizer", "tn/token_parser.py:TokenParser.reorder", "tn/processor.py:Processor.normalize"]}
{"id": "C75", "title": "A written time is said as a time in Japanese", "statement": "normalize of the Japanese normaliser, given hour and minute, or hour, minute and second, with ':' between them, and maybe 'am' or 'pm' in one of five spellings each after at most one space, or an hour directly followed by 'am' or 'pm', says 午前 or 午後 if it was written, the hour and 時 (〇 for 0), the minute and 分 and the second and 秒 (nothing for 00), in this order and nothing else; with tag_oov, and only then, characters of the answer outside the character set are marked. The time may stand alone or among text that only the rule of single characters reads.", "quantifier": "all times so written, all texts of such characters around it, all constructor options, all engines returning cheapest paths", "why_tests_cant": "hundreds of thousands of times in unboundedly many texts; every way to cut the text into times, units, numbers and characters competes", "anchors": ["tn/japanese/rules/time.py:Time", "tn/japanese/data/time", "tn/japanese/rules/measure.py:Measure", "tn/japanese/normalizer.py:Normalizer.build_tagger_and_verbalizer", "tn/token_parser.py:TokenParser.reorder", "tn/processor.py:Processor.normalize"]}
{"id": "C76", "title": "A spoken number is written with its digits by the Japanese inverse normaliser", "statement": "normalize of the Japanese inverse normaliser, given a Japanese numeral that means a number below 10^8 (below 10^6 unless enable_million is set) and in which 一十 does not occur, with or without the words of a sign before it and of digits after a point behind it, answers the sign, the digits of exactly that number, and the point and the digits after it. It does so where the options ask for it: a number standing alone with enable_standalone_number, one below ten also with enable_0_to_9, a decimal always. The number may stand alone or among text that only the rule of single characters reads. What the Japanese normaliser says for a written number comes back as it was written, without the commas.", "quantifier": "all numerals of numbers below 10^8, all signs, all digits after the point, all texts of such characters around them, all constructor options of both processors, all engines returning cheapest paths", "why_tests_cant": "infinitely many spoken numbers, and a number has several numerals; every way to cut the text into numbers, telephone numbers, units and characters competes", "anchors": ["itn/japanese/rules/cardinal.py:Cardinal", "itn/japanese/rules/preprocessor.py:PreProcessor", "itn/japanese/inverse_normalizer.py:InverseNormalizer.build_tagger_and_verbalizer", "tn/japanese/rules/cardinal.py:Cardinal", "tn/processor.py:Processor.normalize"]}
{"id": "C77", "title": "A spoken ordinal is written with its digits by the Japanese inverse normaliser", "statement": "normalize of the Japanese inverse normaliser, given a Japanese numeral of a number below 10^8 (below 10^6 unless enable_million is set) without 一十, with or without the words of a sign, followed by 番目 or preceded by 第, answers the sign and the digits of exactly that number with 番目 behind or 第 before them, whatever the other options are.", "quantifier": "all numerals of numbers below 10^8, all signs, all constructor options, all engines returning cheapest paths", "why_tests_cant": "infinitely many ordinals; the rules of measures, counters, dates, listed words and single characters compete for the same text", "anchors": ["itn/japanese/rules/ordinal.py:Ordinal", "itn/japanese/rules/cardinal.py:Cardinal", "itn/japanese/inverse_normalizer.py:InverseNormalizer.build_tagger_and_verbalizer", "tn/processor.py:Processor.normalize"]}
{"id": "C78", "title": "A spoken quantity is written with its digits and unit by the Japanese inverse normaliser", "statement": "normalize of the Japanese inverse normaliser, given a Japanese numeral of a number below 10^8 (below 10^6 unless enable_million is set) without 一十, with an optional sign and digits after a point, followed by a listed word for a unit that has one abbreviation, answers the digits of exactly that number and the abbreviation. Followed by a listed counter it answers the digits and the counter unchanged, and followed by パーセント the digits and a percent sign. Units and counters need a number the options let the rule of measures read: a decimal, or one of at least ten without a sign, or enable_0_to_9. A numeral ending in 千 before キロメートル is excluded, because 千キロメートル is listed as a unit of its own and 二万三千キロメートル is read as 23000km and as 20003km at the same cost.", "quantifier": "all numerals of numbers below 10^8, all signs, all digits after the point, all listed units with one abbreviation, all listed counters that are no dates or times, all constructor options, all engines returning cheapest paths", "why_tests_cant": "the unit tests try a few units; numerals and units overlap (千 and 百 begin listed units), and measures, numbers, dates, times and money compete for the same text", "anchors": ["itn/japanese/rules/measure.py:Measure", "itn/japanese/data/measure/unit_en.tsv", "itn/japanese/data/measure/unit_ja.tsv", "itn/japanese/rules/cardinal.py:Cardinal", "itn/japanese/inverse_normalizer.py:InverseNormalizer.build_tagger_and_verbalizer", "tn/processor.py:Processor.normalize"]}
{"id": "C79", "title": "A spoken amount of money is written with its symbol and digits by the Japanese inverse normaliser", "statement": "normalize of the Japanese inverse normaliser, given a Japanese numeral of a number below 10^8 (below 10^6 unless enable_million is set) without 一十, with an optional sign and digits after a point, followed by a listed currency word with one symbol, answers the symbol and then the digits of exactly that number. The number is one the options let the rule read: a decimal, or one of at least ten without a sign, or enable_0_to_9. ポンド is listed with two symbols and its amounts have two equally good answers.", "quantifier": "all numerals of numbers below 10^8, all signs, all digits after the point, all listed currencies with one symbol, all constructor options, all engines returning cheapest paths", "why_tests_cant": "infinitely many amounts; the two parts change places on the way, and units, counters and single characters compete for the same text", "anchors": ["itn/japanese/rules/money.py:Money", "itn/japanese/data/money/symbol.tsv", "itn/japanese/inverse_normalizer.py:InverseNormalizer.build_tagger_and_verbalizer", "tn/token_parser.py:TokenParser.reorder", "tn/processor.py:Processor.normalize"]}
{"id": "C80", "title": "A spoken date is written with its digits by the Japanese inverse normaliser", "statement": "normalize of the Japanese inverse normaliser, given a date of a year from 1 to 9999, a month and a day, or of a year and a month, or of a month and a day, each a Japanese numeral without 一十 before 年, 月 and 日, answers the decimal digits of exactly these numbers before 年, 月 and 日, with all options.", "quantifier": "all numerals of years from 1 to 9999, all numerals of months and days, all constructor options, all engines returning cheapest paths", "why_tests_cant": "over three million dates; the date rule, the counters 年 and 日, numbers, listed words such as 二百十日 and single characters compete for the same text", "anchors": ["itn/japanese/rules/date.py:Date", "itn/japanese/data/date/day.tsv", "itn/japanese/data/date/month.tsv", "itn/japanese/rules/cardinal.py:Cardinal", "itn/japanese/inverse_normalizer.py:InverseNormalizer.build_tagger_and_verbalizer", "tn/processor.py:Processor.normalize"]}
{"id": "C81", "title": "A spoken fraction is written with its digits by the Japanese inverse normaliser", "statement": "normalize of the Japanese inverse normaliser, given a denominator, 分の and a numerator, both Japanese numerals of numbers below 10^8 without 一十 and possibly with digits after a point, the numerator also with a sign, answers the numerator, a slash and the denominator with the decimal digits of exactly these numbers, with all options. A sign before the denominator is excluded: the rule has two equally cheap tokens for マイナス三分の一, which say -1/3 and 1/-3.", "quantifier": "all numerals of numbers below 10^8, all digits after the point, all signs of the numerator, all constructor options, all engines returning cheapest paths", "why_tests_cant": "infinitely many fractions; the two parts change places on the way, and minutes, counters and single characters compete for the same text", "anchors": ["itn/japanese/rules/fraction.py:Fraction", "itn/japanese/rules/cardinal.py:Cardinal", "itn/japanese/inverse_normalizer.py:InverseNormalizer.build_tagger_and_verbalizer", "tn/token_parser.py:TokenParser.reorder", "tn/processor.py:Processor.normalize"]}
{"id": "C82", "title": "A spoken time is written with its digits by the Japanese inverse normaliser", "statement": "normalize of the Japanese inverse normaliser, given a time of hours, minutes and seconds, of hours and minutes, of minutes and seconds, or of minutes, each a Japanese numeral without 一十 before 時, 分 and 秒, with hours from 1 to 24 except 2 and minutes and seconds from 1 to 60 except 52, answers the decimal digits of exactly these numbers before 時, 分 and 秒, with all options. The excluded numerals are missing from the tables, which list 两時 and 五二十分 instead, and the rule of times reads no time at 二時.", "quantifier": "all numerals of these hours, minutes and seconds, all constructor options, all engines returning cheapest paths", "why_tests_cant": "about eighty thousand times, and the tables are typed by hand; the rule of times, the counters 時, 分 and 秒 and single characters compete for the same text", "anchors": ["itn/japanese/rules/time.py:Time", "itn/japanese/data/time/hour.tsv", "itn/japanese/data/time/minute.tsv", "itn/japanese/data/time/second.tsv", "itn/japanese/inverse_normalizer.py:InverseNormalizer.build_tagger_and_verbalizer", "tn/processor.py:Processor.normalize"]}
{"id": "C83", "title": "What the Japanese normaliser says, its inverse writes with the same numbers", "statement": "What normalize of the Japanese normaliser says for a written date (in each of the orders of C72), for a fraction of numbers below 10^8 whose denominator has no sign, for a percentage, for an amount of money or for a time, normalize of the Japanese inverse normaliser turns into a text with exactly the same numbers: 年, 月 and 日 after the year, month and day, numerator/denominator, number%, the symbol of the currency before the amount, and 時, 分 and 秒 after the hour, minute and second. Commas, spaces and leading zeros are not kept. Times at 0 or 2 o'clock and with 0 or 52 minutes or seconds are left out, amounts are such that the options let the inverse normaliser read them, the currency has one symbol, and words are not marked with tag_oov.", "quantifier": "all dates, fractions, percentages, amounts and times so written, all pairs of constructor options of the two processors, all engines returning cheapest paths", "why_tests_cant": "infinitely many texts and two grammars that were written independently of one another", "anchors": ["tn/japanese/normalizer.py:Normalizer.build_tagger_and_verbalizer", "itn/japanese/inverse_normalizer.py:InverseNormalizer.build_tagger_and_verbalizer", "itn/japanese/rules/date.py:Date", "itn/japanese/rules/fraction.py:Fraction", "itn/japanese/rules/time.py:Time", "itn/japanese/rules/money.py:Money", "tn/processor.py:Processor.normalize"]}
{"id": "C84", "title": "A spoken date through the whole Chinese inverse normaliser", "statement": "normalize of the Chinese inverse normaliser, with any options, writes a date said as year, month and day, as year and month, or as month and day with slashes: the digits of the year (two of them, or three or four without a leading zero, said digit by digit), the month and the day with two digits each, so that 二零二四年三月五日 and 二零二四年三月五号 give 2024/03/05. A year alone keeps its 年. So what the Chinese normaliser says for a written date, in every order and with every separator of C67, comes back as the year, the month and the day separated by slashes. Among characters that no other rule reads the same holds, and the characters around the date are kept as the options say.", "quantifier": "all years of two to four digits, all months and days, all constructor options, all engines returning cheapest paths, all texts around the date that only the rule of single characters reads", "why_tests_cant": "the tagger is a union of eleven rules, some with negative weights, and the answer is decided by the cheapest of all readings of the text, split in every possible way", "anchors": ["itn/chinese/inverse_normalizer.py:InverseNormalizer.build_tagger_and_verbalizer", "itn/chinese/rules/date.py:Date", "itn/chinese/rules/measure.py:Measure", "itn/chinese/rules/cardinal.py:Cardinal", "tn/chinese/rules/date.py:Date", "tn/processor.py:Processor.normalize"]}
{"id": "C85", "title": "A spoken percentage through the whole Chinese inverse normaliser", "statement": "normalize of the Chinese inverse normaliser, with any options, writes 百分之 followed by a spoken number as the decimal digits of that number and a percent sign: 百分之三十五 gives 35%. A number of a million or more needs the option for millions, and a numeral that ends in 两, which is also a unit of weight, is excepted. So what the Chinese normaliser says for a whole percentage below 10^8 is written back as it was. Among characters that no other rule reads the same holds.", "quantifier": "all spoken numbers of the inverse normaliser and all their percentages, all constructor options, all engines returning cheapest paths, all texts around the percentage that only the rule of single characters reads", "why_tests_cant": "the answer is decided by the cheapest of all splittings of the text into tokens of eleven rules, and the number may be cut anywhere", "anchors": ["itn/chinese/inverse_normalizer.py:InverseNormalizer.build_tagger_and_verbalizer", "itn/chinese/rules/measure.py:Measure", "itn/chinese/rules/cardinal.py:Cardinal", "tn/chinese/rules/cardinal.py:Cardinal", "tn/processor.py:Processor.normalize"]}
{"id": "C86", "title": "A spoken fraction through the whole Chinese inverse normaliser", "statement": "normalize of the Chinese inverse normaliser, with any options, writes a spoken number, 分之 and another spoken number as the digits of the second, a slash and the digits of the first: 三分之一 gives 1/3. A number of a million or more needs the option for millions, and a numerator that ends in 两, which is also a unit of weight, is excepted. So what the Chinese normaliser says for a written fraction of two whole numbers below 10^8 that is not a date is written back as it was. Among characters that no other rule reads the same holds.", "quantifier": "all pairs of spoken numbers of the inverse normaliser, all constructor options, all engines returning cheapest paths, all texts around the fraction that only the rule of single characters reads", "why_tests_cant": "the answer is decided by the cheapest of all splittings of the text into tokens of eleven rules, both numbers may be cut anywhere, and a denominator may end in 百, with which a percentage could begin", "anchors": ["itn/chinese/inverse_normalizer.py:InverseNormalizer.build_tagger_and_verbalizer", "itn/chinese/rules/fraction.py:Fraction", "itn/chinese/rules/cardinal.py:Cardinal", "tn/chinese/rules/fraction.py:Fraction", "tn/processor.py:Processor.normalize"]}
{"id": "C87", "title": "Train numbers and number plates through the whole Chinese inverse normaliser", "statement": "normalize of the Chinese inverse normaliser, with any options, writes a kind of train (高, 动, 特, 快, 直, 慢, 临) followed by two to four said digits as its letter and the digits: 高一二三 gives G123. It writes a province, a letter and five or six letters or said digits as a number plate: the province and the letters stay, every said digit becomes a digit: 京A幺二三四B gives 京A1234B. The digits may have any of their names (一, 幺 and 壹 are 1). Among characters that no other rule reads the same holds.", "quantifier": "all train numbers and number plates as they are said, with every name of every digit, all constructor options, all engines returning cheapest paths, all texts around them that only the rule of single characters reads", "why_tests_cant": "the answer is decided by the cheapest of all splittings of the text into tokens of eleven rules, and the digits alone are also numbers, years and telephone numbers", "anchors": ["itn/chinese/inverse_normalizer.py:InverseNormalizer.build_tagger_and_verbalizer", "itn/chinese/rules/train_number.py:TrainNumber", "itn/chinese/rules/license_plate.py:LicensePlate", "tn/processor.py:Processor.normalize"]}
{"id": "C88", "title": "Telephone and identity numbers through the whole Chinese inverse normaliser", "statement": "normalize of the Chinese inverse normaliser, with any options, writes three, four, five, eleven or eighteen digits said one by one as those digits: 幺三八零零洞幺二三四五 gives 13800012345. It writes seventeen said digits and an X or x as the digits and that letter, the number of an identity card. The digits may have any of their names but 两, which is also a unit of weight. What the Chinese normaliser says for a telephone number (any eleven digits, or a listed one) is written back as it was. Among characters that no other rule reads the same holds.", "quantifier": "all digit strings of these lengths as they are said, with every name of every digit but 两, all constructor options, all engines returning cheapest paths, all texts around them that only the rule of single characters reads", "why_tests_cant": "the answer is decided by the cheapest of all splittings of the text into tokens of eleven rules, and the same characters are also read as single numbers, which the options switch on and off", "anchors": ["itn/chinese/inverse_normalizer.py:InverseNormalizer.build_tagger_and_verbalizer", "itn/chinese/rules/cardinal.py:Cardinal.build_tagger", "tn/processor.py:Processor.normalize"]}
