{
 "claims": [
  {
   "property": "C01",
   "status": "proved",
   "theorems": [
    "C01_parse_exact",
    "C01_reading_unique"
   ],
   "note": ""
  },
  {
   "property": "C02",
   "status": "proved",
   "theorems": [
    "C02_parse_total"
   ],
   "note": ""
  },
  {
   "property": "C03",
   "status": "proved",
   "theorems": [
    "C03_escape_roundtrip",
    "C03_escape_self_delimiting",
    "C03_escape_reads_back"
   ],
   "note": ""
  },
  {
   "property": "C04",
   "status": "proved",
   "theorems": [
    "C04_serialize_parse",
    "C04_serialized_text",
    "C04_parsed_tokens_are_wf"
   ],
   "note": ""
  },
  {
   "property": "C05",
   "status": "proved",
   "theorems": [
    "C05_duplicate_rejected"
   ],
   "note": "the converse (distinct keys accepted) is in C01_parse_exact"
  },
  {
   "property": "C06",
   "status": "proved",
   "theorems": [
    "C06_C07_reorder",
    "C06_reorder_fails_only_if_parse_fails"
   ],
   "note": ""
  },
  {
   "property": "C07",
   "status": "proved",
   "theorems": [
    "C06_C07_reorder",
    "C07_order_determined",
    "C07_shipped_schemas",
    "C07_unknown_ordertype",
    "C07_schema_table"
   ],
   "note": ""
  },
  {
   "property": "C08",
   "status": "proved",
   "theorems": [
    "C08_reorder_idempotent",
    "C08_empty_output_only_from_spaces"
   ],
   "note": ""
  },
  {
   "property": "C09",
   "status": "proved",
   "theorems": [
    "C09_serialized_spans",
    "C09_one_space_between"
   ],
   "note": ""
  },
  {
   "property": "C10",
   "status": "proved",
   "theorems": [
    "C10_source_spans"
   ],
   "note": ""
  },
  {
   "property": "C11",
   "status": "proved",
   "theorems": [
    "C11_tables_exact",
    "C11_defined_iff_encodable",
    "C11_strictly_increasing",
    "C11_boundary_iff_not_split",
    "C11_encode_decodes"
   ],
   "note": ""
  },
  {
   "property": "C12",
   "status": "proved",
   "theorems": [
    "C12_input_spans_shape"
   ],
   "note": "for every path whose labels spell the two texts (pynini's composition and shortestpath are trusted to return such a path)"
  },
  {
   "property": "C13",
   "status": "proved",
   "theorems": [
    "C13_input_spans_exact",
    "C13_input_spans_complete",
    "C13_bad_spans_rejected",
    "C13_coverage_refuted",
    "C13_space_table"
   ],
   "note": "C13_coverage_refuted shows that visible input characters may belong to no token"
  },
  {
   "property": "C14",
   "status": "proved",
   "theorems": [
    "C14_output_spans_shape",
    "C14_C15_output_spans_exact"
   ],
   "note": ""
  },
  {
   "property": "C15",
   "status": "proved",
   "theorems": [
    "C14_C15_output_spans_exact",
    "C15_output_spans_complete",
    "C15_bad_spans_rejected",
    "C15_one_owner",
    "C15_visible_output_owned"
   ],
   "note": ""
  },
  {
   "property": "C16",
   "status": "proved",
   "theorems": [
    "C16_mappings_consistent",
    "C16_mappings_faithful",
    "C16_identity_rows"
   ],
   "note": "for every engine meeting the shortest-path and constrained-path contracts"
  },
  {
   "property": "C17",
   "status": "proved",
   "theorems": [
    "C17_mapping_agrees",
    "C17_mapping_errors",
    "C17_mapping_can_fail_refuted"
   ],
   "note": "the outputs agree whenever the mapping call returns; C17_mapping_can_fail_refuted shows it can raise an alignment error where normalize returns"
  },
  {
   "property": "C18",
   "status": "proved",
   "theorems": [
    "C18_walker",
    "C18_walker_complete"
   ],
   "note": "the code does not look at finality; neither does the model"
  },
  {
   "property": "C19",
   "status": "proved",
   "theorems": [
    "C19_first_n_distinct",
    "C19_float_weights_exact",
    "C19_float_bound_refuted"
   ],
   "note": "pynini's n-shortest-paths is an oracle (kbest contract); weights are integers, see C19_float_weights_exact; C19_float_bound_refuted shows that off the grid the search's lower bound can fail"
  },
  {
   "property": "C20",
   "status": "proved",
   "theorems": [
    "C20_n_cheapest",
    "C20_tag_n_cheapest"
   ],
   "note": "pynini's n-shortest-paths is an oracle (kbest contract); weights are integers, see C19_float_weights_exact"
  },
  {
   "property": "C21",
   "status": "proved",
   "theorems": [
    "C21_prefix_stable",
    "C21_shape"
   ],
   "note": ""
  },
  {
   "property": "C22",
   "status": "proved",
   "theorems": [
    "C22_stream_enumerates"
   ],
   "note": "ties may be broken differently by every call"
  },
  {
   "property": "C23",
   "status": "proved",
   "theorems": [
    "C23_best_verbalisable",
    "C23_tag_then_verbalize",
    "C23_verbalize_best"
   ],
   "note": "pynini's n-shortest-paths is an oracle (kbest contract); weights are integers, see C19_float_weights_exact"
  },
  {
   "property": "C24",
   "status": "proved",
   "theorems": [
    "C24_terminates",
    "C24_more_fuel"
   ],
   "note": "a parse error of a tagging is the only other failure; C40 is about that"
  },
  {
   "property": "C25",
   "status": "proved",
   "theorems": [
    "C25_rejected",
    "C25_accepted",
    "C25_empty_text"
   ],
   "note": ""
  },
  {
   "property": "C26",
   "status": "proved",
   "theorems": [
    "C26_load_checks",
    "C26_load_published",
    "C26_load_complete",
    "C26_manifest_read_back"
   ],
   "note": "SHA-256 is a parameter: C26_load_published names the collision that would be needed; the JSON reader is a parameter of the first three theorems and CPython's in the fourth"
  },
  {
   "property": "C27",
   "status": "proved",
   "theorems": [
    "C27_never_partial"
   ],
   "note": "file system model of CacheModel.v: POSIX, one cache key, no power loss; crashes stop a process and release its lock"
  },
  {
   "property": "C28",
   "status": "proved",
   "theorems": [
    "C28_one_publication"
   ],
   "note": "file system model of CacheModel.v: POSIX, one cache key, no power loss; crashes stop a process and release its lock"
  },
  {
   "property": "C29",
   "status": "proved",
   "theorems": [
    "C29_never_lost",
    "C29_recovered",
    "C29_not_stuck"
   ],
   "note": "file system model of CacheModel.v: POSIX, one cache key, no power loss; crashes stop a process and release its lock; system calls do not fail (a read error while recovering can make the code discard a set-aside bundle)"
  },
  {
   "property": "C30",
   "status": "proved",
   "theorems": [
    "C30_publish_atomic"
   ],
   "note": "file system model of CacheModel.v: POSIX, one cache key, no power loss; crashes stop a process and release its lock; the Windows retry loop is not modelled"
  },
  {
   "property": "C31",
   "status": "proved",
   "theorems": [
    "C31_mutual_exclusion",
    "C31_built_once"
   ],
   "note": "file system model of CacheModel.v: POSIX, one cache key, no power loss; crashes stop a process and release its lock; flock is modelled as an exclusive lock"
  },
  {
   "property": "C32",
   "status": "proved",
   "theorems": [
    "C32_cleanup_effect",
    "C32_cleanup_calls"
   ],
   "note": "file system model of CacheModel.v: POSIX, one cache key, no power loss; crashes stop a process and release its lock; the effect theorem is about a cleanup without interference, the calls theorem holds whatever the answers of the system calls are"
  },
  {
   "property": "C33",
   "status": "proved",
   "theorems": [
    "C33_keys_apart",
    "C33_same_data",
    "C33_names_apart"
   ],
   "note": "SHA-256 is a parameter: the theorem names the pairs of byte strings that would have to collide; configurations without floats"
  },
  {
   "property": "C34",
   "status": "proved",
   "theorems": [
    "C34_stable",
    "C34_edit",
    "C34_add",
    "C34_text_trees",
    "C34_total",
    "C34_framing_refuted"
   ],
   "note": "about the byte stream under the digest; C34_framing_refuted: in general two different trees can have the same stream, because content lengths are not hashed"
  },
  {
   "property": "C35",
   "status": "proved",
   "theorems": [
    "C35_read_alone",
    "C35_read_among",
    "C35_read_growing",
    "C35_read_ends"
   ],
   "note": ""
  },
  {
   "property": "C36",
   "status": "proved",
   "theorems": [
    "C36_write_all",
    "C36_no_loop",
    "C36_owner_written"
   ],
   "note": ""
  },
  {
   "property": "C37",
   "status": "proved",
   "theorems": [
    "C37_below_root",
    "C37_prefixes",
    "C37_check"
   ],
   "note": "lexical paths below a resolved root; symbolic links below the root are dealt with by the O_NOFOLLOW opens, not by names"
  },
  {
   "property": "C38",
   "status": "proved",
   "theorems": [
    "C38_timeout",
    "C38_honest",
    "C38_bounded",
    "C38_diagnostic"
   ],
   "note": "C38_bounded uses exact time arithmetic; json.loads can also raise RecursionError on a deeply nested owner record, which the code does not catch: excluded by hypothesis in C38_diagnostic"
  },
  {
   "property": "C39",
   "status": "proved",
   "theorems": [
    "C39_absolute",
    "C39_override",
    "C39_relative_home_refuted"
   ],
   "note": "POSIX branches; C39_relative_home_refuted: with a relative HOME the directory is relative"
  },
  {
   "property": "C40",
   "status": "proved",
   "theorems": [
    "C40_write",
    "C40_read",
    "C40_escape_value",
    "C40_one_to_one",
    "C40_parser_reads_it"
   ],
   "note": "Star CHAR and SIGMA as relations; vocabulary escaped/decodes from TokenSpec.v."
  },
  {
   "property": "C41",
   "status": "proved",
   "theorems": [
    "C41_same_pairs",
    "C41_one_tagging",
    "C41_same_cost"
   ],
   "note": "For every graph and every valid text; costs as least weights."
  },
  {
   "property": "C42",
   "status": "proved",
   "theorems": [
    "C42_zh_tn",
    "C42_zh_itn",
    "C42_ja_tn",
    "C42_ja_itn",
    "C42_en_itn",
    "C42_en_tn",
    "C42_en_tn_refuted"
   ],
   "note": "for every option setting, every text and every tagging the grammar relates it to; the tables of token types and fields are in ShapeSpec.v"
  },
  {
   "property": "C43",
   "status": "proved",
   "theorems": [
    "C43_zh_tn",
    "C43_zh_itn",
    "C43_ja_tn",
    "C43_ja_itn",
    "C43_all_chars",
    "C43_en_itn",
    "C43_words_only",
    "C43_en_tn"
   ],
   "note": "field values are found in the input in order; C43_all_chars: nothing but spaces is left out of the all-characters tagging"
  },
  {
   "property": "C44",
   "status": "proved",
   "theorems": [
    "C44_zh_tn",
    "C44_zh_itn",
    "C44_ja_tn",
    "C44_ja_itn",
    "C44_zh_tn_normalize",
    "C44_zh_itn_normalize",
    "C44_ja_tn_normalize",
    "C44_ja_itn_normalize",
    "C44_en_itn",
    "C44_en_itn_normalize",
    "C44_en_itn_refuted",
    "C44_en_tn",
    "C44_en_tn_normalize",
    "C44_en_tn_refuted"
   ],
   "note": "for every option setting; every tagging, not only the best, can be reordered and verbalised; C44_en_itn_refuted: texts for which the English inverse normalizer raises"
  },
  {
   "property": "C45",
   "status": "proved",
   "theorems": [
    "C45_reading",
    "C45_domain",
    "C45_apart",
    "C45_every_number"
   ],
   "note": "ASCII digits; value of a numeral defined in NumeralSpec.v; numbers of 13 digits and more have no reading"
  },
  {
   "property": "C46",
   "status": "proved",
   "theorems": [
    "C46_tagger_union",
    "C46_tagger_union_rejects",
    "C46_verbalizer_union",
    "C46_verbalizer_union_rejects",
    "C46_precedence"
   ],
   "note": "For every rule inventory."
  },
  {
   "property": "C47",
   "status": "proved",
   "theorems": [
    "C47_calls",
    "C47_input",
    "C47_two_lines",
    "C47_file_lines",
    "C47_one_ending",
    "C47_usage_error_refuted"
   ],
   "note": "the processor and the output are arbitrary functions of the history of calls; C47_usage_error_refuted: an OSError while printing is also reported as a usage error about the file"
  },
  {
   "property": "C48",
   "status": "proved",
   "theorems": [
    "C48_parse_bool",
    "C48_str2bool",
    "C48_option_words"
   ],
   "note": "argparse is modelled for whole option names"
  },
  {
   "property": "C49",
   "status": "proved",
   "theorems": [
    "C49_inside",
    "C49_found"
   ],
   "note": "symbolic links are an arbitrary function"
  },
  {
   "property": "C50",
   "status": "proved",
   "theorems": [
    "C50_split_total",
    "C50_split_chars",
    "C50_length",
    "C50_never_aborts_refuted"
   ],
   "note": "glog's CHECK ends the process (outcome Fatal); C50_never_aborts_refuted: a byte 0xFF does so"
  },
  {
   "property": "C51",
   "status": "proved",
   "theorems": [
    "C51_agree",
    "C51_tables",
    "C51_pipelines",
    "C51_accepts",
    "C51_total",
    "C51_extra_fields_refuted",
    "C51_duplicates_refuted",
    "C51_escapes_refuted",
    "C51_japanese_refuted"
   ],
   "note": "the _refuted theorems show that each restriction is needed; C51_japanese_refuted is a difference between the shipped Japanese TN tables"
  },
  {
   "property": "C52",
   "status": "proved",
   "theorems": [
    "C52_options_in_key"
   ],
   "note": "the options each grammar reads are transcribed by hand from the six pipelines (grammar_reads)"
  },
  {
   "property": "C53",
   "status": "proved",
   "theorems": [
    "C53_trim",
    "C53_split",
    "C53_empty_delimiter_refuted"
   ],
   "note": ""
  },
  {
   "property": "C54",
   "status": "proved",
   "theorems": [
    "C54_only_prefix",
    "C54_no_prefix",
    "C54_file_name_refuted"
   ],
   "note": ""
  },
  {
   "property": "C55",
   "status": "proved",
   "theorems": [
    "C55_wiring",
    "C55_language",
    "C55_one_source",
    "C55_other_options",
    "C55_defaults"
   ],
   "note": "argparse is modelled for whole option names (no abbreviations)"
  },
  {
   "property": "C56",
   "status": "proved",
   "theorems": [
    "C56_en_itn_refuted"
   ],
   "note": "false: two engines that both report cheapest paths read the same text as different times, because the verbalizer's minute field also accepts minutes to the hour"
  },
  {
   "property": "C57",
   "status": "proved",
   "theorems": [
    "C57_zh_tn",
    "C57_zh_itn",
    "C57_ja_tn",
    "C57_ja_itn",
    "C57_en_itn",
    "C57_en_tn_refuted"
   ],
   "note": "C57_en_tn_refuted: for the English normalizer it is false; the theorems also exhibit an engine meeting their hypotheses"
  },
  {
   "property": "C58",
   "status": "proved",
   "theorems": [
    "C58_reading",
    "C58_domain",
    "C58_apart",
    "C58_tagged",
    "C58_cheapest",
    "C58_verbalized",
    "C58_refuted"
   ],
   "note": "the value of an English number name is defined in EnglishNumeralSpec.v; C58_verbalized is about the verbalizer of the whole normalizer; C58_refuted: the bound 10^11 is sharp"
  },
  {
   "property": "C59",
   "status": "proved",
   "theorems": [
    "C59_graph",
    "C59_integer",
    "C59_tagged",
    "C59_verbalized",
    "C59_back",
    "C59_back_cheapest",
    "C59_back_refuted"
   ],
   "note": "the value of a spoken number is defined in EnglishSpokenSpec.v; C59_back_refuted: the round trip fails for every number from 1000 to 1999"
  },
  {
   "property": "C60",
   "status": "proved",
   "theorems": [
    "C60_ordinal",
    "C60_only",
    "C60_tagged",
    "C60_verbalized"
   ],
   "note": "the ordinal of a number word and the written suffixes are defined in EnglishOrdinalSpec.v; the cdrewrite of ordinal.py:45-49 is modelled by its cases on the last characters"
  },
  {
   "property": "C61",
   "status": "proved",
   "theorems": [
    "C61_number",
    "C61_below",
    "C61_large",
    "C61_tagged",
    "C61_cheapest",
    "C61_verbalized",
    "C61_back",
    "C61_million_refuted"
   ],
   "note": "the value of a spoken Chinese number is defined in ZhSpokenSpec.v; C61_million_refuted: the two settings of enable_million write different numbers for 一百万五; the tagger's choice between the cardinal rule and the other rules is not part of it"
  },
  {
   "property": "C62",
   "status": "proved",
   "theorems": [
    "C62_normalize",
    "C62_steps",
    "C62_back",
    "C62_engine_exists",
    "C62_weight_refuted"
   ],
   "note": "the whole tagger and verbalizer, the token parser and the search; the engine is any that meets search_oracle (and best_oracle for C62_steps); C62_weight_refuted: a text ending in 两 may be answered as a weight"
  },
  {
   "property": "C63",
   "status": "proved",
   "theorems": [
    "C63_zh_tn",
    "C63_zh_itn",
    "C63_ja_tn",
    "C63_ja_itn",
    "C63_answers",
    "C63_normalize"
   ],
   "note": "the engine is any that meets search_oracle; the English normalisers put spaces between words and are not included"
  },
  {
   "property": "C64",
   "status": "proved",
   "theorems": [
    "C64_zh_tn",
    "C64_zh_itn",
    "C64_ja_tn",
    "C64_ja_itn",
    "C64_around_zh_tn",
    "C64_around_zh_itn",
    "C64_around_ja_tn",
    "C64_around_ja_itn",
    "C64_number"
   ],
   "note": "the effect of the options on one character is written from the tables alone in PlainSpec.v; plainb decides whether a character is of this sort"
  },
  {
   "property": "C65",
   "status": "proved",
   "theorems": [
    "C65_number",
    "C65_percent",
    "C65_hotline",
    "C65_date_refuted"
   ],
   "note": "written numbers, dates with a point and telephone numbers are described in ZhTnEndSpec.v (the list of telephone numbers is the data file's); the engine is any that meets search_oracle; C65_date_refuted: why dates are excepted"
  },
  {
   "property": "C66",
   "status": "proved",
   "theorems": [
    "C66_zh_tn",
    "C66_ja_tn",
    "C66_ja_itn"
   ],
   "note": "one rule's reading of a whole text is defined in WholeSpec.v; the lower bounds on what a rule can cost are decided by an analysis of the graphs proved sound in Whole.v"
  },
  {
   "property": "C67",
   "status": "proved",
   "theorems": [
    "C67_year_month_day",
    "C67_day_month_year",
    "C67_year_month",
    "C67_month_day"
   ],
   "note": "dates and their words are described in ZhDateSpec.v and ZhTnEndSpec.v; the engine is any that meets search_oracle; ranges of dates (with ~) are not included"
  },
  {
   "property": "C68",
   "status": "proved",
   "theorems": [
    "C68_fraction",
    "C68_no_date",
    "C68_date_refuted"
   ],
   "note": "gaps and dates are described in ZhAmountSpec.v; the engine is any that meets search_oracle; C68_date_refuted: why dates are excepted"
  },
  {
   "property": "C69",
   "status": "proved",
   "theorems": [
    "C69_money"
   ],
   "note": "the currencies are those of the data files; amounts with a unit after the number (100元) are not included; the engine is any that meets search_oracle"
  },
  {
   "property": "C70",
   "status": "proved",
   "theorems": [
    "C70_time",
    "C70_time_seconds"
   ],
   "note": "times and their words are described in ZhAmountSpec.v; the engine is any that meets search_oracle; ranges of times (with ~) are not included"
  },
  {
   "property": "C71",
   "status": "proved",
   "theorems": [
    "C71_number",
    "C71_percent",
    "C71_unmarked",
    "C71_marked_refuted",
    "C71_month_refuted"
   ],
   "note": "written numbers and Japanese numerals are described in JaNumeralSpec.v; the engine is any that meets search_oracle; numbers from 10^8 on can be read digit by digit at the same cost and are not included; the refuted theorems show why the exceptions are there"
  },
  {
   "property": "C72",
   "status": "proved",
   "theorems": [
    "C72_year_month_day",
    "C72_day_month_year",
    "C72_year_month",
    "C72_month_day"
   ],
   "note": "dates and their words are described in JaNumeralSpec.v, ZhDateSpec.v and ZhTnEndSpec.v; the engine is any that meets search_oracle; ranges of dates are not included"
  },
  {
   "property": "C73",
   "status": "proved",
   "theorems": [
    "C73_fraction",
    "C73_no_date",
    "C73_whole_no_date",
    "C73_date_refuted"
   ],
   "note": "numbers, dates and their words are described in JaNumeralSpec.v and JaAmountSpec.v; the engine is any that meets search_oracle; C73_date_refuted shows why dates are excepted"
  },
  {
   "property": "C74",
   "status": "proved",
   "theorems": [
    "C74_money"
   ],
   "note": "the currencies and their names are the data files of tn/japanese/data/money; HK with a full-width dollar sign is left out; the engine is any that meets search_oracle"
  },
  {
   "property": "C75",
   "status": "proved",
   "theorems": [
    "C75_time",
    "C75_time_seconds",
    "C75_hour_noon"
   ],
   "note": "times and their words are described in JaAmountSpec.v and ZhAmountSpec.v (minute_text); only the half-width colon; ranges of times are not included; the engine is any that meets search_oracle"
  },
  {
   "property": "C76",
   "status": "proved",
   "theorems": [
    "C76_number",
    "C76_back"
   ],
   "note": "numerals with 一十 are left out and C76_one_ten_refuted shows that they are not read (一十五 comes out as 115); spoken numbers the options do not ask for, and 10^6 and more without enable_million, are not included; the engine is any that meets search_oracle"
  },
  {
   "property": "C77",
   "status": "proved",
   "theorems": [
    "C77_ordinal_after",
    "C77_ordinal_before"
   ],
   "note": "numerals with 一十 are left out (C76_one_ten_refuted); the text is the ordinal alone; the engine is any that meets search_oracle"
  },
  {
   "property": "C78",
   "status": "proved",
   "theorems": [
    "C78_unit",
    "C78_percent",
    "C78_counter"
   ],
   "note": "unit_word and counter_word say which listed words are included; C78_kilometre_refuted shows why a numeral in 千 before キロメートル is excluded; quantities per another unit (毎) are not included; the engine is any that meets search_oracle"
  },
  {
   "property": "C79",
   "status": "proved",
   "theorems": [
    "C79_money"
   ],
   "note": "currency_word says which listed currencies are included; C79_pound_refuted shows that ポンド has two equally cheap symbols; numerals with 一十 are left out (C76_one_ten_refuted); the engine is any that meets search_oracle"
  },
  {
   "property": "C80",
   "status": "proved",
   "theorems": [
    "C80_year_month_day",
    "C80_year_month",
    "C80_month_day"
   ],
   "note": "numerals with 一十 are left out (C76_one_ten_refuted); ranges (から) and era years are not included; the engine is any that meets search_oracle"
  },
  {
   "property": "C81",
   "status": "proved",
   "theorems": [
    "C81_fraction"
   ],
   "note": "C81_sign_refuted shows why a sign before the denominator is excluded; roots (ルート) and spaces are not included; numerals with 一十 are left out (C76_one_ten_refuted); the engine is any that meets search_oracle"
  },
  {
   "property": "C82",
   "status": "proved",
   "theorems": [
    "C82_hour_minute_second",
    "C82_hour_minute",
    "C82_minute_second",
    "C82_minute"
   ],
   "note": "C82_two_refuted shows that 二時 is not read as an hour; hours alone and seconds alone are not included; numerals with 一十 are left out (C76_one_ten_refuted); the engine is any that meets search_oracle"
  },
  {
   "property": "C83",
   "status": "proved",
   "theorems": [
    "C83_year_month_day",
    "C83_year_month",
    "C83_month_day",
    "C83_fraction",
    "C83_percent",
    "C83_money",
    "C83_hour_minute_second",
    "C83_hour_minute"
   ],
   "note": "numbers themselves are C76_back; the excluded times are those of C82; fractions that are dates as well are excluded as in C73; the engines are any that meet search_oracle"
  },
  {
   "property": "C84",
   "status": "proved",
   "theorems": [
    "C84_year_month_day",
    "C84_year_month",
    "C84_month_day",
    "C84_year",
    "C84_round_year_month_day",
    "C84_round_year_month"
   ],
   "note": "the engines are any that meet search_oracle"
  },
  {
   "property": "C85",
   "status": "proved",
   "theorems": [
    "C85_percent",
    "C85_round_percent"
   ],
   "note": "numerals that end in 两 are excepted (C62_weight_refuted); the engines are any that meet search_oracle"
  },
  {
   "property": "C86",
   "status": "proved",
   "theorems": [
    "C86_fraction",
    "C86_round_fraction"
   ],
   "note": "numerators that end in 两 are excepted (C62_weight_refuted); the engines are any that meet search_oracle"
  },
  {
   "property": "C87",
   "status": "proved",
   "theorems": [
    "C87_train",
    "C87_plate"
   ],
   "note": "the engines are any that meet search_oracle"
  },
  {
   "property": "C88",
   "status": "proved",
   "theorems": [
    "C88_digits",
    "C88_identity",
    "C88_round_phone"
   ],
   "note": "the engines are any that meet search_oracle"
  }
 ]
}