{
 "claims": [
  {
   "property": "C01",
   "status": "proved",
   "theorems": [
    "C01_parsing_terminates",
    "C01_main_terminates",
    "C01_item_rounds",
    "C01_block_rounds",
    "C01_element_rounds"
   ],
   "note": ""
  },
  {
   "property": "C02",
   "status": "proved",
   "theorems": [
    "C02_constructor_outcome",
    "C02_empty_input"
   ],
   "note": ""
  },
  {
   "property": "C03",
   "status": "proved",
   "theorems": [
    "C03_get_json_exceptions",
    "C03_never_raises_refuted"
   ],
   "note": "The exception set is proved; the README's claim that malformed files never fail is refuted by C03_never_raises_refuted."
  },
  {
   "property": "C04",
   "status": "proved",
   "theorems": [
    "C04_header_reported",
    "C04_every_file",
    "C04_times_reported"
   ],
   "note": ""
  },
  {
   "property": "C05",
   "status": "proved",
   "theorems": [
    "C05_flags_reported",
    "C05_names_are_bits",
    "C05_predicates"
   ],
   "note": ""
  },
  {
   "property": "C06",
   "status": "proved",
   "theorems": [
    "C06_tracker_warnings",
    "C06_header_warnings",
    "C06_constructor_warnings",
    "C06_header_warnings_first"
   ],
   "note": ""
  },
  {
   "property": "C07",
   "status": "proved",
   "theorems": [
    "C07_rendering",
    "C07_hot_key_recoverable"
   ],
   "note": ""
  },
  {
   "property": "C08",
   "status": "proved",
   "theorems": [
    "C08_zero",
    "C08_exact",
    "C08_near_1970",
    "C08_in_range",
    "C08_out_of_range",
    "C08_calendar",
    "C08_exact_everywhere_refuted"
   ],
   "note": ""
  },
  {
   "property": "C09",
   "status": "proved",
   "theorems": [
    "C09_round_trip",
    "C09_all_words"
   ],
   "note": ""
  },
  {
   "property": "C10",
   "status": "proved",
   "theorems": [
    "C10_registry_format",
    "C10_lossless",
    "C10_short_raises"
   ],
   "note": ""
  },
  {
   "property": "C11",
   "status": "proved",
   "theorems": [
    "C11_packed_guid"
   ],
   "note": ""
  },
  {
   "property": "C12",
   "status": "proved",
   "theorems": [
    "C12_default_page",
    "C12_page_complete",
    "C12_page_exclusive",
    "C12_code_page_field",
    "C12_every_field_has_a_body",
    "C12_nothing_after_nul_counts",
    "C12_field_text",
    "C12_utf8_decoder",
    "C12_ascii_with_default_code_page"
   ],
   "note": "Windows-1252 is stated as a table of its own in SpecChars.v (C12_default_page)."
  },
  {
   "property": "C13",
   "status": "proved",
   "theorems": [
    "C13_malformed",
    "C13_round_trip",
    "C13_total",
    "C13_nothing_after_nul_counts",
    "C13_wide_text"
   ],
   "note": "C13_malformed gives the text of every byte string; rules in SpecChars.v."
  },
  {
   "property": "C14",
   "status": "proved",
   "theorems": [
    "C14_unicode",
    "C14_code_page"
   ],
   "note": ""
  },
  {
   "property": "C15",
   "status": "proved",
   "theorems": [
    "C15_counts",
    "C15_at_most_260"
   ],
   "note": ""
  },
  {
   "property": "C16",
   "status": "proved",
   "theorems": [
    "C16_prefix",
    "C16_never_raises",
    "C16_every_file"
   ],
   "note": ""
  },
  {
   "property": "C17",
   "status": "proved",
   "theorems": [
    "C17_size_is_sum_of_sections"
   ],
   "note": ""
  },
  {
   "property": "C18",
   "status": "proved",
   "theorems": [
    "C18_size_at_most_length",
    "C18_size_is_length_with_terminal_data",
    "C18_size_at_most_length_refuted"
   ],
   "note": "size <= len holds when the declared sizes stay inside the data and is refuted in general."
  },
  {
   "property": "C19",
   "status": "proved",
   "theorems": [
    "C19_bounded",
    "C19_links_in_a_row"
   ],
   "note": "Holds for every well-formed abstract link: with allow_terminal_blocks=False the size is the encoded length and nothing behind the terminal block is looked at; a client reading n links in a row gets the n reports."
  },
  {
   "property": "C20",
   "status": "proved",
   "theorems": [
    "C20_terminal_block",
    "C20_same_inputs_accepted"
   ],
   "note": ""
  },
  {
   "property": "C21",
   "status": "proved",
   "theorems": [
    "C21_blocks_split",
    "C21_any_file"
   ],
   "note": ""
  },
  {
   "property": "C22",
   "status": "proved",
   "theorems": [
    "C22_bad_block",
    "C22_any_blocks",
    "C22_in_report"
   ],
   "note": "C22_in_report: for any blocks of any file, what is left out and which warnings a report gives."
  },
  {
   "property": "C23",
   "status": "proved",
   "theorems": [
    "C23_collected",
    "C23_every_block_is_reported_refuted",
    "C23_in_report",
    "C23_entries_are_blocks",
    "C23_names"
   ],
   "note": "The accumulation rule is proved; that every block is reported is refuted. C23_in_report, C23_entries_are_blocks and C23_names say it of reports of any file."
  },
  {
   "property": "C24",
   "status": "proved",
   "theorems": [
    "C24_exact_condition",
    "C24_zero_is_accepted",
    "C24_terminal_values_refuted"
   ],
   "note": "Acceptance of terminal values 1..3 is refuted; the exact condition is proved."
  },
  {
   "property": "C25",
   "status": "proved",
   "theorems": [
    "C25_blocks_reported",
    "C25_one_block",
    "C25_short_blocks",
    "C25_color_table_refuted"
   ],
   "note": "All fields proved; only the first of the sixteen console colours is reported (C25_color_table_refuted)."
  },
  {
   "property": "C26",
   "status": "proved",
   "theorems": [
    "C26_layer_name",
    "C26_only_first_character",
    "C26_layer_name_refuted",
    "C26_in_report"
   ],
   "note": "The claim is refuted; what is reported instead is proved for every layer name. C26_in_report says it of reports."
  },
  {
   "property": "C27",
   "status": "proved",
   "theorems": [
    "C27_property_store",
    "C27_i2_loses_the_block",
    "C27_i2_refuted",
    "C27_in_report"
   ],
   "note": "Proved for every store without VT_I2; with VT_I2 the claim is refuted and the block is always lost. C27_in_report says it of reports."
  },
  {
   "property": "C28",
   "status": "proved",
   "theorems": [
    "C28_descriptor",
    "C28_zero_descriptor_refuted",
    "C28_in_report"
   ],
   "note": "All four forms proved; a descriptor field of zeros makes get_json raise (C28_zero_descriptor_refuted). C28_in_report says it of reports."
  },
  {
   "property": "C29",
   "status": "proved",
   "theorems": [
    "C29_one_entry_each",
    "C29_own_position",
    "C29_nothing_after_terminal"
   ],
   "note": ""
  },
  {
   "property": "C30",
   "status": "proved",
   "theorems": [
    "C30_in_report",
    "C30_class_of_type",
    "C30_unknown_types_are_warned_about"
   ],
   "note": "C30_in_report says it of reports."
  },
  {
   "property": "C31",
   "status": "proved",
   "theorems": [
    "C31_items_in_file",
    "C31_items"
   ],
   "note": ""
  },
  {
   "property": "C32",
   "status": "proved",
   "theorems": [
    "C32_in_report",
    "C32_item_and_two_bytes",
    "C32_item_alone_refuted"
   ],
   "note": "Dependence on the item's bytes alone is refuted; dependence on the item and the two following bytes is proved. C32_in_report: one item in two files, at any places."
  },
  {
   "property": "C33",
   "status": "proved",
   "theorems": [
    "C33_in_report",
    "C33_exact_condition",
    "C33_missing_strings_refuted"
   ],
   "note": "The exact condition for RuntimeError is proved; that a report is always produced is refuted. C33_in_report says it of reports."
  },
  {
   "property": "C34",
   "status": "proved",
   "theorems": [
    "C34_same_items",
    "C34_same_outcome"
   ],
   "note": ""
  },
  {
   "property": "C35",
   "status": "proved",
   "theorems": [
    "C35_variant",
    "C35_every_file",
    "C35_outcome"
   ],
   "note": "Complete account of the section for every file, including when decoding raises."
  },
  {
   "property": "C36",
   "status": "proved",
   "theorems": [
    "C36_local"
   ],
   "note": "All fields at any offsets; the Unicode suffix is reported as the code reads it (C39)."
  },
  {
   "property": "C37",
   "status": "proved",
   "theorems": [
    "C37_network"
   ],
   "note": "All fields; the device name is the string at DeviceNameOffset even when there is no device (C54)."
  },
  {
   "property": "C38",
   "status": "proved",
   "theorems": [
    "C38_provider_names",
    "C38_letters_refuted"
   ],
   "note": "Exact set of named providers proved; that every provider of the table is named is refuted."
  },
  {
   "property": "C39",
   "status": "proved",
   "theorems": [
    "C39_suffix_without_first_two",
    "C39_suffix_bytes",
    "C39_suffix_refuted"
   ],
   "note": "The claim is refuted; the exact text reported is proved, in C54_in_report for every size of the share."
  },
  {
   "property": "C40",
   "status": "proved",
   "theorems": [
    "C40_strings_start_at_the_link_info",
    "C40_skipped_refuted"
   ],
   "note": "The claim is refuted; where the strings are read from instead is proved."
  },
  {
   "property": "C41",
   "status": "proved",
   "theorems": [
    "C41_abridged",
    "C41_positions",
    "C41_leaves"
   ],
   "note": ""
  },
  {
   "property": "C42",
   "status": "proved",
   "theorems": [
    "C42_valid_json",
    "C42_plain_text",
    "C42_every_value",
    "C42_text_determines"
   ],
   "note": "The reader of SpecReport.v is an independent RFC 8259 parser. The code page must decode to Unicode scalar values (proved for cp1252); utf-7 and unicode_escape can decode to lone surrogates and are outside the hypothesis."
  },
  {
   "property": "C43",
   "status": "proved",
   "theorems": [
    "C43_split",
    "C43_verbatim",
    "C43_quoting"
   ],
   "note": "The splitting rules are those for arguments after the program name; Windows parses argv[0] without backslash escapes."
  },
  {
   "property": "C44",
   "status": "proved",
   "theorems": [
    "C44_raises_exactly",
    "C44_never_raises_refuted"
   ],
   "note": "That a command is always returned is refuted; the exact condition for TypeError is proved."
  },
  {
   "property": "C45",
   "status": "proved",
   "theorems": [
    "C45_tree",
    "C45_raises",
    "C45_collisions"
   ],
   "note": "The tree given to the YAML printer is modelled and proved for every report; the YAML text itself is not modelled."
  },
  {
   "property": "C46",
   "status": "proved",
   "theorems": [
    "C46_link",
    "C46_own_section"
   ],
   "note": "Constructor outcome, warnings, size and the whole report of every well-formed abstract link, whatever follows. The LinkInfo entry uses the link's own bytes because of the misread Unicode suffix (C39); C46_own_section shows that only short suffixes see beyond the section."
  },
  {
   "property": "C47",
   "status": "proved",
   "theorems": [
    "C47_pages",
    "C47_default",
    "C47_single_byte",
    "C47_any_page_refuted"
   ],
   "note": "The two reports are compared position by position; the positions of code-page strings are listed in SpecPages.v. Default and all single-byte code pages qualify; for a page that decodes something to nothing the keys may differ (C47_any_page_refuted)."
  },
  {
   "property": "C48",
   "status": "proved",
   "theorems": [
    "C48_sha256",
    "C48_unknown_block",
    "C48_appended_data",
    "C48_digest_form",
    "C48_what_is_hashed",
    "C48_unknown_in_report",
    "C48_appended_in_report"
   ],
   "note": "C48_unknown_in_report and C48_appended_in_report say it of reports."
  },
  {
   "property": "C49",
   "status": "proved",
   "theorems": [
    "C49_constructor_error",
    "C49_target",
    "C49_target_json",
    "C49_json",
    "C49_readable"
   ],
   "note": "The theorems start from the parsed options; the arguments themselves are C73, the output byte for byte C77. The YAML text is not modelled, only the tree handed to yaml.dump."
  },
  {
   "property": "C50",
   "status": "proved",
   "theorems": [
    "C50_text_fields",
    "C50_volume_name",
    "C50_in_report"
   ],
   "note": "C50_in_report says it of reports."
  },
  {
   "property": "C51",
   "status": "proved",
   "theorems": [
    "C51_silent",
    "C51_plain_silent",
    "C51_conforming_refuted"
   ],
   "note": "Silent for every conforming link whose Unicode suffix, as the code reads it, is text. For links that merely conform to the specification it is refuted: a surrogate pair across the skipped units warns."
  },
  {
   "property": "C52",
   "status": "proved",
   "theorems": [
    "C52_constructor_warnings",
    "C52_warnings_determined"
   ],
   "note": ""
  },
  {
   "property": "C53",
   "status": "proved",
   "theorems": [
    "C53_in_report",
    "C53_names",
    "C53_never_reported",
    "C53_unicode_share_refuted"
   ],
   "note": "C53_names gives the name for each combination of the low three bits, for every file entry and network location of every file; the two names that are never reported are refuted."
  },
  {
   "property": "C54",
   "status": "proved",
   "theorems": [
    "C54_in_report",
    "C54_absent_device_is_the_size_field",
    "C54_device_name_refuted"
   ],
   "note": "The claim is refuted; the exact text reported is proved, in C54_in_report for every size of the share."
  },
  {
   "property": "C55",
   "status": "proved",
   "theorems": [
    "C55_closed_strings",
    "C55_open_strings_refuted"
   ],
   "note": "Proved for closed strings; refuted in general."
  },
  {
   "property": "C56",
   "status": "proved",
   "theorems": [
    "C56_well_formed",
    "C56_any_code_page",
    "C56_default_code_page"
   ],
   "note": ""
  },
  {
   "property": "C57",
   "status": "proved",
   "theorems": [
    "C57_text",
    "C57_no_marker",
    "C57_recovered",
    "C57_recovered_exactly",
    "C57_strings_shown_refuted"
   ],
   "note": ""
  },
  {
   "property": "C58",
   "status": "proved",
   "theorems": [
    "C58_same",
    "C58_report",
    "C58_json",
    "C58_readable",
    "C58_command",
    "C58_separate",
    "C58_kept"
   ],
   "note": ""
  },
  {
   "property": "C59",
   "status": "proved",
   "theorems": [
    "C59_cube",
    "C59_quadratic_refuted",
    "C59_linear",
    "C59_polynomial",
    "C59_default_page",
    "C59_square",
    "C59_linear_refuted"
   ],
   "note": "The upper bound with the property store is of degree three and C59_cube gives a family that reaches it (names as long as the store, in storages that overlap). Files are bounded to 4 GiB for one store by its 32-bit size field, hence the factors up to 2^27 and 2^8 in the refutations."
  },
  {
   "property": "C60",
   "status": "proved",
   "theorems": [
    "C60_exact",
    "C60_one_outcome",
    "C60_settings"
   ],
   "note": "SpecOutcome.v states the outcome from positions and lengths in the file; C60_exact is an equivalence for success and for each exception. For files given as bytes and a code page Python knows; when a file can be opened at all is C02."
  },
  {
   "property": "C61",
   "status": "proved",
   "theorems": [
    "C61_every_id_list",
    "C61_list_read",
    "C61_determined"
   ],
   "note": "SpecEntries.v gives the entry and the warnings of an item from its bytes, for every kind of item; C61_list_read is the equation for the reader itself, C61_determined says the specification is a function defined on every readable list."
  },
  {
   "property": "C62",
   "status": "proved",
   "theorems": [
    "C62_every_extra_section",
    "C62_block_read",
    "C62_left_out",
    "C62_determined"
   ],
   "note": "SpecBlocks.v gives the report of a block from its bytes. C62_block_read is an equivalence: decoded exactly when and to what the specification says. C62_left_out is the equivalence for blocks that are left out, with the warnings given before they are."
  },
  {
   "property": "C63",
   "status": "proved",
   "theorems": [
    "C63_whole_report",
    "C63_determined"
   ],
   "note": "SpecWhole.v puts the sections together. The abridged report is the complete one without the entries named in C41. Warnings of the constructor are C52; whether there is a report is C60."
  },
  {
   "property": "C64",
   "status": "proved",
   "theorems": [
    "C64_exact",
    "C64_determined",
    "C64_order",
    "C64_no_gaps",
    "C64_header_times"
   ],
   "note": "SpecDouble.v states the rounding in rational arithmetic, without reference to the model of the division in PyTime.v; C64_exact is an equivalence. Bounds of the exponent of a binary64 number are not part of the specification; no FILETIME comes near them."
  },
  {
   "property": "C65",
   "status": "proved",
   "theorems": [
    "C65_failures",
    "C65_everything",
    "C65_determined"
   ],
   "note": "SpecFailure.v; C65_everything is the equivalence for every result of the complete report (C60, C63 and the failures together), C65_determined says that the specification allows exactly one result for each file that can be opened."
  },
  {
   "property": "C66",
   "status": "proved",
   "theorems": [
    "C66_constructor",
    "C66_determined",
    "C66_string",
    "C66_report",
    "C66_command_line"
   ],
   "note": "SpecUnknown.v; C66_constructor is an equivalence for every byte string and every code page, C66_report and C66_command_line compare the unknown page with every other page. That a LookupError occurs exactly when a code-page text is met is proved for single strings (C66_string) and the constructor; in a report the unknown page may fail on a string of a block that another page would leave out later."
  },
  {
   "property": "C67",
   "status": "proved",
   "theorems": [
    "C67_header",
    "C67_target",
    "C67_link_info",
    "C67_strings",
    "C67_blocks",
    "C67_command",
    "C67_everything",
    "C67_cut_off",
    "C67_continued",
    "C67_cut_noticed_refuted",
    "C67_terminal_block_refuted"
   ],
   "note": "SpecPrefix.v; part by part (header, ID list, link info, strings, blocks, command) and for the whole link: files that agree up to the end of a part report it alike, with failures and warnings for the whole link. For the link info this needs its strings to end inside the common bytes (C55_open_strings_refuted shows why). Refuted: that a link cut off inside a string is noticed, and that the same holds with allow_terminal_blocks, which shows what follows."
  },
  {
   "property": "C68",
   "status": "proved",
   "theorems": [
    "C68_report",
    "C68_value",
    "C68_same_text",
    "C68_command_line",
    "C68_target"
   ],
   "note": "SpecJsonText.v; an equivalence between the report and its text. The -t -j output (one line) is C68_target. Lone surrogates are covered; C68_same_text excludes them, and C68_example_surrogates shows why."
  },
  {
   "property": "C69",
   "status": "proved",
   "theorems": [
    "C69_every_run",
    "C69_default_code_page",
    "C69_determined",
    "C69_opened",
    "C69_command",
    "C69_argument"
   ],
   "note": "SpecRun.v; an equivalence for all files and options, given that the code page exists and yields code points below 0x110000, as every codec of Python does (without -c nothing is assumed). What yaml.dump makes of the tree of the readable report is not modelled (what is printed around it is C57); code pages that do not exist are C66."
  },
  {
   "property": "C70",
   "status": "proved",
   "theorems": [
    "C70_right",
    "C70_links",
    "C70_goes_on",
    "C70_ends",
    "C70_keeps",
    "C70_apart"
   ],
   "note": "Threads.v, SpecThreads.v. Atomic steps: creating an object, looking at one, one operation on one. The right outcome of a call is that of the model of values, as in C58. The registry of the module warnings, which threads share, is not modelled."
  },
  {
   "property": "C71",
   "status": "proved",
   "theorems": [
    "C71_answers",
    "C71_nothing",
    "C71_determined",
    "C71_as_reported",
    "C71_goes_on"
   ],
   "note": "SpecWalk.v; an equivalence for every history of calls. Iterators and methods of single items and blocks as in Walk.v."
  },
  {
   "property": "C72",
   "status": "proved",
   "theorems": [
    "C72_answers",
    "C72_determined",
    "C72_as_reported",
    "C72_left_out",
    "C72_unset_names",
    "C72_only_missing_parts",
    "C72_report_shows_all_names_refuted"
   ],
   "note": "SpecFields.v; an equivalence for every method in Fields.v. Finding: net_name_unicode and device_name_unicode read at the start of the share when their offset is zero (C72_report_shows_all_names_refuted)."
  },
  {
   "property": "C73",
   "status": "proved",
   "theorems": [
    "C73_every_run",
    "C73_arguments",
    "C73_help",
    "C73_refused",
    "C73_determined",
    "C73_name_anywhere",
    "C73_any_name",
    "C73_closing_dashes_refuted"
   ],
   "note": "Args.v models argparse of Python 3.11 for this parser; SpecArgs.v says what words mean without it. Finding: -- at the end is refused when options stand behind the name (C73_closing_dashes_refuted). For the whole program the code page asked for must exist."
  },
  {
   "property": "C74",
   "status": "proved",
   "theorems": [
    "C74_answers",
    "C74_nothing",
    "C74_determined",
    "C74_undisturbed",
    "C74_items_as_reported",
    "C74_blocks_as_reported",
    "C74_stores_as_reported",
    "C74_storages_as_reported",
    "C74_properties_as_reported",
    "C74_extension_block",
    "C74_volume_identifier",
    "C74_flags_of_a_number",
    "C74_sort_index_of_a_number"
   ],
   "note": "SpecPieces.v; an equivalence for every method and history, and the reports as the methods in order. get_item_shell_fs_folder and get_sort_index, which take a number, have theorems of their own (for numbers that are not negative). Findings: extension_block() of a root folder and volume_identifier() of a named volume always raise."
  },
  {
   "property": "C75",
   "status": "proved",
   "theorems": [
    "C75_answers",
    "C75_determined",
    "C75_like_new",
    "C75_as_new",
    "C75_idempotent",
    "C75_no_content",
    "C75_assignments",
    "C75_all_or_nothing_refuted"
   ],
   "note": "SpecAgain.v; an equivalence for every call after every history, for every code page and for blocks of any size. Where a part was read with an unknown code page, its section of a report is what SpecTrace.v says: it stops at the first string that needs the page, or is as with any page. C75_all_or_nothing_refuted: a failed process() leaves a mixture of two files, of which a report can be made."
  },
  {
   "property": "C76",
   "status": "proved",
   "theorems": [
    "C76_determined",
    "C76_report",
    "C76_outcome",
    "C76_unknown_stops",
    "C76_unknown_goes_on",
    "C76_unknown_exact",
    "C76_command_line_stops",
    "C76_command_line_goes_on"
   ],
   "note": "SpecTrace.v lists what a report does from the bytes of the file; it also covers items, infos and blocks that cannot be read. It makes C66_report exact: where an unknown page stops, and with which warnings."
  },
  {
   "property": "C77",
   "status": "proved",
   "theorems": [
    "C77_every_run",
    "C77_default_code_page",
    "C77_unknown_page",
    "C77_json",
    "C77_json_same_everywhere",
    "C77_json_recovered",
    "C77_target_json_one_line",
    "C77_target",
    "C77_target_utf8",
    "C77_target_recovered",
    "C77_readable",
    "C77_utf8",
    "C77_target_one_line_refuted",
    "C77_target_always_printed_refuted",
    "C77_utf8_every_page_refuted"
   ],
   "note": "Stdout.v models print and TextIOWrapper.write for encodings without state. Three refuted theorems: -t is not one line, -t fails on an ASCII standard output and, with a page like utf-7, on UTF-8; with -j none of this happens."
  },
  {
   "property": "C78",
   "status": "proved",
   "theorems": [
    "C78_header",
    "C78_times",
    "C78_strings",
    "C78_blocks",
    "C78_items",
    "C78_info",
    "C78_everything_refuted"
   ],
   "note": "Injectivity of the report up to what SpecBack.v leaves open. C78_everything_refuted: two files that differ in the show command and in a time have the same report."
  },
  {
   "property": "C79",
   "status": "proved",
   "theorems": [
    "C79_file_object",
    "C79_at_the_end",
    "C79_second_call",
    "C79_nothing_to_read",
    "C79_links_of_a_file"
   ],
   "note": "Call.v models a binary file object as bytes and a position; its truth value is true, as for all file objects of the standard library that define neither __bool__ nor __len__."
  },
  {
   "property": "C80",
   "status": "proved",
   "theorems": [
    "C80_constructor_says",
    "C80_constructor",
    "C80_report",
    "C80_square",
    "C80_linear_refuted"
   ],
   "note": "A warning is a call of warnings.warn; the filters of the warnings module, which may drop repeated texts, are not modelled."
  },
  {
   "property": "C81",
   "status": "proved",
   "theorems": [
    "C81_header",
    "C81_items",
    "C81_info",
    "C81_strings",
    "C81_blocks",
    "C81_command",
    "C81_other_header",
    "C81_other_list",
    "C81_other_info",
    "C81_other_strings",
    "C81_strings_apart_refuted"
   ],
   "note": "A part is given by the layout of Spec.v; C81_strings_apart_refuted shows why other strings need a LinkInfo that lies before them."
  },
  {
   "property": "C82",
   "status": "proved",
   "theorems": [
    "C82_list",
    "C82_info",
    "C82_string",
    "C82_blocks",
    "C82_exchanged",
    "C82_order_refuted"
   ],
   "note": "Read from right to left the theorems are about taking a part out. An item added to an ID list is C32_in_report."
  },
  {
   "property": "C83",
   "status": "proved",
   "theorems": [
    "C83_header",
    "C83_strings",
    "C83_items",
    "C83_texts",
    "C83_info",
    "C83_blocks",
    "C83_filter",
    "C83_errors",
    "C83_whole_refuted"
   ],
   "note": "The other direction, that a conforming link gives no warning, is C51. C83_filter shows that the filter, applied to the list of warnings of the model, is what the statements of the code do one by one."
  },
  {
   "property": "C84",
   "status": "proved",
   "theorems": [
    "C84_lossless",
    "C84_read_back",
    "C84_positions",
    "C84_fractions_refuted"
   ],
   "note": "C68 and C42 say that two reports with the same text are denoted by one JSON value; here that value is shown to have one meaning. Code pages that yield lone surrogates (utf-7) are left out: there two reports can collide (C68_example_surrogates)."
  },
  {
   "property": "C85",
   "status": "proved",
   "theorems": [
    "C85_schema",
    "C85_keys",
    "C85_header_used"
   ],
   "note": "The schema (SpecSchema.v) is written down without reference to files or to the model. C85_keys and C85_language say what following a schema means. What a value is for given bytes is C63. C85_all_kinds is a file with every kind of item and block. C85_header_used: for nine keys of the header every value the schema allows occurs; for the other keys the schema may allow more than occurs."
  }
 ]
}
