{
 "C03": {
  "note": "The exception set is proved; the README's claim that malformed files never fail is refuted by C03_never_raises_refuted."
 },
 "C18": {
  "note": "size <= len holds when the declared sizes stay inside the data and is refuted in general."
 },
 "C19": {
  "note": "Holds for every well-formed abstract link: with allow_terminal_blocks=False the size is the encoded length and nothing behind the terminal block is looked at; a client reading n links in a row gets the n reports."
 },
 "C23": {
  "note": "The accumulation rule is proved; that every block is reported is refuted. C23_in_report, C23_entries_are_blocks and C23_names say it of reports of any file."
 },
 "C24": {
  "note": "Acceptance of terminal values 1..3 is refuted; the exact condition is proved."
 },
 "C25": {
  "note": "All fields proved; only the first of the sixteen console colours is reported (C25_color_table_refuted)."
 },
 "C26": {
  "note": "The claim is refuted; what is reported instead is proved for every layer name. C26_in_report says it of reports."
 },
 "C27": {
  "note": "Proved for every store without VT_I2; with VT_I2 the claim is refuted and the block is always lost. C27_in_report says it of reports."
 },
 "C28": {
  "note": "All four forms proved; a descriptor field of zeros makes get_json raise (C28_zero_descriptor_refuted). C28_in_report says it of reports."
 },
 "C32": {
  "note": "Dependence on the item's bytes alone is refuted; dependence on the item and the two following bytes is proved. C32_in_report: one item in two files, at any places."
 },
 "C33": {
  "note": "The exact condition for RuntimeError is proved; that a report is always produced is refuted. C33_in_report says it of reports."
 },
 "C35": {
  "note": "Complete account of the section for every file, including when decoding raises."
 },
 "C36": {
  "note": "All fields at any offsets; the Unicode suffix is reported as the code reads it (C39)."
 },
 "C37": {
  "note": "All fields; the device name is the string at DeviceNameOffset even when there is no device (C54)."
 },
 "C38": {
  "note": "Exact set of named providers proved; that every provider of the table is named is refuted."
 },
 "C39": {
  "note": "The claim is refuted; the exact text reported is proved, in C54_in_report for every size of the share."
 },
 "C40": {
  "note": "The claim is refuted; where the strings are read from instead is proved."
 },
 "C42": {
  "note": "The reader of SpecReport.v is an independent RFC 8259 parser. The code page must decode to Unicode scalar values (proved for cp1252); utf-7 and unicode_escape can decode to lone surrogates and are outside the hypothesis."
 },
 "C43": {
  "note": "The splitting rules are those for arguments after the program name; Windows parses argv[0] without backslash escapes."
 },
 "C44": {
  "note": "That a command is always returned is refuted; the exact condition for TypeError is proved."
 },
 "C45": {
  "note": "The tree given to the YAML printer is modelled and proved for every report; the YAML text itself is not modelled."
 },
 "C46": {
  "note": "Constructor outcome, warnings, size and the whole report of every well-formed abstract link, whatever follows. The LinkInfo entry uses the link's own bytes because of the misread Unicode suffix (C39); C46_own_section shows that only short suffixes see beyond the section."
 },
 "C49": {
  "note": "The theorems start from the parsed options; the arguments themselves are C73, the output byte for byte C77. The YAML text is not modelled, only the tree handed to yaml.dump."
 },
 "C51": {
  "note": "Silent for every conforming link whose Unicode suffix, as the code reads it, is text. For links that merely conform to the specification it is refuted: a surrogate pair across the skipped units warns."
 },
 "C53": {
  "note": "C53_names gives the name for each combination of the low three bits, for every file entry and network location of every file; the two names that are never reported are refuted."
 },
 "C54": {
  "note": "The claim is refuted; the exact text reported is proved, in C54_in_report for every size of the share."
 },
 "C55": {
  "note": "Proved for closed strings; refuted in general."
 },
 "C47": {
  "note": "The two reports are compared position by position; the positions of code-page strings are listed in SpecPages.v. Default and all single-byte code pages qualify; for a page that decodes something to nothing the keys may differ (C47_any_page_refuted)."
 },
 "C59": {
  "note": "The upper bound with the property store is of degree three and C59_cube gives a family that reaches it (names as long as the store, in storages that overlap). Files are bounded to 4 GiB for one store by its 32-bit size field, hence the factors up to 2^27 and 2^8 in the refutations."
 },
 "C60": {
  "note": "SpecOutcome.v states the outcome from positions and lengths in the file; C60_exact is an equivalence for success and for each exception. For files given as bytes and a code page Python knows; when a file can be opened at all is C02."
 },
 "C61": {
  "note": "SpecEntries.v gives the entry and the warnings of an item from its bytes, for every kind of item; C61_list_read is the equation for the reader itself, C61_determined says the specification is a function defined on every readable list."
 },
 "C62": {
  "note": "SpecBlocks.v gives the report of a block from its bytes. C62_block_read is an equivalence: decoded exactly when and to what the specification says. C62_left_out is the equivalence for blocks that are left out, with the warnings given before they are."
 },
 "C63": {
  "note": "SpecWhole.v puts the sections together. The abridged report is the complete one without the entries named in C41. Warnings of the constructor are C52; whether there is a report is C60."
 },
 "C64": {
  "note": "SpecDouble.v states the rounding in rational arithmetic, without reference to the model of the division in PyTime.v; C64_exact is an equivalence. Bounds of the exponent of a binary64 number are not part of the specification; no FILETIME comes near them."
 },
 "C65": {
  "note": "SpecFailure.v; C65_everything is the equivalence for every result of the complete report (C60, C63 and the failures together), C65_determined says that the specification allows exactly one result for each file that can be opened."
 },
 "C66": {
  "note": "SpecUnknown.v; C66_constructor is an equivalence for every byte string and every code page, C66_report and C66_command_line compare the unknown page with every other page. That a LookupError occurs exactly when a code-page text is met is proved for single strings (C66_string) and the constructor; in a report the unknown page may fail on a string of a block that another page would leave out later."
 },
 "C67": {
  "note": "SpecPrefix.v; part by part (header, ID list, link info, strings, blocks, command) and for the whole link: files that agree up to the end of a part report it alike, with failures and warnings for the whole link. For the link info this needs its strings to end inside the common bytes (C55_open_strings_refuted shows why). Refuted: that a link cut off inside a string is noticed, and that the same holds with allow_terminal_blocks, which shows what follows."
 },
 "C68": {
  "note": "SpecJsonText.v; an equivalence between the report and its text. The -t -j output (one line) is C68_target. Lone surrogates are covered; C68_same_text excludes them, and C68_example_surrogates shows why."
 },
 "C69": {
  "note": "SpecRun.v; an equivalence for all files and options, given that the code page exists and yields code points below 0x110000, as every codec of Python does (without -c nothing is assumed). What yaml.dump makes of the tree of the readable report is not modelled (what is printed around it is C57); code pages that do not exist are C66."
 },
 "C70": {
  "note": "Threads.v, SpecThreads.v. Atomic steps: creating an object, looking at one, one operation on one. The right outcome of a call is that of the model of values, as in C58. The registry of the module warnings, which threads share, is not modelled."
 },
 "C71": {
  "note": "SpecWalk.v; an equivalence for every history of calls. Iterators and methods of single items and blocks as in Walk.v."
 },
 "C12": {
  "note": "Windows-1252 is stated as a table of its own in SpecChars.v (C12_default_page)."
 },
 "C13": {
  "note": "C13_malformed gives the text of every byte string; rules in SpecChars.v."
 },
 "C72": {
  "note": "SpecFields.v; an equivalence for every method in Fields.v. Finding: net_name_unicode and device_name_unicode read at the start of the share when their offset is zero (C72_report_shows_all_names_refuted)."
 },
 "C73": {
  "note": "Args.v models argparse of Python 3.11 for this parser; SpecArgs.v says what words mean without it. Finding: -- at the end is refused when options stand behind the name (C73_closing_dashes_refuted). For the whole program the code page asked for must exist."
 },
 "C74": {
  "note": "SpecPieces.v; an equivalence for every method and history, and the reports as the methods in order. get_item_shell_fs_folder and get_sort_index, which take a number, have theorems of their own (for numbers that are not negative). Findings: extension_block() of a root folder and volume_identifier() of a named volume always raise."
 },
 "C75": {
  "note": "SpecAgain.v; an equivalence for every call after every history, for every code page and for blocks of any size. Where a part was read with an unknown code page, its section of a report is what SpecTrace.v says: it stops at the first string that needs the page, or is as with any page. C75_all_or_nothing_refuted: a failed process() leaves a mixture of two files, of which a report can be made."
 },
 "C76": {
  "note": "SpecTrace.v lists what a report does from the bytes of the file; it also covers items, infos and blocks that cannot be read. It makes C66_report exact: where an unknown page stops, and with which warnings."
 },
 "C77": {
  "note": "Stdout.v models print and TextIOWrapper.write for encodings without state. Three refuted theorems: -t is not one line, -t fails on an ASCII standard output and, with a page like utf-7, on UTF-8; with -j none of this happens."
 },
 "C22": {
  "note": "C22_in_report: for any blocks of any file, what is left out and which warnings a report gives."
 },
 "C30": {
  "note": "C30_in_report says it of reports."
 },
 "C50": {
  "note": "C50_in_report says it of reports."
 },
 "C48": {
  "note": "C48_unknown_in_report and C48_appended_in_report say it of reports."
 },
 "C78": {
  "note": "Injectivity of the report up to what SpecBack.v leaves open. C78_everything_refuted: two files that differ in the show command and in a time have the same report."
 },
 "C79": {
  "note": "Call.v models a binary file object as bytes and a position; its truth value is true, as for all file objects of the standard library that define neither __bool__ nor __len__."
 },
 "C80": {
  "note": "A warning is a call of warnings.warn; the filters of the warnings module, which may drop repeated texts, are not modelled."
 },
 "C81": {
  "note": "A part is given by the layout of Spec.v; C81_strings_apart_refuted shows why other strings need a LinkInfo that lies before them."
 },
 "C82": {
  "note": "Read from right to left the theorems are about taking a part out. An item added to an ID list is C32_in_report."
 },
 "C83": {
  "note": "The other direction, that a conforming link gives no warning, is C51. C83_filter shows that the filter, applied to the list of warnings of the model, is what the statements of the code do one by one."
 },
 "C84": {
  "note": "C68 and C42 say that two reports with the same text are denoted by one JSON value; here that value is shown to have one meaning. Code pages that yield lone surrogates (utf-7) are left out: there two reports can collide (C68_example_surrogates)."
 },
 "C85": {
  "note": "The schema (SpecSchema.v) is written down without reference to files or to the model. C85_keys and C85_language say what following a schema means. What a value is for given bytes is C63. C85_all_kinds is a file with every kind of item and block. C85_header_used: for nine keys of the header every value the schema allows occurs; for the other keys the schema may allow more than occurs."
 }
}