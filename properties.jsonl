{"id": "C01", "title": "Parsing always terminates", "statement": "Constructing lnk_file(indata=b, cp=c, allow_terminal_blocks=t) and then calling get_json(get_all) finishes (returns or raises) for every input; none of the loops over ItemIDs, extra-data blocks, property storages or property values can run for ever, because each iteration consumes at least one byte.", "quantifier": "every byte string, every code page, both values of allow_terminal_blocks and get_all", "why_tests_cant": "A test can only show that the sampled files terminate; a self-referential size field in one unsampled file would hang the parser.", "anchors": ["LnkParse3/lnk_targets.py:LnkTargets._id_lists", "LnkParse3/extra_data.py:ExtraData.process", "LnkParse3/extra/shell_item.py:ShellItem._id_list", "LnkParse3/extra/metadata.py:Metadata.property_store", "LnkParse3/extra/metadata.py:SerializedPropertyStorage.serialized_property_values"]}
{"id": "C02", "title": "The constructor's outcome is decided by six conditions", "statement": "For a non-empty byte string and a usable code page the constructor either returns or raises struct.error, nothing else; it returns exactly when the 4-byte HeaderSize and (within it) the LinkFlags are readable, the IDListSize field is readable if HasTargetIDList is set, and no extra-data block that is kept has fewer than four bytes. For an empty byte string given as indata it raises AttributeError, for an empty file handle LnkParserError.", "quantifier": "every byte string and every code page known to Python", "why_tests_cant": "Exceptions depend on arbitrary corruption of any length or flag field; sampling corruptions cannot bound the set of exception types.", "anchors": ["LnkParse3/lnk_file.py:LnkFile.__init__", "LnkParse3/lnk_file.py:LnkFile.process", "LnkParse3/lnk_header.py:LnkHeader.__init__"]}
{"id": "C03", "title": "get_json raises only struct.error, IndexError or RuntimeError", "statement": "On any successfully constructed object with a usable code page, get_json / print_json either return a value or raise struct.error, IndexError (Darwin block with a short packed code) or RuntimeError (network location item with too few strings); the README's 'made to not fail on malformed files' is false and each of the three is reachable.", "quantifier": "every byte string accepted by the constructor", "why_tests_cant": "The set of reachable exception types is a property of all malformed inputs.", "anchors": ["LnkParse3/lnk_file.py:LnkFile.get_json", "LnkParse3/lnk_targets.py:LnkTargets.as_list", "LnkParse3/extra_data.py:ExtraData.as_dict"]}
{"id": "C04", "title": "Header fields are read from the [MS-SHLLINK] layout", "statement": "For every assignment of the ShellLinkHeader fields, parsing a file that begins with their [MS-SHLLINK] 2.1 encoding reports exactly those values (guid, r_link_flags, r_file_flags, the three times, file_size, signed icon_index, window style, hot key, reserved fields, header_size), whatever bytes follow.", "quantifier": "every value of every header field and every byte string that follows the header", "why_tests_cant": "2^608 headers; an off-by-one slice on one field shows only when neighbouring bytes differ.", "anchors": ["LnkParse3/lnk_header.py:LnkHeader"]}
{"id": "C05", "title": "Flag lists name exactly the set bits", "statement": "link_flags (file_flags) lists the documented name of bit i iff bit i of r_link_flags (r_file_flags) is set, in increasing bit order without duplicates, and each has_*/is_*/force_* predicate is true iff its documented bit is set.", "quantifier": "all 2^32 values of both flag words", "why_tests_cant": "Exhaustive enumeration of 2^32 flag words is not a unit test; a swapped table row shows only for some words.", "anchors": ["LnkParse3/lnk_header.py:LnkHeader.LINK_FLAG_MASK", "LnkParse3/lnk_header.py:LnkHeader.FILE_FLAG_MASK", "LnkParse3/lnk_header.py:LnkHeader.link_flags", "LnkParse3/lnk_file.py:LnkFile.has_relative_path"]}
{"id": "C06", "title": "Violated MUST values warn, never fail and never change the value", "statement": "HeaderSize, LinkCLSID, Reserved1-3, tracker Length and Version: the reported value is the stored one for every stored value, no exception is raised, and a warning naming the field is emitted iff the stored value differs from the one the specification demands.", "quantifier": "every stored value of each checked field", "why_tests_cant": "Needs all field values, including the single conforming one.", "anchors": ["LnkParse3/decorators.py:must_be", "LnkParse3/lnk_header.py:LnkHeader.size", "LnkParse3/extra/distributed_tracker.py:DistributedTracker.length"]}
{"id": "C07", "title": "Hot key and show command rendering", "statement": "windowstyle is the name of ShowCommand 1, 3 or 7 and SW_SHOWNORMAL for every other value; hotkey is '<modifier> - <key> {0x<hex>}' when both bytes are in the documented tables and the plain 4-digit hex of the two bytes otherwise; in both cases the two raw bytes are recoverable from the text.", "quantifier": "all 2^32 show commands and all 2^16 hot key words", "why_tests_cant": "Only the full table settles it.", "anchors": ["LnkParse3/lnk_header.py:LnkHeader.window_style", "LnkParse3/lnk_header.py:LnkHeader.hot_key", "LnkParse3/lnk_header.py:LnkHeader.HOTKEY_VALUES_LOW"]}
{"id": "C08", "title": "FILETIME conversion is correct", "statement": "A FILETIME is reported as None when it is 0, as None with a warning when it denotes a time outside years 1..9999, and otherwise as a UTC datetime whose calendar fields are valid; the datetime is exact for FILETIMEs that are a whole number of seconds, exact for whole microseconds within 2^32 seconds of 1970, within 1 microsecond of the stored value in that range and within 17 microseconds everywhere.", "quantifier": "all 2^64 FILETIME values", "why_tests_cant": "Floating point division makes the error input dependent; only a bound over all 64-bit values says anything.", "anchors": ["LnkParse3/utils.py:parse_filetime", "LnkParse3/decorators.py:filetime"]}
{"id": "C09", "title": "DOS date/time conversion is correct", "statement": "For every calendar time from 1980 to 2107 with even seconds, the FAT encoding is reported as exactly that UTC datetime; 0 is reported as None without warning; every word that encodes no valid calendar time is reported as None with a warning; no four-byte value raises.", "quantifier": "all 2^32 DOS date/time words", "why_tests_cant": "Field packing errors show only on particular dates; leap-day validity needs all years.", "anchors": ["LnkParse3/utils.py:parse_dostime", "LnkParse3/decorators.py:dostime", "LnkParse3/target/shell_fs_folder.py:ShellFSFolder.modification_time"]}
{"id": "C10", "title": "GUIDs are rendered in registry format, losslessly", "statement": "Sixteen bytes are rendered as the 36-character mixed-endian GUID text of [MS-DTYP]; the rendering is injective (the bytes can be recovered); anything shorter than 16 bytes raises struct.error.", "quantifier": "all 2^128 GUIDs and all short byte strings", "why_tests_cant": "A nibble or endianness slip appears only for GUIDs with distinct bytes in the affected positions.", "anchors": ["LnkParse3/utils.py:parse_uuid", "LnkParse3/decorators.py:uuid"]}
{"id": "C11", "title": "Darwin-compressed GUIDs decode to the GUID that was compressed", "statement": "For every GUID, compressing it with the Windows Installer base-85 scheme and decoding the 20 characters yields the GUID's canonical text.", "quantifier": "all 2^128 GUIDs", "why_tests_cant": "Round trip over 2^128 values.", "anchors": ["LnkParse3/utils.py:parse_packed_uuid", "LnkParse3/utils.py:_quad_to_hex", "LnkParse3/extra/darwin.py:Darwin.product_code_id"]}
{"id": "C12", "title": "Code-page strings stop at the first NUL and decode with documented fallbacks", "statement": "A code-page string field is the decoding of the bytes before the first NUL (all bytes if there is none): with the chosen code page if it decodes strictly, else as UTF-8 if that is well formed, else with the code page and U+FFFD replacement plus one warning. Without a code page it is Windows-1252, character by character. Bytes after the NUL never influence the result.", "quantifier": "every byte string and every code page", "why_tests_cant": "Fallback behaviour depends on arbitrary byte sequences.", "anchors": ["LnkParse3/text_processor.py:TextProcessor.read_strings", "LnkParse3/text_processor.py:TextProcessor.read_string"]}
{"id": "C13", "title": "UTF-16 strings round-trip; malformed ones decode totally", "statement": "For every Unicode text without NUL, reading its UTF-16LE encoding (followed by anything after a NUL unit) yields the text with no warning; every other byte string yields some text of scalar values without raising, with a warning and with U+FFFD exactly for each unpaired surrogate and a last odd byte, and nothing after the first NUL unit influences the result.", "quantifier": "every Unicode text and every byte string", "why_tests_cant": "Surrogate pairs, odd lengths and embedded zero bytes combine without bound.", "anchors": ["LnkParse3/text_processor.py:TextProcessor.read_unicode_strings", "LnkParse3/text_processor.py:TextProcessor._2bytes_each"]}
{"id": "C14", "title": "StringData fields: presence, order and content", "statement": "For every choice of the five HasX flags and every text per present field (at most 260 units for the first three), a StringData section holding them in the [MS-SHLLINK] order is reported as exactly those texts under the right keys, absent fields are absent, and the section's size is the number of bytes the fields occupy; for IsUnicode and for code-page strings.", "quantifier": "all flag combinations, all texts, all bytes following the section", "why_tests_cant": "32 flag combinations times unbounded strings.", "anchors": ["LnkParse3/string_data.py:StringData.__init__", "LnkParse3/string_data.py:StringData.read", "LnkParse3/string_data.py:StringData.as_dict"]}
{"id": "C15", "title": "The 260-character limit on description, relative path and working directory", "statement": "A count above 260 in one of the first three StringData fields is treated as 260: at most 260 UTF-16 units (or bytes) are read and the next field is looked for right after them; command_line_arguments and icon_location are never limited.", "quantifier": "every count 0..65535 and every content", "why_tests_cant": "Boundary behaviour at 260/261 in each of several positions and flag combinations.", "anchors": ["LnkParse3/string_data.py:StringData.read"]}
{"id": "C16", "title": "Truncated StringData degrades gracefully", "statement": "When the data ends before a field's count, the fields read so far are kept, a warning is emitted and nothing raises; the reported fields are always a prefix of the flagged fields in specification order.", "quantifier": "every byte string in place of the StringData section", "why_tests_cant": "Every truncation point of every file.", "anchors": ["LnkParse3/string_data.py:StringData.__init__"]}
{"id": "C17", "title": "lnk.size is the sum of the section sizes", "statement": "After construction, size = header size + IDList size (if present) + LinkInfo size (if processed) + StringData size + sum of the extra blocks' declared sizes + min(4, remaining bytes); each section is parsed from exactly where the previous one ended.", "quantifier": "every byte string accepted by the constructor", "why_tests_cant": "Section offsets chain through six data-dependent sizes.", "anchors": ["LnkParse3/lnk_file.py:LnkFile.process"]}
{"id": "C18", "title": "lnk.size versus the length of the input", "statement": "size never exceeds len(indata) unless some declared size reaches past the end of the data (in which case it may: the claim 'size <= len(indata)' is false in general); with allow_terminal_blocks and data after the terminal block, size equals len(indata).", "quantifier": "every byte string accepted by the constructor", "why_tests_cant": "Declared sizes are arbitrary.", "anchors": ["LnkParse3/lnk_file.py:LnkFile.process", "LnkParse3/extra_data.py:ExtraData.size"]}
{"id": "C19", "title": "Concatenated links can be split with size", "statement": "For every well-formed link L and every following bytes t, parsing encode(L)+t with allow_terminal_blocks=False gives size = len(encode(L)) and the same report as parsing encode(L) alone, so iterating over a file of n concatenated links yields exactly the n links.", "quantifier": "every well-formed link, every list of them, every trailing bytes", "why_tests_cant": "Test covers one file with nine links; independence of trailing bytes is universal.", "anchors": ["LnkParse3/lnk_file.py:LnkFile.size", "LnkParse3/extra_data.py:ExtraData.process", "tests/test_samples.py:test_custom_destinations"]}
{"id": "C20", "title": "Data after the terminal block is reported", "statement": "With allow_terminal_blocks=True, TERMINAL_BLOCK is reported iff block parsing stops at a zero size with more than four bytes left; its size is the number of bytes left and its hash is the SHA-256 of exactly the bytes after the four zero bytes. With allow_terminal_blocks=False it is never reported and nothing else in the report changes except size.", "quantifier": "every byte string, both flag values", "why_tests_cant": "Payload can be anything.", "anchors": ["LnkParse3/extra_data.py:ExtraData.process", "LnkParse3/extra/terminal.py:Terminal"]}
{"id": "C21", "title": "Extra-data blocks are split at their declared sizes and dispatched on their signature", "statement": "For every sequence of blocks each prefixed with its own size (>= 8) and ended by four zero bytes, the parser visits exactly these blocks in order, each seeing exactly its own bytes, and the class of each is determined by its 32-bit signature according to [MS-SHLLINK] 2.5, any other signature giving UNKNOWN_BLOCK.", "quantifier": "every list of blocks, all 2^32 signatures", "why_tests_cant": "Unbounded sequences; 2^32 signatures.", "anchors": ["LnkParse3/extra_data.py:ExtraData.process", "LnkParse3/extra_factory.py:ExtraFactory"]}
{"id": "C22", "title": "A malformed extra block does not disturb the others", "statement": "If decoding one block raises struct.error or ValueError, it is left out with exactly one extra warning and every other block is reported as it would be without it.", "quantifier": "every list of blocks and every position of the malformed one", "why_tests_cant": "Interaction of arbitrary neighbours.", "anchors": ["LnkParse3/extra_data.py:ExtraData.as_dict"]}
{"id": "C23", "title": "Repeated blocks: unknown blocks accumulate, others keep the last", "statement": "All unknown blocks are reported in file order in one list; of several blocks of the same known kind only the last that decodes is reported (earlier ones are silently lost, so 'every block is reported' is false).", "quantifier": "every list of blocks", "why_tests_cant": "Arbitrary multiplicities and interleavings.", "anchors": ["LnkParse3/extra_data.py:ExtraData.as_dict"]}
{"id": "C24", "title": "Terminal block values 1..3", "statement": "[MS-SHLLINK] 2.5 allows any TerminalBlock below 4. A link whose extra data ends with a terminal block of 1, 2 or 3 should be accepted like one ending in 0: false of the code when at least four more bytes follow (constructor raises struct.error).", "quantifier": "every link and terminal value", "why_tests_cant": "Existential finding plus a universal statement on which inputs trigger it.", "anchors": ["LnkParse3/extra_data.py:ExtraData.process", "LnkParse3/extra_data.py:ExtraData.size"]}
{"id": "C25", "title": "Fixed-layout extra blocks report their fields", "statement": "For every field assignment, the ConsoleFE, SpecialFolder, KnownFolder, Tracker, Console, Environment and IconEnvironment blocks encoded per [MS-SHLLINK] 2.5 are reported with exactly those values; blocks too short for a fixed field are left out.", "quantifier": "every field value of each block type", "why_tests_cant": "Field offsets; values adjacent must be distinguishable.", "anchors": ["LnkParse3/extra/console.py", "LnkParse3/extra/distributed_tracker.py", "LnkParse3/extra/environment.py", "LnkParse3/extra/icon.py", "LnkParse3/extra/known_folder.py", "LnkParse3/extra/special_folder.py", "LnkParse3/extra/code_page.py"]}
{"id": "C26", "title": "Shim layer names", "statement": "[MS-SHLLINK] 2.5.8 defines LayerName as a Unicode string; the reported layer_name should be that string: false of the code, which reads a code-page string and therefore reports only the first character of any layer name with two or more ASCII characters.", "quantifier": "every layer name", "why_tests_cant": "Finding about all names.", "anchors": ["LnkParse3/extra/shim_layer.py:ShimLayer.layer_name"]}
{"id": "C27", "title": "Property stores report every property", "statement": "For every property store made of serialized storages with integer-named or string-named values of type VT_LPWSTR (or any listed type without a decoder), the report lists every storage and value in order with exactly the stored ids, names, sizes, strings and type names. For VT_I2 values this is false: the whole block is dropped.", "quantifier": "every list of storages, every list of values in each", "why_tests_cant": "Nested unbounded lists.", "anchors": ["LnkParse3/extra/metadata.py"]}
{"id": "C28", "title": "Darwin block fields", "statement": "For every product code, feature name and component GUID, a Darwin block holding the descriptor in any of its four documented forms is reported with that product code, feature name (None if empty) and component id (None if absent).", "quantifier": "every GUID pair and feature name", "why_tests_cant": "Universal over GUIDs and names.", "anchors": ["LnkParse3/extra/darwin.py:Darwin"]}
{"id": "C29", "title": "ID lists are walked item by item", "statement": "For every list of ItemIDs, each prefixed with its own size (>= 3), and closed by a TerminalID, exactly one entry per ItemID is reported, in order, each decoded from its own position; after the TerminalID nothing is read.", "quantifier": "every list of items", "why_tests_cant": "Unbounded sequences.", "anchors": ["LnkParse3/lnk_targets.py:LnkTargets._id_lists", "LnkParse3/target_factory.py:TargetFactory", "LnkParse3/extra/shell_item.py:ShellItem._id_list"]}
{"id": "C30", "title": "Item class dispatch covers all 256 type bytes", "statement": "The reported class of an ItemID is the documented one for its type byte (0x20/0x30/0x40 after masking with 0x70, exact match otherwise), and 'Unknown' plus a warning for every undocumented byte.", "quantifier": "all 256 type bytes and all contents", "why_tests_cant": "Interplay of masking and exact table.", "anchors": ["LnkParse3/target_factory.py:TargetFactory.target_class"]}
{"id": "C31", "title": "ItemID contents are decoded from the documented layout", "statement": "For every field assignment, root folder, volume, file entry, network location, control panel, control panel category, CPL file and users-files-folder items encoded per libfwsi are reported with exactly those values.", "quantifier": "every field assignment of every item class", "why_tests_cant": "Field offsets and terminators over unbounded strings.", "anchors": ["LnkParse3/target/root_folder.py", "LnkParse3/target/my_computer.py", "LnkParse3/target/shell_fs_folder.py", "LnkParse3/target/network_location.py", "LnkParse3/target/control_panel.py", "LnkParse3/target/control_panel_category.py", "LnkParse3/target/control_panel_cpl.py", "LnkParse3/target/users_files_folder.py"]}
{"id": "C32", "title": "An item's report depends only on the item's bytes", "statement": "The entry reported for an ItemID is a function of that ItemID's bytes: false of the code (each item sees two bytes of what follows it); it is a function of the item's bytes and the two following bytes.", "quantifier": "every item and every continuation", "why_tests_cant": "Non-interference is a relation between all pairs of inputs.", "anchors": ["LnkParse3/target/lnk_target_base.py:LnkTargetBase.__init__"]}
{"id": "C33", "title": "Network location items with missing strings", "statement": "A network location item whose content flags announce a description or comments that is not present should still yield a report (changelog: 'Always return at least target name when there is any problem'): false of the code, get_json raises RuntimeError; exact condition proved.", "quantifier": "every network location item", "why_tests_cant": "Condition over all flag/string combinations.", "anchors": ["LnkParse3/target/network_location.py:NetworkLocation.__init__", "LnkParse3/lnk_targets.py:LnkTargets._id_lists"]}
{"id": "C34", "title": "The ID list of the shell-item block agrees with the target list", "statement": "The same IDList bytes stored in the LinkTargetIDList and in a VistaAndAboveIDListDataBlock are reported as the same list of items (or fail the same way).", "quantifier": "every IDList byte string", "why_tests_cant": "Relational property of two code paths over all inputs.", "anchors": ["LnkParse3/lnk_targets.py:LnkTargets", "LnkParse3/extra/shell_item.py:ShellItem"]}
{"id": "C35", "title": "LinkInfo variant selection", "statement": "link_info is reported iff HasLinkInfo is set, ForceNoLinkInfo is clear and LinkInfoFlags has bit 0 or 1; location is 'Local' if bit 0 is set and 'Network' if only bit 1 is; otherwise link_info is the empty object.", "quantifier": "all flag words, all LinkInfo contents", "why_tests_cant": "All combinations of four flags in two structures.", "anchors": ["LnkParse3/info_factory.py:InfoFactory.info_class", "LnkParse3/lnk_file.py:LnkFile.process"]}
{"id": "C36", "title": "Local LinkInfo fields", "statement": "For every volume id, base path and suffix (code page and, with the large header, Unicode base path), a LinkInfo encoded per [MS-SHLLINK] 2.3 at any offsets is reported with exactly these values; drive types 0..6 are named, others None.", "quantifier": "every field assignment and every placement of the strings", "why_tests_cant": "Offset-based layout: placements are unbounded.", "anchors": ["LnkParse3/info/local.py:Local", "LnkParse3/lnk_info.py:LnkInfo"]}
{"id": "C37", "title": "Network LinkInfo fields", "statement": "For every share name, device name and provider, a CommonNetworkRelativeLink encoded per [MS-SHLLINK] 2.3.2 is reported with exactly these values, the code-page or the Unicode names depending on NetNameOffset.", "quantifier": "every field assignment", "why_tests_cant": "Offset-based layout; two layouts.", "anchors": ["LnkParse3/info/network.py:Network"]}
{"id": "C38", "title": "Network provider names", "statement": "Every provider type in the table is reported by name when the ValidNetType flag is set: false for the types whose hexadecimal form contains a letter (never matched); true for exactly the others.", "quantifier": "all 2^32 provider types", "why_tests_cant": "Finding over the whole table.", "anchors": ["LnkParse3/info/network.py:Network.network_provider_type"]}
{"id": "C39", "title": "Unicode common path suffix", "statement": "common_path_suffix_unicode is the string stored at CommonPathSuffixOffsetUnicode: false of the code, which starts reading four bytes later; exact behaviour proved.", "quantifier": "every suffix", "why_tests_cant": "Finding over all suffixes.", "anchors": ["LnkParse3/lnk_info.py:LnkInfo.common_path_suffix_unicode"]}
{"id": "C40", "title": "A LinkInfo that is present but not processed is skipped", "statement": "When HasLinkInfo is set and the LinkInfo is ignored (ForceNoLinkInfo) or has neither variant bit, the StringData section is still read from behind the LinkInfo: false of the code, which reads StringData from the LinkInfo's own bytes.", "quantifier": "every link with such a LinkInfo", "why_tests_cant": "Relational statement about section offsets.", "anchors": ["LnkParse3/lnk_file.py:LnkFile.process"]}
{"id": "C41", "title": "get_json(get_all=False) is get_json(True) minus a fixed list of keys", "statement": "The two reports have the same outcome, and the short one is obtained from the full one by removing exactly: header_size, reserved0-2, the LinkInfo sizes and offsets, volume_id_size/volume_label_offset or the network sizes/offsets, target.index, target.size and each item's modification_time; every other key keeps its value.", "quantifier": "every constructed object", "why_tests_cant": "Relation between two runs on all inputs.", "anchors": ["LnkParse3/lnk_file.py:LnkFile.get_json"]}
{"id": "C42", "title": "print_json emits valid ASCII JSON that denotes the report", "statement": "The text printed by print_json consists of ASCII characters only, is a single valid JSON document, parses back to the report (datetimes as ISO-8601 strings with whole seconds and +00:00), and object members are printed in sorted key order.", "quantifier": "every report, hence every file", "why_tests_cant": "Escaping depends on arbitrary extracted text, including quotes, control characters and astral characters.", "anchors": ["LnkParse3/lnk_file.py:LnkFile.print_json"]}
{"id": "C43", "title": "lnk_command quotes the relative path so that it is recovered as one argument", "statement": "For every relative path (without NUL) and every argument string, splitting lnk_command with the Microsoft C runtime rules yields the relative path as the first argument followed by the arguments of the argument string.", "quantifier": "every pair of strings", "why_tests_cant": "Backslash/quote combinations are unbounded.", "anchors": ["LnkParse3/lnk_file.py:LnkFile.lnk_command"]}
{"id": "C44", "title": "lnk_command on truncated files", "statement": "lnk_command returns a string for every constructed object: false of the code, it raises TypeError exactly when HasRelativePath or HasArguments is set but the corresponding StringData field was cut off.", "quantifier": "every constructed object", "why_tests_cant": "Condition over all truncations.", "anchors": ["LnkParse3/lnk_file.py:LnkFile.lnk_command", "LnkParse3/string_data.py:StringData.relative_path"]}
{"id": "C45", "title": "Human-readable report: every key of the JSON report appears, with documented collisions", "statement": "The tree handed to the YAML printer by print_lnk_file contains, for every key of the report, the prettified key with the value of the last report key that prettifies to it; the only collisions are r_X with X; building it never raises when get_json does not.", "quantifier": "every report", "why_tests_cant": "Tree transformation over all reports.", "anchors": ["LnkParse3/lnk_file.py:LnkFile.print_lnk_file"]}
{"id": "C46", "title": "A well-formed link is reported faithfully, end to end", "statement": "For every abstract shell link (header, optional ID list, optional LinkInfo, strings, extra blocks) encoded per [MS-SHLLINK], constructing the object and calling get_json(True) returns exactly the expected report, with size equal to the encoded length.", "quantifier": "every well-formed abstract link", "why_tests_cant": "Universal over the whole file format.", "anchors": ["LnkParse3/lnk_file.py:LnkFile"]}
{"id": "C47", "title": "The code page influences only code-page strings", "statement": "Changing cp changes neither size, nor header, nor which keys are reported, nor any number, GUID, time, or Unicode string; with IsUnicode set the StringData section is independent of cp.", "quantifier": "every byte string and every pair of code pages that never decode a non-empty byte string to the empty string (without that, net_name and device_name may be left out)", "why_tests_cant": "Non-interference between two runs.", "anchors": ["LnkParse3/lnk_file.py:LnkFile.__init__", "LnkParse3/text_processor.py:TextProcessor"]}
{"id": "C48", "title": "Digest fields are SHA-256 digests of the stated bytes", "statement": "extra_data_sha256 of an unknown block and appended_data_sha256 of the terminal block are the SHA-256 digests (FIPS 180-4), as 64 lowercase hexadecimal digits, of the bytes of the block after the first four.", "quantifier": "every block content of fewer than 2^61 bytes (the limit of SHA-256)", "why_tests_cant": "Arbitrary payloads.", "anchors": ["LnkParse3/extra/unknown.py:Unknown.as_dict", "LnkParse3/extra/terminal.py:Terminal.as_dict"]}
{"id": "C49", "title": "Command line option precedence", "statement": "main prints the shortcut target if -t is given (as JSON iff -j is given too), otherwise the JSON report if -j is given, otherwise the readable report; -a selects the full report; the code page defaults to cp1252; the file is always read completely and parsed with terminal blocks allowed.", "quantifier": "every combination of options", "why_tests_cant": "Exhaustive over option combinations together with all files.", "anchors": ["LnkParse3/lnk_file.py:main"]}
{"id": "C50", "title": "Fixed-size text fields are never read past their field", "statement": "MachineID, TargetAnsi/TargetUnicode, DarwinData, FaceName and the volume name: the reported text is determined by the bytes of the field alone, even when it is not NUL-terminated.", "quantifier": "every block content and every volume item", "why_tests_cant": "Non-interference over all contents outside the field.", "anchors": ["LnkParse3/extra/distributed_tracker.py:DistributedTracker.machine_id", "LnkParse3/extra/environment.py:Environment.target_ansi", "LnkParse3/extra/icon.py", "LnkParse3/extra/console.py:Console.face_name", "LnkParse3/target/my_computer.py:MyComputer.volume_name"]}
{"id": "C51", "title": "A link that conforms to the specification is parsed without warnings", "statement": "For every well-formed abstract link with conforming MUST fields, construction and get_json emit no warning.", "quantifier": "every well-formed abstract link", "why_tests_cant": "Absence of events over all inputs.", "anchors": ["LnkParse3/decorators.py:must_be", "LnkParse3/lnk_file.py:LnkFile"]}
{"id": "C52", "title": "The constructor's warnings are determined by the file layout", "statement": "Construction emits, in order: twice the header-size warning iff HeaderSize differs from 76; a LinkInfo warning iff the LinkInfo is announced but has fewer than 12 bytes; one decoding warning per undecodable StringData string; a StringData warning iff the section is cut; one warning per extra block without room for a signature and one if the file ends inside a block size; and nothing else.", "quantifier": "every byte string that can be constructed, every code page", "why_tests_cant": "A complete account of the events over all inputs.", "anchors": ["LnkParse3/lnk_file.py:LnkFile.process", "LnkParse3/string_data.py:StringData.__init__", "LnkParse3/extra_data.py:ExtraData.process", "LnkParse3/info_factory.py:InfoFactory.info_class", "LnkParse3/decorators.py:must_be"]}
{"id": "C53", "title": "Names of the flags of file entries and network locations", "statement": "Every combination of the low flag bits of a file entry or network location is reported with its documented name: false of the code for a Unicode share (reported as 'Is Unicode directory') and for 'Has CLSID' (never reported); exact names proved for all other combinations.", "quantifier": "all type bytes and all contents", "why_tests_cant": "First match in a list of overlapping masks, over all flag combinations.", "anchors": ["LnkParse3/target/lnk_target_base.py:LnkTargetBase.get_item_shell_fs_folder", "LnkParse3/target/shell_fs_folder.py:ShellFSFolder.flags", "LnkParse3/target/network_location.py:NetworkLocation.flags"]}
{"id": "C54", "title": "A network link without a device has no device name", "statement": "device_name is reported only when ValidDevice is set: false of the code, which for a link without a device (DeviceNameOffset zero) reports the bytes of the CommonNetworkRelativeLinkSize field as the device name; exact text proved.", "quantifier": "every file whose LinkInfo has a CommonNetworkRelativeLink with code-page names, whatever its size", "why_tests_cant": "A statement about all sizes and flags; tests only hold links with a device.", "anchors": ["LnkParse3/info/network.py:Network.device_name", "LnkParse3/lnk_file.py:LnkFile.get_json"]}
{"id": "C55", "title": "The LinkInfo report depends on the LinkInfo only", "statement": "Two files with the same LinkInfo bytes report the same link_info: true when all strings are closed by a NUL inside the section (and there is no Unicode suffix), false otherwise, strings run on into the following sections.", "quantifier": "every pair of files with the same LinkInfo section", "why_tests_cant": "Non-interference over all contents outside the section.", "anchors": ["LnkParse3/lnk_info.py:LnkInfo", "LnkParse3/lnk_file.py:LnkFile.process", "LnkParse3/text_processor.py:TextProcessor.read_string"]}
{"id": "C56", "title": "Every report is a well-formed tree", "statement": "Whatever the file, a report consists of None, integers, strings, calendar-valid times, lists and dictionaries with pairwise distinct keys; when the code page decodes to Unicode scalar values (cp1252 does), every string is a sequence of Unicode scalar values.", "quantifier": "every byte string, every code page, both report variants", "why_tests_cant": "An invariant of every value in every report.", "anchors": ["LnkParse3/lnk_file.py:LnkFile.get_json", "LnkParse3/text_processor.py:TextProcessor", "LnkParse3/string_data.py:StringData.as_dict", "LnkParse3/extra_data.py:ExtraData.as_dict"]}
{"id": "C57", "title": "The readable report is the dump, indented, with blank lines before the sections", "statement": "print_lnk_file prints the title line and then the YAML dump of its tree in which every section marker is a line feed and every line that is not blank is indented by three spaces; no marker is ever shown and nothing else is lost (the dump is determined by what is printed, up to markers). A string of the file that contains the marker text is not shown as it is.", "quantifier": "every file, both report variants, every YAML dumper", "why_tests_cant": "The dump is an arbitrary text, with any line separators and any occurrences of the marker in user data.", "anchors": ["LnkParse3/lnk_file.py:LnkFile.print_lnk_file"]}
{"id": "C58", "title": "Answers do not depend on earlier calls or on what callers do with reports", "statement": "After any sequence of get_json, print_json, print_lnk_file and lnk_command calls on one object, in which the caller changes the dictionaries and lists it received (or made itself) in any way, every call gives the same warnings, exception, text or report as the first call on a fresh object. A call changes no existing object, every dictionary and list of a report is new, and a report keeps its value as long as the caller does not change it.", "quantifier": "every file, every history of calls and changes, every state of the caller's objects", "why_tests_cant": "Ranges over all histories and all changes; aliasing of mutable objects shows up only in particular interleavings.", "anchors": ["LnkParse3/lnk_file.py:LnkFile.get_json", "LnkParse3/lnk_file.py:LnkFile.print_json", "LnkParse3/lnk_file.py:LnkFile.print_lnk_file", "LnkParse3/lnk_file.py:LnkFile.lnk_command", "LnkParse3/string_data.py:StringData.as_dict"]}
{"id": "C59", "title": "The report is not much larger than the file", "statement": "The number of values, entries and characters of a report, the property store left out, is at most 1500 + 500 times the length of the file; with the property store it is at most a polynomial of degree three. Linear growth is false of the code: elements of a property store are read from overlapping suffixes, and a file of 4n+128 bytes gives a report of more than n*n entries; degree three is reached: a file of at most 512n + 2^25 bytes gives a report of 21*n*n*n values and characters.", "quantifier": "every byte string, both report variants, both terminal switches, every code page that decodes to at most one character per byte (cp1252 does)", "why_tests_cant": "A resource bound over files of every length; tests hold a few small files.", "anchors": ["LnkParse3/lnk_file.py:LnkFile.get_json", "LnkParse3/extra/metadata.py:Metadata.as_dict", "LnkParse3/extra/metadata.py:SerializedPropertyStorage.serialized_property_values", "LnkParse3/extra_data.py:ExtraData"]}
{"id": "C60", "title": "Exactly when a report can be made", "statement": "For a file that can be opened, get_json returns a report exactly when the header has all its 76 bytes, every item of the ID list has its fixed part (and its announced strings), the LinkInfo has its fixed fields and no extra block raises an exception that is not caught; in every other case it raises the exception named by the first of these that fails: struct.error, RuntimeError for a network location without its announced strings, IndexError for a Darwin descriptor too short for its product code or component. Code page, terminal switch and kind of report have no influence on the outcome.", "quantifier": "every byte string that can be opened, every code page, both terminal switches, both report variants", "why_tests_cant": "An equivalence over all files: tests show single files that fail or do not.", "anchors": ["LnkParse3/lnk_file.py:LnkFile.get_json", "LnkParse3/lnk_header.py:LnkHeader", "LnkParse3/lnk_targets.py:LnkTargets", "LnkParse3/target/network_location.py:NetworkLocation", "LnkParse3/extra/darwin.py:Darwin", "LnkParse3/extra/shell_item.py:ShellItem", "LnkParse3/extra_data.py:ExtraData.as_dict"]}
{"id": "C61", "title": "Every ID list: each entry is the one its bytes say", "statement": "Whatever the bytes of an announced ID list are, if a report is made then its entries are, item by item up to a zero size or the end, the ones read at fixed positions from the item (of each kind: volume, file entry, network location, control panel files, categories and items, root folder, users files folder, ...), with nothing assumed about strings, times or trailing bytes; the warnings are those of the items in order.", "quantifier": "every byte string with an ID list, every code page, every list of items of any kind and any content", "why_tests_cant": "Item contents are arbitrary bytes: strings without end, impossible times, overlapping items; encoders written for tests produce only well-formed ones.", "anchors": ["LnkParse3/lnk_targets.py:LnkTargets", "LnkParse3/target_factory.py:TargetFactory", "LnkParse3/target/my_computer.py:MyComputer", "LnkParse3/target/shell_fs_folder.py:ShellFSFolder", "LnkParse3/target/network_location.py:NetworkLocation", "LnkParse3/target/control_panel_cpl.py:ControlPanelCPL", "LnkParse3/target/users_files_folder.py:UsersFilesFolder", "LnkParse3/target/root_folder.py:RootFolder"]}
{"id": "C62", "title": "Every extra data section: each block says what its bytes say, or is left out", "statement": "Whatever the bytes of the extra data are, if a report is made then each block appears in it with the entries read at fixed positions from its bytes (of each of the eleven kinds and of unknown blocks, property stores read element by element); a block is left out, with a warning that names it, exactly when its bytes do not hold its fixed fields or hold an unreadable element. The warnings given before such a block is given up are those of the fields and elements in front of the missing one.", "quantifier": "every byte string, every code page, both terminal switches, both report variants", "why_tests_cant": "Block contents are arbitrary bytes and property stores nest to any depth of list; no finite set of samples settles it.", "anchors": ["LnkParse3/extra_data.py:ExtraData.as_dict", "LnkParse3/extra_factory.py:ExtraFactory", "LnkParse3/extra/console.py:Console", "LnkParse3/extra/distributed_tracker.py:DistributedTracker", "LnkParse3/extra/darwin.py:Darwin", "LnkParse3/extra/metadata.py:Metadata", "LnkParse3/extra/shell_item.py:ShellItem", "LnkParse3/extra/environment.py:Environment"]}
{"id": "C63", "title": "The whole report of every file", "statement": "For every file that is reported, the complete report and the complete list of warnings are the ones a specification reads from the bytes: size, header, ID list, link info, strings, extra blocks, in this order. The specification determines the report and the warnings.", "quantifier": "every byte string that is reported, every code page, both terminal switches", "why_tests_cant": "A statement about all entries of all reports at once.", "anchors": ["LnkParse3/lnk_file.py:LnkFile.get_json", "LnkParse3/lnk_file.py:LnkFile.process"]}
{"id": "C64", "title": "Times to the last digit, and in their order", "statement": "A FILETIME is reported as the microsecond that results from rounding the seconds since 1970 to the nearest 53-bit number, ties to even, and then the fraction to the nearest microsecond, ties to even; nothing is reported for zero and outside the years 1 to 9999, the latter with a warning. So a later FILETIME is never reported as an earlier time, every non-zero FILETIME between two that are reported is reported, and the times of a header appear in the order of the file.", "quantifier": "every signed 64-bit FILETIME, every file", "why_tests_cant": "Rounding of 2^64 values; ties and carries at the second are met by few of them, and order is a statement about pairs.", "anchors": ["LnkParse3/utils.py:parse_filetime", "LnkParse3/lnk_header.py:LnkHeader.creation_time", "LnkParse3/lnk_header.py:LnkHeader.write_time"]}
{"id": "C65", "title": "How a report fails: the exception and the warnings before it", "statement": "When get_json of an opened file raises, the exception and the complete list of warnings given before it are determined by the bytes: the warnings of the header fields in front of the first one that is cut off, of the items and the fields in front of the unreadable one, of the link info strings in front of the missing field, of the blocks in front of the one whose exception is not caught. The complete and the abridged report fail in the same way. Together with the report of every file this describes every possible result of get_json, and exactly one for each file.", "quantifier": "every byte string that can be opened, every code page, both terminal switches, both report variants", "why_tests_cant": "An equivalence over all files and all points at which reading can stop.", "anchors": ["LnkParse3/lnk_file.py:LnkFile.get_json", "LnkParse3/lnk_header.py:LnkHeader", "LnkParse3/lnk_targets.py:LnkTargets.as_list", "LnkParse3/lnk_info.py:LnkInfo", "LnkParse3/info/network.py:Network", "LnkParse3/extra/darwin.py:Darwin", "LnkParse3/extra_data.py:ExtraData.as_dict"]}
{"id": "C66", "title": "Every outcome of the constructor, and a code page that does not exist", "statement": "For every byte string and every code page the warnings of the constructor and the exception or success at its end are determined: AttributeError for no data, struct.error when the header, the size of an announced ID list or the size of a kept block is missing, LookupError exactly when the code page is unknown and a string that is not Unicode has text in it. With an unknown code page a report or a run of the command line is either the one with any other code page, warnings included, or ends in a LookupError after the first of those warnings; a run without LookupError does not depend on the code page.", "quantifier": "every byte string, every code page including unknown ones, both terminal switches, both report variants, all command line switches", "why_tests_cant": "An equivalence over all files, and a comparison of two runs at every point where a code page is used.", "anchors": ["LnkParse3/lnk_file.py:LnkFile.__init__", "LnkParse3/lnk_file.py:LnkFile.process", "LnkParse3/string_data.py:StringData.__init__", "LnkParse3/text_processor.py:TextProcessor", "LnkParse3/lnk_file.py:main"]}
{"id": "C67", "title": "What of a file a report depends on: files that begin alike", "statement": "Two files whose first n bytes are the same report the same header if n is at least 76, the same ID list if it ends in these bytes, the same link info if it and its strings end there, the same first strings and the same first extra data blocks as far as those end there, and the same command. If the whole link ends there, up to the four zero bytes behind its last block, both files are opened with the same warnings and every report of the two is the same, its warnings and a possible exception included. So a link may be cut off behind its end and anything may be put behind it. (With allow_terminal_blocks what follows is part of the report. A link cut off inside a string is reported with a shorter string and no warning.)", "quantifier": "every pair of byte strings with a common beginning of any length, every code page", "why_tests_cant": "A statement about pairs of files of any length; which bytes a report does not depend on cannot be seen from single reports.", "anchors": ["LnkParse3/lnk_file.py:LnkFile.process", "LnkParse3/lnk_file.py:LnkFile.get_json", "LnkParse3/string_data.py:StringData", "LnkParse3/extra_data.py:ExtraData", "LnkParse3/lnk_info.py:LnkInfo", "LnkParse3/lnk_targets.py:LnkTargets"]}
{"id": "C68", "title": "The JSON text to the last character", "statement": "What print_json and the command line print as JSON is determined to the last character by the report: members in the order of their names, one element or member per line, indented by four blanks for each open bracket, empty containers as two brackets, ASCII only, with the short escapes where JSON has one and \\uXXXX in lower case (surrogate pairs beyond the BMP) otherwise, decimal numbers without needless zeros. Two reports, of whatever files, have the same text exactly if they hold the same up to the order of entries.", "quantifier": "every report of every file with every code page of Python (for the last sentence: that yields no lone surrogates), both variants, and every value a report may hold", "why_tests_cant": "An equivalence between texts and reports over all reports; consumers that compare or hash the text rely on it.", "anchors": ["LnkParse3/lnk_file.py:LnkFile.print_json", "LnkParse3/lnk_file.py:LnkFile.print_shortcut_target", "LnkParse3/lnk_file.py:main"]}
{"id": "C69", "title": "Every outcome of a run of the command line", "statement": "For every file and all options, the warnings given, in order, and then the exception or the output are determined by the bytes of the file: an empty file is refused, a file that cannot be opened ends as the constructor does, -t prints the command built from the path and the arguments (quoted so that it is split into them again) or ends in a TypeError if one of them is announced but missing, -j prints the JSON text of the full or the abridged report, otherwise the readable report shows it; a report that fails ends the run with its exception. Exactly one outcome is possible.", "quantifier": "every byte string, all combinations of -t, -j, -c, -a, every code page that exists", "why_tests_cant": "An equivalence over all files and all options, exceptions and warnings included.", "anchors": ["LnkParse3/lnk_file.py:main", "LnkParse3/lnk_file.py:LnkFile.lnk_command", "LnkParse3/lnk_file.py:LnkFile.print_shortcut_target", "LnkParse3/lnk_file.py:LnkFile.print_json", "LnkParse3/lnk_file.py:LnkFile.print_lnk_file"]}
{"id": "C70", "title": "Threads that share link objects", "statement": "Any number of threads open links and call get_json, print_json, print_lnk_file and lnk_command of link objects, shared or not, while other calls run, and do anything with the objects that they got. However their steps are interleaved, a call that ends has given the warnings and the answer, or the exception, of a call that runs alone. No call waits for another one or runs for ever, none changes an object that a caller knows, and the objects of an answer belong to no other answer.", "quantifier": "every interleaving of the steps of any number of calls and callers, every file and code page, every report object changed or created by callers in any way", "why_tests_cant": "Schedules: tests see a few interleavings; the code pops and replaces entries of dictionaries in place.", "anchors": ["LnkParse3/lnk_file.py:LnkFile.get_json", "LnkParse3/lnk_file.py:LnkFile.print_lnk_file", "LnkParse3/lnk_file.py:LnkFile.print_json", "LnkParse3/lnk_file.py:LnkFile.lnk_command", "LnkParse3/string_data.py:StringData.as_dict"]}
{"id": "C71", "title": "Walking the parts of a link by hand", "statement": "Loops over lnk.targets and lnk.extras, nested or interleaved, calls of name, size, as_item and as_dict of what they give, calls of the methods of lnk.string_data and reports in between: after any such calls, the warnings of the next call and its answer or exception are read off the bytes of the file and the number of earlier calls of next; no other earlier call matters. A walk through an ID list that can be reported gives the items of the report, in order. A malformed item (but for a network location) fails only when it is asked for its contents: a walk goes on behind it, although no report of the file can be made. Blocks that reports leave out raise the exact exception that is named. An iterator that has ended, by exception or not, stays ended.", "quantifier": "every byte string that can be opened, every usable code page, every sequence of calls on any number of iterators", "why_tests_cant": "All histories of calls, over all files; iterators are generators that keep state between the calls.", "anchors": ["LnkParse3/lnk_targets.py:LnkTargets.__iter__", "LnkParse3/lnk_targets.py:LnkTargets._id_lists", "LnkParse3/extra_data.py:ExtraData.__iter__", "LnkParse3/target_factory.py:TargetFactory", "LnkParse3/target/lnk_target_base.py:LnkTargetBase", "LnkParse3/extra/lnk_extra_base.py:LnkExtraBase", "LnkParse3/string_data.py:StringData"]}
{"id": "C72", "title": "Asking a link for a single field", "statement": "The nine flag questions of a link, every method of its header, its link info (local or network), its ID list, its strings and its extra data, its size and the two lines of flags can be called one by one, also of a file of which no report can be made: the warnings and the value, or the exception, are read off the bytes of the file, and a field that is there is given whatever the rest of the file holds. If a report can be made, what stands in it for a field is what the method gives; what it leaves out is None, zero or empty or has no place in a report, except for two Unicode names of a share whose offset is zero, which the methods read from the start of the share; and a method fails only if the file lacks the part that it belongs to, with an AttributeError.", "quantifier": "every byte string that can be opened, every usable code page, every method that reads a single field", "why_tests_cant": "An equivalence over all files, damaged ones included, and a comparison of two ways to read every field of all of them.", "anchors": ["LnkParse3/lnk_file.py:LnkFile", "LnkParse3/lnk_header.py:LnkHeader", "LnkParse3/lnk_info.py:LnkInfo", "LnkParse3/info/local.py:Local", "LnkParse3/info/network.py:Network", "LnkParse3/lnk_targets.py:LnkTargets", "LnkParse3/string_data.py:StringData", "LnkParse3/extra_data.py:ExtraData"]}
{"id": "C73", "title": "The arguments of the program", "statement": "For every list of arguments: which run is asked for, when help is given (status 0) and when the program ends with a message (status 2). Options may be letters in one word or long names cut down to any beginning, in any order, before or behind the name of the file; the last code page counts; behind -- every word is a name; a negative number or a word with a blank that is no option is a name, any other word with a dash that is no option is refused; exactly one file must be named. From there the program ends with the error of opening the file or as in C69. A closing -- is accepted only directly behind the name of the file.", "quantifier": "every list of words, whatever characters they hold; for the whole program every file system and every set of code pages", "why_tests_cant": "All lists of words of any length; argparse has its own rules for dashes, equals signs, cut names and numbers.", "anchors": ["LnkParse3/lnk_file.py:main"]}
{"id": "C74", "title": "Asking an item or a block for a single field", "statement": "Every item and block that a walk gives, also one that no report can be made of, can be asked for its fields one by one, and so can the file entry in a users files item, the storages of a property store, their properties and the typed values of these. Each method gives the warnings and the value, or the exception, that are read off the bytes of its own field, whatever is wrong with the rest; a class that lacks a method raises AttributeError; asking changes nothing for later calls. The report of an item, block, storage or property is what its methods give in a fixed order, with the same warnings, and fails exactly as the first of them that fails. Two methods never work: extension_block() of a root folder (AttributeError) and volume_identifier() of a volume with a name (TypeError).", "quantifier": "every byte string that can be opened, every usable code page, every history of iterations and questions, every method of every class of items and blocks that reads a field", "why_tests_cant": "All files, damaged in any way, all histories and all methods; and the equality of two ways to read each of them.", "anchors": ["LnkParse3/target/lnk_target_base.py:LnkTargetBase", "LnkParse3/target/shell_fs_folder.py:ShellFSFolder", "LnkParse3/target/my_computer.py:MyComputer", "LnkParse3/target/network_location.py:NetworkLocation", "LnkParse3/target/root_folder.py:RootFolder", "LnkParse3/target/users_files_folder.py:UsersFilesFolder", "LnkParse3/target/control_panel_cpl.py:ControlPanelCPL", "LnkParse3/extra/metadata.py:Metadata", "LnkParse3/extra/console.py:Console", "LnkParse3/extra/darwin.py:Darwin", "LnkParse3/extra/distributed_tracker.py:DistributedTracker", "LnkParse3/extra/shell_item.py:ShellItem"]}
{"id": "C75", "title": "Processing a link again", "statement": "A caller may assign indata, cp and allow_terminal_blocks of a link and call process() as often as they like. An assignment changes no answer by itself. process() gives the warnings and raises the exceptions that the constructor would (without content: LnkParserError, and nothing changes). After a success the link cannot be told from a new one made of the same content, code page and option. After a failure each part of the link (header, ID list, link info, strings, blocks, size) comes from the file that was last processed far enough to reach it: the link is a mixture, and every report, flag, string, command and size is exactly what is read off those files.", "quantifier": "every link that can be constructed, every sequence of assignments, process() calls and questions in any order, each exception caught; every code page, known or not", "why_tests_cant": "All histories of files, broken in any way, with the exact state after every failure.", "anchors": ["LnkParse3/lnk_file.py:LnkFile.process", "LnkParse3/lnk_file.py:LnkFile.__init__", "LnkParse3/lnk_file.py:LnkFile.get_json", "LnkParse3/lnk_file.py:LnkFile.lnk_command", "LnkParse3/lnk_file.py:LnkFile.has_target_id_list"]}
{"id": "C76", "title": "The code page, string by string", "statement": "Making a report does, whatever the code page, one fixed list of things that depends on the bytes of the file alone: giving the warnings that have nothing to do with the page, and decoding certain strings with it, in a certain order. With a page that exists the warnings of the report are exactly what this list gives with that page, and whether the report ends well, or with which exception, does not depend on the page. With a page that Python does not know the report raises LookupError exactly if one of the strings has text before its NUL; it then has given exactly the warnings of the list up to the first such string, the same for every page. If there is no such string the report is that of every other page. The command line does the same behind the warnings of the constructor, for JSON and YAML; with -t it does what it does with every page.", "quantifier": "every file that can be opened, every code page, existing or not, every option", "why_tests_cant": "The order of all strings of all structures of a file, also of those that end in an exception or are left out, and every code page.", "anchors": ["LnkParse3/lnk_file.py:LnkFile.get_json", "LnkParse3/lnk_file.py:LnkFile.print_lnk_file", "LnkParse3/lnk_file.py:main", "LnkParse3/text_processor.py:TextProcessor.read_string", "LnkParse3/extra_data.py:ExtraData.as_dict"]}
{"id": "C77", "title": "What is written on standard output, byte for byte", "statement": "For every file and every combination of -t, -j, -c and -a, on every standard output whose encoding works character by character, with either kind of line end: which bytes are written, and whether the run ends well, with an exception before anything is written, or in print because a character has no bytes. JSON (-j, with or without -t) can always be written where ASCII can, is the same bytes whatever the encoding of standard output and gives the JSON text back; -t -j is one line. The command is written whole or not at all; with UTF-8 and a code page that yields characters it always is, and the bytes give it back. The readable report is written whole, or its title alone.", "quantifier": "every file, option, code page, encoding and line end of standard output, and every result of yaml.dump", "why_tests_cant": "The bytes depend on every character of every string of the file and on the environment of the process.", "anchors": ["LnkParse3/lnk_file.py:main", "LnkParse3/lnk_file.py:LnkFile.print_shortcut_target", "LnkParse3/lnk_file.py:LnkFile.print_json", "LnkParse3/lnk_file.py:LnkFile.print_lnk_file"]}
{"id": "C78", "title": "What can be read back from a report", "statement": "Two files whose headers are reported alike have the same header, but for the three times, which lie at most 34 microseconds apart (less than 2 within 2^32 seconds of 1970) unless both may be missing, and the show command, of which only 3 and 7 are told apart from the rest. Two files of Unicode strings without NUL with the same reported strings have the same strings. Two files whose targets are reported alike have as many items, of the same classes, that agree on sizes, attributes, GUIDs and the other numbers of their entries. Two files whose LinkInfo sections are reported alike both have one or neither, and the sections agree on all bytes of their fixed fields and of those of the volume or network location. Two files whose reports have the same entry for a block have blocks with this signature that agree on all bytes of numbers the entry tells. The whole file cannot be read back.", "quantifier": "all pairs of files, code pages and settings that yield complete reports", "why_tests_cant": "It speaks of all pairs of files: no two that differ where the report claims to tell them apart may look alike.", "anchors": ["LnkParse3/lnk_header.py:LnkHeader.as_dict", "LnkParse3/string_data.py:StringData.as_dict", "LnkParse3/extra_data.py:ExtraData.as_dict", "LnkParse3/lnk_file.py:LnkFile.get_json"]}
{"id": "C79", "title": "Links from file objects, and every call of the constructor", "statement": "LnkFile(fhandle=f) reads f from its position on and leaves it at its end; the link is that of LnkFile(indata=those bytes), and indata is not looked at. At the end of f, and so for every second call with the same f, it raises LnkParserError without a warning; without fhandle and indata, or with empty indata, AttributeError. Links in a row in one file can be read from one file object by seeking by their sizes: each report is that of the link alone, and the position is behind the last of them.", "quantifier": "every file content, position, code page and pair of arguments; every sequence of well-formed links with gaps, whatever comes before and behind", "why_tests_cant": "The position after any number of links depends on the sizes of all of them.", "anchors": ["LnkParse3/lnk_file.py:LnkFile.__init__", "LnkParse3/lnk_file.py:LnkFile.process"]}
{"id": "C80", "title": "How many warnings a file can cause", "statement": "LnkFile() gives at most nine warnings, whatever the bytes and whether it succeeds or raises, and it is known which. get_json() gives at most one warning per byte of the file when the file has no property store, and at most the square of the number of bytes when it has one; the latter cannot be improved to a linear bound: there are files of 64 n + 128 bytes whose report comes with n (n + 1) / 2 warnings.", "quantifier": "every byte string, usable code page and switch; both reports, finished or ended by an exception; every n up to the largest block", "why_tests_cant": "The number of warnings depends on all bytes of the file; the worst files grow without bound.", "anchors": ["LnkParse3/lnk_file.py:LnkFile.__init__", "LnkParse3/lnk_file.py:LnkFile.process", "LnkParse3/lnk_file.py:LnkFile.get_json", "LnkParse3/extra/metadata.py:Metadata", "LnkParse3/extra_factory.py:ExtraFactory", "LnkParse3/decorators.py:must_be"]}
{"id": "C81", "title": "The parts of a file and the parts of its report", "statement": "Each entry of a report is decided by one part of the file, wherever in the file it lies: two files with the same header, ID list, LinkInfo, strings or extra data have the same entry for it, and with the same strings the same command line. When the header, the ID list, the LinkInfo or the strings of a file are replaced by others, of whatever length, the file opens as before and only the entry of that part changes, and the size by the difference of the lengths; with other strings even the warnings are the same. A LinkInfo whose offsets point into the strings is not apart from them.", "quantifier": "every two byte strings that share a part, every replacement of a part, every usable code page and switch", "why_tests_cant": "The other parts, of any content and length, surround the one that is compared.", "anchors": ["LnkParse3/lnk_file.py:LnkFile.process", "LnkParse3/lnk_file.py:LnkFile.get_json", "LnkParse3/lnk_file.py:LnkFile.lnk_command", "LnkParse3/string_data.py:StringData", "LnkParse3/lnk_info.py:LnkInfo", "LnkParse3/lnk_targets.py:LnkTargets", "LnkParse3/extra_data.py:ExtraData"]}
{"id": "C82", "title": "Adding a part to a file", "statement": "When an ID list, a LinkInfo, a string or blocks of extra data are added to a link (with the flag that announces them), or taken out again, the file opens as before and what the report says about the other parts does not change: the added part gets its entry, the size grows by its length, and without a string being concerned the command line stays. Among the extra data what is said under other names stays, and blocks of different names can be exchanged. Of blocks of the same name the order matters.", "quantifier": "every header, ID list, LinkInfo, strings and blocks around the added part; every string of the five; every list of added blocks; every usable code page and switch", "why_tests_cant": "The surrounding parts are of any content and length, and an added part moves all that comes behind it.", "anchors": ["LnkParse3/lnk_file.py:LnkFile.process", "LnkParse3/lnk_file.py:LnkFile.get_json", "LnkParse3/lnk_file.py:LnkFile.lnk_command", "LnkParse3/string_data.py:StringData", "LnkParse3/lnk_info.py:LnkInfo", "LnkParse3/lnk_targets.py:LnkTargets", "LnkParse3/extra_data.py:ExtraData"]}
{"id": "C83", "title": "What a parse without warnings tells about the file", "statement": "With warnings turned into errors the parser is a checker: a report is made exactly when it would be made without a warning, and otherwise the first warning is raised, since no handler of the code catches a warning. A file that passes has the header size, class identifier and reserved fields that the specification demands, a time is missing only where zero is stored, every announced string is there and shows only characters that the file holds (nothing was replaced), nothing in the ID list is reported as Unknown, a LinkInfo that is to be read has room for its flags, and the rest of the file consists of blocks that are all reported, up to its end or a zero size; tracker blocks have length 88 and version 0. It does not tell that the file is whole: a cut last string or block passes.", "quantifier": "every file that is opened and reported without a warning, every usable code page and switch; every selection of warnings by the filter", "why_tests_cant": "What follows from silence holds for all files that pass, which no finite set of files shows.", "anchors": ["LnkParse3/lnk_file.py:LnkFile.process", "LnkParse3/lnk_file.py:LnkFile.get_json", "LnkParse3/decorators.py:must_be", "LnkParse3/text_processor.py:TextProcessor", "LnkParse3/string_data.py:StringData.process", "LnkParse3/extra_data.py:ExtraData", "LnkParse3/target_factory.py:TargetFactory"]}
{"id": "C84", "title": "The printed JSON text loses nothing of the report but the order of keys and fractions of seconds", "statement": "Two reports are printed as the same JSON text if and only if they say the same: the same keys, numbers, texts and lists at every level, in any order of keys, with times that agree to the second. So the report can be taken back out of the printed text with any JSON reader: only the strings under creation_time, accessed_time, modified_time and modification_time are times, all others are texts, and nothing else is needed to tell them apart. The fraction of a second of a time is lost.", "quantifier": "every two reports of any two files, complete or abridged, made with any usable code page that yields Unicode text, and every position in them", "why_tests_cant": "That no two different reports collide in print is a statement about all pairs of reports.", "anchors": ["LnkParse3/lnk_file.py:LnkFile.print_json", "LnkParse3/lnk_file.py:LnkFile.get_json"]}
{"id": "C85", "title": "Every report follows one schema", "statement": "Whatever the file, get_json returns a dictionary that follows a fixed schema: at every level only the documented keys, in the documented order, all of those that are always there, keys that belong together only together, and under each key a value of its kind. Numbers lie in the range of their field, GUIDs have the form of a GUID, digests are 64 hexadecimal digits, names are taken from the documented lists, times exist in the calendar. The abridged report follows the same schema without the keys it leaves out. So a consumer of reports needs no more than the schema to read every one of them.", "quantifier": "every file, input kind, usable code page, with and without appended data, complete and abridged report, every position in it", "why_tests_cant": "A test sees the shape of the reports of its files; that no file leads to another key, order, kind or range is a statement about all of them.", "anchors": ["LnkParse3/lnk_file.py:LnkFile.get_json", "LnkParse3/lnk_header.py:LnkHeader", "LnkParse3/lnk_info.py:LnkInfo", "LnkParse3/info/local.py:Local", "LnkParse3/info/network.py:Network", "LnkParse3/lnk_targets.py:LnkTargets.as_list", "LnkParse3/extra_data.py:ExtraData.as_dict"]}
