# Formal model of LnkParse3 in Rocq (Coq 8.16.1)

Source: `/repo/LnkParse3` (version 1.6.0, pinned). The sandbox does not run the
code; the model was written by reading it. Properties are in `properties.jsonl`,
their status in `MANIFEST.json`, wrong-program experiments in `seeded/LOG.jsonl`.
In that log `failed` lists the proofs that broke in the edited copy and `properties_lost` the property theorems that
use one of them, by the references the compiler resolved (`tools/mutate.py`). An earlier version of the tool matched
names as words, which listed too many; the log was recomputed from the references of the present sources and 44 names
in 13 entries were taken out. A proof that breaks shows that the theorem is no longer established for the edited
program, not by itself that the statement is false of it.

## 1. How the code is modelled

Shallow embedding, one Gallina function per Python method, branch by branch.

* `bytes` = `list Byte.byte` (so every list is a legal byte string), text =
  `list N` of code points, Python `int` = `N` or `Z` (unbounded, as in Python).
* Python slices with non-negative bounds: `slice i j`, computed by structural
  recursion on the list with an `N` counter (a declared size of 2^32 costs nothing).
* Exceptions are values: `M A = list warning * (Ok A | Err exn)`. The first
  component is the log of `warnings.warn` calls, kept also when an exception
  follows. `struct.unpack` on a slice of the wrong length is `Err StructError`.
* `while` loops are recursion on fuel that returns the artificial exception
  `OutOfFuel`; the callers pass the length of the data + 1, and C01 proves that
  `OutOfFuel` is never the outcome.
* Generators: `read_strings` is the lazily decoded list of chunks (only the
  chunks that are asked for are decoded); `_id_lists` is fused with its only
  consumer, the loop in `as_list`/`id_list`, in the order in which Python
  interleaves them. A `StopIteration` that leaves a generator body becomes
  `RuntimeError` (PEP 479).
* Dictionaries are insertion-ordered association lists (`dset`, `dpop`).

## 2. Trusted base

* **Coq 8.16.1's kernel** (and `coqchk` as a second reading of the compiled files).
* **Axioms: none.** `Print Assumptions` follows every property theorem in
  `Properties*.v` and answers "Closed under the global context" each time. `coqchk`
  lists seven entries of Coq's own library (`Coq.ssr.ssrunder.Under_rel.*`, the
  opaque module behind `under`); they come with ssreflect's loading and no theorem
  here uses them.
* **The reading of the Python code.** Each definition cites the lines it models. As a
  test of that reading, `tools/check_samples.py` runs the model on the 34 sample links
  of `/repo/tests` and compares the JSON text with the expected files (all equal).
* **Python's standard library**, re-implemented in Gallina from its documentation and
  CPython's source: `struct.unpack`, slicing, `bytes.decode` (cp1252, UTF-8, UTF-16LE),
  `datetime.fromtimestamp` / `datetime(...)`, true division, `json.dumps`,
  `hashlib.sha256`, `subprocess.list2cmdline`, `str` methods on ASCII identifiers.
  As a test of this, `tools/check_python.py` compares these definitions, `argparse`, `textwrap.indent` and `print` with the
  library of Python 3.11.10 on some 24000 random and boundary inputs per run (all equal).

### Modelled

Every module of `/repo/LnkParse3`: `lnk_file.py` (constructor, `process`, `get_json`,
`print_json`, `lnk_command`, `print_shortcut_target`, `print_lnk_file` with `yaml.dump`
as a parameter, `main`), `lnk_header.py`, `string_data.py`,
`lnk_targets.py`, `target_factory.py`, `target/*.py`, `lnk_info.py`, `info_factory.py`,
`info/*.py`, `extra_data.py`, `extra_factory.py`, `extra/*.py`, `text_processor.py`,
`utils.py`, `decorators.py`.

### Not modelled

* `yaml.dump` (PyYAML is not in the repository).
* `argparse`: what it does with the arguments is modelled (`Args.v`, after Python 3.11.10; it is not in the repository),
  not the texts of the help and of its messages; the file system is an arbitrary function from names to contents, all
  errors of `open` are one. Standard output is an encoding of single characters and a line end (`Stdout.v`); encodings
  with state and errors of the file behind it are not modelled.
* The text of warnings: a warning is a constructor with the data it mentions. Warning
  filters that turn warnings into errors are modelled only as a reading of the list of
  warnings (C83); all other properties are for filters that let the calls go on.
* `sys.version_info < 3.8` branches.
* Code pages other than cp1252 are an arbitrary pair of functions (strict decoding,
  decoding with replacement): theorems quantify over them. An unknown code-page name is
  `CpUnknown` (decoding non-empty bytes raises LookupError).
* Python-level object state: `LnkFile` keeps the raw data and recomputes everything on
  each call, so the model uses pure functions of the raw data. `Heap.v` models the
  dictionaries and lists as mutable objects and C58 relates the two. There the caller uses
  the four methods only: writing to attributes of the parts (`lnk.string_data._data`) is not modelled (for `indata`, `cp` and
  `allow_terminal_blocks` see Again.v).
  `Threads.v` models the methods step by step for C70. A step there is the creation of an
  object, a look at one or one operation on one (`pop`, `d[k] = v`), each atomic; the warnings
  of a call are those of its thread (the registry that the module `warnings` shares between
  threads is not modelled). The only container an object keeps and reads again is that string table
  (`_lnk_header`, `_stash`, `_targets`, `_target` stay empty and `extras.data` is never handed out).

## 3. Files (`rocq/theories`)

| file | content |
|---|---|
| `Py.v` | bytes, slices, exceptions + warnings monad, struct.unpack, number formatting, dict |
| `Codec.v` | cp1252, ASCII, UTF-8 (strict), UTF-16LE (strict / replace) as in CPython; `text_processor.py` |
| `Sha256.v` | SHA-256; proved equal to the standard as stated in `SpecSha.v` |
| `PyTime.v` | true division to double, `datetime.fromtimestamp(…, utc)`, `datetime(...)` |
| `Utils.v` | `utils.py`, `decorators.py` (the decorators `uuid`, `packed_uuid`, `filetime` and `dostime`, decorators.py:27-64, are the `parse_...` functions, called where the methods they decorate are read) |
| `Header.v`, `StringData.v`, `Targets.v`, `Info.v`, `Extra.v`, `LnkFile.v` | the modules of the same name |
| `Json.v` | `json.dumps(indent=4, sort_keys=True)`, `print_json` |
| `Fields.v` | the methods that read a single field, called one by one |
| `Args.v` | the parser of the arguments of `main`, and `main` from the arguments on |
| `Pieces.v` | the methods of items, blocks, storages and properties that read a single field |
| `Again.v` | assigning to a link, `process` as a program over its attributes, sequences of calls |
| `Walk.v` | iterators over items and blocks, and calls on what they give |
| `Threads.v` | the same methods as programs of single steps, between which other threads may run |
| `Report.v` | `list2cmdline`, `lnk_command`, the tree of `print_lnk_file`, `main` |
| `Readable.v` | the text of `print_lnk_file` for an arbitrary dumper |
| `Stdout.v` | `print` and the text stream behind it, a run of `main` up to its bytes |
| `Call.v` | file objects, the arguments of the constructor |
| `Heap.v` | the same methods on mutable dictionaries and lists: `pop` and item assignment in place |
| `Spec.v`, `Spec*.v` | the independent specification: [MS-SHLLINK] encoders, layouts, expected reports |
| `*Proofs.v`, `Lemmas.v` | lemmas |
| `Properties*.v` | the property theorems only (proof: `exact lemma`), each with `Print Assumptions` and, beside it, an `Example` on a concrete case that meets the hypotheses |

`Properties*.v` by subject: Core (C01-C03, C17, C18, C20), Header (C04-C10), Text (C11-C16, C52),
Items (C29-C33, C53), Extra (C06, C21-C28, C34, C48, C50), Info (C35-C40, C54, C55), Report (C41-C44,
C49, C56), Readable (C45), Link (C19, C46, C51), Pages (C47), Digest (C48), Indent (C57), History (C58),
Size and Cube (C59), Outcome (C60), Whole (C61-C63), Double (C64), Failure (C65), Unknown (C66), Prefix (C67), JsonText (C68),
Run (C69), Threads (C70), Walk (C71), Chars (C12, C13), Fields (C72), Args (C73), Pieces (C74), Again (C75), Trace (C76), Stdout (C77), Back (C78),
Call (C79), Flood (C80), Patch (C81), Add (C82), Silence (C83), Printed (C84), Schema (C85), InReport (the block and item properties C22, C23, C26-C28, C30, C32, C33, C48, C50, C53 restated for reports of whole files).

Theorems named `..._refuted` have the form `exists ...`: the English expectation is false
of the code as written, and the theorem exhibits a file. Beside them stands what does hold.

## 4. Plan per property

| id | model | proof |
|---|---|---|
| C01 | all loops with fuel | each iteration shortens the rest; induction on fuel; the loops satisfy the equations of the `while` loops whatever the fuel beyond the length (C01_*_rounds) |
| C02 | `LnkFile.process` | inversion of the monadic code, iff with an explicit condition |
| C03 | `get_json` | compositional "raises only" lemmas per function; witnesses by computation |
| C04 | `Header.v` | encoder of the 76 bytes, slices computed on explicit bytes |
| C05 | flag tables | bit tests; table against an independent list of names |
| C06 | `must_be` | case analysis |
| C07 | hot key / show command | table look-up; 2^16 words by a finite sweep over two bytes |
| C08 | `PyTime.v` | integer arithmetic: error bound of correctly rounded division; calendar inverse |
| C09 | `parse_dostime` | bit-field arithmetic, validity iff |
| C10 | `parse_uuid` | hex digit injectivity |
| C11 | `parse_packed_uuid` | base-85 digits |
| C12, C13 | `Codec.v`; SpecChars.v: Windows-1252 as a table ordered by character, rules for malformed UTF-16 | induction on the byte list; encoder/decoder round trip; the table byte by byte |
| C14–C16 | `StringData.v` | symbolic execution over the encoder's concatenation |
| C17–C20 | `LnkFile.process` | section arithmetic; concatenation theorem from the section theorems |
| C21–C28 | `Extra.v` | induction over the block list; per-block layout theorems |
| C29–C34 | `Targets.v` | induction over the item list; per-item layout theorems |
| C35–C40 | `Info.v` | offset lemmas |
| C41 | `get_json` | dict algebra |
| C42 | `Json.v` | a JSON parser in the specification; parse (print v) = v by induction on v |
| C43, C44 | `Report.v` | simulation between the quoting automaton and the C-runtime splitter |
| C45 | `make_keys_nice` | induction on the tree |
| C46, C51 | everything | composition of the section theorems |
| C47 | everything | relational (two-run) lemmas |
| C48 | `Sha256.v`, `Extra.v` | equivalence with `SpecSha.v`, FIPS 180-4 as relations: sliding window against the schedule equations, loop against the rounds, uniqueness of constants and padding |
| C49 | `main` | case analysis |
| C50 | fixed-size fields | congruence of slices |
| C52 | constructor | exact list of warnings from the section walk |
| C53 | flag table | finite case analysis on the low bits; refutation by computation |
| C54, C55 | `Info.v` | location lemmas; refutations by computation |
| C56 | all dictionaries | compositional "gives a well-formed tree" predicate |
| C57 | `Readable.v`: replace, splitlines, indent | uniqueness of the pieces (the marker has no border) and of the lines; inversion of the indentation |
| C58 | `Heap.v`: objects, references, in-place updates; SpecHistory.v: everything a caller may do | refinement of the pure model by trees of new objects with disjoint footprints; invariant over histories: the private string table is unchanged and unreachable for the caller |
| C59 | all dictionaries; SpecSize.v: the weight of a report | compositional bounds per section, summed over the blocks of the file; families of files for the lower bounds, quadratic (PropertiesSize.v) and cubic (PropertiesCube.v, SpecCube.v) |
| C60 | all of get_json; SpecOutcome.v: the outcome, read off the bytes | for each kind of item and block, success iff its fixed part is there; induction over items and blocks; determinism of the specification from the model |
| C61 | all item classes; SpecEntries.v: an entry read off the bytes of its item | each kind of item computes its entry and warnings; induction over the list |
| C62 | all block classes; SpecBlocks.v: a block read off its bytes | equation and converse for each kind; induction over elements of a store; equivalence with decoding, and with being left out, warnings included |
| C63 | all of get_json; SpecWhole.v: C04, C16, C17, C35, C61, C62 put together | equation for the whole computation; determinism of the specification |
| C64 | `PyTime.v`, `parse_filetime`; SpecDouble.v: rounding in rational arithmetic | the quotient of the model is the nearest 53-bit number, with even significand on ties; uniqueness and monotonicity of rounding |
| C65 | all of get_json; SpecFailure.v: how far each section is read | equation for each section that stops, totality from C60; equivalence and determinism |
| C66 | `lnk_init` with every `cp_arg`, `main`; SpecUnknown.v: `construction` | equation for each way the constructor ends, determinism; a simulation (same, or stopped by LookupError) through every function that takes the code page |
| C67 | `lnk_init`, `get_json`, `lnk_command` on two files; SpecPrefix.v: `agree`, `lists_inside`, `info_inside`, `link_inside` | each piece of the specifications of C63, C65 and C66 carried from one file to the other (slices and numbers inside the common bytes, strings that end there, walks over strings and blocks), then determinism |
| C68 | `dumps`, `json_string`, `command_json`, `main`; SpecJsonText.v: which characters are escaped and how, numbers, line breaks and indentation | the relation between a JSON value and its text is functional and is what `dumps` computes, by induction on the value; the ordered JSON value of a report is unique since keys are distinct |
| C69 | `main` with every combination of options; SpecRun.v puts together C63, C65, C66, C68, C45 and the rules of quoting an argument | each mode from the theorems on its parts; for the readable report, the tree that shows a report is unique (keys are distinct and every class is a text of the program, by cases over the specified report) |
| C70 | Threads.v: each method as a program of single steps on objects; SpecThreads.v: any number of running calls and callers, interleaved in any way | a program logic with ownership (a call reads the string table and its own objects only, whatever others do meanwhile); invariant over all interleavings that the owned sets are apart from each other, from the string tables and from what callers know |
| C71 | Walk.v: the generator over an ID list, the iterator over blocks, calls on what they gave, kept in variables; SpecWalk.v: no state, only the number of calls of `next` | invariant by induction over the history; each step from `next_target` and `as_item` by cases on the class (C61), the exact exception of a block from the first element that cannot be read (C62) |
| C72 | Fields.v: one constructor for each method; SpecFields.v: the place of each field, what is there, what is announced | by cases on the method; the sections from C61 and C65; the report entry by entry |
| C73 | Args.v: argparse for this parser, from the table of options to the main loop; SpecArgs.v: what a list of words says, as inductive relations without argparse; SpecProgram.v: the whole program | words by their first characters, then the list from the left; the loop of argparse by induction on the list; C69 for the run |
| C74 | Pieces.v: the methods of items, blocks, storages, properties and typed values, and programs that mix them with the calls of Walk.v; SpecPieces.v: the answers from the bytes, and the methods a report is made of, in order | each class by its fields; the step theorem of C71 for the histories; a report as a fold over its methods |
| C75 | Again.v: the link as an object whose attributes are assigned one by one, `process` as a program over it, sequences of calls; SpecAgain.v: which file each part comes from, how far processing comes, the answers from those files, for blocks of any size and for sections whose code page is unknown | an invariant (each part is the one read from its file) kept by every call; the section theorems of C42-C60 for the answers, the traces of C76 for unknown pages |
| C76 | SpecTrace.v: the list of what a report does (warnings without a page, strings with it) from the bytes of the file, for structures that can be read and for those that cannot | running such a list as a program for any page, known or not; every reader of the model shown to be such a run, so one proof serves all pages |
| C77 | Stdout.v: `print` on a text stream (an encoding of characters, a line end); SpecStdout.v: the bytes of a run as a relation | the writer shown equal to the relation by induction on the texts, joined with C69 and C57; ASCII of the JSON text, injectivity of UTF-8 and of line ends for getting the texts back |
| C78 | SpecBack.v: which headers and items may look alike, which bytes of a block and of a LinkInfo its report tells | the reports of C06 to C11, C14, C35, C37 and C48 taken as equations in two files and solved for the fields: injectivity of little-endian numbers, names of flags, UTF-16 and block names; distance of two times with the same rounding |
| C79 | Call.v: a file object as bytes and a position, the four arguments of the constructor; SpecCall.v: a client that seeks by sizes | by cases on the arguments; induction on the links with C46 |
| C80 | SpecFlood.v: the warnings of a constructor that succeeds or fails, files whose property store is full of warnings | induction over items, properties, storages and blocks of the exact reports of C61-C63 and C65; nine by cases on what shares the last bytes |
| C81 | SpecPatch.v: the bytes of the parts of a file, what is equal of two reports | the layout of Spec.v restated relative to where a part starts, by induction over the strings; then the exact report of C63 and the exact outcomes of C60 for both files |
| C82 | SpecAdd.v: a header that announces one more part, strings in one piece | as C81; for strings induction over the announced ones, for blocks the entries of a name as a filter of all entries |
| C83 | SpecSilence.v: faithful texts, known entries, the filter `error` of Python's warnings module | the warnings of C52 and C63 are a concatenation, so each part of an empty list is empty; induction over items and blocks |
| C84 | SpecPrinted.v: when two values say the same, and the reading of a JSON value as a report | C63 gives the report entry by entry, which shows that times stand under four keys only; induction on values with C68 and C42 |
| C85 | SpecSchema.v: a schema language and the schema of the report in it | C63 gives the report entry by entry and each entry is matched against its row; the abridged report by following the schema along the positions C41 leaves out; that nine header fields use their kind in full by a file with only a header (C46) |

## 5. What the proofs found in the code

False of the code, each shown by a `_refuted` theorem or a theorem that states what
happens instead:

* low flag bits 0x07 ("Unicode share") are reported as "Is Unicode directory", and
  "Has CLSID" can never be reported (C53);
* every item sees two bytes of what follows it; an Unknown item's size is ItemIDSize + 2 (C32);
* a network location item with a missing announced string makes `get_json` raise RuntimeError (C33);
* a Darwin block of zeros makes `get_json` raise IndexError (C03, C28);
* a VT_I2 property drops the whole metadata block (C27); a shim layer name is read in the
  code page although it is Unicode (C26); the console colour table reports one colour (C25);
* a terminal block of 1..3 followed by four more bytes makes the constructor raise
  struct.error (C24);
* 18 of 41 network providers are never named (C38); the Unicode path suffix is read four
  bytes too far (C39), so that even conforming links may warn (C51); a LinkInfo that is not
  processed is not skipped (C40); a device name is invented when there is none (C54);
  unterminated LinkInfo strings run into the next section (C55);
* `lnk_command` raises TypeError on truncated StringData (C44);
* a code page that decodes something to nothing changes which keys are reported (C47);
* a text of the file that contains EMPTY_LINE_PLACEHOLDER is altered in the readable report (C57);
* the elements of a property store are read from suffixes of it that are not cut at the size of
  the element: a small file can give a report of quadratic size, 64 KB some 10^8 entries, and longer files of cubic size (C59);
* a link that is cut off inside a string is reported with a shorter string and without a warning (C67);
* a malformed item makes every report fail, although a loop over `lnk.targets` gives all other items (C71);
* `net_name_unicode()` and `device_name_unicode()` of a share that announces Unicode names but leaves their offset zero
  read the first bytes of the share as text; the report leaves them out (C72);
* `--` at the end of the arguments is refused if options stand behind the name of the file (C73).
* `RootFolder.extension_block()` calls a method that no class has and `MyComputer.volume_identifier()` of a volume with
  a name takes the GUID of None: they raise on every file (C74).
* `process()` is not all or nothing: when it raises, the parts it had reached are those of the new file and the others those
  of the old one; reports of this mixture are made without a warning (C75).
* An unknown `-c` is not noticed as such: it ends in a LookupError in the middle of the report, only when a string with text
  is reached; a file without such strings is reported as with any other page, and `-t` may work where the report of the same
  file raises (C76).
* `-t` prints the command as it is: arguments with a line feed make two lines of one shortcut, and a character that standard
  output cannot encode ends the run with a traceback and no output. `-t -j` has neither problem (C77).
* A report does not tell the show command but for 3 and 7, nor times to the tick: different files have the same report (C78).
* A file object is read to its end: a second `LnkFile` on it raises LnkParserError although more links may follow the first
  one; with a file object at its end, `indata` is ignored (C79).
* A property store is read again from each of its storages on: a file of 6.5 kB gives 5050 warnings, and the number grows with
  the square of the size (C80).
* A string or a block that is cut off at the end of the file is reported without a warning (C83).
* The printed JSON text drops the fraction of a second of the header times, so different reports can be printed alike (C84).
