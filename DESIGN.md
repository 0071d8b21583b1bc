# Formal model of arinc424 (jack-laverty/arinc424)

Everything is in Rocq (Coq 8.16.1), under `rocq/theories`. `/repo` was read as text and is unchanged;
the project was neither built nor run.

## Files

| file | what |
|---|---|
| `Unicode.v` (generated) | Unicode character classes behind `str.isspace/isdecimal/isnumeric/isalpha` |
| `PyStr.v`, `PyNum.v`, `PyBase.v` | the Python builtins the code calls: str methods, slicing, `int()`, `float()`, binary64 division, `"{:.2f}".format`, `repr(float)`, exceptions as values, printing as events |
| `UnicodePrintable.v` (generated), `PyRepr.v` | `repr()` of a str and of a list of str |
| `DecoderTables.v` (generated) | literal code tables of `decoder.py`, and its 205 identity and 15 "ft" decoders |
| `Decoder.v` | the other 53 decoders of `decoder.py`, by hand, branch by branch; class `Field` |
| `Layouts.v` (generated) | every class of `definitions/*.py`: attributes, field lists, `read`; `records` of `record.py` |
| `Json.v` | `json.dumps` as called by `record.py` |
| `Record.v` | class `Record` |
| `Api.v` | `parse`, `search`, `read_file`, `read_folder`; text-mode `open`/`readlines` |
| `Utf8.v` | the strict UTF-8 decoder, and a file system of bytes below that of `Api.v` (`PageProps.v`: the same with a code page) |
| `LegTypes.v` | the module-level `defaultdict` of `field_021`, with its insertions |
| `Spec.v`, `SpecLayouts.v`, `SpecNum.v`, `SpecFloat.v`, `SpecPyNum.v`, `SpecRepr.v`, `SpecCodes.v`, `SpecDecode.v`, `SpecRecord.v`, `SpecJson.v`, `SpecColumns.v`, `SpecLiteral.v`, `SpecApi.v`, `SpecUtf8.v`, `SpecNames.v` (generated), `SpecFields.v` | the words the properties are stated in, written without the model's helpers: columns of a line, framing, sections, numbers, code tables, a JSON reader, lines of a text, ... |
| `*Facts.v`, `FnNum.v`, `NumFields.v`, `*Props*.v` (not `Properties*`) | lemmas |
| `PySyntax.v` | syntax trees of the part of Python the package is written in |
| `SrcDecoder.v`, `SrcDefinitions.v`, `SrcRecord.v`, `SrcInit.v`, `Source.v` (generated) | the package's text as such trees, statement by statement |
| `PyEval.v` | an interpreter of these trees; `SrcCheck.v` checks of the text that it relies on |
| `SrcFacts.v`, `SrcStart.v`, `SrcClasses.v`, `SrcAttrs.v`, `SrcRead.v`, `SrcMethods.v`, `SrcSession.v`, `SrcApi.v`, `SrcApi2.v` | the text, interpreted, compared with the model |
| `PyHeap.v` | a second interpreter of the same trees, in which objects have addresses and variables hold references |
| `HeapCheck.v`, `HeapRep.v`, `HeapInv.v`, `HeapSim.v`, `HeapCalls.v`, `HeapMethods.v`, `HeapEval.v`, `HeapExec.v`, `HeapRun.v`, `HeapWorld.v` | whatever the first interpreter computes (without being stuck) the second computes too; callers with several objects and names |
| `PyText.v` (generated) | the characters of the package's files, line by line |
| `PyLex.v`, `PyGrammar.v` | tokens of a Python text; the grammar (relation between tokens and trees) of the part of Python in use |
| `PyParse.v`, `PyParseSound.v`, `PyParseComplete.v`, `SpecLex.v`, `LexFacts.v` | a parser, proved to find exactly the trees of the grammar, of which there is one at most; the tokens are the text |
| `SpecTokens.v`, `TokenFacts1.v` … `TokenFacts4.v` | the tokens of a text by definition (longest tokens, logical lines, blocks); the lexer finds exactly these |
| `SpecEdit.v`, `EditProps.v`, `SearchProps.v` | a line with other characters in some columns; the fields of a record searched for |
| `SpecChars.v`, `CharFacts.v` | the characters of the output |
| `SpecTell.v`, `TellProps.v` | codes and numbers that are shown alike |
| `SpecAlike.v`, `AlikeProps.v` | lines with the same names and values |
| `SpecAgain.v`, `AgainProps.v` | searching in saved search output |
| `SpecWrite.v`, `WriteProps.v` | lines with given values |
| `PyCrash.v`, `CrashProps.v`, `CrashWorld.v` | the interpreter of `PyHeap.v` with a console that fails, and what is then different |
| `ClosedProps.v`, `ClosedWorld.v` | open files on the heap |
| `SrcText.v` (generated) | the parser run on `PyText.v` gives the trees of `Src*.v` |
| `Console.v`, `SpecConsole.v`, `ConsoleFacts.v`, `VisibleFacts.v`, `ConsoleProps.v` | the characters on the console: tables as prettytable draws them, colours as termcolor writes them; what a table is; lemmas |
| `Samples.v` | lines used by the examples |
| `KnownAnswers.v` | the model run on the data of `/repo/data` and the tables of `/repo/README.md` |
| `Properties1.v` ... | one theorem (or a few) per property, `Print Assumptions` beneath, examples beside |

`tools/gen.py`, `catalogue.py`, `codes.py`, `hidden.py`, `names.py` and `pyast.py` made the generated parts by `ast.parse` of the text of
`/repo`, `pytext.py` copied its text; their output is committed and the build does not run them. `tools/manifest.py` writes `MANIFEST.json` from the
theorem names and `tools/notes.txt`; `tools/properties.py` writes `properties.jsonl`.

## Shape of the model

* A Python `str` is a list of code points (`list N`). No bound on its length.
* Exceptions are values: `ValueError | IndexError | SystemExit | OSError`. Messages inside exceptions are not modelled.
* Functions that print have type `M A := list event * result A`: what was printed, then the value or exception.
* `Record.read` maps (object state, line) to (output, new object state, result): the state survives exceptions.
* Floats are binary64, as integers `m * 2^e` with correctly rounded conversion, division and formatting.

## Trusted base

* Coq's kernel (8.16.1), including its `vm_compute` reduction machine.
* `Print Assumptions` stands under every theorem in `Properties*.v`; each answers "Closed under the global context":
  no axioms, neither ours nor the standard library's. (`coqchk` run over whole libraries lists seven
  `Coq.ssr.ssrunder.Under_rel.*` constants; they are parameters of a sealed module of the standard library that gets
  loaded with `Lia`, and no theorem here uses them.)
* That the model says what the Python says. This is proved (C59-C63) relative to the text of the package and to the
  interpreter `PyEval.v`. The syntax trees that `tools/pyast.py` dumps (`ast.parse`, one constructor per node) are not
  trusted: `PyText.v` has the characters of the files (`tools/pytext.py` copies them; a `diff` shows it), and C68 proves that by
  the grammar in `PyGrammar.v` they stand for those trees and no others. Trusted are: the copy; what tokens
  are (`SpecTokens.v`, 80 lines of definitions after chapter 2 of the Language Reference; C71 proves that the lexer finds them);
  the grammar (150 lines); and the interpreter,
  some 700 lines that say what Python statements, expressions and library calls do. The translation of the 4000 lines of
  the package is not. The interpreter answers `Stuck` for whatever it
  does not describe (a value of the wrong type, an unknown name or attribute, an object changed through a second
  reference), so "the source does what the model says" includes that none of this happens. It treats objects as values:
  an object may be changed only by the variable that made it or by its own methods (`kind` in `PyEval.v`), and a program
  that changes an object anywhere else is `Stuck`. That this is no restriction is proved in C77: `PyHeap.v` interprets the same
  trees with references and a heap, as Python does, and gives the same answers, so for sessions (C77) `PyEval.v` need not be
  trusted but only `PyHeap.v` (600 lines, no continuations; `PyCrash.v` is a copy with the library as a parameter, for C80). Lists and tuples are values in both, as nothing in the package changes
  one. `SrcCheck.v` computes that the text satisfies what the interpreter
  presumes (no name bound twice in a module, no local variable hiding a global, imports in order).
  Modelled, function by function: `record.py`, `__init__.py`,
  `decoder.py`, all of `definitions/*.py` that `record.py` imports. `KnownAnswers.v` compares the model with what the
  repository itself says about its results (README tables, test data).
* `Console.v` is a model of parts of two libraries, prettytable 3.9.0 (`get_string` with left alignment) and termcolor 2.3.0
  (`colored`), which are not in `/repo`; it was written from knowledge of them and agrees with the 32 lines of the table in
  `README.md` but for the heading there (`C69_ex_readme`). It takes every character for one column wide; prettytable asks
  the library wcwidth, which says so for the characters 32..126, and C69 and C70 are about those. Whether termcolor writes escape
  sequences depends on the terminal and environment; `console` has both. All other properties are about the rows of tables
  (`EvTable`) and colour and text of the summary (`EvColored`), not their rendering.
* `open` without `encoding=` uses the locale's encoding. It is UTF-8 everywhere but in C84 (`PageProps.v`), which has code pages of
  single bytes that extend ASCII (`western`); encodings of several bytes other than UTF-8 are not modelled.
* Not modelled: writing to stdout failing in the middle of a print (C80 has every failure before or after a print; C74: which texts cannot be encoded in UTF-8); messages carried
  by exceptions (except where `field_065` prints one); lines and paths that are no
  str (flags of any type: C86); concurrent modification of directories; the unused class `CompanyRoute` in `AirportGate.py:66-99`.
* The Python builtins in `PyStr.v`/`PyNum.v`/`Json.v` are themselves models (CPython 3.11, Unicode 14). `int`, `float`, division,
  formatting and `repr` are proved against their documented meaning (C53, C55); `tools/reprcheck.py` compares the search in `repr_fl`
  with the interpreter's own `repr`. (Proving C55 uncovered an error in the first model of `repr`, at powers of two.)

## Plan per property

| | modelled as | proof idea |
|---|---|---|
| C01 | `read`, `parse` | case analysis; framing predicate stated by columns |
| C02 | `read` on `new_record` | spec table of supported (section, continuation, application) triples; case analysis over the 42 classes |
| C03 | `ident` after `read` | case analysis |
| C04 | `read` on `line ++ ws` | slices below column 132 do not see a suffix; checked for all layouts by computation |
| C05 | `read` | explicit line; positive part: field values are slices of the unstripped line |
| C06, C07 | `fields` after `read` | generic lemma on `build` + boolean check of all layouts |
| C08 | all functions | per-decoder minimum width, checked for all layouts; decoders raise no IndexError at that width |
| C09, C10, C12 | `read` | as C02 |
| C11 | `primary`, `hasCont` | case analysis |
| C13, C14 | `read` from arbitrary states | case analysis |
| C15, C45 | `fields` vs `ident`/`continuation` | layout check |
| C16–C24, C47 | `run_fn` | arithmetic on digit strings; error bound for binary64 division and formatting |
| C25–C27 | `run_fn` | table checks |
| C28–C30 | `json` | independent JSON reader in `SpecJson.v`; it reads back what the writer wrote |
| C31–C34, C43, C44, C46 | `decode`, `parse` | induction over fields |
| C35–C39 | `search`, `read_file`, `read_folder` | induction over lines |
| C40 | `LegTypes` | invariant on the dictionary |
| C41, C42 | layouts | column sets, checked by computation, generic lemma |
| C48 | `parse` | explicit line; ASCII lines by finite sweep |
| C49 | `repr_fl` after `run_fn` | decimals of ≤ 15 digits are told apart by binary64, so the shortest one found is n/10 |
| C50 | `run_fn` of two-column decoders | one code table per column |
| C51 | `run_fn` | every decoder is in exactly one of the described families |
| C52 | `run_fn` of the remaining decoders | case analysis on the trimmed value |
| C53 | `py_int`, `py_float`, `round_q`, `fl_div`, `fmt_fixed`, `fmt03` | a grammar (`SpecPyNum.v`) and nearest-double predicate (`SpecFloat.v`); the parser accepts a text iff the grammar does; neighbouring doubles are one unit apart |
| C54 | `run_fn` of the number decoders | C53 |
| C55 | `repr_fl` | decimals of k digits reading back lie outside the gap around the number, and reading back is convex, so looking at its two neighbours is enough; 10^16 > 2^53, so 17 digits are |
| C56, C57 | `decode_utf8`, `mount` | encoding relation by code point ranges (`SpecUtf8.v`); decoding is its inverse; the rest from C35–C38 |
| C58 | `repr_str`, `repr_list`, `found`, `holding_time` | a grammar of Python literals (`SpecLiteral.v`) in which a literal has one value; `repr` writes one |
| C59–C63 | `source` (the parsed text of `/repo/src/arinc424`), `PyEval.v` (an interpreter of its statements) | the interpreter is written with continuations, so that evaluating a function symbolically (`lazy`, builtins kept opaque) yields the tree of its branches; each is compared with the model's. C59 the decoders (code tables compared key by key), C60 the classes of `definitions/`, C61 `Record`, C62 the module functions (loops by induction on the lines), C63 what follows for the source: no line, file or filter makes it do anything the interpreter does not describe (no TypeError, NameError, AttributeError, KeyError), only the exceptions of the model |
| C64–C67 | `read` of every class | from the column theorems of C10/C41: every field read is a cell of the catalogue; the rest is a comparison of cells, listed exceptions (`SpecNames.v`) proved to be exactly that |
| C68 | `files` (the characters), `tokens`, `module_text` (grammar), `parse_python` | the parser is sound and, with enough fuel, complete for the grammar, so the grammar is unambiguous; the parser is run on the files; lexing is followed character by character |
| C69, C70 | `get_string`, `colored`, `console`, `parse`, `read_file`, `search` | a table as a relation between rows and lines (`SpecConsole.v`); `get_string` draws one; widths and rows can be read off its lines; every decoder maps visible text to visible text, and names of fields are visible and none starts like a rule |
| C71 | `tokens` (lexer), `tokens_of` (definition), `block`, `logical` | the stack of indentations and the nesting of blocks are compared by induction on the number of lines; soundness by induction on fuel, completeness by mutual induction on tokens, f-string parts and logical lines, with a bound for the fuel |
| C72 | `Record.read`, `Record.decode`, catalogue | key columns as a definition; outside them the section, continuation and layout are functions of equal columns; a field is overwritten column by column; `decode` row by row, each decoder depends on value and section only |
| C73 | `search`, `Record.read` | every cell of the catalogue is an interval of columns but for the section code of P/H sections (computed); so its value occurs in the line; C35 |
| C74 | all decoders, `parse`, `search`, `read_file`, `read_folder`, `console` | induction-free: for any set of characters with all of ASCII, each function maps texts over it to texts over it (a section with that set as parameter); instances: ASCII or in the line; scalar values |
| C75 | decoders with code lists, number fields | texts of a list pairwise different but for `same_text`, longer than the codes, not of the form for unknown values (computed); numbers: C17-C20, C49 and `is_decimal` determines the number |
| C76 | `Record.read`, `Record.decode`, `Record.json` | entries of the catalogue with the same set of names have the same cells if their section codes start alike (computed for all pairs); column 5 is shown by every layout; then C06, C41, C70 |
| C77 | `source`, `PyHeap.v`; callers as lists of actions (`HeapWorld.v`) | a simulation: for every address it is known whether it may be met through other objects (`X`) and whether a variable of the running function owns it (`C`); values of `PyEval.v` represent the heap below an address outside `X`; every expression and statement keeps this, by induction on the syntax and on the depth of calls; the text is checked (`prog_ok`) for what this needs: no argument is changed by a later argument, indices raise nothing, `with` opens a file |
| C78 | `search`, `read_file`, `console`, `open_text` | the lines of what is printed are the found records and one summary, which is no record line (it starts with F or an escape); a record found is trimmed, hence printed and found as it is |
| C79 | `Record.read`, catalogue | a line for each entry is computed and read; given values are put into a line column by column (first field that shows the column), then C72; for restrictions C12 and cells that no other entry has |
| C80 | `source`, `PyCrash.v`: the interpreter of C77 with `print` raising from the room-th on | by induction on the syntax and on the depth of calls, for any exception and any program whose try statements call only `int` and `format`, which is computed for the text (there is one, decoder.py:757-761): as long as there is room the runs are equal, afterwards the failing run has raised and shown the first `room` of the events; then C77 |
| C81 | the interpreter of C80 (`os.scandir` gives a list, so its iterator is not covered) | invariant: no variable and no object holds the function open; by induction on syntax and depth of calls no statement leaves a file open that was not open before, for every program that uses open only at the head of with statements, which is computed for the text |
| C82 | `source`, sessions of C77 | `history`: which object a name stands for and which lines it was given, read off the text of the session; invariant: each record is the one that results from its lines; then C77 for the session and for the program that only reads |
| C83 | `field_007`, `field_017`, `field_042`, `field_082`, `field_118`, `field_196` | from C24, C27, C50: the texts of the columns are pairwise different and on one line (computed), so the lines of a description can be sorted by column; the rest compares lists |
| C84 | `search`, `read_file`, `read_folder` (`open` without `encoding=`, code pages of single bytes) | a relation between a text in UTF-8 and what a code page makes of its bytes: ASCII stays, any other character becomes two to four, the first of which is neither a space nor a number; so a record grows past 132 columns, or has a wrong first character or sequence number. Pages (Latin-1, Windows-1252, ASCII) by computation over 256 bytes |
| C85 | `read_file`, `read_folder`, `search` (order of lines and of `os.scandir`) | a loop whose steps all succeed prints the concatenation of what the steps print, which a permutation permutes; the count of `search` is a sum |
| C86 | the source of `decode`, `json`, `parse`, `read_file` with any value for `output` and `single_line` | as C61 and C62, with the value left open until `output is True` or the truth of `single_line` is asked; then by cases |
| C87 | a file cut anywhere shows the first records of the whole file, if no line is longer than 132; a file put after one without a final newline | the lines of a prefix of the text are lines of the text and the beginning of one more (induction over `lines_of`); a line below 132 characters is refused (C01); the joined line has at least 264 |
| C88 | exactly which lines `parse` passes over without a trace; files and folders without them give the same | from the acceptance condition (C02), the condition for exceptions (C09) and that for messages (C33); then induction over the lines |
| C89 | the outcome of `read` for every line, white space at its beginning or not, in six cases of which exactly one result holds | from the expected outcome of a framed line by cases; a layout exists for first records and supported application types |
| C90 | `read` into a used object: same result, output and fields as into any other, for every line but airway restrictions; one object for all lines of a file | from the expected outcome; sections without a continuation column other than EU have one layout |
| C91 | the number that `search` gives with a filter that everything passes is the number of tables that `read_file` prints | line by line: with `output=True` a line prints one event more than with False exactly if it is a record (C32), and is counted by `search` exactly then (C35) |
| C92 | a record with characters lost or added is refused without a trace, unless white space is added before or after it | the length of the line without white space at its ends is not 132; for text added at the ends, from its part without white space at the ends |

## Findings

Each is proved (a `_refuted` theorem is a proved counterexample to the property a reader would expect).

Framing and identification
* A line with white space in front passes the length check, which strips it, but `identifier_1`/`identifier_2` and the
  field slices index the unstripped line (`record.py:123-124`, `line[4:6]`): every field is shifted. `C05_leading_whitespace_refuted`.
  `parse` never succeeds on such a line (`C05_parse_never_true`).
* `if (application_type not in ...) and not 'J'` (`record.py:151`) is always false, so unsupported application types
  are not refused there. What happens instead depends on the class: `read` returns False for most, but raises
  ValueError for ER, EV, HV, PP and EU. `C09_when_read_raises`.
* EU (airway restriction) has no `cont_idx`: every EU line is read with the continuation layout, primaries included. `C12_primary_restriction_layout_refuted`.
* A `Record` object used again keeps the previous continuation number when the new type has none (`C13_reuse_refuted`), and after a
  failed `read` its `raw` and `fields` come from different lines (`C14_raw_and_fields_agree_refuted`).
* The displayed section code, continuation number or application type is not always the one the record was read by. `C15_displayed_is_ident_refuted`, `C45_displayed_refuted`.
* `isnumeric` lets '½', '²', '一' ... through in the last nine columns; `field_032` then raises ValueError. `C48_cycle_date_refuted`.

Decoders
* An altitude of zero is shown as " ft" (`lstrip('0')`), a longest runway of zero as "00 ft". `C17_zero_altitude_refuted`, `C18_zero_and_other_values`.
* Time zones A–M and Z are shown with the wrong sign or offset. `C23_zones_east_refuted`.
* `field_026` accepts "NAN", "INF", "1E03" as courses. `C21_courses_are_numbers_refuted`.
* Likewise "nan" and "1_05" as distances, "T-5" as a time, "E-1" and "E 1 " as magnetic variations, "-1" as a year. `C54_*`, `C54_ex`.
* `field_034` calls `exit()` on a non-blank field it cannot convert: one bad frequency ends the interpreter. `C43_when_decode_exits`.
* `field_009` and `field_065` return None for a blank field; the table then shows "None". `C47_blank_and_other_values`.
* `field_042` for an NDB used as waypoint appends the raw remaining columns to the text. `C50_waypoint_type_N`.
* TCA and TMA are both shown as "Terminal Control Area", E and blank both as "Either"; all values a list does not have are shown as `<UNKNOWN>` in eight fields. `C75_always_refuted`, `C75_unknown_refuted`.
* `field_042` and `field_196` show the second column only when the first means nothing: an RNAV waypoint (W) is shown alike whether it is a final approach fix or a missed approach fix. Two texts of route types are shared by airways (R, S) and preferred routes (M, N). `C83_second_column_refuted`, `C83_route_kind_refuted`.
* Two records with the same names and values need not be of the same section: column 6 of a SID, STAR or approach is not shown. A line with `PD` in columns 5-6 and `F` in column 13 is displayed as an approach (`PF`), but its route type is looked up among those of a SID: `S` is "FMS SID Enroute Transition" and not "VOR Approach using VORDME/VORTAC". `C76_section_refuted`.
* The four layouts of primary airway restrictions are dead for new records: no line is read with them unless the record object has read a numbered primary record before. `C79_every_layout_refuted`, `C79_after_another`.
* `field_021`'s `defaultdict` stores one entry for every distinct unknown code it is asked. `C40_table_growth`.

Output
* The name "Cruise Level To " of `CruisingTables.py:23` ends in a space: invisible in the table, part of the key in JSON (`C64`-`C67` and C28 have it as it is; `clear_name` in `ConsoleFacts.v`).
* The heading line of the table in `README.md:41` is not what the package prints (two spaces too many, then two too few). `C69_ex_readme`.
* `output=False` does not silence 065, 118, 034 or the bad-continuation message. `C33_silence_refuted`, `C33_chatty_fields`.

JSON and columns
* Repeated field names lose data in JSON in six layouts: ET primary, EU primary, PR continuation A, R, RA, TG primary. `C29_lost_values_refuted`, `C29_repeated_names`.
* Fourteen layouts have overlapping columns. `C42_overlaps`, `C42_no_overlap_refuted`.
* Columns that no field shows, although the repository's own sample lines have data there (`C41_hidden_columns`, `C41_nothing_lost_refuted`): UR primary 82
  (first column of the lower limit: GND is shown as ND); D 30–32 (navaid class); D/DB continuation P 28; EM 88; ER 83; EU 20–51; EV 16–18, 71–93, 112–116;
  PD/PF continuation P 72–74, 96–98; PF 114; PG continuation S 65; PS 18, 35–42; UR continuation T 29.
* Fields of one name in one section are different columns in 29 cases (`C64_always_refuted`), among them the continuation of a TAA (HK, PK), where "Continuation Record No",
  "ICAO Code (2)" and "Section Code (2)" are other columns than in the primary, the "Route Identifier" of EU, and RNP of SID/STAR/approach.
* Fields of one name are decoded by different functions (`C65_always_refuted`, 11 names): in a company route the second "ICAO Code" is read as the path of a
  boundary, shown as 'Unsupported Value: "K1"' and complained about on the console (`C65_ex`), "Section Code (4)" as a latitude; in HV "Longitude" is decoded by the function for latitudes; SID/STAR
  "Recommended Navaid (2)" as a section code; D "Altitude Limitation" by 029; ER "Restr. Air Type" by 012; PM "Localizer Identifier" by 033.
* 31 fields have other widths than their kind has elsewhere (`C66_always_refuted`): "ICAO Code (4)" of SID/STAR/approach, "Section Code (6)" of PR and "Start Fix Section Code" of EU
  have one column, "UIR Identifier" of D, DB, PN three, "Continuation Record No" of PT three, "Lower Limit" of UR four.
* HK/PK continuations and company routes do not list their fields in the order of the columns. `C67_order`, `C67_ex`.
* Two different texts with lone surrogates can have the same JSON. `C28_surrogates_refuted`.

Files
* `search` with a tuple (or anything that is neither str nor list) does not filter at all. `C36_empty_filters`, `C35_reports`.
* The summary of `search` shows a text filter unquoted, a list by its `repr`: searching for the text `['SEA']` and for the list of `SEA` look the same. `C58_text_or_list_refuted`.
* One line on which `read` raises aborts `search` before the count is printed, and `read_file` likewise. `C35_search_stops_at_an_exception`, `C37_first_exception`.
* `read_folder` fails with OSError on a sub-directory. `C38_unreadable_entry`.
* A byte order mark makes the first record of a file disappear silently (U+FEFF is not white space, so the line has 133 characters). `C57_byte_order_mark_refuted`.
* `open` is called without `encoding=`: where the locale is not UTF-8 (Windows), a record with an accent written in UTF-8 is silently left out, and a line one character too short may be taken for a record with garbled text. `C84_refused`, `C84_file`, `C84_gained_refuted`.
* `os.scandir` gives the entries in any order. If one of them cannot be read (a folder within the folder), which records are shown before the exception depends on that order. `C85_folder`, `C85_shown_refuted`.
* `output is True` is asked, not `if output`: `parse(line, 1)` and `decode('yes')` print nothing, while `json(single_line=1)` is a single line. `C86_decode`, `C86_json`, `C86_truthy_refuted`.
* Files put together where the first has no newline at its end lose two records silently: the joined line has 264 characters. `C87_seam`, `C87_both_lost`, `C87_join_refuted`. A file cut short is not noticed either: the records before the cut are shown and the rest is left out without a message. `C87_cut`, `C87_longer_refuted`.
* A continuation record of an application type that its section does not have is left out without a message in most sections (the message is behind `and not 'J'`, which is never true), and raises ValueError in five. `C88_silent`, `C88_known_section_refuted`.
* A seasonal closure (EU, `SC`) raises ValueError when it is read into a new Record, and is read if the object held a first record before. `C90_read`, `C90_restrictions_refuted`.
* `search` ends with files that `read_file` does not get through, since it does not decode. `C91_converse_refuted`.
* White space added before a record can make it another record, read with its columns moved, rather than a refused line. `C92_blank_refuted`.
* One byte that is not UTF-8, such as an accent in Latin-1, makes the whole file unreadable, records before it included, and ends `read_folder`. `C57_undecodable_file`, `C56_lone_byte`, `C57_undecodable_in_folder`.
* Searching for the section code that the table shows for an airport or heliport record ("PA") does not find it: its two characters are columns 5 and 13. `C73_section_code_refuted`.
* A line given to `parse` with a lone surrogate is printed as it is, which no stream can encode; from files this cannot happen. `C74_lone_surrogate_refuted`, `C74_utf8`.
* Output of `search` can be searched again, but not for records from lines with leading white space: `search` finds them and prints lines that it does not find. `C78_leading_space_refuted`. A question of several lines is repeated in the summary, where it may be found as a record. `C78_question_refuted`.
* Five sample lines in `/repo/data` are silently refused by `read`: PV continuation ' ' (two), PL continuation ' ', UR continuations 'H' and ' '. `KnownAnswers.v`.

## Mutation testing

`tools/mutants.py` lists wrong programs (edits of one model definition each) and writes `seeded/mutants.json`;
`tools/mutate.py` applies each in a scratch copy outside `/verif`, recompiles the statements and re-checks every proof
that depends on the edited definition, and reports the theorems that fail. Results are in `seeded/LOG.jsonl`, one line per
attempt, including what was tightened when a wrong program went unnoticed. `tools/srcmutants.py` and `tools/srcmutate.py` do the
same with edits of the Python text: the trees and texts in `rocq/` are made again from an edited copy of `/repo/src`, and the proofs
about the source are checked against them.
