{"id": "C01", "title": "Only well-framed lines are accepted", "statement": "Record.read(line) and parse(line) return False, print nothing and leave the Record untouched unless line.strip() is exactly 132 characters, starts with S or T, and ends in nine numeric characters.", "quantifier": "every string, every prior Record state, every output flag", "why_tests_cant": "The rejected set is infinite and includes every Unicode string; a suite can only sample it.", "anchors": ["src/arinc424/record.py:Record.validate", "src/arinc424/record.py:Record.read", "src/arinc424/__init__.py:parse"]}
{"id": "C02", "title": "Exact acceptance condition", "statement": "On a fresh Record, for a line with no leading whitespace, read returns True exactly when the line is well framed, its section code (columns 5-6, or else 5 and 13) is one of the 42 supported codes, the character in that record type's continuation column (when it has one) is alphanumeric, and the continuation number / application type pair selects a layout the record type supports.", "quantifier": "every string without leading whitespace", "why_tests_cant": "An if-and-only-if over all 132-character lines; tests give single points on one side.", "anchors": ["src/arinc424/record.py:Record.read", "src/arinc424/definitions/*.py:read"]}
{"id": "C03", "title": "Record identification and precedence", "statement": "After a successful read, ident is one of the 42 supported section codes; it is columns 5-6 of the line if that is a supported code and otherwise columns 5 and 13. When neither is supported, read returns False.", "quantifier": "every line, every prior Record state", "why_tests_cant": "Depends on the interplay of two lookups over all character triples.", "anchors": ["src/arinc424/record.py:records", "src/arinc424/record.py:Record.read"]}
{"id": "C04", "title": "Trailing whitespace never matters", "statement": "For every line, appending any run of whitespace (newline, CRLF, blanks, Unicode spaces) changes nothing: same returned value or exception, same output, same Record contents.", "quantifier": "every line not starting with whitespace, every whitespace suffix, every prior Record state", "why_tests_cant": "Two infinite quantifiers; the code mixes the stripped and unstripped line, so this is not obvious.", "anchors": ["src/arinc424/record.py:Record.read", "src/arinc424/record.py:Record.validate"]}
{"id": "C05", "title": "Leading whitespace is harmless (refuted)", "statement": "Claim a user would expect, since validate and raw strip the line: adding leading whitespace changes nothing. It is false: identification and fields are taken from the unstripped line, so fields shift and parse can raise ValueError. What does hold: the result is that of cutting the columns out of the unstripped line.", "quantifier": "every valid line and whitespace prefix (refuted by an explicit line)", "why_tests_cant": "The passing suite has no such line; a proof finds the mismatch between raw and the columns read.", "anchors": ["src/arinc424/record.py:Record.read"]}
{"id": "C06", "title": "Field values are verbatim columns", "statement": "After a successful read of a line without leading whitespace, every field value is a non-empty run of adjacent characters of the stripped line at fixed columns (or, for Section Code, the two characters at columns 5 and 13); nothing is altered, trimmed or invented, and the same record type and layout always uses the same columns and names.", "quantifier": "every accepted line, every field of every layout", "why_tests_cant": "Quantifies over every field of about a hundred layouts and every line.", "anchors": ["src/arinc424/definitions/*.py", "src/arinc424/decoder.py:Field"]}
{"id": "C07", "title": "Standard first and last fields", "statement": "Every successful read yields at least 9 fields; the first is Record Type (column 1), the last two are File Record No (columns 124-128) and Cycle Date (columns 129-132).", "quantifier": "every accepted line, every record type and layout", "why_tests_cant": "A property of all layouts at once.", "anchors": ["src/arinc424/definitions/*.py"]}
{"id": "C08", "title": "No IndexError ever", "statement": "read, parse, decode, json, search and read_file never raise IndexError; the only exceptions that leave parse are ValueError and SystemExit, and the only one that leaves read is ValueError.", "quantifier": "every string (any Unicode, any whitespace), every output flag", "why_tests_cant": "Needs every subscript in every decoder and layout to be in range for every input.", "anchors": ["src/arinc424/record.py", "src/arinc424/decoder.py", "src/arinc424/definitions/*.py"]}
{"id": "C09", "title": "Exactly when read raises", "statement": "On a fresh Record, for lines without leading whitespace, read raises exactly when the line is well framed, its section is ER, EV, HV, PP or EU, it is not a primary record, its continuation number is alphanumeric (where there is one) and its application type is not supported for that section; it then raises ValueError. For all other sections read always returns normally.", "quantifier": "every line without leading whitespace", "why_tests_cant": "Exceptional inputs are a rare combination of columns.", "anchors": ["src/arinc424/definitions/EnrouteAirways.py", "src/arinc424/definitions/EnrouteCommunications.py", "src/arinc424/definitions/HeliportCommunications.py", "src/arinc424/definitions/PathPoint.py", "src/arinc424/definitions/EnrouteAirwaysRestriction.py", "src/arinc424/record.py:Record.read"]}
{"id": "C10", "title": "Continuation dispatch", "statement": "For section codes with a continuation column, a successful read uses the primary layout exactly when that column is 0 or 1, and otherwise a layout selected only by the section code and the application type column.", "quantifier": "every accepted line", "why_tests_cant": "The dispatch is spread over thirty classes.", "anchors": ["src/arinc424/definitions/*.py:read", "src/arinc424/record.py:Record.read"]}
{"id": "C11", "title": "primary() and hasCont()", "statement": "primary() and hasCont() are False on a new Record; hasCont() implies primary(); after a successful read of a type with a continuation column, primary() is True exactly for continuation number 0 or 1 and hasCont() exactly for 1.", "quantifier": "every Record state and every accepted line", "why_tests_cant": "Quantifies over all states reachable by any call history.", "anchors": ["src/arinc424/record.py:Record.primary", "src/arinc424/record.py:Record.hasCont"]}
{"id": "C12", "title": "Types without a continuation column", "statement": "Grid MORA, company route, alternate, cruising table and enroute airway restriction records are never reported as primary() by a fresh Record, even though the first four are always read with their only layout; for enroute airway restrictions (EU) a fresh Record can therefore only produce continuation layouts: the primary layouts are unreachable and restriction type SC always raises ValueError.", "quantifier": "every accepted line of section AS, R, RA, TC, EU", "why_tests_cant": "Tests only check that nothing raises on samples.", "anchors": ["src/arinc424/definitions/EnrouteAirwaysRestriction.py", "src/arinc424/record.py:Record.primary", "src/arinc424/record.py:Record.read"]}
{"id": "C13", "title": "Reusing a Record object", "statement": "For section codes with a continuation column, the Record state after a successful read, the result and the output depend only on the line, not on what the object read before. For the five types without one this is false for EU (refuted): a stale continuation number from an earlier record changes the fields produced.", "quantifier": "every pair of prior states and every line", "why_tests_cant": "History dependence needs quantification over all prior states.", "anchors": ["src/arinc424/record.py:Record.read"]}
{"id": "C14", "title": "What a failed read leaves behind", "statement": "When read returns False or raises, the fields shown by decode() and json() are the ones from before the call, or the empty list when the layout selection fails; raw, however, already is the new line whenever the line is well framed, so raw and fields can disagree.", "quantifier": "every line, every prior state", "why_tests_cant": "A frame condition over all states.", "anchors": ["src/arinc424/record.py:Record.read"]}
{"id": "C15", "title": "Displayed section code versus ident", "statement": "The Section Code field shown always starts with column 5 and is cut at columns fixed by the record type (5-6, or 5 and 13). Claim a user would expect: it is the code the record was identified by. False: ident is chosen by precedence and the field by the layout, so a record identified as PA by columns 5-6 can show PF, and one identified as D by columns 5 and 13 can show DX.", "quantifier": "every accepted line", "why_tests_cant": "Ambiguous lines are not in the sample data.", "anchors": ["src/arinc424/record.py:Record.read", "src/arinc424/definitions/*.py"]}
{"id": "C16", "title": "Cycle date decoding", "statement": "For a four-digit cycle date YYRR, the decoded value is the year 1951..2050 congruent to YY mod 100 followed by \", Release RR\"; distinct cycle dates decode differently; decoding raises ValueError exactly when the first two characters are not an integer for Python.", "quantifier": "every 4-character string", "why_tests_cant": "All digit and non-digit strings.", "anchors": ["src/arinc424/decoder.py:field_032"]}
{"id": "C17", "title": "Altitudes in feet keep their value", "statement": "For an altitude made of decimal digits that is not all zeros, the decoded text is the same number without leading zeros followed by \" ft\". For all-zero altitudes this is false (refuted): the text is just \" ft\" with no number. Non-numeric altitudes are shown unchanged.", "quantifier": "every digit string of every length and every other string, all fifteen altitude-style decoders", "why_tests_cant": "All digit strings; the zero case is absent from samples.", "anchors": ["src/arinc424/decoder.py:field_030", "src/arinc424/decoder.py:field_053", "src/arinc424/decoder.py:field_073"]}
{"id": "C18", "title": "Longest runway in feet", "statement": "The decoded longest runway is a hundred times the number in the column, followed by \" ft\", for every digit string that is not all zeros; all zeros is shown as \"00 ft\".", "quantifier": "every digit string", "why_tests_cant": "All digit strings.", "anchors": ["src/arinc424/decoder.py:field_054"]}
{"id": "C19", "title": "Frequencies are exact", "statement": "For a frequency of decimal digits the decoded text is exactly the number divided by 100 with two decimals: no floating-point error is visible at any magnitude that fits a record.", "quantifier": "every digit string of up to 15 digits (fields are 4 to 6 wide)", "why_tests_cant": "Rounding of binary floating point cannot be settled by examples.", "anchors": ["src/arinc424/decoder.py:field_034", "src/arinc424/decoder.py:field_045", "src/arinc424/decoder.py:field_103"]}
{"id": "C20", "title": "Courses, distances and times are exact tenths", "statement": "For a course, distance or time of decimal digits the decoded text is exactly the number divided by 10 with one decimal (with \" nm\" or \" min\" appended for distances and times).", "quantifier": "every digit string of up to 15 digits", "why_tests_cant": "Rounding of binary floating point cannot be settled by examples.", "anchors": ["src/arinc424/decoder.py:field_026", "src/arinc424/decoder.py:field_027"]}
{"id": "C21", "title": "Course decoding only yields numbers (refuted)", "statement": "Claim: an accepted magnetic course decodes to a number or a true course ending in T. False: \"NAN\" and \"INF\" decode to \"nan\" and \"inf\", \"1E03\" to \"100.0\", and \"XYZT\" is passed through. Every other failure is a ValueError.", "quantifier": "every string (refuted by explicit values)", "why_tests_cant": "The accepted language is that of float(), not of the standard.", "anchors": ["src/arinc424/decoder.py:field_026"]}
{"id": "C22", "title": "Magnetic variation", "statement": "A magnetic variation of a letter and four digits decodes to the number (at least three digits, zero padded) followed by the letter; the numeric value is preserved (tenths of a degree are not scaled) and distinct variations decode differently; blank fields are shown unchanged.", "quantifier": "every letter and digit string", "why_tests_cant": "All digit strings.", "anchors": ["src/arinc424/decoder.py:field_039"]}
{"id": "C23", "title": "Time zone", "statement": "For zone letters N to Y the decoded offset is the standard one. For A to M and Z it is not (refuted): A to L print a double minus sign, M prints +0 and Z prints +13. A letter outside A-Z with numeric minutes raises ValueError.", "quantifier": "every 3-character string", "why_tests_cant": "All letters and all Unicode alphabetic characters.", "anchors": ["src/arinc424/decoder.py:field_178"]}
{"id": "C24", "title": "Waypoint description code", "statement": "The description decodes to the texts of its four columns, each chosen only by its own column, one per line, in column order; unknown characters contribute nothing; the result never starts or ends with a blank line and never raises.", "quantifier": "every 4-character string", "why_tests_cant": "Combinations of four columns over all characters.", "anchors": ["src/arinc424/decoder.py:field_017"]}
{"id": "C25", "title": "Code tables are total", "statement": "Every table-style decoder shows a listed code as its meaning and treats every other value in one fixed way: it shows the value itself, <UNKNOWN>, or a message with the value, or (in a listed few) raises ValueError; the \"BAD VALUE\" texts of route type, communication type and similar decoders are never produced.", "quantifier": "every string, all table decoders", "why_tests_cant": "All strings; dead branches cannot be shown dead by tests.", "anchors": ["src/arinc424/decoder.py:field_003", "src/arinc424/decoder.py:field_004", "src/arinc424/decoder.py:field_007", "src/arinc424/decoder.py:field_101", "src/arinc424/decoder.py:field_104", "src/arinc424/decoder.py:field_106", "src/arinc424/decoder.py:field_181", "src/arinc424/decoder.py:field_198", "src/arinc424/decoder.py:field_199"]}
{"id": "C26", "title": "Section table covers all record types", "statement": "Every section code under which a record can be read has a decoded section name that is not <UNKNOWN>; the only named section without a record type is TN.", "quantifier": "every section code", "why_tests_cant": "Consistency of two tables in two modules.", "anchors": ["src/arinc424/decoder.py:field_004", "src/arinc424/record.py:records"]}
{"id": "C27", "title": "Route type depends only on the record kind", "statement": "The decoded route type depends on the value and on the section code of the record only; for procedures, airport and heliport sections give the same meaning; for sections that have no route types every value decodes to <UNKNOWN>.", "quantifier": "every value and every record", "why_tests_cant": "All values times all sections.", "anchors": ["src/arinc424/decoder.py:field_007"]}
{"id": "C28", "title": "JSON round trip", "statement": "json() returns text that a standard JSON parser reads back as exactly the mapping from field names to values, for all field contents without adjacent surrogate code points (in particular for all text read from a file).", "quantifier": "every Record state, every value including quotes, backslashes, control and non-BMP characters", "why_tests_cant": "All strings in all fields.", "anchors": ["src/arinc424/record.py:Record.json"]}
{"id": "C29", "title": "JSON is complete (refuted for six layouts)", "statement": "For layouts with distinct field names the JSON object has exactly one member per field, with that field's value. For the layouts that repeat a name, earlier values are silently overwritten (refuted by explicit lines): data in the line is missing from the JSON.", "quantifier": "every accepted line", "why_tests_cant": "Name collisions over all layouts.", "anchors": ["src/arinc424/record.py:Record.json", "src/arinc424/definitions/CompanyRoute.py", "src/arinc424/definitions/Alternate.py", "src/arinc424/definitions/FlightPlanning.py", "src/arinc424/definitions/GeoReferenceTable.py", "src/arinc424/definitions/PreferredRoute.py"]}
{"id": "C30", "title": "Pretty JSON is the same mapping", "statement": "json(single_line=False) denotes the same mapping as json(), with its keys in strictly increasing order.", "quantifier": "every Record state", "why_tests_cant": "All field contents and orders.", "anchors": ["src/arinc424/record.py:Record.json"]}
{"id": "C31", "title": "decode() has one row per field", "statement": "When decode() returns, the table has exactly one row per field, in field order, with the field name and the quoted verbatim value.", "quantifier": "every Record state", "why_tests_cant": "All states.", "anchors": ["src/arinc424/record.py:Record.decode"]}
{"id": "C32", "title": "The output flag only controls printing", "statement": "decode(True) and decode(False) return the same string or raise the same exception; the output differs exactly by the table printed at the end; likewise for json and for parse's result. Neither changes the Record.", "quantifier": "every Record state, every line", "why_tests_cant": "All states.", "anchors": ["src/arinc424/record.py:Record.decode", "src/arinc424/record.py:Record.json", "src/arinc424/__init__.py:parse"]}
{"id": "C33", "title": "output=False is silent (refuted)", "statement": "Claim: parse(line, output=False) prints nothing. False: unsupported continuation numbers, boundary codes, frequencies and holding times print diagnostics. Those are the only cases: a successful parse prints with output=False only if it has a holding time or boundary-via field with an unsupported value.", "quantifier": "every line (refuted by explicit lines)", "why_tests_cant": "Silence is a universal statement.", "anchors": ["src/arinc424/decoder.py:field_034", "src/arinc424/decoder.py:field_065", "src/arinc424/decoder.py:field_118", "src/arinc424/record.py:Record.read", "src/arinc424/__init__.py:parse"]}
{"id": "C34", "title": "parse result", "statement": "parse returns True exactly when read on a fresh Record returns True and every field decodes; it returns False exactly when that read returns False; otherwise it raises what read or the first failing field raises.", "quantifier": "every line, both output flags", "why_tests_cant": "Universal over lines.", "anchors": ["src/arinc424/__init__.py:parse"]}
{"id": "C35", "title": "search prints exactly the matching records", "statement": "search prints (besides continuation diagnostics) exactly the stripped text of each line that reads as a record and contains the filter (a string) or all filters (a list), in file order, and then reports their number.", "quantifier": "every file content, every filter", "why_tests_cant": "All files and filters.", "anchors": ["src/arinc424/__init__.py:search"]}
{"id": "C36", "title": "search filter laws", "statement": "A one-element list behaves like the string; the order and repetition of filters in a list do not matter; a longer list never finds more; the empty string, the empty list and a non-string non-list filter (e.g. a tuple) find every record.", "quantifier": "every file content, every filter list", "why_tests_cant": "Algebraic laws over all filters.", "anchors": ["src/arinc424/__init__.py:search"]}
{"id": "C37", "title": "read_file is line by line", "statement": "read_file parses the lines of the file in order, each independently of the others; reading a concatenation of two files whose first ends in a newline equals reading one then the other; the first line whose parse raises ends the whole run with that exception, and later lines are not read.", "quantifier": "every file content", "why_tests_cant": "Compositionality over all files.", "anchors": ["src/arinc424/__init__.py:read_file"]}
{"id": "C38", "title": "read_folder is file by file", "statement": "read_folder reads every directory entry in order, printing tables; an entry that cannot be opened (such as a subdirectory) ends it with OSError.", "quantifier": "every directory listing and file contents", "why_tests_cant": "All directory contents.", "anchors": ["src/arinc424/__init__.py:read_folder"]}
{"id": "C39", "title": "Newline conventions do not matter", "statement": "A file with LF, CRLF or CR line ends gives the same output and result for read_file and search; a missing final newline does not matter either.", "quantifier": "every list of lines without newline characters", "why_tests_cant": "All files.", "anchors": ["src/arinc424/__init__.py:read_file", "src/arinc424/__init__.py:search"]}
{"id": "C40", "title": "Leg type table is stable", "statement": "Although decoding an unknown path and terminator inserts it into a module-level table, no sequence of decodings changes the meaning of any later one.", "quantifier": "every finite history of decodings", "why_tests_cant": "History dependence over all call sequences.", "anchors": ["src/arinc424/decoder.py:LegTypeDesc", "src/arinc424/decoder.py:field_021"]}
{"id": "C41", "title": "Columns are not lost", "statement": "For each layout, the set of columns not shown in any field is a fixed set; for the layouts with distinct field names the line can be rebuilt from the JSON up to those columns: two lines with the same section, layout and JSON agree on all other columns.", "quantifier": "every pair of accepted lines", "why_tests_cant": "Injectivity over all pairs of lines.", "anchors": ["src/arinc424/definitions/*.py", "src/arinc424/record.py:Record.json"]}
{"id": "C42", "title": "Fields do not overlap (refuted for some layouts)", "statement": "In all layouts but an explicit list, no column of the line is shown in two fields. In the listed ones some column is.", "quantifier": "every layout and column", "why_tests_cant": "About a hundred layouts times 132 columns.", "anchors": ["src/arinc424/definitions/*.py"]}
{"id": "C43", "title": "exit() while decoding", "statement": "Decoding ends the interpreter (SystemExit) exactly when the first field that fails is a VOR/NDB frequency that is neither blank nor numeric; the message printed names the value, the section code and the raw record.", "quantifier": "every Record state", "why_tests_cant": "Universal; a library call that exits is not a case tests cover.", "anchors": ["src/arinc424/decoder.py:field_034", "src/arinc424/record.py:Record.decode"]}
{"id": "C44", "title": "When decoding raises", "statement": "Decoding a field raises only for the decoders 002, 008, 020-027, 032, 034, 039, 045, 062, 072, 082, 103, 108, 135, 178, 182, 269 and 270; for each of them the values that raise are characterised exactly, and the fields of a record always have the width its decoders need. The decoders 034, 045, 062, 103 and 135 never raise ValueError on ASCII text.", "quantifier": "every field value", "why_tests_cant": "Universal over values.", "anchors": ["src/arinc424/decoder.py"]}
{"id": "C45", "title": "Displayed continuation number versus the one used", "statement": "Where a layout has a field named Continuation Record No, it shows the character used to select the layout, except in GLS records and TAA continuation records, where other columns are shown (refuted).", "quantifier": "every accepted line", "why_tests_cant": "All layouts.", "anchors": ["src/arinc424/definitions/GLS.py", "src/arinc424/definitions/TAA.py", "src/arinc424/definitions/*.py"]}
{"id": "C46", "title": "Decoding depends on ident and raw only through fields", "statement": "Two Records with equal fields and section code decode to the same table; raw is only ever used in the message printed before exit().", "quantifier": "every pair of Record states", "why_tests_cant": "A non-interference property.", "anchors": ["src/arinc424/record.py:Record.decode", "src/arinc424/decoder.py"]}
{"id": "C47", "title": "Holding time", "statement": "A holding time of two digits MT decodes to M minutes and 6*T seconds, T tenths of a minute; blank gives None; everything else is reported and shown as invalid, never raised.", "quantifier": "every 2-character string", "why_tests_cant": "All strings.", "anchors": ["src/arinc424/decoder.py:field_065"]}
{"id": "C48", "title": "Numeric means decimal (refuted)", "statement": "Claim: a line accepted as ending in nine numeric characters has a decodable cycle date. False: superscripts, fractions and other Unicode numerals pass validation but make decode() raise ValueError. For ASCII lines the claim holds.", "quantifier": "every accepted line (refuted by an explicit line)", "why_tests_cant": "Unicode inputs outside the samples.", "anchors": ["src/arinc424/record.py:Record.validate", "src/arinc424/decoder.py:field_032"]}
{"id": "C49", "title": "Floats are exact tenths", "statement": "Distances, magnetic bearings and procedure courses that are decoded to a float object (062, 135, 269) are, for a field of decimal digits, displayed as exactly the number divided by ten with one decimal.", "quantifier": "every digit string that fits", "why_tests_cant": "Binary floating point; all digit strings.", "anchors": ["src/arinc424/decoder.py:field_062", "src/arinc424/decoder.py:field_135", "src/arinc424/decoder.py:field_269"]}
{"id": "C50", "title": "Two-column codes", "statement": "Waypoint type, name format, boundary via and airspace usage combine the meanings of their two columns in a fixed way, each column looked up independently; an unsupported boundary via is reported and shown, never raised; a waypoint type starting with N shows the remaining columns behind the text.", "quantifier": "every field value with at least two columns", "why_tests_cant": "All pairs of characters, including unlisted ones.", "anchors": ["src/arinc424/decoder.py:field_042", "src/arinc424/decoder.py:field_196", "src/arinc424/decoder.py:field_118", "src/arinc424/decoder.py:field_082"]}
{"id": "C51", "title": "Plain fields are shown as they stand", "statement": "Exactly 205 decoders show the field value unchanged, whatever it is; together with the altitudes, the code tables and 30 others (each with its own property) these are all decoders.", "quantifier": "every decoder, every value", "why_tests_cant": "Universal over decoders and values.", "anchors": ["src/arinc424/decoder.py"]}
{"id": "C52", "title": "Identifiers", "statement": "Route, approach, sequence, path terminator, turn direction, navaid, theta, rho, name and speed decoders accept exactly the values described (alphanumeric, alphabetic, numeric or blank, with a length limit), show them verbatim or trimmed, and raise ValueError on all others (009 returns None instead).", "quantifier": "every field value", "why_tests_cant": "All strings, including Unicode letters.", "anchors": ["src/arinc424/decoder.py:field_008", "src/arinc424/decoder.py:field_009", "src/arinc424/decoder.py:field_010", "src/arinc424/decoder.py:field_012", "src/arinc424/decoder.py:field_021", "src/arinc424/decoder.py:field_022", "src/arinc424/decoder.py:field_023", "src/arinc424/decoder.py:field_024", "src/arinc424/decoder.py:field_025", "src/arinc424/decoder.py:field_043", "src/arinc424/decoder.py:field_072", "src/arinc424/decoder.py:field_269"]}
{"id": "C53", "title": "Python numbers", "statement": "int(text) and float(text) accept exactly the texts of the grammar of the Python library reference (digits of any script, underscores between digits, surrounding whitespace, exponents, inf and nan) and give the integer, or the binary64 number nearest to the decimal (ties to even, overflow to infinity); division by ten or a hundred and the {:.1f}, {:.2f} and {:03d} formats are correctly rounded.", "quantifier": "every text, every binary64 number", "why_tests_cant": "All texts and all floats; rounding is decided by unbounded arithmetic.", "anchors": ["src/arinc424/decoder.py:field_026", "src/arinc424/decoder.py:field_027", "src/arinc424/decoder.py:field_034", "src/arinc424/decoder.py:field_039", "src/arinc424/decoder.py:field_032"]}
{"id": "C54", "title": "Number fields for any text", "statement": "Courses, distances, times, frequencies, magnetic variations and cycle dates show exactly the correctly rounded number their text stands for as a Python number, divided by the implied power of ten, also for texts nobody meant: exponents, signs, inf, nan, underscores and digits of other scripts.", "quantifier": "every field value that passes the check of the decoder", "why_tests_cant": "All texts, including Unicode and special floats.", "anchors": ["src/arinc424/decoder.py:field_026", "src/arinc424/decoder.py:field_027", "src/arinc424/decoder.py:field_034", "src/arinc424/decoder.py:field_045", "src/arinc424/decoder.py:field_103", "src/arinc424/decoder.py:field_062", "src/arinc424/decoder.py:field_135", "src/arinc424/decoder.py:field_269", "src/arinc424/decoder.py:field_039", "src/arinc424/decoder.py:field_032"]}
{"id": "C55", "title": "Floats are shown by their shortest decimal", "statement": "A float shown in a table is written as the shortest decimal that reads back as the same float, the nearest of these, ties to even, in one layout; so different floats are shown differently, and the text can be read back.", "quantifier": "every binary64 number", "why_tests_cant": "All 2^64 floats.", "anchors": ["src/arinc424/decoder.py:field_062", "src/arinc424/decoder.py:field_135", "src/arinc424/decoder.py:field_269", "src/arinc424/record.py:Record.decode"]}
{"id": "C56", "title": "UTF-8", "statement": "The strict UTF-8 decoder used for files accepts exactly the well-formed byte sequences and gives the encoded text: no overlong forms, surrogates or values above U+10FFFF; every text without surrogates has one encoding; ASCII bytes decode to themselves; a single byte above 127 between ASCII bytes (an accent in Latin-1) is an error.", "quantifier": "every list of bytes, every text", "why_tests_cant": "All byte sequences.", "anchors": ["src/arinc424/__init__.py:search", "src/arinc424/__init__.py:read_file"]}
{"id": "C57", "title": "Files of bytes", "statement": "A file is decoded as a whole before its first line is looked at: bytes that are no text anywhere in it make search and read_file raise ValueError and print nothing, and make read_folder stop there. Columns are characters, not bytes. A byte order mark makes the first record silently disappear. Every record read from a file gives valid, faithful JSON.", "quantifier": "every file system with files of bytes, every file content", "why_tests_cant": "All file contents in all encodings.", "anchors": ["src/arinc424/__init__.py:search", "src/arinc424/__init__.py:read_file", "src/arinc424/__init__.py:read_folder", "src/arinc424/record.py:Record.json"]}
{"id": "C58", "title": "Texts quoted in messages", "statement": "The summary of a search shows a list of filters as a Python list literal, and the message about a bad holding time shows the offending character as a Python string literal: evaluating the literal gives the texts back, whatever characters they contain, so two lists with the same summary are the same list. A text filter is shown unquoted, so the summary does not tell the text ['SEA'] from the list of the text SEA.", "quantifier": "every text, every list of texts", "why_tests_cant": "All texts: quotes, backslashes, control and unprintable characters of all of Unicode.", "anchors": ["src/arinc424/__init__.py:search", "src/arinc424/decoder.py:field_065"]}
{"id": "C59", "title": "The text of decoder.py", "statement": "Run by an interpreter of the statements of Python that the package uses, the source text of decoder.py does what the model says: each of the field functions, called with any text and any Record, prints, returns or raises exactly as modelled; there are no others; Field.decode calls the function the field was made with. Nothing in them can fail in another way (wrong types, unknown names, missing keys).", "quantifier": "every field function, every text, every Record object, every state of the module", "why_tests_cant": "All inputs of all functions, and the text of the program itself.", "anchors": ["src/arinc424/decoder.py:Field.decode", "src/arinc424/decoder.py:field_002", "src/arinc424/decoder.py:field_276"]}
{"id": "C60", "title": "The text of the classes in definitions/", "statement": "Run by the interpreter, read and application_type of every class in definitions/ give the modelled fields or exception for every line; the attributes that Record.read looks at are the modelled ones; importing the package leaves exactly the modelled dictionary of records.", "quantifier": "every class, every line, every value of the flag primary", "why_tests_cant": "All lines for all classes, and the text of the program itself.", "anchors": ["src/arinc424/definitions/Airport.py:Airport.read", "src/arinc424/definitions/SIDSTARApproach.py:SIDSTARApproach.read", "src/arinc424/record.py:records"]}
{"id": "C61", "title": "The text of class Record", "statement": "Run by the interpreter, Record(), read, validate, primary, hasCont, decode and json of the source do what the model says for every Record object, including objects left over from earlier and failed reads: the output, the value or exception, and the object afterwards. Every property proved of the model therefore holds of the text of the program as the interpreter reads it.", "quantifier": "every Record object, every line, every value of the optional arguments", "why_tests_cant": "All objects and lines, and the text of the program itself.", "anchors": ["src/arinc424/record.py:Record.read", "src/arinc424/record.py:Record.decode", "src/arinc424/record.py:Record.json", "src/arinc424/record.py:Record.validate", "src/arinc424/record.py:Record.primary"]}
{"id": "C62", "title": "The text of __init__.py", "statement": "A program that imports the package and calls parse, search, read_file or read_folder prints, returns or raises exactly what the model says, when the text of all modules is run by the interpreter: with and without the optional argument, for every file system, whatever bytes the files hold and however reading them fails.", "quantifier": "every line, every path, every filter, every file system", "why_tests_cant": "All files and filters, and the text of the program itself.", "anchors": ["src/arinc424/__init__.py:parse", "src/arinc424/__init__.py:search", "src/arinc424/__init__.py:read_file", "src/arinc424/__init__.py:read_folder"]}
{"id": "C63", "title": "Sessions", "statement": "Any sequence of calls (the functions of the package, new Record objects, and the methods of the last one), exceptions being caught, gets from the source text the replies and output of the model. It never ends in anything else, such as a TypeError, NameError, KeyError or AttributeError: the exceptions are ValueError, SystemExit and OSError. Replies of the functions of the package do not depend on the calls made before. No function of the text hides a global name and no module uses a name before it is defined.", "quantifier": "every finite sequence of calls with all arguments, every file system", "why_tests_cant": "All call sequences: state that calls leave behind (the LegTypeDesc table, the Record object) and its effect on later calls.", "anchors": ["src/arinc424/__init__.py:parse", "src/arinc424/__init__.py:search", "src/arinc424/record.py:Record.read", "src/arinc424/decoder.py:field_021"]}
{"id": "C64", "title": "Same name, same columns", "statement": "Fields of the same name in two records of one section, primary or continuation, of whatever application type, are the same columns of their lines, except for 29 listed names, each of which really is in two places.", "quantifier": "every pair of lines read, every pair of fields of one name, every state of the Record objects", "why_tests_cant": "All pairs of layouts of a section and all fields.", "anchors": ["src/arinc424/definitions/TAA.py:TAA.read", "src/arinc424/definitions/SIDSTARApproach.py:SIDSTARApproach.read", "src/arinc424/record.py:Record.read"]}
{"id": "C65", "title": "Same name, same decoder", "statement": "Fields of the same name, apart from a number such as (2), are decoded by the same function in records of all types, except for 11 listed names, for which the list gives all functions that are used.", "quantifier": "every pair of lines of any two sections, every pair of fields", "why_tests_cant": "All pairs of fields of all layouts.", "anchors": ["src/arinc424/definitions/CompanyRoute.py:CompanyRoute.read", "src/arinc424/decoder.py:field_118", "src/arinc424/decoder.py:field_036"]}
{"id": "C66", "title": "Widths of fields", "statement": "The value handed to a decoder has the number of columns that this kind of field has, except for 31 listed fields, each of which really differs.", "quantifier": "every line, every field", "why_tests_cant": "All fields of all layouts.", "anchors": ["src/arinc424/definitions/RestrictiveAirspace.py:RestrictiveAirspace.read", "src/arinc424/definitions/CompanyRoute.py:CompanyRoute.read"]}
{"id": "C67", "title": "Order of fields", "statement": "The fields of a record, and so the rows of the table and the members of the JSON object, come in the order of their first columns, except in continuations of TAA records and company routes, where they do not.", "quantifier": "every line read", "why_tests_cant": "All layouts.", "anchors": ["src/arinc424/definitions/CompanyRoute.py:CompanyRoute.read", "src/arinc424/definitions/TAA.py:TAA.read", "src/arinc424/record.py:Record.decode"]}
{"id": "C68", "title": "The characters of the source", "statement": "By the grammar of the part of Python in use, the characters of the files of the package stand for exactly the syntax trees the other properties are about, and for no others; the grammar is unambiguous; the tokens of a text spell it from the first character to the last, with nothing in between but spaces, line ends and comments.", "quantifier": "every text and every tree; the files of the package", "why_tests_cant": "Tests run the code; they do not tell what its text means, and cannot range over all texts.", "anchors": ["src/arinc424/__init__.py", "src/arinc424/record.py", "src/arinc424/decoder.py", "src/arinc424/definitions/"]}
{"id": "C69", "title": "Tables on the console", "statement": "parse prints a table whose lines are all of one length: a rule, the heading, a rule, then for each field in order its name, its value in quotes and what its decoder returned (several lines if it has line ends), a rule; every column is as wide as its widest cell; from the lines the cells can be read back but for spaces at their ends; decode returns exactly the text it prints, and with output=False returns the same.", "quantifier": "every line of visible ASCII characters that is read as a record and decoded; every table; for decode every Record object", "why_tests_cant": "Tests can compare a few tables; they cannot show that no value of any of 280 decoders breaks the layout.", "anchors": ["src/arinc424/record.py:Record.decode", "src/arinc424/__init__.py:parse", "src/arinc424/decoder.py"]}
{"id": "C70", "title": "What the console tells", "statement": "Two files that put the same text on the console show the same records: equally many tables with the same field names and values, in the same order; messages and tables never run together. search prints the lines found and ends with the number of records and the filters, in green or, for none, in red.", "quantifier": "every two files of visible ASCII lines read without an exception, every search, with and without colours", "why_tests_cant": "A statement about all pairs of files.", "anchors": ["src/arinc424/__init__.py:read_file", "src/arinc424/__init__.py:search", "src/arinc424/record.py:Record.decode"]}
{"id": "C71", "title": "Tokens of the source", "statement": "A text has at most one sequence of tokens by the rules of the Python Language Reference (every token as long as possible, brackets join lines, indentation opens and closes blocks), and the lexer finds it whenever there is one; every block that is opened is closed. So the files of the package stand for the syntax trees by these rules and the grammar alone.", "quantifier": "every text; the files of the package", "why_tests_cant": "A statement about all texts; running Python on some only shows its own answer for these.", "anchors": ["src/arinc424/__init__.py", "src/arinc424/record.py", "src/arinc424/decoder.py", "src/arinc424/definitions/"]}
{"id": "C72", "title": "Changing one field", "statement": "Other characters in columns that do not tell the kind of a record leave it a record of the same kind, with the same message output; any text of the right length can be written into a field whose columns are no key columns and are shown once, and then exactly that field has that value and all others are as before; the tables of the two lines differ in that row only.", "quantifier": "every line read as a record, every field of its layout, every text of the length of the field", "why_tests_cant": "All pairs of lines that differ in one field.", "anchors": ["src/arinc424/record.py:Record.read", "src/arinc424/record.py:Record.decode", "src/arinc424/decoder.py", "src/arinc424/definitions/"]}
{"id": "C73", "title": "What is shown can be searched for", "statement": "If every line of a file can be read, then searching for the value of any field of any of its records, or for a list of such values of one record, prints the line of that record; the one exception is the section code of airport and heliport records.", "quantifier": "every file, every record in it, every field and every list of fields", "why_tests_cant": "A statement about all records and all their fields.", "anchors": ["src/arinc424/__init__.py:search", "src/arinc424/record.py:Record.read", "src/arinc424/definitions/"]}
{"id": "C74", "title": "Characters of the output", "statement": "Apart from ASCII, parse, read_file, read_folder and search print only characters of the line, of the files and of the filters; what is printed for files can therefore always be written in UTF-8. A line or filter with a lone surrogate, passed by a program, is printed as it is.", "quantifier": "every line, file, folder and filter; all decoders; with and without colours", "why_tests_cant": "Needs all values of all decoders.", "anchors": ["src/arinc424/__init__.py:parse", "src/arinc424/__init__.py:read_file", "src/arinc424/__init__.py:read_folder", "src/arinc424/__init__.py:search", "src/arinc424/decoder.py"]}
{"id": "C75", "title": "What is shown tells the code", "statement": "Two values of the same width that a code field shows as the same text are equal, or are both missing from its list, or are TCA and TMA, or E and blank of a turn direction; two numbers of the same width that a number field shows alike are equal.", "quantifier": "every code field, every number field, all pairs of values and of records", "why_tests_cant": "All pairs of values.", "anchors": ["src/arinc424/decoder.py"]}
{"id": "C76", "title": "Lines that look alike", "statement": "Two records with the same field names and values have the same layout and the same characters in every column that is shown, whatever their section; the section is the same too, unless both are procedures of an airport or both of a heliport. The same holds for lines with the same console output or the same JSON.", "quantifier": "all pairs of record lines", "why_tests_cant": "All pairs of lines.", "anchors": ["src/arinc424/record.py", "src/arinc424/definitions/"]}
{"id": "C77", "title": "Objects with identity", "statement": "A caller may make any number of Record objects, give them several names, and call the functions of the package and the methods of any of them in any order: the text of the package, run with objects that have addresses and variables that hold references, never meets anything undescribed and does what the model says, where each object has its own state. What is done to an object through one name is seen through the others, and an object that the caller does not touch stays as it was, whatever is done with others, in spite of the instances and dictionaries that all share.", "quantifier": "every list of actions (new object, second name, function call, method call), all arguments, all disks", "why_tests_cant": "Tests use one object at a time; aliasing is about all interleavings.", "anchors": ["src/arinc424/record.py:Record", "src/arinc424/__init__.py", "src/arinc424/decoder.py", "src/arinc424/definitions/"]}
{"id": "C78", "title": "Searching in what search has printed", "statement": "If the console output of search is saved in a file, searching that file finds exactly the records of the first file that match both questions; the order of the questions does not matter and asking again adds nothing; read_file of the saved output prints what it prints for a file of the found records.", "quantifier": "all files whose lines do not start with white space, all pairs of filters on one line", "why_tests_cant": "All files and all pairs of questions.", "anchors": ["src/arinc424/__init__.py:search", "src/arinc424/__init__.py:read_file"]}
{"id": "C79", "title": "Every layout can be written, with any values", "statement": "Each layout of the catalogue is read from some line, by a new record (those of primary airway restrictions only by a record used before); whatever values are chosen for the fields of a record, as long as the fields, the same where fields share columns, and keeping the columns that tell the kind of record, there is a line from which exactly these are read, and only one given the columns that are not shown.", "quantifier": "all entries of the catalogue, all record lines, all lists of values", "why_tests_cant": "All values of all fields at once.", "anchors": ["src/arinc424/record.py", "src/arinc424/definitions/"]}
{"id": "C80", "title": "A console that fails", "statement": "If the console takes some number of prints and then fails, each print raising some exception (an OSError such as a broken pipe, a ValueError such as a text that cannot be encoded), then up to there everything is as if it had not failed, the call during which it fails raises that exception, and what has been shown is exactly the beginning of what would have been shown: no print is skipped, repeated or reordered, and the handler of the package, which is for ValueError and IndexError, never swallows the failure.", "quantifier": "all sessions as in C77, all disks, every number of prints after which the console fails, all exceptions", "why_tests_cant": "Every crash point of every session.", "anchors": ["src/arinc424/record.py:Record", "src/arinc424/__init__.py", "src/arinc424/decoder.py"]}
{"id": "C81", "title": "No file stays open", "statement": "After any sequence of calls no file that the package opened with open() is open any more: not after a normal return, not after an exception (a missing file, bytes that are no UTF-8, a record that cannot be read or decoded), and not when the console fails in the middle of a call, at any print and with any exception.", "quantifier": "all sessions as in C77, all disks, every number of prints after which the console fails, all exceptions raised then", "why_tests_cant": "Every way out of every call, at every crash point.", "anchors": ["src/arinc424/__init__.py:search", "src/arinc424/__init__.py:read_file", "src/arinc424/__init__.py:read_folder"]}
{"id": "C82", "title": "An answer depends on what the object has read", "statement": "What a method of a Record returns, raises and prints is a function of the lines given to read of that object (by whatever name) and of the arguments: it is the same as in a program that reads these lines into a new object and does nothing else, on a computer with other files. Asking (decode, json, primary, hasCont, validate) changes nothing, other objects and calls of the package do not interfere, and what parse, search, read_file and read_folder do does not depend on anything done before.", "quantifier": "all sessions as in C77, of any length and with any aliases, all disks", "why_tests_cant": "All interleavings of calls on all objects.", "anchors": ["src/arinc424/record.py:Record", "src/arinc424/__init__.py", "src/arinc424/decoder.py", "src/arinc424/definitions/"]}
{"id": "C83", "title": "What codes of several columns tell", "statement": "The text shown for a waypoint description tells each of its four columns, as far as the column is in its list; the text of a route type tells the code and the kind of route, except for two texts shared by airways and preferred routes, and <UNKNOWN>; the text of a boundary via tells the first column and whether the second is E; the text of an airspace usage tells the second column. For waypoint types and name formats the text tells the first column, and the second only when the first means nothing: that a decoded waypoint type tells its second column is refuted.", "quantifier": "all values of these fields, in all records", "why_tests_cant": "All pairs of values.", "anchors": ["src/arinc424/decoder.py:field_007", "src/arinc424/decoder.py:field_017", "src/arinc424/decoder.py:field_042", "src/arinc424/decoder.py:field_082", "src/arinc424/decoder.py:field_118", "src/arinc424/decoder.py:field_196"]}
{"id": "C84", "title": "Files where the locale is not UTF-8", "statement": "Files of ASCII are read alike in every code page that extends ASCII, and in UTF-8. A record with a character outside ASCII, written in UTF-8, is no record where open() decodes with a code page such as Latin-1 or Windows-1252: read returns False and prints nothing. A file whose other lines are ASCII is treated as if it contained only those. A byte without a character makes the file unreadable (ValueError) before anything is printed. That a code page never takes for a record what is none in UTF-8 is refuted.", "quantifier": "all code pages of single bytes that extend ASCII and have no space or number at the bytes 194..244; all files", "why_tests_cant": "All texts, all places of the character in the line, all code pages; the tests run in one locale.", "anchors": ["src/arinc424/__init__.py:search", "src/arinc424/__init__.py:read_file", "src/arinc424/__init__.py:read_folder", "src/arinc424/record.py:read"]}
{"id": "C85", "title": "The order of lines and of files", "statement": "With the lines of a file in another order read_file prints the same in another order, if it raises nothing, and raises something in either order otherwise; likewise read_folder with the entries of the folder in another order. search with the lines in another order prints the same records in another order and ends with the same summary. That what is shown before an exception does not depend on the order is refuted.", "quantifier": "all files and folders, all permutations of their lines or entries", "why_tests_cant": "All permutations; os.scandir has one order on the computer of the tests.", "anchors": ["src/arinc424/__init__.py:search", "src/arinc424/__init__.py:read_file", "src/arinc424/__init__.py:read_folder"]}
{"id": "C86", "title": "Flags that are neither True nor False", "statement": "With any value as output, decode, json, parse and read_file of the source do what the model does with True if the value is True and what it does with False otherwise; 1, a text and other values that count as true are not True. json chooses the form by the truth of single_line. That an output that counts as true prints is refuted.", "quantifier": "all values of the interpreter that cannot change (None, numbers, texts, lists, tuples, functions, other objects); all records, lines and files", "why_tests_cant": "All types and values of arguments; the tests pass True and False.", "anchors": ["src/arinc424/record.py:decode", "src/arinc424/record.py:json", "src/arinc424/__init__.py:parse", "src/arinc424/__init__.py:read_file"]}
{"id": "C87", "title": "Files cut short and files put together", "statement": "If a file of which no line has more than 132 characters (besides white space at the end) is cut anywhere, read_file shows a beginning of what it shows for the whole file, search likewise with a number that is not greater, and an exception in the cut file comes in the whole file with the same output. Refuted for longer lines. Where a second file follows a first that lacks its last newline, only the two lines at the seam become one; if both were records neither is shown, so that joined files show what both show is refuted.", "quantifier": "all texts, all places of the cut, all line ends, all filters, both values of output", "why_tests_cant": "All files and all places to cut them; the tests read one short file.", "anchors": ["src/arinc424/__init__.py:read_file", "src/arinc424/__init__.py:search", "src/arinc424/record.py:validate"]}
{"id": "C88", "title": "Lines that are passed over in silence", "statement": "parse prints nothing and returns False for exactly three kinds of lines: those that are not framed, those of no known section, and continuation records of an application type their section does not have, outside the five sections where that raises. Without such lines read_file and search give exactly the same for a file, exceptions included, and files of such lines do not matter in a folder. That a record of a known section always leaves a trace is refuted.", "quantifier": "all lines (without white space at the beginning for the first part), all files and folders, all filters", "why_tests_cant": "All lines of all 42 sections; the tests contain a few headers and blank lines.", "anchors": ["src/arinc424/__init__.py:parse", "src/arinc424/__init__.py:read_file", "src/arinc424/__init__.py:search", "src/arinc424/__init__.py:read_folder", "src/arinc424/record.py:read"]}
{"id": "C89", "title": "What becomes of any line", "statement": "For every line, read of a new Record has exactly one of these outcomes, and the line tells which: not framed, or of no known section: False without output; a continuation number that is no letter or digit: False with messages; a first record or a supported application type: True without output; otherwise ValueError in five sections and False without output in the others. Framing and continuation number are those of the trimmed line, section and application type those of the line as it stands.", "quantifier": "all lines, with or without white space at the beginning or the end", "why_tests_cant": "All lines; the tests have no line that begins with white space.", "anchors": ["src/arinc424/record.py:read", "src/arinc424/record.py:validate", "src/arinc424/__init__.py:parse"]}
{"id": "C90", "title": "One object for all lines", "statement": "For every line that is no airway restriction, and for every line if both objects held a continuation number 0 or 1 or both did not, read gives the same result, output, fields, section and raw text whatever the object held before. So a program that reads all lines of a file without airway restrictions into one Record gets the results of new ones, exceptions included. Refuted for airway restrictions: a seasonal closure is accepted or raises depending on what was read before.", "quantifier": "all objects, all lines (with white space at the beginning too), all lists of lines", "why_tests_cant": "All states of the object; the tests make a new Record for each line.", "anchors": ["src/arinc424/record.py:read", "src/arinc424/record.py:primary"]}
{"id": "C91", "title": "read_file and search count the same records", "statement": "If read_file with output=True ends without an exception, so does search with a filter that every text passes (the empty text, the empty list, anything that is neither), and the number it gives is the number of tables read_file prints, which is the number of lines that read accepts; each of these lines is among what search prints. That read_file ends whenever search does is refuted.", "quantifier": "all files, all line ends, all filters that every text passes", "why_tests_cant": "Two functions compared on all files; the tests call them separately.", "anchors": ["src/arinc424/__init__.py:read_file", "src/arinc424/__init__.py:search", "src/arinc424/__init__.py:parse"]}
{"id": "C92", "title": "Characters lost or added", "statement": "A record line from which any non-empty piece is taken out, at any place, is refused by parse without output. A record line into which any non-empty text is put is refused by parse without output, if the text is put inside the record, or is not only white space. That white space put before a record leaves it refused or read as before is refuted.", "quantifier": "all record lines, all places, all pieces and texts", "why_tests_cant": "All places and all texts; the tests have no damaged lines.", "anchors": ["src/arinc424/__init__.py:parse", "src/arinc424/record.py:validate"]}
