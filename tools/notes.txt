C05 The claim is false of the code: refuted by three explicit lines; two theorems say what does hold.
C12 The last theorem shows the library reading its own sample of a primary EU record as a continuation record.
C13 Holds for section codes with a continuation column; refuted for EU (fields) and for TC (primary()).
C14 The expectation that raw and fields belong to the same line is refuted.
C15 The expectation that the displayed code is the section read is refuted.
C45 Refuted for PT, TAA continuations and (application type) EP; proved for all others.
C21 The claim is false; the second theorem says exactly which values are accepted.
C17 All-zero altitudes are refuted: no number is shown.
C23 Refuted for the letters A to M and Z.
C28 Proved for text without adjacent lone surrogates (all text read from files); refuted otherwise.
C29 Proved for layouts with distinct names; refuted by explicit lines for the six that repeat one.
C33 Refuted; four further theorems say exactly what is printed.
C41 The columns in no field are listed per layout; the expectation that no data is lost is refuted by a sample of the library itself.
C42 The 14 overlapping layouts are listed.
C48 Refuted for Unicode numerals, proved for ASCII lines.
C36 Includes the surprise that a tuple of strings filters nothing.
C55 Proved of repr for all floats; the decoders' floats are among them.
C57 For a UTF-8 locale; the byte order mark is a refuted expectation.
C58 Literals with the escapes of SpecLiteral.v; text-or-list ambiguity is a refuted expectation.
C59 The interpreter (PyEval.v) and the parsed text (SrcDecoder.v) are the trusted parts here, instead of the hand translation in Decoder.v.
C60 As C59.
C61 As C59; `output` and `single_line` are truth values.
C62 As C59; the names in a folder are taken when the loop starts.
C63 As C59; the caller catches every exception, also SystemExit, and goes on.
C64 The 29 exceptions (SpecNames.v) are exactly the names that move.
C65 Names are compared without a number in parentheses at their end; the 11 exceptions are exactly the names with more than one decoder.
C66 Decoders used at least three times; exceptions as listed in odd_widths.
C67 Exceptions: HK and PK continuation, R.
C68 Texts in ASCII; the grammar covers the constructs the package uses (PyGrammar.v). What the tokens of a text are is C71.
C69 For lines of the characters 32..126. prettytable's layout is modelled in Console.v (not code of /repo).
C70 For lines of the characters 32..126, with and without termcolor's escape sequences.
C71 Tokens of the part of Python in use: no tabs, no backslash at line ends, decimal integers only, no string prefix but f; texts with anything else have no tokens by the definition and are refused by the lexer.
C72 Columns of one field only; key columns (section, continuation number, application type, frame) and columns shown by two fields are excluded, C72_ex shows why.
C73 For files in which read raises on no line. Refuted for the section code of airport and heliport records.
C74 UTF-8 output. Refuted for lone surrogates passed by the caller.
C75 The fields of code_fields (C25) and number_fns; for numbers, values of digits only. Refuted for TCA/TMA, E/blank and for unknown codes.
C76 Record lines as in C06. For JSON, layouts without repeated names (C41). That the section is the same is refuted for procedures.
C77 Variables hold references to objects on a heap (PyHeap.v); arguments are texts, booleans and filters as in C62.
C78 Files without leading white space on lines, questions on one line (asked_on_one_line). Refuted without these.
C79 Values as long as their fields that agree on shared columns and keep the columns that tell the kind of record. Refuted for layouts of primary airway restrictions with new records.
C80 A print that fails shows nothing of its text.
C81 Files opened with open(); os.scandir gives a list of names in the interpreter, so its iterator is not covered.
C82 By C77 about the text of the package. Disks do not change during a session.
C83 Refuted for the second column of a waypoint type whose first column is in its list, and for two texts of route types.
C84 Code pages of single bytes that extend ASCII (Latin-1, Windows-1252, ASCII); refuted that they take fewer lines for records than UTF-8.
C85 Refuted for what is shown before an exception.
C86 By the text of the package (PyEval); values that can change (objects with attributes, dictionaries) are left out.
C87 For lines of at most 132 characters besides white space at the end; refuted without that, and for joined files without a newline between them.
C88 C88_silent for lines without white space at the beginning (C05). Refuted that a record of a known section always leaves a trace.
C89 For a new Record; C02, C09 and C88_silent without their condition on the beginning of the line.
C90 Refuted for airway restrictions (section EU) when one object held the continuation number 0 or 1 and the other did not.
C91 If read_file ends without an exception; refuted that it does whenever search does. Tables are counted as what output=True prints more than output=False.
C92 White space after a record changes nothing (C04); refuted for white space before it (C05). A loss made up for by an addition elsewhere is not noticed (C92_ex).
