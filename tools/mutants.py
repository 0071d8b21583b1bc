"""Writes seeded/mutants.json: the wrong programs tried by mutate.py."""
import json, os
L = []
def m(name, file, definition, claim, *edit):
    L.append(dict(name=name, file=file + '.v', definition=definition, claim=claim, edit=[list(e) for e in edit]))

R = 'Record'
m('len', R, 'validate', 'C01: only 132-character lines are accepted', ('Nat.eqb (List.length line) 132', 'Nat.leb 132 (List.length line)'))
m('tail8', R, 'validate', 'C01: the last nine characters are numeric', ('slice_last 9 line', 'slice_last 8 line'))
m('onlyS', R, 'validate', 'C02: tailored records are read too', (' || startswith line (lit "T")', ''))
m('nostrip', R, 'validate', 'C04: trailing whitespace does not matter', ('let line := strip line in\n  if negb (startswith', 'if negb (startswith'))
m('rawline', R, 'read', 'C01: raw is the stripped line', ('set_raw (strip line) r', 'set_raw line r'))
m('rawfirst', R, 'read', 'C01: a refused line leaves the Record untouched', ('if negb (validate line) then ([], r, Ok false) else', 'if negb (validate line) then ([], set_raw line r, Ok false) else'))
m('precedence', R, 'read', 'C03: columns 5-6 take precedence over columns 5 and 13', ('match record_class identifier_1 with', 'match record_class identifier_2 with'), ('match record_class identifier_2 with\n          | Some d => read_definition d line (set_definition (Some d) (set_ident identifier_2 r))', 'match record_class identifier_1 with\n          | Some d => read_definition d line (set_definition (Some d) (set_ident identifier_1 r))'), ('(set_ident identifier_1 r))\n      | None', '(set_ident identifier_2 r))\n      | None'))
m('col14', R, 'read', 'C03: the alternative section code is columns 5 and 13', ('(index line 12)', '(index line 13)'))
m('ident2', R, 'read', 'C03: ident is the code found', ('(set_ident identifier_2 r)', '(set_ident identifier_1 r)'))
m('contdigit', R, 'read_definition', 'C02: continuation numbers may be letters', ('negb (isalnum (continuation r))', 'negb (isnumeric (continuation r))'))
m('contsilent', R, 'bad_continuation', 'C33: an unsupported continuation number is reported', ('then (bad_continuation d r, r, Ok false)', 'then ([], r, Ok false)'))
m('emptyok', R, 'read_fields', 'C02: a record without a layout is not accepted', ('| [] => ([], r, Ok false)', '| [] => ([], r, Ok true)'))
m('keepfields', R, 'read_fields', 'C14: a failed layout selection leaves no fields', ('| [] => ([], r, Ok false)', '| [] => ([], set_fields [Field (lit "x") (lit "x") F071] r, Ok false)'))
m('primary0', R, 'primary', 'C11: continuation numbers 0 and 1 are primary', (' || str_eqb (continuation r) (lit "1")', ''))
m('primary2', R, 'primary', 'C11: only continuation numbers 0 and 1 are primary', ('(continuation r) (lit "1")\n', '(continuation r) (lit "2")\n'))
m('hascont', R, 'hasCont', 'C11: hasCont is for continuation number 1', ('else str_eqb (continuation r) (lit "1").', 'else str_eqb (continuation r) (lit "0").'))
m('appcheck', R, 'truthy_J', 'C09: the application type check is dead', ('truthy_J : bool := true', 'truthy_J : bool := false'))
m('stale', R, 'read_definition', 'C13: the continuation number comes from the line read', ('let r := set_continuation c r in', 'let r := match continuation r with [] => set_continuation c r | _ => r end in'))
m('contline', R, 'read_definition', 'C05: the continuation number is taken from the stripped line', ('match index (raw r) ci with', 'match index line ci with'))
m('definition', R, 'primary', 'C11: primary() is False before any read', ('| None => false\n  | Some _ => str_eqb', '| None => true\n  | Some _ => str_eqb'))
m('rowsrev', R, 'decode_rows', 'C31: rows are in field order', ('ret ((f_name f, lit "\'" ++ f_value f ++ lit "\'", x) :: rows)', 'ret (rows ++ [(f_name f, lit "\'" ++ f_value f ++ lit "\'", x)])'))
m('noquote', R, 'decode_rows', 'C31: values are quoted', ('lit "\'" ++ f_value f ++ lit "\'", x) ::', 'f_value f, x) ::'))
m('printflag', R, 'decode', 'C32: output=True prints the table', ('(if output then emit (EvTable rows) else ret tt)', '(if output then ret tt else emit (EvTable rows))'))
m('jsonprint', R, 'json', 'C32: json(output=False) prints nothing', ('(if output then say data else ret tt)', 'say data'))
m('firstwins', R, 'dict_update', 'C29: a repeated name keeps the last value', ('then (k\', v) :: d\'', 'then (k\', v\') :: d\''))
m('jsonfields', R, 'json_dict', 'C29: every field is a member', ('(fun d f => dict_update (f_name f) (f_value f) d) fs []', '(fun d f => dict_update (f_name f) (f_value f) d) (List.tl fs) []'))
m('singleline', R, 'json', 'C30: single_line=False gives sorted keys', ('if single_line then dumps d else dumps_pretty d', 'if single_line then dumps d else dumps d'))

J = 'Json'
m('quote', J, 'esc_char', 'C28: quotes are escaped', ('if c =? 34 then [92; 34]', 'if c =? 34 then [34]'))
m('backslash', J, 'esc_char', 'C28: backslashes are escaped', ('else if c =? 92 then [92; 92]\n', ''))
m('newline', J, 'esc_char', 'C28: newlines are escaped', ('[92; 110]', '[10]'))
m('astral', J, 'esc_char', 'C28: astral characters are surrogate pairs', ('let n := c - 65536 in', 'let n := c in'))
m('hex', J, 'hex_digit', 'C28: hexadecimal digits', ('else 87 + d', 'else 86 + d'))
m('comma', J, 'dumps', 'C28: members are separated by commas', ('lit "{" ++ join (lit ", ")', 'lit "{" ++ join (lit " ")'))
m('nosort', J, 'insert_kv', 'C30: keys are increasing', ('if str_ltb (fst kv\') (fst kv) then', 'if str_ltb (fst kv) (fst kv\') then'))
m('prettykey', J, 'dumps_pretty', 'C30: same mapping', ('(map member s)', '(map member (List.tl s))'))

A = 'Api'
m('parsetrue', A, 'parse', 'C34: parse returns what read returns', ('| (o, _, Ok false) => (o, Ok false)', '| (o, _, Ok false) => (o, Ok true)'))
m('parsenodecode', A, 'parse', 'C34: parse decodes every field', ("match d with Ok _ => Ok true | Err e => Err e end", "Ok true"))
m('parseoutput', A, 'parse', 'C32: parse passes output on', ('decode r output in', 'decode r true in'))
m('anyfilter', A, 'passes', 'C35: all filters of a list must match', ('forallb (contains raw) l', 'existsb (contains raw) l'))
m('tuple', A, 'passes', 'C36: a tuple filters nothing', ('| FOther _ => true', '| FOther _ => false'))
m('count', A, 'search_lines', 'C35: the number found is reported', ('search_lines fl (count + 1) ls\'', 'search_lines fl count ls\''))
m('searchline', A, 'search_lines', 'C35: the stripped text is printed', ('else say (raw r) ;;;', 'else say line ;;;'))
m('searchskip', A, 'search_lines', 'C35: an exception ends the search', ('| (o, _, Err e) => (o, Err e)\n      | (o, r, Ok b) =>\n          (o', '| (o, _, Err e) => search_lines fl count ls\'\n      | (o, r, Ok b) =>\n          (o'))
m('searchquiet', A, 'search_lines', 'C35: diagnostics of reading are printed', ('(o, Ok tt) ;;;\n          if negb b', '(@nil event, Ok tt) ;;;\n          if negb b'))
m('searchall', A, 'search_lines', 'C35: only records are found', ('if negb b then search_lines fl count ls\'\n          else if', 'if'))
m('fileoutput', A, 'read_file', 'C37: output is passed to parse', ('parse line output ;;; ret tt) (readlines t)', 'parse line true ;;; ret tt) (readlines t)'))
m('filefirst', A, 'read_file', 'C37: every line is parsed', ('ret tt) (readlines t).', 'ret tt) (List.tl (readlines t)).'))
m('fileswallow', A, 'for_each', 'C37: the first exception ends the run', ('| x :: l\' => body x ;;; for_each body l\'', '| x :: l\' => (fst (body x), Ok tt) ;;; for_each body l\''))
m('order', A, 'for_each', 'C37: lines are read in order', ('| x :: l\' => body x ;;; for_each body l\'', '| x :: l\' => for_each body l\' ;;; body x'))
m('lastline', A, 'lines_keep', 'C39: a missing final newline does not matter', ('| [] => [[c]]', '| [] => []'))
m('cr', A, 'universal_newlines', 'C39: CR ends a line', ('if (c =? 13)%N then\n        match', 'if (c =? 14)%N then\n        match'))
m('crlf', A, 'universal_newlines', 'C39: CRLF is one line end (blank lines are harmless, so only the lines change)', ('then 10%N :: universal_newlines t\'\' else', 'then 10%N :: 10%N :: universal_newlines t\'\' else'))
m('join', A, 'path_join', 'C38: files of the folder are read', ('path ++ lit "/" ++ name', 'path ++ name'))
m('folderoutput', A, 'read_folder', 'C38: tables are printed', ('(path_join path name) true) names', '(path_join path name) false) names'))
m('folderlast', A, 'read_folder', 'C38: every entry is read', ('true) names.', 'true) (List.tl names).'))
m('folderorder', A, 'read_folder', 'C38: entries are read in order', ('true) names.', 'true) (rev names).'))

T = 'LegTypes'
m('ddvalue', T, 'dd_get', 'C40: what is stored is the default', ('d ++ [(k, def_val)]', 'd ++ [(k, k)]'))
m('ddfront', T, 'dd_get', 'C40: keys stay unique', ('| Some v => (v, d)', '| Some v => (v, d ++ [(k, v)])'))
m('ddnoinsert', T, 'dd_get', 'C40: a missing key is inserted', ('(def_val, d ++ [(k, def_val)])', '(def_val, d)'))

D = 'Decoder'
m('d002', D, 'field_002', 'C25: S is Standard, T Tailored', ('(lit "S") then ret (DStr (lit "Standard"))', '(lit "S") then ret (DStr (lit "Tailored"))'))
m('d004', D, 'field_004', 'C25: a blank section is shown unchanged', ('if blank value then ret (DStr value) else ret (DStr (lookup tbl_004 value))', 'ret (DStr (lookup tbl_004 value))'))
m('d007', D, 'field_007', 'C27: heliport SIDs have the airport route types', (' || str_eqb id (lit "HD")', ''))
m('d007b', D, 'field_007', 'C27: approach route types', ('(lit "HF") then tbl_007_APP', '(lit "HF") then tbl_007_STAR'))
m('d008', D, 'field_008', 'C52: route identifiers may have digits', ('Definition field_008 (value : str) (record : recview) : M dval :=\n  if isalnum', 'Definition field_008 (value : str) (record : recview) : M dval :=\n  if isalpha'))
m('d009', D, 'field_009', 'C52: 009 returns None', ('else ret DNone.', 'else ret (DStr []).'))
m('d010', D, 'field_010', 'C52: runway is columns 2-4', ('slice 1 4 value', 'slice 1 3 value'))
m('d012', D, 'field_012', 'C52: sequence numbers by width', ('| 2 => lit "VHF Navaid', '| 5 => lit "VHF Navaid'))
m('d016', D, 'field_016', 'C25: other continuation numbers', ('value ++ lit " - Continuation"', 'lit " - Continuation"'))
m('d017', D, 'field_017', 'C24: texts in column order', ('desc_part tbl_017_2 c2 ++ desc_part tbl_017_3 c3', 'desc_part tbl_017_3 c3 ++ desc_part tbl_017_2 c2'))
m('d017b', D, 'field_017', 'C24: no blank line at the end', ('ret (DStr (strip (desc_part tbl_017_0 c0', 'ret (DStr ((desc_part tbl_017_0 c0'))
m('d017c', D, 'field_017', 'C24: each column has its own texts', ('c2 <- lift (index value 2)', 'c2 <- lift (index value 1)'))
m('d020', D, 'field_020', 'C25: blank turn direction is Either', (' || str_eqb value (lit " ") then ret (DStr (lit "Either"))', ' then ret (DStr (lit "Either"))'))
m('d021', D, 'field_021', 'C52: 021 is looked up trimmed', ('ret (DStr (lookup tbl_LegTypeDesc value)).', 'ret (DStr (lookup tbl_LegTypeDesc (lit " " ++ value))).'))
m('d021b', D, 'field_021', 'C52/C40: non-alphabetic path terminators raise', ('else if negb (isalpha value) then raise ValueError\n  else ret (DStr (lookup tbl_Leg', 'else if negb (isalnum value) then raise ValueError\n  else ret (DStr (lookup tbl_Leg'))
m('d022', D, 'field_022', 'C52: blank turn direction valid does not raise', ('if Nat.ltb 0 (List.length value) && negb (isalpha value) then raise', 'if negb (isalpha value) then raise'))
m('d023', D, 'alnum4', 'C52: at most four characters', ('|| Nat.ltb 4 (List.length value))\n  then', '|| Nat.ltb 5 (List.length value))\n  then'))
m('d026', D, 'field_026', 'C20: courses are tenths', ('fmt_fixed 1 (fl_div x 10))).\n\n(* decoder.py:447', 'fmt_fixed 1 (fl_div x 100))).\n\n(* decoder.py:447'))
m('d026b', D, 'field_026', 'C21: true courses end in T', ('endswith value (lit "T")', 'startswith value (lit "T")'))
m('d026c', D, 'field_026', 'C21: at most four characters', ('negb (isalnum value) || Nat.ltb 4 (List.length value) then raise', 'negb (isalnum value) || Nat.ltb 3 (List.length value) then raise'))
m('d027', D, 'field_027', 'C20: times are minutes', ('++ lit " min"', '++ lit " nm"'))
m('d027b', D, 'field_027', 'C20: the T is not part of the number', ('float_of (slice_from 1 value)', 'float_of value'))
m('d032', D, 'field_032', 'C16: 50 is 2050', ('Z.ltb 50 n', 'Z.leb 50 n'))
m('d032b', D, 'field_032', 'C16: release is the last two digits', ('", Release " ++ slice_from 2 value', '", Release " ++ slice_from 3 value'))
m('d034', D, 'field_034', 'C19: frequencies are hundredths', ('x <- float_of value ;; ret (DStr (fmt_fixed 2 (fl_div x 100)))\n  else ret (DStr value).', 'x <- float_of value ;; ret (DStr (fmt_fixed 1 (fl_div x 100)))\n  else ret (DStr value).'))
m('d034b', D, 'field_034', 'C43: decoding exits on a bad frequency', ('raise SystemExit', 'raise ValueError'))
m('d034c', D, 'field_034', 'C43: the message names the raw record', ('quoted (rv_raw record)', 'quoted value'))
m('d034d', D, 'field_034', 'C43: blank frequencies are shown unchanged', ('if Nat.ltb 0 (List.length value) then\n    if negb (isnumeric', 'if Nat.leb 0 (List.length value) then\n    if negb (isnumeric'))
m('d039', D, 'field_039', 'C22: the letter follows the number', ('c <- lift (index value 0) ;;\n    ret (DStr (fmt03', 'c <- lift (index value 1) ;;\n    ret (DStr (fmt03'))
m('d039b', D, 'field_039', 'C22: blank variations are shown unchanged', ('if blank value then ret (DStr value)\n  else\n    n <- int_of', 'if str_eqb value [] then ret (DStr value)\n  else\n    n <- int_of'))
m('d042', D, 'field_042', 'C50: N shows the remaining columns', ('lit "NDB Navaid as Waypoint" ++ slice_from 1 value', 'lit "NDB Navaid as Waypoint"'))
m('d042b', D, 'field_042', 'C50: the second column has its own codes', ('match assoc c1 tbl_042_1 with', 'match assoc c1 tbl_042_0 with'))
m('d043', D, 'field_043', 'C52: names are trimmed', ('ret (DStr (strip value)).', 'ret (DStr value).'))
m('d045', D, 'field_045', 'C19: 045 is hundredths', ('Definition field_045 (value : str) (record : recview) : M dval :=\n  if isnumeric value then x <- float_of value ;; ret (DStr (fmt_fixed 2 (fl_div x 100)))', 'Definition field_045 (value : str) (record : recview) : M dval :=\n  if isnumeric value then x <- float_of value ;; ret (DStr (fmt_fixed 2 (fl_div x 1000)))'))
m('d054', D, 'field_054', 'C18: hundreds of feet', ('lstrip0 value ++ lit "00" ++', 'lstrip0 value ++ lit "0" ++'))
m('d054b', D, 'field_054', 'C18: zeros are shown as 00', ('lstrip0 value ++ lit "00" ++', 'value ++ lit "00" ++'))
m('d062', D, 'field_062', 'C49: 062 is tenths', ('Definition field_062 (value : str) (record : recview) : M dval :=\n  if isnumeric value then x <- float_of value ;; ret (DFloat (fl_div x 10))', 'Definition field_062 (value : str) (record : recview) : M dval :=\n  if isnumeric value then x <- float_of value ;; ret (DFloat (fl_div x 100))'))
m('d065', D, 'field_065', 'C47: tenths of minutes are six seconds', ('(n1 * 6)', '(n1 * 10)'))
m('d065b', D, 'field_065', 'C47: invalid holding times are not raised', ('| (_, Err ValueError) | (_, Err IndexError) =>', '| (_, Err IndexError) =>'))
m('d065c', D, 'field_065', 'C47: blank gives None', ('if blank value then ret DNone', 'if blank value then ret (DStr [])'))
m('d072', D, 'field_072', 'C52: a blank speed limit is shown', ('else if blank value then ret (DStr value)\n  else raise ValueError.', 'else raise ValueError.'))
m('d082', D, 'field_082', 'C50: usage by the second column first', ('else if str_eqb c1 (lit "H") then ret (DStr (lit "HI Altitude"))', 'else if str_eqb c1 (lit "L") then ret (DStr (lit "HI Altitude"))'))
m('d091', D, 'field_091', 'C25: unknown application types', ('lit "Unknown Application Type: " ++ value', 'lit "Unknown Application Type: "'))
m('d101', D, 'lookup_bad', 'C25: BAD VALUE is never shown', ('if negb (str_eqb (lookup d value) (lit "bad value"))', 'if negb (str_eqb (lookup d value) def_val)'))
m('d106', D, 'field_106', 'C25: blank is shown unchanged', ('if blank value then ret (DStr value) else ret (DStr (lookup tbl_106 value))', 'ret (DStr (lookup tbl_106 value))'))
m('d117', D, 'field_117', 'C25: FIR and UIR', ('(lit "U") then ret (DStr (lit "UIR"))', '(lit "U") then ret (DStr (lit "FIR"))'))
m('d118', D, 'field_118', 'C50: E is the end of the description', ('if str_eqb c1 (lit "E") then ret (DStr (s ++', 'if negb (str_eqb c1 (lit "E")) then ret (DStr (s ++'))
m('d118b', D, 'field_118', 'C33/C50: unsupported boundary codes are reported', ('say (lit "Unsupported Boundary Via: " ++ quoted value) ;;;\n', ''))
m('d135', D, 'field_135', 'C49: 135 is tenths', ('Definition field_135 (value : str) (record : recview) : M dval :=\n  if isnumeric value then x <- float_of value ;; ret (DFloat (fl_div x 10))', 'Definition field_135 (value : str) (record : recview) : M dval :=\n  if isnumeric value then x <- float_of value ;; ret (DFloat x)'))
m('d178', D, 'field_178', 'C23: offset of a zone letter', ('(i - 12)%Z', '(i - 13)%Z'))
m('d178b', D, 'field_178', 'C23: minutes are shown', ('lit ":" ++ slice_from 1 value', 'lit ":" ++ slice_from 2 value'))
m('d178c', D, 'field_178', 'C23: east of Greenwich has two minus signs', ('else lit "GMT -" ++ str_of_Z x in', 'else lit "GMT " ++ str_of_Z x in'))
m('d182', D, 'field_182', 'C25/C44: 182 raises on other values', ('match assoc value tbl_182 with Some x => ret (DStr x) | None => raise ValueError end', 'match assoc value tbl_182 with Some x => ret (DStr x) | None => ret (DStr value) end'))
m('d196', D, 'field_196', 'C50: unknown name formats', ('lit "Unknown Name Format Indicator"', 'lit "Unknown"'))
m('d199', D, 'field_199', 'C25: blank is shown unchanged', ('if blank value then ret (DStr value)\n  else ret (DStr (lookup_bad tbl_199', 'if str_eqb value [] then ret (DStr value)\n  else ret (DStr (lookup_bad tbl_199'))
m('d269', D, 'field_269', 'C49: 269 is tenths', ('if negb (blank value) then x <- float_of value ;; ret (DFloat (fl_div x 10))', 'if negb (blank value) then x <- float_of value ;; ret (DFloat (fl_div x 20))'))
m('d270', D, 'field_270', 'C25: a blank is shown', ('if str_eqb value (lit " ") then ret (DStr value) else raise ValueError\n  end.\n\n(* The function', 'raise ValueError\n  end.\n\n(* The function'))
m('dnum', D, 'int_of', 'C16: int() fails with ValueError', ('match py_int value with Some x => ret x | None => raise ValueError end', 'match py_int value with Some x => ret x | None => ret 0%Z end'))

G = 'DecoderTables'
m('t004', G, 'tbl_004', 'C25: section names', ('((lit "EM"), (lit "Airways Marker"))', '((lit "EM"), (lit "Waypoint"))'))
m('t004b', G, 'tbl_004', 'C26: every section is named', ('  ((lit "EP"), (lit "Holding Pattern"));\n', ''))

Y = 'Layouts'
m('lcol', Y, 'Runway_read_primary_rows', 'C06: columns of the fields', ('Row (lit "Runway Length") (Sl 22 27)', 'Row (lit "Runway Length") (Sl 22 28)'))
m('lname', Y, 'Runway_read_primary_rows', 'C06: names of the fields', ('Row (lit "Runway Length") (Sl 22 27)', 'Row (lit "Length") (Sl 22 27)'))
m('lfn', Y, 'Runway_read_primary_rows', 'C06: decoder of a field', ('Row (lit "Runway Length") (Sl 22 27) F057', 'Row (lit "Runway Length") (Sl 22 27) F058'))
m('ldup', Y, 'Runway_read_primary_rows', 'C29: only the listed layouts repeat a name', ('Row (lit "Runway Length") (Sl 22 27)', 'Row (lit "Runway Identifier") (Sl 22 27)'))
m('ldrop', Y, 'Runway_read_primary_rows', 'C41: columns shown', ('  Row (lit "Runway Length") (Sl 22 27) F057;\n', ''))
m('lcont', Y, 'cls_cont_idx', 'C10: continuation column of runways', ('| CRunway => Some 21  (* Runway', '| CRunway => Some 22  (* Runway'))
m('lapp', Y, 'cls_application_type', 'C60: application type of airway restrictions', ('Ok (slice 15 17 line)', 'Ok (slice 14 16 line)'))
m('leu', Y, 'cls_cont_idx', 'C12: airway restrictions have no continuation column', ('| CEnrouteAirwaysRestriction => None  (* EnrouteAirwaysRestriction.py *)\n  | CEnrouteCommunications => Some 55', '| CEnrouteAirwaysRestriction => Some 17  (* EnrouteAirwaysRestriction.py *)\n  | CEnrouteCommunications => Some 55'))
m('lrecords', Y, 'records', 'C02/C10: layouts belong to their section', ('((lit "PT"), CGLS)', '((lit "PT"), CMLS)'))
m('lmissing', Y, 'records', 'C03: 42 sections', ('  ((lit "PV"), CAirportCommunication);\n', ''))

S = 'PyStr'
m('sstrip', S, 'strip', 'C04: trailing whitespace', ('drop_while_end space_char (drop_while space_char s)', 'drop_while space_char s'))
m('sslice', S, 'slice', 'C06: slices', ('firstn (b - a) (skipn a s)', 'firstn b (skipn a s)'))
m('slstrip', S, 'lstrip0', 'C17: leading zeros only', ('drop_while (N.eqb 48) s', 'filter (fun c => negb (N.eqb 48 c)) s'))
m('scontains', S, 'contains', 'C35: filters occur anywhere', ('prefixb p s || match s with [] => false | _ :: s\' => contains s\' p end', 'prefixb p s || match s with [] => false | _ :: s\' => false end'))
m('sassoc', S, 'assoc', 'C25: tables are looked up by the whole code', ('if str_eqb k k\' then Some v', 'if prefixb k k\' then Some v'))

N = 'PyNum'
m('npad', N, 'fmt03', 'C22: at least three digits', ('zpad 3 (str_of_N (Z.to_N z))', 'zpad 2 (str_of_N (Z.to_N z))'))
m('nrne', N, 'rne', 'C19: correct rounding', ('| Gt => k + 1\n', '| Gt => k\n'))
m('nfixed', N, 'fixed_str', 'C19: zero-padded decimals', ('zpad k (str_of_N (Z.to_N (n mod', 'zpad 0 (str_of_N (Z.to_N (n mod'))
m('nneg', N, 'str_of_Z', 'C23: negative offsets', ('if z <? 0 then 45%N :: str_of_N (Z.to_N (- z)) else', 'if z <? 0 then str_of_N (Z.to_N (- z)) else'))
m('nunder', N, 'drop_underscores', 'C53: int() accepts underscores between digits only', ('if prev_digit && is_digit d then', 'if prev_digit then'))
m('nsign', N, 'take_sign', 'C53: signs', ('if (c =? 45)%N then (true, s\')', 'if (c =? 45)%N then (false, s\')'))
m('nexp', N, 'parse_exp', 'C53: exponents', ('Some (if neg then - digits_val ds else digits_val ds) else None\n      else None\n  end.\n(* digits [', 'Some (digits_val ds) else None\n      else None\n  end.\n(* digits ['))
m('nrepr', N, 'repr_digits', 'C49: the point of a float', ('firstn (Z.to_nat (x + 1)) ds ++ 46%N :: skipn (Z.to_nat (x + 1)) ds', 'firstn (Z.to_nat x) ds ++ 46%N :: skipn (Z.to_nat x) ds'))

C = 'Console'
m('cwidth', C, 'widths', 'C69: a column is as wide as its heading, at least', ('fold_left widen rows (map cell_width headers)', 'fold_left widen rows [0; 0; 0]'))
m('cright', C, 'justify', 'C69: cells are left aligned', ('l ++ repeat blank_char (w - List.length l)', 'repeat blank_char (w - List.length l) ++ l'))
m('crule', C, 'hrule', 'C69: all lines of a table are equally long', ('repeat dash (1 + w + 1)', 'repeat dash (1 + w)'))
m('clast', C, 'get_string', 'C69: a table ends with a rule', ('flat_map (row_lines ws) rows ++ [hrule ws]', 'flat_map (row_lines ws) rows'))
m('cfirst', C, 'row_lines', 'C69: all lines of a cell are shown', ('seq 0 (list_max (map cell_height row))', 'seq 0 1'))
m('cmax', C, 'cell_width', 'C69: columns are as wide as the widest line', ('list_max (map (@List.length N) (split_lines c))', 'List.length c'))
m('cnone', C, 'cell_text', 'C69: None is shown as None', ('DNone => lit "None"', 'DNone => []'))
m('ccolour', C, 'colour_code', 'C70: green if something was found', ('then lit "32" else lit "31"', 'then lit "31" else lit "32"'))
m('creset', C, 'colored', 'C70: the colour ends with the line', ('t ++ 27%N :: lit "[0m" else t', 't else t'))
m('cnl', C, 'print', 'C70: what is printed ends with a line end', ('  end ++ [nl].', '  end.'))
m('cdecode', C, 'decode_text', 'C69: decode returns what it prints', ('ret (get_string rows)', 'ret (get_string (rev rows))'))

U = 'Utf8'
m('u2', U, 'decode_utf8', 'C56: overlong forms are refused', ('within 194 223 a', 'within 192 223 a'))
m('usurr', U, 'decode_utf8', 'C56: surrogates are refused', ('(if a =? 237 then 159 else 191)', '191'))
m('umax', U, 'decode_utf8', 'C56: code points up to 0x10FFFF', ('(if a =? 244 then 143 else 191)', '191'))
m('ucont', U, 'decode_utf8', 'C56: continuation bytes', ('within 128 191 c && within 128 191 d', 'within 128 191 c'))
m('uval', U, 'decode_utf8', 'C56: the code point', ('(a - 224) * 4096 + (b - 128) * 64', '(a - 224) * 4096 + (b - 128) * 128'))
m('umount', U, 'mount', 'C57: undecodable files', ('bindR (contents d p) decode_utf8', 'contents d p'))

P = 'PyRepr'
m('rquote', P, 'repr_quote', 'C58: quotes', ('then 34 else 39', 'then 39 else 34'))
m('resc', P, 'repr_char', 'C58: backslashes', ('(c =? q) || (c =? 92)', '(c =? q)'))
m('rhex', P, 'hexit', 'C58: hexadecimal digits', ('87 + d', '55 + d'))
m('rdel', P, 'repr_char', 'C58: control characters', ('(c <? 32) || (c =? 127)', 'c <? 32'))
m('rlist', P, 'repr_list', 'C58: lists', ('lit "[" ++ repr_items l ++ lit "]"', 'lit "(" ++ repr_items l ++ lit ")"'))
m('rsep', P, 'repr_items', 'C58: separators', ('lit ", "', 'lit " "'))

X = 'PyLex'
m('xcomment', X, 'skip_comment', 'C68: a comment ends at the line end', ('snd (span (fun c => negb (Ascii.eqb c newline)) s)', 'EmptyString'))
m('xescape', X, 'short_string', 'C68: escapes in texts', ('if Ascii.eqb e "n" then put newline', 'if Ascii.eqb e "n" then put e'))
m('xnumber', X, 'number', 'C68: numbers are decimal', ('(10 * acc + Z.of_N', '(8 * acc + Z.of_N'))
m('xindent', X, 'indentation', 'C71: deeper lines open a block', ('if Nat.ltb i k then Some ([TIndent], k :: ind) else dedent k ind', 'if Nat.ltb i k then Some ([], ind) else dedent k ind'))
m('xdedent', X, 'dedent', 'C71: one DEDENT for every block closed', ('Some (TDedent :: ts, r)', 'Some (match ts with [] => [TDedent] | _ => ts end, r)'))
m('xjoin', X, 'join', 'C71: lines are separated by line ends', ('(l ++ String newline (join ls\'))%string', '(l ++ join ls\')%string'))
m('xops', X, 'operator', 'C68: the longest operator', ('match try 3 operators3, try 2 operators2, try 1 operators1 with', 'match try 3 operators3, try 1 operators2, try 1 operators1 with'))

E = 'PyEval'
m('enot', E, 'compare', 'C59-C63: not in', ('| CmpNotIn => option_map negb (py_in a b)', '| CmpNotIn => py_in a b'))
m('ege', E, 'compare', 'C59: >=', ('Some (Z.geb x y)', 'Some (Z.gtb x y)'))
m('eadd', E, 'binary', 'C59: + joins texts in order', ('Some (VStr (x ++ y))', 'Some (VStr (y ++ x))'))
m('eslice', E, 'py_slice', 'C59: x[a:]', ('Some (slice_from (Z.to_nat a) s) else', 'Some (slice_from (S (Z.to_nat a)) s) else'))
m('ecatch', E, 'catches', 'C59: except clauses', ('existsb (fun x => match exn_named x with', 'negb (existsb (fun x => match exn_named x with'), ('exn_eqb k (e_kind e) | None => false end) excs.', 'exn_eqb k (e_kind e) | None => false end) excs).'))
m('ein', E, 'py_in', 'C61, C62: in for texts', ('Some (contains y x)', 'Some (contains x y)'))
m('eall', E, 'all_true', 'C62: all()', ('if b then all_true l\' else Some false', 'if b then Some true else all_true l\''))
m('erow', E, 'call_method', 'C61: rows are added at the end', ('(rows ++ [(n, q, d\')])', '((n, q, d\') :: rows)'))
m('estr', E, 'prim', 'C61: len', ('k (VInt (Z.of_nat (List.length t))) s', 'k (VInt (Z.of_nat (S (List.length t)))) s'))
m('edict', E, 'py_dict', 'C61: the last value of a key wins', ('(rev items) []', 'items []'))
m('eand', E, 'eval', 'C59: and', ('| EAnd a b => eval m a s kx (fun x s => or_stuck "and" (truth x) (fun t => if t then eval m b s kx k else k x s))', '| EAnd a b => eval m a s kx (fun x s => or_stuck "and" (truth x) (fun t => if t then k x s else eval m b s kx k))'))

H = 'PyHeap'
m('hupdate', H, 'update', 'C77: a change is made to the object', ('| _ :: h\', 0 => o :: h\' |', '| y :: h\', 0 => y :: h\' |'))
m('hfresh', H, 'hnew', 'C77: a new object has a new address', ('k (List.length (heap s)) (halloc o s)', 'k (Nat.pred (List.length (heap s))) (halloc o s)'))
m('hback', H, 'hrun', 'C77: the variables of the caller come back', ('let back s\' := HSt (hloc s) (hout s\')', 'let back s\' := HSt (hloc s\') (hout s\')'))
m('hlocals', H, 'local_names', 'C77: what a function assigns is local to it', ('map fst ps ++ flat_map assigned body', 'map fst ps'))
m('hself', H, 'hcall_method', 'C77: a method gets the object itself', ('run m ps body (w :: args) s\n              | None => HStuck a', 'hnew (OInst m c attrs) s (fun r s => run m ps body (HRef r :: args) s)\n              | None => HStuck a'))
m('hclose', H, 'hexec', 'C77: a file is closed after its with statement', ('finally (block b (assign x w s)) (hput r OClosed)', 'block b (assign x w s)'))
m('hcatch', H, 'hexec', 'C77: exceptions not named are not caught', ('(hdrop_local x) else HRaise ex s', '(hdrop_local x) else HOk Next s'))
m('hfactory', H, 'hget_item', 'C77: a missing key is made by the factory, and kept', ('HOk v (hput r (ODict f ((key, v) :: items)) s)', 'HOk v s'))
m('hattr', H, 'hexec', 'C77: an attribute gets the value assigned', ('(OInst n c (set a w attrs))', '(OInst n c (set a HNone attrs))'))
m('haug', H, 'hexec', 'C77: x += y', ('hsome "operator" (hbinary op a b) (fun w => HOk Next (assign x w s))', 'hsome "operator" (hbinary op b a) (fun w => HOk Next (assign x w s))'))
m('hfor1', H, 'hfor', 'C77: a return ends the loop', ('Return r => HOk (Return r) s | Next | Continue => loop ws\' s', 'Return _ | Next | Continue => loop ws\' s'))
m('hcont', H, 'hexec_list', 'C77: continue ends the block', ('match f with Next => block cs\' s | _ => HOk f s end', 'match f with Next | Continue => block cs\' s | _ => HOk f s end'))
m('hargs', H, 'heval_list', 'C77: arguments are in order', ('HOk (v :: vs) s)) end.\nDefinition heval_kws', 'HOk (vs ++ [v]) s)) end.\nDefinition heval_kws'))
m('hdefault', H, 'hbind_params', 'C77: defaults', ('match hconst d with Some v => option_map', 'match Some HNone with Some v => option_map'))
m('hio', H, 'hcall_method', 'C77: write appends', ('(hput r (OIO (t ++ p)) s)', '(hput r (OIO (p ++ t)) s)'))
m('hread', H, 'hcall_method', 'C77: readlines leaves nothing to read', ('(hput r (OFile []) s)', 's'))
m('hdup', H, 'hcall_method', 'C77: update of a dictionary', ('(ODict None (new ++ items))', '(ODict None (items ++ new))'))
m('hglobal1', H, 'hname', 'C77: local names hide others', ('if existsb (String.eqb x) lv then get x (hloc s) else hglobal m x s', 'match hglobal m x s with Some v => Some v | None => get x (hloc s) end'))
m('htrue', H, 'htruth', 'C77: an empty text is false', ('| HStr [] | HList [] | HTuple [] => Some false', '| HList [] | HTuple [] => Some false'))
m('hmatch', H, 'hexec', 'C77: the first case that matches', ('hsome "case" (heq s w pw) (fun t => if t then block b s else try_cases cs\')', 'hsome "case" (heq s w pw) (fun t => if t then try_cases cs\' else block b s)'))
m('hlet', 'HeapWorld', 'heap_act', 'C77: y = x copies the reference', ('| Let x y => match get y (hloc s) with Some w => HOk HNone (hbind_local x w s)', '| Let x y => match get y (hloc s) with Some (HRef r) => match at_ s r with Some o => hnew o s (fun a s => HOk HNone (hbind_local x (HRef a) s)) | None => HStuck y end | Some w => HOk HNone (hbind_local x w s)'))
m('wlet', 'HeapWorld', 'act', 'C77: y = x copies the reference', ('Some i => Some ([], set x i env, rs, Ok VNone)', 'Some i => Some ([], set x (List.length rs) env, rs ++ [nth i rs new_record], Ok VNone)'))
m('won', 'HeapWorld', 'act', 'C77: a method changes its object', ('Some (o, env, replace i r\' rs, v)', 'Some (o, env, rs, v)'))

# C78, C79
m('foundlast', A, 'found', 'C78: the summary is no record', ('(lit "Found " ++ str_of_Z (Z.of_nat count) ++ lit " records that contain " ++ filters_text fl)', '(filters_text fl ++ lit ": " ++ str_of_Z (Z.of_nat count))'))
m('searchone', A, 'search_lines', 'C78: all records found are printed', ('else say (raw r) ;;; search_lines fl (count + 1) ls\'', 'else say (raw r) ;;; ret (count + 1)'))
m('searchpad', A, 'search_lines', 'C78: records are printed as they are found', ('else say (raw r) ;;; search_lines', 'else say (32%N :: raw r) ;;; search_lines'))
m('deadq', 'Layouts', 'Airport_read', 'C79: the layout for Q is read from some line', ('(lit "P") then build Airport_read_flight0_rows line else\n  if str_eqb application (lit "Q") then build Airport_read_flight1_rows', '(lit "P") then build Airport_read_flight0_rows line else\n  if str_eqb application (lit "P") then build Airport_read_flight1_rows'))
m('euprim', 'Layouts', 'cls_cont_idx', 'C79: no new record reads a primary airway restriction', ('| CEnrouteAirways => Some 38  (* EnrouteAirways.py *)\n  | CEnrouteAirwaysRestriction => None', '| CEnrouteAirways => Some 38  (* EnrouteAirways.py *)\n  | CEnrouteAirwaysRestriction => Some 17'))

# C80, C81, C82
K = 'PyCrash'
m('kroom', K, 'failing', 'C80: the console takes exactly that many prints', ('Nat.leb room (List.length (hout s))', 'Nat.ltb room (List.length (hout s))'))
m('kshown', K, 'failing', 'C80: a print that fails shows nothing', ('then HRaise err s else', 'then HRaise err s\' else'))
m('kmute', K, 'failing', 'C80: a print that fails raises', ('then HRaise err s else', 'then HOk v s else'))
m('kall', K, 'failing', 'C80: only print fails', ('String.eqb m "builtins" && String.eqb f "print" && ', ''))
m('kcatch', K, 'gexec', 'C80: the failure is not caught', ('(hdrop_local x) else HRaise ex s', '(hdrop_local x) else HOk Next s'))
m('kargs', K, 'gexec', 'C80: up to the failure all is the same', ('hsome "operator" (hbinary op a b) (fun w => HOk Next (assign x w s))', 'hsome "operator" (hbinary op b a) (fun w => HOk Next (assign x w s))'))
m('kback', K, 'grun', 'C80: the variables of the caller come back', ('| HRaise e s\' => HRaise e (back s\')\n          | HStuck w => HStuck w\n          end\n      end\n  end.\n(* import', '| HRaise e s\' => HOk HNone (back s\')\n          | HStuck w => HStuck w\n          end\n      end\n  end.\n(* import'))
m('kopen', K, 'gexec', 'C81: a file is closed after its with statement', ('finally (block b (assign x w s)) (hput r OClosed)', 'block b (assign x w s)'))
m('khalf', K, 'gexec', 'C81: a file is closed also when the block raises', ('finally (block b (assign x w s)) (hput r OClosed)', 'hbind (block b (assign x w s)) (fun f s => HOk f (hput r OClosed s))'))
m('kread', K, 'gcall_method', 'C81: reading opens no file', ('(hput r (OFile []) s)', '(halloc (OFile []) s)'))
m('wnew', 'HeapWorld', 'act', 'C82: a new object has read nothing', ('set x (List.length rs) env, rs ++ [new_record]', 'set x (List.length rs) env, rs ++ [last rs new_record]'))
m('wname', 'HeapWorld', 'act', 'C82: a name stands for the object given to it last', ('Some i => Some ([], set x i env, rs, Ok VNone)', 'Some i => Some ([], match get x env with Some _ => env | None => set x i env end, rs, Ok VNone)'))
m('qdecode', 'Properties11', 'reply', 'C82: asking changes nothing', ('| QHasCont => ([], r, Ok', '| QHasCont => ([], new_record, Ok'))
m('qvalid', 'Properties11', 'reply', 'C82: validate reads nothing', ('| QValidate line => ([], r, Ok', '| QValidate line => ([], snd (fst (read r line)), Ok'))

# C84, C85, C86
m('pskip', 'PageProps', 'decode_page', 'C84: a byte without a character ends the reading', ("(fun t => Ok (c :: t)) | None => Err ValueError end", "(fun t => Ok (c :: t)) | None => decode_page pg r end"))
m('ptable', 'PageProps', 'cp1252_high', 'C84: no byte above 127 is an ASCII character in Windows-1252', ('[8364; 0; 8218;', '[8364; 0; 50;'))
m('pnum', 'PageProps', 'latin1', 'C84: in Latin-1 no byte that begins a character in UTF-8 is a number', ('if (b <? 256)%N then Some b else None.\n(* Windows', 'if (b <? 256)%N then Some (if (b =? 195)%N then 189%N else b) else None.\n(* Windows'))
m('pmount', 'PageProps', 'mount_page', 'C84: the page decides, whatever the bytes', ('(fun p => bindR (contents d p) (decode_page pg))', '(fun p => bindR (contents d p) (fun bs => match decode_utf8 bs with Ok t => Ok t | Err _ => decode_page pg bs end))'))
m('dfirst', 'Api', 'read_folder', 'C85: the order of the entries does not matter', ('for_each (fun name => read_file w (path_join path name) true) names.', 'for_each (fun name => read_file w (path_join path name) true) (firstn 1 names).'))
m('ione', 'PyEval', 'py_is', 'C86: 1 is not True', ('  | _, VBool _ => Some false\n', '  | VInt 1, VBool true => Some true\n  | _, VBool _ => Some false\n'))
m('iall', 'PyEval', 'py_is', 'C86: nothing but True is True', ('  | _, VBool _ => Some false\n', '  | _, VBool b => Some b\n'))

# C87
m('cutlen', R, 'validate', 'C87: a line cut short is no record', ('Nat.eqb (List.length line) 132', '(Nat.eqb (List.length line) 132 || Nat.eqb (List.length line) 131)'))
m('joinlen', R, 'validate', 'C87: two records in a line are no record', ('Nat.eqb (List.length line) 132', '(Nat.eqb (List.length line) 132 || Nat.eqb (List.length line) 264)'))

names = [x['name'] for x in L]
assert len(set(names)) == len(names)
json.dump(L, open(os.path.join(os.path.dirname(os.path.abspath(__file__)), '..', 'seeded', 'mutants.json'), 'w'), indent=1)
print(len(L))
TH = os.path.join(os.path.dirname(os.path.abspath(__file__)), '..', 'rocq', 'theories')
for x in L:
    s = open(os.path.join(TH, x['file'])).read()
    for a, b in x['edit']:
        if s.count(a) != 1: print(x['name'], s.count(a), repr(a[:80]))
        else: s = s.replace(a, b)
