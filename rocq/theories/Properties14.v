(* C69, C70: the characters on the console. *)
From Coq Require Import List String NArith Bool Arith Lia.
From Verif Require Import PyBase Decoder Layouts Record Api Spec SpecLayouts SpecApi Samples StrFacts ReadFacts ApiProps Console SpecConsole ConsoleFacts VisibleFacts ConsoleProps Properties5.
Import ListNotations.
Open Scope string_scope.
Open Scope list_scope.
Local Open Scope nat_scope.

(* ================= C69 ================= *)
(* parse prints the messages of the decoders, then a table: a rule, the heading, a rule, the rows of the fields in their
   order, a rule; every column as wide as its widest cell *)
Theorem C69_table : forall colours line o r, visible_text line -> read new_record line = (o, r, Ok true) -> succeeds (parse line true) ->
  exists messages rowss lines, Forall message messages /\ Forall2 (field_rows (view r)) (fields r) rowss /\ table_text heading (List.concat rowss) lines /\
    written (messages ++ lines) (console colours (output_of (parse line true))).
Proof. exact c69_table. Qed.
Print Assumptions C69_table.
Theorem C69_straight : forall head rows lines, table_text head rows lines -> exists w, Forall (fun l => List.length l = w) lines.
Proof. exact table_lengths. Qed.
Print Assumptions C69_straight.
(* a table can be read back, but for spaces at the end of cells *)
Theorem C69_read_back : forall rows rows' lines, table_text heading rows lines -> table_text heading rows' lines ->
  Forall2 (fun r r' => same_but_spaces (fst (fst r)) (fst (fst r')) /\ same_but_spaces (snd (fst r)) (snd (fst r')) /\ same_but_spaces (snd r) (snd r')) rows rows'.
Proof. exact table_once3. Qed.
Print Assumptions C69_read_back.
(* what decode returns is what it prints, and the output switch changes nothing else *)
Theorem C69_returned : forall colours r o s, decode_text r true = (o, Ok s) -> exists o', decode_text r false = (o', Ok s) /\ console colours o = console colours o' ++ s ++ [10%N].
Proof. exact c69_returned. Qed.
Print Assumptions C69_returned.
Theorem C69_switch : forall r o e, decode_text r true = (o, Err e) <-> decode_text r false = (o, Err e).
Proof.
  intros r o e. unfold decode_text. destruct (RecordProps.c32_decode r) as (o' & res & -> & ->). destruct res as [rows|e']; cbn; [split; discriminate|]. rewrite app_nil_r. reflexivity.
Qed.
Print Assumptions C69_switch.

(* README.md:40-71 *)
Definition readme : list str := map lit
  ["+---------------------------------+----------------------------------+--------------------------------+";
   "| Field                           | Value                              | Decoded                      |";
   "+---------------------------------+----------------------------------+--------------------------------+";
   "| Record Type                     | 'S'                              | Standard                       |";
   "| Customer / Area Code            | 'USA'                            | United States of America       |";
   "| Section Code                    | 'PA'                             | Airport Reference Point        |";
   "| Airport ICAO Identifier         | 'KSEA'                           | KSEA                           |";
   "| ICAO Code                       | 'K1'                             | K1                             |";
   "| ATA/IATA Designator             | 'SEA'                            | SEA                            |";
   "| Continuation Record No          | '1'                              | Primary Record (with Cont.)    |";
   "| Speed Limit Altitude            | '10000'                          | 10000 ft                       |";
   "| Longest Runway                  | '119'                            | 11900 ft                       |";
   "| IFR Capability                  | 'Y'                              | Official                       |";
   "| Longest Runway Surface Code     | ' '                              |                                |";
   "| Airport Reference Pt. Latitude  | 'N47265700'                      | N47265700                      |";
   "| Airport Reference Pt. Longitude | 'W122182910'                     | W122182910                     |";
   "| Magnetic Variation              | 'E0199'                          | 199 E                          |";
   "| Airport Elevation               | '00429'                          | 00429                          |";
   "| Speed Limit                     | '250'                            | 250 knots (IAS)                |";
   "| Recommended Navaid              | 'SEA '                           | SEA                            |";
   "| ICAO Code (2)                   | 'K1'                             | K1                             |";
   "| Transition Altitude             | '18000'                          | 18000 ft                       |";
   "| Transition Level                | '18000'                          | 18000 ft                       |";
   "| Public Military Indicator       | 'C'                              | Public / Civil                 |";
   "| Time Zone                       | 'U00'                            | GMT +8:00                      |";
   "| Daylight Indicator              | 'Y'                              | Yes                            |";
   "| Magnetic/True Indicator         | ' '                              |                                |";
   "| Datum Code                      | 'NAS'                            | NAS                            |";
   "| Airport Name                    | 'SEATTLE-TACOMA INTL           ' | SEATTLE-TACOMA INTL            |";
   "| File Record No                  | '04569'                          | 04569                          |";
   "| Cycle Date                      | '8808'                           | 1988, Release 08               |";
   "+---------------------------------+----------------------------------+--------------------------------+"].
(* the lines of the README but for the heading, where it has two spaces too many before Decoded and two too few after it *)
Example C69_ex_readme : output_of (parse l_sea true) <> [] /\ exists h, h <> nth 1 readme [] /\
  written (firstn 1 readme ++ [h] ++ skipn 2 readme) (console true (output_of (parse l_sea true))) /\
  h = lit "| Field                           | Value                            | Decoded                        |".
Proof. split; [vm_compute; discriminate|]. eexists. split; [|split; [|reflexivity]]; vm_compute; [discriminate|reflexivity]. Qed.
Lemma show_visible : forall l, forallb vis l = true -> visible_text l.
Proof. intros l. apply vis_iff. Qed.
Example C69_ex : visible_text l_sea /\ returned (read new_record l_sea) = Ok true /\ succeeds (parse l_sea true) /\
  (exists v, columns l_sea [1] = lit "S" /\ field_rows v (Field (lit "Record Type") (lit "S") F002) [(lit "Record Type", lit "'S'", lit "Standard")]).
Proof.
  split; [apply show_visible; vm_compute; reflexivity|]. split; [vm_compute; reflexivity|]. split; [eexists; eexists; vm_compute; reflexivity|]. exists (view new_record). split; [vm_compute; reflexivity|].
  exists [], (DStr (lit "Standard")), (lit "Standard"), [lit "Standard"]. split; [vm_compute; reflexivity|]. split; [reflexivity|]. split; [|reflexivity]. split; [discriminate|]. split; [|vm_compute; reflexivity].
  constructor; [|constructor]. repeat (constructor; [discriminate|]). constructor.
Qed.
(* a table of a record without fields; and a row of two lines *)
Example C69_ex_small : decode_text new_record false = ([], Ok (join_lines (map lit
  ["+-------+-------+---------+";
   "| Field | Value | Decoded |";
   "+-------+-------+---------+";
   "+-------+-------+---------+"]))) /\
  get_string [(lit "Waypoint", lit "'V A '", DStr (lit "one" ++ [10%N] ++ lit "three")); (lit "F", lit "' '", DNone)] = join_lines (map lit
  ["+----------+--------+---------+";
   "| Field    | Value  | Decoded |";
   "+----------+--------+---------+";
   "| Waypoint | 'V A ' | one     |";
   "|          |        | three   |";
   "| F        | ' '    | None    |";
   "+----------+--------+---------+"]).
Proof. split; vm_compute; reflexivity. Qed.

(* ================= C70 ================= *)
(* two files that put the same text on the console show the same records: as many tables, with the same names and values *)
Theorem C70_files : forall colours w w' path path' t t' ls ls' xss xss', open_text w path = Ok t -> lines_of t ls -> open_text w' path' = Ok t' -> lines_of t' ls' ->
  Forall visible_text ls -> Forall visible_text ls' -> snd (read_file w path true) = Ok tt -> snd (read_file w' path' true) = Ok tt ->
  Forall2 line_shows ls xss -> Forall2 line_shows ls' xss' ->
  console colours (output_of (read_file w path true)) = console colours (output_of (read_file w' path' true)) -> List.concat xss = List.concat xss'.
Proof. exact c70_file. Qed.
Print Assumptions C70_files.
(* the same for two calls of parse *)
Theorem C70_lines : forall colours line line' xs xs', visible_text line -> visible_text line' -> succeeds (parse line true) -> succeeds (parse line' true) -> line_shows line xs -> line_shows line' xs' ->
  console colours (output_of (parse line true)) = console colours (output_of (parse line' true)) -> xs = xs'.
Proof.
  intros colours line line' xs xs' V V' S S' X X' E. rewrite <- (app_nil_r xs), <- (app_nil_r xs'). apply (c70_lines colours [line] [line'] [xs] [xs']); try (constructor; [assumption|constructor]).
  cbn [map List.concat]. rewrite !app_nil_r. exact E.
Qed.
Print Assumptions C70_lines.
(* each line shows its record or nothing *)
Theorem C70_shows : forall line, exists xs, line_shows line xs /\ forall xs', line_shows line xs' -> xs' = xs.
Proof.
  intros line. destruct (read new_record line) as [[o r] res] eqn:E.
  assert (D : res = Ok true \/ res <> Ok true) by (destruct res as [[|]|]; [left; reflexivity|right; discriminate|right; discriminate]). destruct D as [->|D].
  - exists [names_values r]. split; [econstructor; exact E|]. intros xs' [o' r' E'|N0]; [rewrite E in E'; injection E' as _ <-; reflexivity|]. rewrite E in N0. destruct (N0 eq_refl).
  - exists []. split; [apply shows_none; rewrite E; exact D|]. intros xs' [o' r' E'|_]; [rewrite E in E'; injection E' as _ _ ->; destruct (D eq_refl)|reflexivity].
Qed.
Print Assumptions C70_shows.
(* search: the lines found, then one line with their number, in green, or in red if there are none *)
Theorem C70_search : forall colours w file fl t ls reps, open_text w file = Ok t -> lines_of t ls -> Forall2 (fun l p => report fl l (fst p) (snd p)) ls reps ->
  exists found last, map EvPrint found = List.concat (map fst reps) /\ last_line colours fl (list_sum (map snd reps)) last /\
    written (found ++ [last]) (console colours (output_of (search w file fl))).
Proof. exact c70_search. Qed.
Print Assumptions C70_search.
(* two lines that differ in a column of no field look alike on the console *)
Theorem C70_whole_lines_refuted : exists line line', line <> line' /\ visible_text line /\ visible_text line' /\ succeeds (parse line true) /\ succeeds (parse line' true) /\
  output_of (parse line true) <> [] /\ console true (output_of (parse line true)) = console true (output_of (parse line' true)).
Proof.
  exists l_cruise, (firstn 20 l_cruise ++ lit "X" ++ skipn 21 l_cruise). split; [vm_compute; discriminate|]. split; [apply show_visible; vm_compute; reflexivity|]. split; [apply show_visible; vm_compute; reflexivity|].
  split; [eexists; eexists; vm_compute; reflexivity|]. split; [eexists; eexists; vm_compute; reflexivity|]. split; [vm_compute; discriminate|]. vm_compute. reflexivity.
Qed.
Print Assumptions C70_whole_lines_refuted.
Example C70_ex : Forall visible_text [l_sea; l_acv; lit "HDR not a record"; l_sea_cont] /\ lines_of t_mixed [l_sea; l_acv; lit "HDR not a record"; l_sea_cont] /\
  line_shows (lit "HDR not a record") [] /\ (exists x, line_shows l_sea [x] /\ nth 2 x ([], []) = (lit "Section Code", lit "PA")) /\
  console true (output_of (read_file (disk t_mixed) (lit "d/f") true)) <> console true (output_of (read_file (disk t_freq) (lit "d/f") true)) /\
  written [l_sea; l_sea_cont; [27%N] ++ lit "[32mFound 2 records that contain SEA" ++ [27%N] ++ lit "[0m"] (console true (output_of (search (disk t_mixed) (lit "d/f") (FStr (lit "SEA"))))) /\
  written [lit "Found 0 records that contain XYZ"] (console false (output_of (search (disk t_mixed) (lit "d/f") (FStr (lit "XYZ"))))).
Proof.
  split; [repeat (constructor; [apply show_visible; vm_compute; reflexivity|]); constructor|]. split; [lines|]. split; [apply shows_none; vm_compute; discriminate|].
  split; [eexists; split; [eapply shows_table; vm_compute; reflexivity|vm_compute; reflexivity]|]. split; [vm_compute; discriminate|]. split; vm_compute; reflexivity.
Qed.
