(* What the properties talk about, written without the model's string helpers:
   columns of a line, framing, section codes, and the reading of the record catalogue. *)
From Coq Require Import List String NArith Bool.
From Verif Require Import PyBase Decoder Record SpecLayouts.
Import ListNotations.
Open Scope string_scope.
Open Scope list_scope.
Local Open Scope nat_scope.

(* ---- text ---- *)
(* the character in column k, counting from 1 *)
Definition column (t : str) (k : nat) : option N :=
  match k with 0 => None | S i => nth_error t i end.
(* the characters in the given columns, in that order *)
Definition columns (t : str) (ks : list nat) : str :=
  flat_map (fun k => match column t k with Some c => [c] | None => [] end) ks.
Definition whitespace (w : str) : Prop := Forall (fun c => space_char c = true) w.
Definition no_leading_space (t : str) : Prop := forall c, column t 1 = Some c -> space_char c = false.
Definition no_trailing_space (t : str) : Prop := forall c, column t (List.length t) = Some c -> space_char c = false.
(* t is line without its surrounding whitespace *)
Definition trimmed (line t : str) : Prop :=
  no_leading_space t /\ no_trailing_space t /\
  exists pre post, whitespace pre /\ whitespace post /\ line = pre ++ t ++ post.

(* ---- framing ---- *)
Definition numeric_column (t : str) (k : nat) : Prop :=
  exists c, column t k = Some c /\ numeric_char c = true.
Definition framed (t : str) : Prop :=
  List.length t = 132 /\
  (columns t [1] = lit "S" \/ columns t [1] = lit "T") /\
  (forall k, 124 <= k <= 132 -> numeric_column t k).
(* a line as the standard has it: a framed record, possibly followed by whitespace *)
Definition record_line (line t : str) : Prop :=
  framed t /\ no_leading_space t /\ no_trailing_space t /\
  exists post, whitespace post /\ line = t ++ post.

(* ---- section codes ---- *)
Definition sections : list string :=
  ["AS"; "D "; "DB"; "EA"; "EM"; "EP"; "ER"; "ET"; "EU"; "EV";
   "HA"; "HC"; "HD"; "HE"; "HF"; "HK"; "HS"; "HV";
   "PA"; "PB"; "PC"; "PD"; "PE"; "PF"; "PG"; "PI"; "PK"; "PL"; "PM"; "PN"; "PP"; "PR"; "PS"; "PT"; "PV";
   "R "; "RA"; "TC"; "TG"; "UC"; "UF"; "UR"].
Definition supported (code : str) : Prop := exists s, In s sections /\ code = lit s.
(* section code of a record: columns 5-6 if supported, else columns 5 and 13 if supported *)
Definition section_is (t code : str) : Prop :=
  supported code /\
  (code = columns t [5; 6] \/ (code = columns t [5; 13] /\ ~ supported (columns t [5; 6]))).
Definition no_section (t : str) : Prop :=
  ~ supported (columns t [5; 6]) /\ ~ supported (columns t [5; 13]).

(* ---- continuation number, application type ---- *)
Definition type_info (code : str) (cont : option nat) (app : list nat) : Prop :=
  exists s, In (s, cont, app) cont_columns /\ code = lit s.
Definition zero_or_one (c : str) : bool := str_eqb c (lit "0") || str_eqb c (lit "1").

(* ---- the catalogue ---- *)
(* does the entry apply to a record with this section code, primary or not, of this application type *)
Definition entry_matches (code : str) (prim : bool) (app : str) (e : entry) : bool :=
  existsb (fun s => str_eqb (lit s) code) (e_sections e) &&
  match e_primary e with None => true | Some b => Bool.eqb b prim end &&
  match e_app e with None => true | Some a => str_eqb (lit a) app end.
Definition layout_for (code : str) (prim : bool) (app : str) : option (list cell) :=
  option_map e_cells (find (entry_matches code prim app) catalogue).
(* the field a cell of the catalogue denotes on a line *)
Definition field_of (t : str) (c : cell) : field := Field (lit (c_name c)) (columns t (c_cols c)) (c_fn c).
(* sections whose unsupported application types raise instead of being refused *)
Definition raising (code : str) : bool :=
  existsb (fun s => str_eqb (lit s) code) ["ER"; "EU"; "EV"; "HV"; "PP"].

(* ---- what read is expected to do with a framed line ---- *)
(* Columns are taken from `line`, except the continuation number, which is taken from t, the trimmed
   line; when line has no leading whitespace the two are the same. *)
Definition section_of (line : str) : option str :=
  let is_supported code := existsb (fun s => str_eqb (lit s) code) sections in
  if is_supported (columns line [5; 6]) then Some (columns line [5; 6])
  else if is_supported (columns line [5; 13]) then Some (columns line [5; 13])
  else None.
Definition type_columns (code : str) : option nat * list nat :=
  match find (fun e => str_eqb (lit (fst (fst e))) code) cont_columns with
  | Some (_, c, a) => (c, a)
  | None => (None, [])
  end.
Definition expected_fields (code : str) (line : str) (r : rec) : outcome :=
  match layout_for code (zero_or_one (continuation r)) (columns line (snd (type_columns code))) with
  | Some cells => ([], set_fields (map (field_of line) cells) r, Ok true)
  | None => if raising code then ([], r, Err ValueError) else ([], set_fields [] r, Ok false)
  end.
Definition expected_read (r : rec) (line t : str) : outcome :=
  match section_of line with
  | None => ([], set_raw t r, Ok false)
  | Some code =>
      let d := record_class code in
      match fst (type_columns code) with
      | None => expected_fields code line (Rec code t (continuation r) (fields r) d)
      | Some k =>
          let r' := Rec code t (columns t [k]) (fields r) d in
          if isalnum (columns t [k]) then expected_fields code line r'
          else (match d with Some d => bad_continuation d r' | None => [] end, r', Ok false)
      end
  end.

(* ---- which application types each section supports ---- *)
(* continuation records (on EU: every record, see C12); None: no restriction *)
Definition continuation_apps : list (string * option (list string)) :=
  [("AS", None); ("D ", Some ["A"; "L"; "P"; "S"]); ("DB", Some ["A"; "P"; "Q"; "S"]); ("EA", Some ["A"; "P"; "Q"]);
   ("EM", Some ["A"]); ("EP", Some ["A"]); ("ER", Some ["A"; "P"; "Q"]); ("ET", Some ["A"; "T"]);
   ("EU", Some ["AE"; "TC"; "NR"]); ("EV", Some [" "; "T"]); ("HA", Some ["A"; "P"; "Q"]); ("HC", None);
   ("HD", Some ["E"; "P"; "W"]); ("HE", Some ["E"; "P"; "W"]); ("HF", Some ["E"; "P"; "W"]); ("HK", Some ["A"]);
   ("HS", Some ["A"]); ("HV", Some ["A"; "T"]); ("PA", Some ["A"; "P"; "Q"]); ("PB", Some ["A"]);
   ("PC", Some ["A"; "P"; "Q"]); ("PD", Some ["E"; "P"; "W"]); ("PE", Some ["E"; "P"; "W"]);
   ("PF", Some ["E"; "P"; "W"]); ("PG", Some ["A"; "S"]); ("PI", Some ["A"; "S"]); ("PK", Some ["A"]);
   ("PL", Some ["A"]); ("PM", Some ["A"]); ("PN", Some ["A"; "P"; "Q"; "S"]); ("PP", Some ["E"]);
   ("PR", Some ["A"; "T"]); ("PS", Some ["A"]); ("PT", Some ["A"]); ("PV", Some ["N"]); ("R ", None); ("RA", None);
   ("TC", None); ("TG", Some ["A"]); ("UC", Some ["A"]); ("UF", Some ["A"]); ("UR", Some ["T"; "P"; "C"])].
Definition supports (s : string) (app : str) : Prop :=
  exists l, In (s, l) continuation_apps /\
    match l with None => True | Some names => exists a, In a names /\ app = lit a end.
Definition alnum_column (t : str) (k : nat) : Prop :=
  exists c, column t k = Some c /\ alnum_char c = true.
(* the result a call ended with, its output, the object afterwards *)
Definition printed (o : outcome) : list event := fst (fst o).
Definition after (o : outcome) : rec := snd (fst o).
Definition returned (o : outcome) : result bool := snd o.

(* ---- how the section code is displayed ---- *)
(* airport (P) and heliport (H) sections, but not PN, show columns 5 and 13; the others columns 5-6 *)
Definition shows_5_13 (s : string) : bool :=
  (String.prefix "P" s || String.prefix "H" s) && negb (String.eqb s "PN").
