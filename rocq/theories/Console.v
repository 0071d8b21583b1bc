(* The characters on the console: what print writes for the events of PyBase.v.  Not code of /repo: the parts of
   prettytable 3.9.0 and termcolor 2.3.0 (the versions /repo/pyproject.toml:19-22 names) that record.py:167-173 and
   __init__.py:37 rely on.  Tables are as prettytable lays them out when every character is one column wide, which
   is so for the visible ASCII characters; it asks the library wcwidth about others. *)
From Coq Require Import List String NArith Bool.
From Verif Require Import PyBase Record.
Import ListNotations.
Open Scope string_scope.
Open Scope list_scope.
Local Open Scope nat_scope.

Definition nl : N := 10%N.
(* s.split("\n") *)
Fixpoint split_lines (s : str) : list str :=
  match s with
  | [] => [[]]
  | c :: s' => if N.eqb c nl then [] :: split_lines s' else match split_lines s' with l :: ls => (c :: l) :: ls | [] => [[c]] end
  end.
(* "\n".join(lines) *)
Fixpoint join_lines (ls : list str) : str :=
  match ls with
  | [] => []
  | [l] => l
  | l :: ls' => l ++ nl :: join_lines ls'
  end.

(* str(x) of what the decoders return: prettytable's _format_value without a format *)
Definition cell_text (d : dval) : str := match d with DStr s => s | DFloat x => repr_fl x | DNone => lit "None" end.
Definition cells (r : table_row) : list str := let '(name, value, d) := r in [name; value; cell_text d].

(* _get_size: columns and lines of a cell *)
Definition cell_width (c : str) : nat := list_max (map (@List.length N) (split_lines c)).
Definition cell_height (c : str) : nat := List.length (split_lines c).
(* _compute_widths, from the field names on *)
Definition headers : list str := [lit "Field"; lit "Value"; lit "Decoded"].
Fixpoint widen (ws : list nat) (row : list str) : list nat :=
  match ws, row with w :: ws', c :: row' => Nat.max w (cell_width c) :: widen ws' row' | _, _ => ws end.
Definition widths (rows : list (list str)) : list nat := fold_left widen rows (map cell_width headers).

Definition dash : N := 45%N.
Definition plus : N := 43%N.
Definition bar : N := 124%N.
Definition blank_char : N := 32%N.
(* _stringify_hrule: one column of padding on either side *)
Definition hrule (ws : list nat) : str := plus :: flat_map (fun w => repeat dash (1 + w + 1) ++ [plus]) ws.
(* _justify with align 'l' *)
Definition justify (w : nat) (l : str) : str := l ++ repeat blank_char (w - List.length l).
(* one line of a row: the y-th line of each cell, if it has one *)
Definition row_line (ws : list nat) (row : list str) (y : nat) : str :=
  bar :: flat_map (fun wc => [blank_char] ++ justify (fst wc) (nth y (split_lines (snd wc)) []) ++ [blank_char; bar]) (combine ws row).
(* _stringify_row, valign 't' *)
Definition row_lines (ws : list nat) (row : list str) : list str :=
  map (row_line ws row) (seq 0 (list_max (map cell_height row))).
(* get_string, and str() of a table *)
Definition get_string (rows : list table_row) : str :=
  let rows := map cells rows in
  let ws := widths rows in
  join_lines ([hrule ws; row_line ws headers 0; hrule ws] ++ flat_map (row_lines ws) rows ++ [hrule ws]).

(* termcolor.colored(text, colour): escape sequences, unless it finds that it had better not (the output is no terminal,
   NO_COLOR is set, ...) *)
Definition colour_code (c : str) : str := if str_eqb c (lit "green") then lit "32" else lit "31".
Definition colored (colours : bool) (c t : str) : str :=
  if colours then 27%N :: lit "[" ++ colour_code c ++ lit "m" ++ t ++ 27%N :: lit "[0m" else t.

(* print(x): str(x) and a line end *)
Definition print (colours : bool) (e : event) : str :=
  match e with
  | EvPrint s => s
  | EvTable rows => get_string rows
  | EvColored c t => colored colours c t
  end ++ [nl].
Definition console (colours : bool) (evs : list event) : str := flat_map (print colours) evs.
(* what Record.decode returns: table.get_string() (record.py:173) *)
Definition decode_text (r : rec) (output : bool) : M str := rows <- decode r output ;; ret (get_string rows).
