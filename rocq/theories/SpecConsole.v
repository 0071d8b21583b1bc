(* Text on the console, and tables drawn in it. *)
From Coq Require Import List String NArith.
From Verif Require Import PyBase Decoder Record Api Spec SpecNum SpecApi.
Import ListNotations.
Open Scope string_scope.
Open Scope list_scope.
Local Open Scope nat_scope.

Definition visible (c : N) : Prop := (32 <= c <= 126)%N.
Definition visible_text (s : str) : Prop := Forall visible s.
(* a text made of these lines *)
Definition written (lines : list str) (text : str) : Prop := text = List.concat (map (fun l => l ++ [10%N]) lines).

(* s and spaces, w columns in all *)
Definition padded (w : nat) (s t : str) : Prop := List.length t = w /\ exists n, t = s ++ repeat 32%N n.
Definition row_text (w1 w2 w3 : nat) (row : str * str * str) (line : str) : Prop :=
  exists a b c, padded w1 (fst (fst row)) a /\ padded w2 (snd (fst row)) b /\ padded w3 (snd row) c /\
    line = lit "| " ++ a ++ lit " | " ++ b ++ lit " | " ++ c ++ lit " |".
Definition rule_text (w1 w2 w3 : nat) : str :=
  let dashes w := repeat 45%N (w + 2) in lit "+" ++ dashes w1 ++ lit "+" ++ dashes w2 ++ lit "+" ++ dashes w3 ++ lit "+".
(* no cell is wider than w, and one is that wide *)
Definition fits (w : nat) (cells : list str) : Prop := Forall (fun c => List.length c <= w) cells /\ Exists (fun c => List.length c = w) cells.
(* A table under the given heading.  The cells of a row of the text are single lines. *)
Definition table_text (head : str * str * str) (rows : list (str * str * str)) (lines : list str) : Prop :=
  exists w1 w2 w3 h body,
    fits w1 (map (fun r => fst (fst r)) (head :: rows)) /\ fits w2 (map (fun r => snd (fst r)) (head :: rows)) /\ fits w3 (map snd (head :: rows)) /\
    row_text w1 w2 w3 head h /\ Forall2 (row_text w1 w2 w3) rows body /\
    lines = [rule_text w1 w2 w3; h; rule_text w1 w2 w3] ++ body ++ [rule_text w1 w2 w3].
Definition heading : str * str * str := (lit "Field", lit "Value", lit "Decoded").

(* the same but for spaces at the end *)
Definition same_but_spaces (s t : str) : Prop := exists u n m, s = u ++ repeat 32%N n /\ t = u ++ repeat 32%N m.
(* the lines of a text *)
Definition one_line_text (s : str) : Prop := Forall (fun c => c <> 10%N) s.
Definition lines_in (s : str) (ls : list str) : Prop := ls <> [] /\ Forall one_line_text ls /\ written ls (s ++ [10%N]).
(* a row whose last cell has several lines takes several lines *)
Definition broken (name value : str) (ls : list str) : list (str * str * str) :=
  match ls with [] => [] | l :: ls' => (name, value, l) :: map (fun l' => ([], [], l')) ls' end.

(* the text of a decoded value *)
Definition value_text (d : dval) (s : str) : Prop := match d with DStr t => s = t | DFloat x => s = repr_fl x | DNone => s = lit "None" end.
(* the rows of a field: its name, its value in quotes, and the lines of what its decoder says *)
Definition field_rows (v : recview) (f : field) (rows : list (str * str * str)) : Prop :=
  exists o d s ls, run_fn (f_fn f) (f_value f) v = (o, Ok d) /\ value_text d s /\ lines_in s ls /\
    rows = broken (f_name f) (lit "'" ++ f_value f ++ lit "'") ls.
(* a line that no table starts with *)
Definition message (s : str) : Prop := visible_text s /\ s <> [] /\ forall u, s <> 43%N :: u.
(* names and values of a record *)
Definition names_values (r : rec) : list (str * str) := map (fun f => (f_name f, f_value f)) (fields r).
(* the tables a line of a file puts on the console *)
Inductive line_shows (line : str) : list (list (str * str)) -> Prop :=
| shows_table : forall o r, read new_record line = (o, r, Ok true) -> line_shows line [names_values r]
| shows_none : returned (read new_record line) <> Ok true -> line_shows line [].
(* the last line of a search *)
Definition in_colour (colours : bool) (colour : str) (s t : str) : Prop :=
  if colours then exists code, (colour = lit "green" /\ code = lit "[32m" \/ colour = lit "red" /\ code = lit "[31m") /\ t = [27%N] ++ code ++ s ++ [27%N] ++ lit "[0m" else t = s.
Definition last_line (colours : bool) (fl : filters) (n : nat) (line : str) : Prop :=
  exists d t, is_natural (N.of_nat n) d /\ shown_filters fl t /\
    in_colour colours (if Nat.eqb n 0 then lit "red" else lit "green") (lit "Found " ++ d ++ lit " records that contain " ++ t) line.
