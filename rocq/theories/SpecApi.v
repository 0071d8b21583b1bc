(* What reading and searching files is expected to do. *)
From Coq Require Import List String NArith.
From Verif Require Import PyBase Decoder Layouts Record Api Spec SpecNum SpecLiteral.
Import ListNotations.
Open Scope list_scope.
Local Open Scope nat_scope.

(* ---- lines ---- *)
Definition line_ends : list str := [[10]; [13]; [13; 10]]%N.
Definition one_line (l : str) : Prop := Forall (fun c => c <> 10%N /\ c <> 13%N) l.
(* the text consists of these lines, each with its line end; the last may lack one *)
Inductive lines_of : str -> list str -> Prop :=
| lines_none : lines_of [] []
| lines_last : forall l, one_line l -> l <> [] -> lines_of l [l]
| lines_more : forall l e rest ls, one_line l -> In e line_ends -> (e = [13%N] -> forall x, rest <> 10%N :: x) ->
    lines_of rest ls -> lines_of (l ++ e ++ rest) (l :: ls).

(* ---- search ---- *)
Definition occurs (s t : str) : Prop := exists a b, t = a ++ s ++ b.
Definition matches (fl : filters) (t : str) : Prop :=
  match fl with
  | FStr s => occurs s t
  | FList l => Forall (fun s => occurs s t) l
  | FOther _ => True
  end.
(* what a line contributes to the output of search, and to the number of records found *)
Inductive report (fl : filters) (line : str) : list event -> nat -> Prop :=
| rep_found : forall t, returned (read new_record line) = Ok true -> trimmed line t -> matches fl t -> report fl line [EvPrint t] 1
| rep_other : forall t, returned (read new_record line) = Ok true -> trimmed line t -> ~ matches fl t -> report fl line [] 0
| rep_none : returned (read new_record line) = Ok false -> report fl line (printed (read new_record line)) 0.
Definition reads (line : str) : Prop := exists b, returned (read new_record line) = Ok b.
(* the last line printed: how many records, in which colour, and what was asked for *)
Definition shown_filters (fl : filters) (t : str) : Prop :=
  match fl with
  | FStr s => t = s
  | FList l => Forall text l -> list_literal t l
  | FOther s => t = s
  end.
Definition summary (fl : filters) (n : nat) (ev : event) : Prop :=
  exists colour d t, ev = EvColored colour (lit "Found " ++ d ++ lit " records that contain " ++ t) /\
    (colour = if Nat.eqb n 0 then lit "red" else lit "green") /\ is_natural (N.of_nat n) d /\ shown_filters fl t.
(* the same lines printed and the same exception or number of records *)
Definition same_findings (fl : filters) (m : M unit) (fl' : filters) (m' : M unit) : Prop :=
  (exists o e, m = (o, Err e) /\ m' = (o, Err e)) \/
  (exists o n ev ev', m = (o ++ [ev], Ok tt) /\ m' = (o ++ [ev'], Ok tt) /\ summary fl n ev /\ summary fl' n ev').
(* xs without some of its elements *)
Inductive part_of {A} : list A -> list A -> Prop :=
| part_nil : part_of [] []
| part_keep : forall x xs ys, part_of xs ys -> part_of (x :: xs) (x :: ys)
| part_drop : forall x xs ys, part_of xs ys -> part_of xs (x :: ys).
(* the same file system with another text at one path *)
Definition with_text (w : world) (path t : str) : Prop := open_text w path = Ok t.

(* ---- runs ---- *)
Definition succeeds {A} (m : M A) : Prop := exists o x, m = (o, Ok x).
Definition output_of {A} (m : M A) : list event := fst m.
