(* What decoding a whole record does. *)
From Coq Require Import List String NArith.
From Verif Require Import PyBase Decoder Record SpecLayouts Spec SpecNum SpecCodes SpecDecode.
Import ListNotations.
Open Scope string_scope.
Open Scope list_scope.
Local Open Scope nat_scope.

(* the field has the columns its decoder needs *)
Definition wide (f : field) : Prop := width (f_fn f) <= List.length (f_value f).
(* the states a Record can be in: new, or after any reads *)
Inductive reachable : rec -> Prop :=
| reach_new : reachable new_record
| reach_read : forall r line, reachable r -> reachable (after (read r line)).
Definition decodes (f : field) : Prop := ~ refuses (f_fn f) (f_value f) /\ ~ exits (f_fn f) (f_value f).
Definition chatty (f : field) : Prop := talks (f_fn f) (f_value f).
Definition quoted_value (f : field) : str := lit "'" ++ f_value f ++ lit "'".
(* row x of the table is about field f *)
Definition row_for (v : recview) (f : field) (row : table_row) : Prop :=
  exists o d, run_fn (f_fn f) (f_value f) v = (o, Ok d) /\ row = (f_name f, quoted_value f, d).
Definition exit_message (v : recview) (f : field) (o : list event) : Prop :=
  f_fn f = F034 /\ exists t, trimmed (f_value f) t /\
  o = [EvPrint (lit "Unsupported VOR/NDB Frequency: """ ++ t ++ lit """");
       EvPrint (lit "from record type """ ++ rv_ident v ++ lit """: """ ++ rv_raw v ++ lit """")].
Inductive rows_outcome (v : recview) (fs : list field) : list event -> result (list table_row) -> Prop :=
| rows_ok : forall o rows, Forall decodes fs -> Forall2 (row_for v) fs rows -> (o <> [] <-> Exists chatty fs) ->
    rows_outcome v fs o (Ok rows)
| rows_refused : forall o pre f post, fs = pre ++ f :: post -> Forall decodes pre -> refuses (f_fn f) (f_value f) ->
    (o <> [] <-> Exists chatty pre) -> rows_outcome v fs o (Err ValueError)
| rows_exit : forall o o' pre f post, fs = pre ++ f :: post -> Forall decodes pre -> exits (f_fn f) (f_value f) ->
    (o <> [] <-> Exists chatty pre) -> exit_message v f o' -> rows_outcome v fs (o ++ o') (Err SystemExit).
(* a framed line with a continuation number that is neither a letter nor a digit *)
Definition bad_number (line : str) : Prop := exists t s k app, trimmed line t /\ framed t /\ section_is line (lit s) /\
  In (s, Some k, app) cont_columns /\ ~ alnum_column t k.
(* the decoders that raise ValueError on some values *)
Definition refusing : list fn :=
  [F002; F008; F020; F021; F022; F023; F024; F025; F026; F027; F032; F034; F039; F045; F062; F072; F082; F103; F108; F135; F178; F182; F269; F270].
