(* Codes that are shown alike. *)
From Coq Require Import List String.
From Verif Require Import PyBase Decoder SpecLayouts Spec SpecCodes SpecDecode.
Import ListNotations.
Open Scope string_scope.
Open Scope list_scope.

(* two codes of one field with one text *)
Definition same_text : list (fn * (string * string)) := [(F020, ("E", " ")); (F020, (" ", "E")); (F101, ("TCA", "TMA")); (F101, ("TMA", "TCA"))].
(* neither value is in the list of the field *)
Definition both_unknown (cf : code_field) (v v' : str) : Prop := cf_other cf = Unknown /\ ~ listed (cf_codes cf) v /\ ~ listed (cf_codes cf) v'.
(* fields that show a number *)
Definition number_fns : list fn := altitude_fns ++ [F054; F034; F045; F103; F026; F027; F062; F135; F269].
