(* The characters of what is printed. *)
From Coq Require Import List String NArith.
From Verif Require Import PyBase Decoder Record Api Spec SpecApi SpecConsole.
Import ListNotations.
Open Scope list_scope.

(* a character of a text that is printed, or of a cell of a table that is printed *)
Inductive mentions : event -> N -> Prop :=
| in_print : forall s c, In c s -> mentions (EvPrint s) c
| in_colored : forall colour s c, In c s -> mentions (EvColored colour s) c
| in_name : forall rows name value d c, In (name, value, d) rows -> In c name -> mentions (EvTable rows) c
| in_value : forall rows name value d c, In (name, value, d) rows -> In c value -> mentions (EvTable rows) c
| in_decoded : forall rows name value d s c, In (name, value, d) rows -> value_text d s -> In c s -> mentions (EvTable rows) c.
Definition ascii_char (c : N) : Prop := (c < 128)%N.
(* a character of what is searched for *)
Definition in_filters (fl : filters) (c : N) : Prop := match fl with FStr s => In c s | FList l => exists s, In s l /\ In c s | FOther s => In c s end.
