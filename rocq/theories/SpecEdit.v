(* Changing a record in place. *)
From Coq Require Import List String NArith.
From Verif Require Import PyBase Decoder Layouts Record SpecLayouts Spec.
Import ListNotations.
Open Scope string_scope.
Open Scope list_scope.
Local Open Scope nat_scope.

(* t' is t with other characters in some of the columns ks *)
Definition changed_in (ks : list nat) (t t' : str) : Prop := List.length t' = List.length t /\ forall k, ~ In k ks -> column t' k = column t k.
(* the columns that tell what kind of record a line is: the first, the section code, the nine numbers at the end, the continuation number
   and the application type; column 13 only if columns 5 and 6 do not tell the section *)
Definition key_column (t code : str) (k : nat) : Prop :=
  In k ([1; 5; 6] ++ seq 124 9) \/ (k = 13 /\ columns t [5; 6] <> code) \/
  exists cont app, type_info code cont app /\ (cont = Some k \/ In k app).
Definition keeps_keys (t code : str) (ks : list nat) : Prop := forall k, In k ks -> ~ key_column t code k.
(* the fields that are read from t, by the catalogue *)
Definition layout_of (t : str) (r : rec) (cells : list cell) : Prop :=
  exists cont app, type_info (ident r) cont app /\ layout_for (ident r) (primary r) (columns t app) = Some cells.
(* a field whose columns stand together in the line: all but the section code of a section that is told by columns 5 and 13 *)
Definition in_one_piece (r : rec) (f : field) : Prop := f_name f = lit "Section Code" -> exists s, ident r = lit s /\ shows_5_13 s = false.
