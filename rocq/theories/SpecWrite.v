(* Writing records. *)
From Coq Require Import List String NArith.
From Verif Require Import PyBase Decoder Layouts Record SpecLayouts Spec SpecColumns SpecEdit.
Import ListNotations.
Open Scope string_scope.
Open Scope list_scope.
Local Open Scope nat_scope.

(* a value for each field of a layout, as long as the field, so that two fields that share a column have the same character there *)
Definition fills (cells : list cell) (vs : list str) : Prop :=
  Forall2 (fun c v => List.length v = List.length (c_cols c)) cells vs /\
  forall c v c' v' p q k, In (c, v) (combine cells vs) -> In (c', v') (combine cells vs) -> nth_error (c_cols c) p = Some k -> nth_error (c_cols c') q = Some k -> nth_error v p = nth_error v' q.
(* the values have the characters of t in the columns that tell what kind of record it is *)
Definition same_keys (t code : str) (cells : list cell) (vs : list str) : Prop :=
  forall c v p k, In (c, v) (combine cells vs) -> nth_error (c_cols c) p = Some k -> key_column t code k -> nth_error v p = column t k.
Definition fields_with (cells : list cell) (vs : list str) : list field := map (fun cv => Field (lit (c_name (fst cv))) (snd cv) (c_fn (fst cv))) (combine cells vs).
