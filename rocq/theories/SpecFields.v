(* What C64-C67 say about the fields of a record. *)
From Coq Require Import List String Ascii NArith Bool Arith.
From Verif Require Import PyBase Decoder Layouts Record SpecLayouts Spec SpecColumns SpecNames.
Import ListNotations.
Open Scope string_scope.
Open Scope list_scope.
Local Open Scope nat_scope.

(* the name without a number such as (2) at its end *)
Definition digit_ascii (c : ascii) : bool := (Ascii.leb "0" c && Ascii.leb c "9")%char.
Fixpoint digits_and_paren (s : string) : bool :=
  match s with
  | String c EmptyString => Ascii.eqb c ")"
  | String c s' => digit_ascii c && digits_and_paren s'
  | EmptyString => false
  end.
Definition numbering (s : string) : bool :=
  match s with
  | String a (String b (String d s')) => Ascii.eqb a " " && Ascii.eqb b "(" && digit_ascii d && digits_and_paren s'
  | _ => false
  end.
Fixpoint base_name (s : string) : string :=
  match s with
  | EmptyString => EmptyString
  | String c s' => if numbering s then EmptyString else String c (base_name s')
  end.

(* layouts whose fields do not come in the order of their columns *)
Definition unordered : list layout_key := [("HK", Some false, Some "A"); ("PK", Some false, Some "A"); ("R ", None, None)].
Definition first_column (ks : list nat) : nat := hd 0 ks.
Fixpoint ascending (l : list nat) : Prop :=
  match l with a :: ((b :: _) as l') => a <= b /\ ascending l' | _ => True end.
