(* Lines that look alike. *)
From Coq Require Import List String NArith.
From Verif Require Import PyBase Spec SpecLayouts.
Import ListNotations.
Open Scope string_scope.
Open Scope list_scope.

(* SIDs, STARs and approaches have one layout between them *)
Definition procedure_sections : list (list string) := [["PD"; "PE"; "PF"]; ["HD"; "HE"; "HF"]].
Definition both_procedures (a b : str) : Prop := exists l s s', In l procedure_sections /\ In s l /\ In s' l /\ a = lit s /\ b = lit s'.
