(* C76: lines that look alike. *)
From Coq Require Import List String NArith Bool Arith Lia.
From Verif Require Import PyBase Decoder Layouts Record Api Console SpecLayouts Spec SpecApi SpecRecord SpecColumns SpecJson SpecConsole SpecEdit SpecAlike StrFacts ReadProps ReadProps2 ConsoleProps AlikeProps Samples Properties1 Properties14.
Import ListNotations.
Open Scope string_scope.
Open Scope list_scope.
Local Open Scope nat_scope.

(* ================= C76 ================= *)
(* records with the same names and values are of one layout, have the same fields, and agree on every column that is shown; their section is the same too, or both are procedures of an airport, or of a heliport *)
Theorem C76_fields : forall r1 r2 line1 line2 t1 t2 o1 o2 r1' r2', record_line line1 t1 -> record_line line2 t2 -> read r1 line1 = (o1, r1', Ok true) -> read r2 line2 = (o2, r2', Ok true) ->
  names_values r1' = names_values r2' ->
  exists cells, layout_of t1 r1' cells /\ layout_of t2 r2' cells /\ fields r1' = fields r2' /\ (forall k, shown_in cells k -> column t1 k = column t2 k) /\ (ident r1' = ident r2' \/ both_procedures (ident r1') (ident r2')).
Proof. exact c76_fields. Qed.
Print Assumptions C76_fields.
(* so it is for two lines of which parse writes the same on the console *)
Theorem C76_console : forall colours line line' t t' o o' r r', visible_text line -> visible_text line' -> record_line line t -> record_line line' t' ->
  read new_record line = (o, r, Ok true) -> read new_record line' = (o', r', Ok true) -> succeeds (parse line true) -> succeeds (parse line' true) ->
  console colours (output_of (parse line true)) = console colours (output_of (parse line' true)) ->
  exists cells, layout_of t r cells /\ layout_of t' r' cells /\ fields r = fields r' /\ (forall k, shown_in cells k -> column t k = column t' k) /\ (ident r = ident r' \/ both_procedures (ident r) (ident r')).
Proof.
  intros colours line line' t t' o o' r r' V V' L L' R R' P P' C.
  pose proof (C70_lines colours line line' [names_values r] [names_values r'] V V' P P' (shows_table _ _ _ R) (shows_table _ _ _ R') C) as E. injection E as E.
  exact (c76_fields _ _ _ _ _ _ _ _ _ _ L L' R R' E).
Qed.
Print Assumptions C76_console.
(* and for two records with the same JSON, if no field name comes twice; nothing has to be known of the layouts *)
Theorem C76_json : forall r1 r2 line1 line2 t1 t2 o1 o2 r1' r2' single, record_line line1 t1 -> record_line line2 t2 -> scalar_text t1 -> scalar_text t2 ->
  read r1 line1 = (o1, r1', Ok true) -> read r2 line2 = (o2, r2', Ok true) -> NoDup (map f_name (fields r1')) -> NoDup (map f_name (fields r2')) ->
  snd (json r1' false single) = snd (json r2' false single) -> names_values r1' = names_values r2'.
Proof. exact c76_json. Qed.
Print Assumptions C76_json.
(* the same fields in the same section: the same table *)
Theorem C76_table : forall r1 r2 out1 out2 o1 o2 rows1 rows2, fields r1 = fields r2 -> ident r1 = ident r2 -> decode r1 out1 = (o1, Ok rows1) -> decode r2 out2 = (o2, Ok rows2) -> rows1 = rows2.
Proof. exact c76_table. Qed.
Print Assumptions C76_table.

(* the section need not be the same: column 6 of a procedure is not shown, but the route type is looked up by it *)
Definition l_approach : str := lit "SUSAP KSEAK1FI16R  SPAE   010PAE  K1D 1V       FC PAE K1      0000000016100131    + 02000     18000                        047128504".
Definition l_approach_d : str := firstn 5 l_approach ++ lit "D" ++ skipn 6 l_approach.
Definition decoded_as (r : rec) (name text : str) : Prop := exists o rows f, decode r false = (o, Ok rows) /\ In (name, f, DStr text) rows.
Theorem C76_section_refuted : let r1 := after (read new_record l_approach) in let r2 := after (read new_record l_approach_d) in
  record_line l_approach l_approach /\ record_line l_approach_d l_approach_d /\ returned (read new_record l_approach) = Ok true /\ returned (read new_record l_approach_d) = Ok true /\
  names_values r1 = names_values r2 /\ In (lit "Section Code", lit "PF") (names_values r1) /\ ident r1 = lit "PF" /\ ident r2 = lit "PD" /\
  decoded_as r1 (lit "Route Type") (lit "VOR Approach using VORDME/VORTAC") /\ decoded_as r2 (lit "Route Type") (lit "FMS SID Enroute Transition").
Proof.
  cbv zeta. split; [sample|]. split; [sample|]. split; [vm_compute; reflexivity|]. split; [vm_compute; reflexivity|]. split; [vm_compute; reflexivity|]. split; [vm_compute; tauto|]. split; [vm_compute; reflexivity|]. split; [vm_compute; reflexivity|].
  split; do 3 eexists; (split; [vm_compute; reflexivity|cbn; tauto]).
Qed.
Print Assumptions C76_section_refuted.
(* the columns shown of a line are told by its names and values: column 6 of Seattle is not, the others of "KSEA" are *)
Example C76_ex : exists cells, layout_of l_sea (after (read new_record l_sea)) cells /\ ~ shown_in cells 6 /\ shown_in cells 7 /\ column l_sea 7 = Some 75%N /\
  ~ both_procedures (lit "PA") (lit "PA") /\ both_procedures (lit "PF") (lit "PD") /\ ~ both_procedures (lit "PF") (lit "HF") /\
  names_values (after (read new_record l_sea)) <> names_values (after (read new_record l_pa_pf)).
Proof.
  eexists. split; [exists (Some 22), [23]; split; [exists "PA"; split; [cbn; tauto|reflexivity]|vm_compute; reflexivity]|].
  split; [intros (c & I & K); cbn in I; decompose [or] I; subst; cbn in K; lia|]. split; [eexists; split; [do 3 right; left; reflexivity|cbn; tauto]|]. split; [reflexivity|].
  split; [intros (l & s & s' & L & I & _ & E & _); cbn in L; decompose [or] L; subst; cbn in I; decompose [or] I; subst; try discriminate; contradiction|].
  split; [exists ["PD"; "PE"; "PF"], "PF", "PD"; cbn; tauto|].
  split; [intros (l & s & s' & L & I & I' & E & E'); cbn in L; decompose [or] L; subst; cbn in I, I'; decompose [or] I; subst; try discriminate; try contradiction; decompose [or] I'; subst; try discriminate; contradiction|].
  intros E. apply (f_equal (map snd)) in E. vm_compute in E. discriminate.
Qed.
