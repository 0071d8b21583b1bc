(* C01-C15, C45: reading a record.  Statements only use Spec.v and the API of Record.v / Api.v. *)
From Coq Require Import List String NArith Bool Arith Lia.
From Verif Require Import PyBase Decoder Layouts Record Api SpecLayouts Spec StrFacts ReadFacts ReadProps ReadProps2 ReadProps3 ApiProps Samples.
Import ListNotations.
Open Scope string_scope.
Open Scope list_scope.
Local Open Scope nat_scope.

Ltac compute_all := cbv zeta; repeat match goal with
  | |- _ /\ _ => split
  | |- In (Field _ _ _) _ => apply has_field
  | |- _ = _ => vm_compute; reflexivity
  | |- _ <> _ => vm_compute; discriminate
  end.
Ltac sample := apply record_line_self; vm_compute; reflexivity.

(* ================= C01 ================= *)
Theorem C01_unframed_lines_are_refused : forall line t, trimmed line t -> ~ framed t ->
  (forall r, read r line = ([], r, Ok false)) /\ (forall output, parse line output = ([], Ok false)).
Proof. intros. split; intros; [eapply c01_read|eapply c01_parse]; eauto. Qed.
Print Assumptions C01_unframed_lines_are_refused.
(* and what is accepted is framed *)
Theorem C01_accepted_lines_are_framed : forall r line o r', read r line = (o, r', Ok true) ->
  exists t, trimmed line t /\ framed t /\ raw r' = t.
Proof.
  intros r line o r' H. apply read_true_inv in H. exists (strip line). split; [apply strip_trimmed|]. split.
  - apply validate_framed. apply H.
  - apply H.
Qed.
Print Assumptions C01_accepted_lines_are_framed.
Example C01_ex_short : exists line t, trimmed line t /\ ~ framed t /\ List.length t = 131 /\ line <> t.
Proof.
  exists (lit "  " ++ firstn 131 l_sea), (firstn 131 l_sea). split; [|split; [|split; [reflexivity|vm_compute; discriminate]]].
  - assert (E : strip (lit "  " ++ firstn 131 l_sea) = firstn 131 l_sea) by (vm_compute; reflexivity).
    rewrite <- E at 2. apply strip_trimmed.
  - intro F. apply framed_length in F. vm_compute in F. discriminate.
Qed.
Example C01_ex_accepted : returned (read new_record (l_sea ++ [13; 10]%N)) = Ok true.
Proof. vm_compute. reflexivity. Qed.

(* ================= C02 ================= *)
Theorem C02_acceptance : forall line, no_leading_space line ->
  (returned (read new_record line) = Ok true <->
   exists t s cont app,
     record_line line t /\ section_is t (lit s) /\ In (s, cont, app) cont_columns /\
     (forall k, cont = Some k -> alnum_column t k) /\
     ((exists k, cont = Some k /\ zero_or_one (columns t [k]) = true) \/ supports s (columns t app))).
Proof.
  intros line HL. split.
  - intro H. destruct (validate line) eqn:V.
    + apply validate_framed in V. pose proof (no_lead_record_line _ HL V) as HR.
      apply (c02 _ _ HR) in H as [s [cont [app H]]]. exists (strip line), s, cont, app. split; auto.
    + unfold read in H. rewrite V in H. discriminate.
  - intros [t [s [cont [app [HR H]]]]]. apply (c02 _ _ HR). eauto.
Qed.
Print Assumptions C02_acceptance.
Example C02_ex_primary : record_line l_sea l_sea /\ section_is l_sea (lit "PA") /\ In ("PA", Some 22, [23]) cont_columns /\
  alnum_column l_sea 22 /\ zero_or_one (columns l_sea [22]) = true.
Proof.
  split; [sample|]. split; [apply section_of_is; vm_compute; reflexivity|]. split; [vm_compute; tauto|]. split; [|reflexivity].
  exists 49%N. split; reflexivity.
Qed.
Example C02_ex_continuation : returned (read new_record l_sea_cont) = Ok true /\ zero_or_one (columns l_sea_cont [22]) = false /\
  supports "PA" (columns l_sea_cont [23]).
Proof. split; [vm_compute; reflexivity|]. split; [reflexivity|]. exists (Some ["A"; "P"; "Q"]). split; [vm_compute; tauto|]. exists "P". split; [vm_compute; tauto|reflexivity]. Qed.
Example C02_ex_refused : returned (read new_record l_sea_badcont) = Ok false /\ returned (read new_record l_sea_contx) = Ok false.
Proof. split; vm_compute; reflexivity. Qed.

(* ================= C03 ================= *)
Theorem C03_identification : forall r line t o r', record_line line t -> read r line = (o, r', Ok true) -> section_is t (ident r').
Proof. exact c03_success_t. Qed.
Print Assumptions C03_identification.
(* with leading whitespace the columns are those of the line as given, see C05 *)
Theorem C03_identification_any_line : forall r line o r', read r line = (o, r', Ok true) -> section_is line (ident r').
Proof. exact c03_success. Qed.
Print Assumptions C03_identification_any_line.
Theorem C03_unknown_section : forall r line t, record_line line t -> no_section t -> read r line = ([], set_raw t r, Ok false).
Proof. exact c03_unknown. Qed.
Print Assumptions C03_unknown_section.
Theorem C03_sections_count : NoDup sections /\ List.length sections = 42.
Proof. split; [|reflexivity]. repeat constructor; cbn [In]; intuition discriminate. Qed.
Print Assumptions C03_sections_count.
Example C03_ex : section_is l_sea (lit "PA") /\ section_is l_acv (lit "D ") /\ no_section l_no_sect /\ record_line l_no_sect l_no_sect.
Proof.
  split; [apply section_of_is; vm_compute; reflexivity|]. split; [apply section_of_is; vm_compute; reflexivity|].
  split; [apply section_of_none; vm_compute; reflexivity|sample].
Qed.
(* both pairs of columns supported: columns 5-6 win *)
Example C03_ex_precedence : supported (columns l_pa_pf [5; 6]) /\ supported (columns l_pa_pf [5; 13]) /\
  columns l_pa_pf [5; 6] <> columns l_pa_pf [5; 13] /\ ident (after (read new_record l_pa_pf)) = lit "PA".
Proof.
  split; [apply supported_iff; vm_compute; reflexivity|]. split; [apply supported_iff; vm_compute; reflexivity|].
  split; [vm_compute; discriminate|vm_compute; reflexivity].
Qed.

(* ================= C04 ================= *)
Theorem C04_trailing_whitespace : forall line w, whitespace w ->
  (forall r, read r (line ++ w) = read r line) /\ (forall output, parse (line ++ w) output = parse line output).
Proof. intros. split; intros; [apply read_trailing|apply parse_trailing]; auto. Qed.
Print Assumptions C04_trailing_whitespace.
Example C04_ex : whitespace [32; 13; 10; 8195]%N /\ returned (read new_record (l_sea ++ [32; 13; 10; 8195]%N)) = Ok true.
Proof.
  split; [repeat constructor|vm_compute; reflexivity].
Qed.

(* ================= C05 ================= *)
(* the expected claim: leading whitespace is as harmless as trailing whitespace; it is false *)
Theorem C05_leading_whitespace_refuted :
  (* a line that reads as grid MORA is, after one blank, identified as a waypoint and parse raises *)
  (exists line w, whitespace w /\ record_line line line /\ parse line false = ([], Ok true) /\
     ident (after (read new_record line)) = lit "AS" /\ ident (after (read new_record (w ++ line))) = lit "EA" /\
     parse (w ++ line) false = ([], Err ValueError)) /\
  (* a readable line is refused *)
  (exists line w, whitespace w /\ parse line false = ([], Ok true) /\ parse (w ++ line) false = ([], Ok false)) /\
  (* an unreadable line becomes readable *)
  (exists line w, whitespace w /\ returned (read new_record line) = Ok false /\ returned (read new_record (w ++ line)) = Ok true).
Proof.
  split; [|split].
  - exists l_mora_e, [32%N]. split; [repeat constructor|]. split; [sample|]. compute_all.
  - exists l_sea, [32%N]. split; [repeat constructor|]. split; vm_compute; reflexivity.
  - exists l_shifted, [32%N]. split; [repeat constructor|]. split; vm_compute; reflexivity.
Qed.
Print Assumptions C05_leading_whitespace_refuted.
(* what does hold: everything but the continuation number is cut from the line as given ... *)
Theorem C05_read_is_by_columns_of_the_given_line : forall r line t, trimmed line t -> framed t ->
  read r line = expected_read r line t.
Proof. exact c05_read. Qed.
Print Assumptions C05_read_is_by_columns_of_the_given_line.
(* ... and so parse never succeeds on a line that starts with whitespace *)
Theorem C05_parse_never_true : forall line output c rest, line = c :: rest -> space_char c = true ->
  snd (parse line output) <> Ok true.
Proof. intros line output c rest -> H. apply c05_parse. exact H. Qed.
Print Assumptions C05_parse_never_true.
Example C05_ex : trimmed (32%N :: l_mora_e) l_mora_e /\ framed l_mora_e.
Proof.
  split; [|assert (record_line l_mora_e l_mora_e) as [F _] by sample; exact F].
  assert (E : strip (32%N :: l_mora_e) = l_mora_e) by (vm_compute; reflexivity). rewrite <- E at 2. apply strip_trimmed.
Qed.

(* ================= C06 ================= *)
Theorem C06_fields_are_columns : forall r line t o r', record_line line t -> read r line = (o, r', Ok true) ->
  exists cells cont app,
    type_info (ident r') cont app /\
    layout_for (ident r') (primary r') (columns t app) = Some cells /\
    fields r' = map (field_of t) cells /\
    Forall (fun f => exists ks, f_value f = columns t ks /\ List.length (f_value f) = List.length ks /\ ks <> [] /\
                     (ks = [5; 13] \/ exists a n, ks = seq a n /\ 1 <= a /\ a + n <= 133)) (fields r').
Proof. intros r line t o r' H1 H2. destruct (c06 _ _ _ _ _ H1 H2) as [cells [cont [app [A [B [C D]]]]]]. exists cells, cont, app. auto. Qed.
Print Assumptions C06_fields_are_columns.
Example C06_ex : let r := after (read new_record l_sea) in
  returned (read new_record l_sea) = Ok true /\ List.length (fields r) = 28 /\
  nth_error (fields r) 25 = Some (Field (lit "Airport Name") (columns l_sea (seq 94 30)) F071) /\
  f_value (nth 25 (fields r) (Field [] [] F002)) = lit "SEATTLE-TACOMA INTL           ".
Proof. compute_all. Qed.

(* ================= C07 ================= *)
Theorem C07_first_and_last_fields : forall r line t o r', record_line line t -> read r line = (o, r', Ok true) ->
  exists mid, 6 <= List.length mid /\
  fields r' = [Field (lit "Record Type") (columns t [1]) F002] ++ mid ++
    [Field (lit "File Record No") (columns t [124; 125; 126; 127; 128]) F031;
     Field (lit "Cycle Date") (columns t [129; 130; 131; 132]) F032].
Proof. exact c07. Qed.
Print Assumptions C07_first_and_last_fields.
Example C07_ex : map f_value (fields (after (read new_record l_restriction))) <> [] /\
  last (map f_value (fields (after (read new_record l_restriction)))) [] = lit "8913".
Proof. split; [vm_compute; discriminate|vm_compute; reflexivity]. Qed.

(* ================= C09 ================= *)
Theorem C09_when_read_raises : forall line, no_leading_space line ->
  ((exists e, returned (read new_record line) = Err e) <->
   exists t s cont app, record_line line t /\ In s ["ER"; "EU"; "EV"; "HV"; "PP"] /\ section_is t (lit s) /\ type_info (lit s) cont app /\
     (forall k, cont = Some k -> alnum_column t k /\ zero_or_one (columns t [k]) = false) /\
     ~ supports s (columns t app)).
Proof.
  intros line HL. split.
  - intro H. destruct (validate line) eqn:V.
    + apply validate_framed in V. pose proof (no_lead_record_line _ HL V) as HR.
      apply (c09 _ _ HR) in H as [s [cont [app H]]]. exists (strip line), s, cont, app. split; auto.
    + unfold read in H. rewrite V in H. destruct H as [e H]. discriminate.
  - intros [t [s [cont [app [HR H]]]]]. apply (c09 _ _ HR). eauto 8.
Qed.
Print Assumptions C09_when_read_raises.
Theorem C09_read_raises_only_ValueError : forall r line e, returned (read r line) = Err e -> e = ValueError.
Proof. exact read_raises_value_error. Qed.
Print Assumptions C09_read_raises_only_ValueError.
Example C09_ex : returned (read new_record l_airway_x) = Err ValueError /\ record_line l_airway_x l_airway_x /\
  section_is l_airway_x (lit "ER") /\ ~ supports "ER" (columns l_airway_x [40]).
Proof.
  split; [vm_compute; reflexivity|]. split; [sample|]. split; [apply section_of_is; vm_compute; reflexivity|].
  rewrite supports_iff. vm_compute. discriminate.
Qed.

(* ================= C10 ================= *)
Theorem C10_layout_selection : forall r line t o r' k app, record_line line t -> read r line = (o, r', Ok true) ->
  type_info (ident r') (Some k) app ->
  exists e, In e catalogue /\ (exists s, In s (e_sections e) /\ ident r' = lit s) /\
    fields r' = map (field_of t) (e_cells e) /\
    e_primary e = Some (zero_or_one (columns t [k])) /\
    (forall a, e_app e = Some a -> columns t app = lit a).
Proof. exact c10. Qed.
Print Assumptions C10_layout_selection.
Theorem C10_layout_depends_on_type_columns_only : forall r1 r2 line1 line2 t1 t2 o1 o2 r1' r2' k app,
  record_line line1 t1 -> record_line line2 t2 ->
  read r1 line1 = (o1, r1', Ok true) -> read r2 line2 = (o2, r2', Ok true) ->
  ident r1' = ident r2' -> type_info (ident r1') (Some k) app ->
  zero_or_one (columns t1 [k]) = zero_or_one (columns t2 [k]) ->
  (zero_or_one (columns t1 [k]) = true \/ columns t1 app = columns t2 app) ->
  exists cells, fields r1' = map (field_of t1) cells /\ fields r2' = map (field_of t2) cells.
Proof. exact c10_same. Qed.
Print Assumptions C10_layout_depends_on_type_columns_only.
Example C10_ex : type_info (ident (after (read new_record l_sea))) (Some 22) [23] /\
  map f_name (fields (after (read new_record l_sea))) <> map f_name (fields (after (read new_record l_sea_cont))).
Proof. split; [exists "PA"; split; [vm_compute; tauto|vm_compute; reflexivity]|vm_compute; discriminate]. Qed.

(* ================= C11 ================= *)
Theorem C11_new_record : primary new_record = false /\ hasCont new_record = false.
Proof. exact c11_new. Qed.
Print Assumptions C11_new_record.
Theorem C11_hasCont_implies_primary : forall r, hasCont r = true -> primary r = true.
Proof. exact c11_implies. Qed.
Print Assumptions C11_hasCont_implies_primary.
Theorem C11_primary_hasCont_after_read : forall r line t o r' k app, record_line line t -> read r line = (o, r', Ok true) ->
  type_info (ident r') (Some k) app ->
  (primary r' = true <-> columns t [k] = lit "0" \/ columns t [k] = lit "1") /\
  (hasCont r' = true <-> columns t [k] = lit "1").
Proof. exact c11. Qed.
Print Assumptions C11_primary_hasCont_after_read.
Example C11_ex : primary (after (read new_record l_sea)) = true /\ hasCont (after (read new_record l_sea)) = true /\
  primary (after (read new_record l_airway)) = true /\ hasCont (after (read new_record l_airway)) = false /\
  primary (after (read new_record l_sea_cont)) = false.
Proof. compute_all. Qed.

(* ================= C12 ================= *)
Theorem C12_never_primary : forall line o r s, read new_record line = (o, r, Ok true) ->
  In s ["AS"; "EU"; "R "; "RA"; "TC"] -> ident r = lit s -> primary r = false /\ hasCont r = false.
Proof. exact c12_not_primary. Qed.
Print Assumptions C12_never_primary.
Theorem C12_single_layout_types_always_read : forall r line t s, record_line line t -> In s ["AS"; "R "; "RA"; "TC"] ->
  section_is t (lit s) -> returned (read r line) = Ok true.
Proof. exact c12_always. Qed.
Print Assumptions C12_single_layout_types_always_read.
Theorem C12_airway_restrictions : forall line t, record_line line t -> section_is t (lit "EU") ->
  (forall a, In a ["AE"; "TC"; "NR"] -> columns t [16; 17] = lit a ->
    exists r e, read new_record line = ([], r, Ok true) /\ In e catalogue /\ In "EU" (e_sections e) /\ e_primary e = Some false /\
       e_app e = Some a /\ fields r = map (field_of t) (e_cells e)) /\
  ((forall a, In a ["AE"; "TC"; "NR"] -> columns t [16; 17] <> lit a) ->
     returned (read new_record line) = Err ValueError).
Proof. exact c12_eu. Qed.
Print Assumptions C12_airway_restrictions.
(* the library's own sample of a primary restriction record is therefore read as a continuation record,
   although the column it shows as "Continuation Record No" is 0; the primary layout would show "Start Fix Identifier" *)
Theorem C12_primary_restriction_layout_refuted : exists line, record_line line line /\
  section_is line (lit "EU") /\ columns line [18] = lit "0" /\
  returned (read new_record line) = Ok true /\
  In (Field (lit "Continuation Record No") (lit "0") F016) (fields (after (read new_record line))) /\
  primary (after (read new_record line)) = false /\
  fields (after (read new_record line)) = map (field_of line) cat_EU_32 /\
  map (field_of line) cat_EU_32 <> map (field_of line) cat_EU_28.
Proof.
  exists l_restriction. split; [sample|]. split; [apply section_of_is; vm_compute; reflexivity|].
  compute_all.
Qed.
Print Assumptions C12_primary_restriction_layout_refuted.
Example C12_ex : section_is l_mora (lit "AS") /\ section_is l_cruise (lit "TC") /\ section_is l_restriction_sc (lit "EU") /\
  returned (read new_record l_restriction_sc) = Err ValueError.
Proof. do 3 (split; [apply section_of_is; vm_compute; reflexivity|]). vm_compute. reflexivity. Qed.

(* ================= C13 ================= *)
Theorem C13_reuse : forall r1 r2 line t code k app, record_line line t -> section_is t code -> type_info code (Some k) app ->
  printed (read r1 line) = printed (read r2 line) /\
  returned (read r1 line) = returned (read r2 line) /\
  ident (after (read r1 line)) = ident (after (read r2 line)) /\
  raw (after (read r1 line)) = raw (after (read r2 line)) /\
  continuation (after (read r1 line)) = continuation (after (read r2 line)) /\
  (returned (read r1 line) = Ok true -> after (read r1 line) = after (read r2 line)).
Proof. exact c13. Qed.
Print Assumptions C13_reuse.
Theorem C13_reuse_single_layout : forall r1 r2 line t s, record_line line t -> In s ["AS"; "R "; "RA"; "TC"] -> section_is t (lit s) ->
  printed (read r1 line) = printed (read r2 line) /\
  returned (read r1 line) = returned (read r2 line) /\
  ident (after (read r1 line)) = ident (after (read r2 line)) /\
  raw (after (read r1 line)) = raw (after (read r2 line)) /\
  fields (after (read r1 line)) = fields (after (read r2 line)).
Proof. exact c13_one_layout. Qed.
Print Assumptions C13_reuse_single_layout.
(* EU: after another record was read into the object, other fields come out; and TC: primary() differs *)
Theorem C13_reuse_refuted :
  (exists line0 line, let r0 := after (read new_record line0) in
     returned (read new_record line0) = Ok true /\ returned (read new_record line) = Ok true /\ returned (read r0 line) = Ok true /\
     ident (after (read r0 line)) = lit "EU" /\
     map f_name (fields (after (read r0 line))) <> map f_name (fields (after (read new_record line)))) /\
  (exists line0 line, let r0 := after (read new_record line0) in
     returned (read new_record line0) = Ok true /\ returned (read r0 line) = Ok true /\ ident (after (read r0 line)) = lit "TC" /\
     primary (after (read new_record line)) = false /\ primary (after (read r0 line)) = true).
Proof.
  split.
  - exists l_acv, l_restriction. compute_all.
  - exists l_acv, l_cruise. compute_all.
Qed.
Print Assumptions C13_reuse_refuted.

(* ================= C14 ================= *)
Theorem C14_failed_read : forall r line t, trimmed line t -> framed t ->
  raw (after (read r line)) = t /\
  (returned (read r line) <> Ok true ->
     fields (after (read r line)) = fields r \/
     (fields (after (read r line)) = [] /\ returned (read r line) = Ok false /\ printed (read r line) = [])) /\
  (forall e, returned (read r line) = Err e -> fields (after (read r line)) = fields r).
Proof. exact c14. Qed.
Print Assumptions C14_failed_read.
(* so raw and fields may belong to different lines *)
Theorem C14_raw_and_fields_agree_refuted : exists line0 line, let r0 := after (read new_record line0) in
  returned (read new_record line0) = Ok true /\ returned (read r0 line) = Ok false /\
  raw (after (read r0 line)) = line /\ raw r0 = line0 /\ line <> line0 /\
  fields (after (read r0 line)) = fields r0 /\ fields r0 <> [].
Proof. exists l_sea, l_no_sect. compute_all. Qed.
Print Assumptions C14_raw_and_fields_agree_refuted.
Example C14_ex_emptied : let r0 := after (read new_record l_acv) in
  returned (read r0 l_sea_contx) = Ok false /\ fields (after (read r0 l_sea_contx)) = [] /\ fields r0 <> [].
Proof. compute_all. Qed.

(* ================= C15 ================= *)
Theorem C15_displayed_section_code : forall r line t o r', record_line line t -> read r line = (o, r', Ok true) ->
  exists s, In s sections /\ ident r' = lit s /\
    In (Field (lit "Section Code") (columns t (if shows_5_13 s then [5; 13] else [5; 6])) F004) (firstn 3 (fields r')).
Proof. exact c15. Qed.
Print Assumptions C15_displayed_section_code.
(* the displayed code is not always the section under which the record was read *)
Theorem C15_displayed_is_ident_refuted :
  (exists line, record_line line line /\ parse line false = ([], Ok true) /\ ident (after (read new_record line)) = lit "PA" /\
     In (Field (lit "Section Code") (lit "PF") F004) (fields (after (read new_record line)))) /\
  (exists line, record_line line line /\ parse line false = ([], Ok true) /\ ident (after (read new_record line)) = lit "D " /\
     In (Field (lit "Section Code") (lit "DX") F004) (fields (after (read new_record line)))).
Proof.
  split.
  - exists l_pa_pf. split; [sample|]. compute_all.
  - exists l_d_dx. split; [sample|]. compute_all.
Qed.
Print Assumptions C15_displayed_is_ident_refuted.
Example C15_ex : shows_5_13 "PA" = true /\ shows_5_13 "PN" = false /\ shows_5_13 "D " = false /\
  In (Field (lit "Section Code") (lit "PA") F004) (firstn 3 (fields (after (read new_record l_sea)))).
Proof. compute_all. Qed.

(* ================= C45 ================= *)
Theorem C45_displayed_continuation : forall r line t o r' k app f, record_line line t -> read r line = (o, r', Ok true) ->
  type_info (ident r') (Some k) app ->
  ident r' <> lit "PT" -> (ident r' = lit "HK" \/ ident r' = lit "PK" -> primary r' = true) ->
  In f (fields r') -> f_name f = lit "Continuation Record No" ->
  f_value f = columns t [k] /\ f_value f = continuation r'.
Proof. exact c45. Qed.
Print Assumptions C45_displayed_continuation.
Theorem C45_displayed_application_type : forall r line t o r' cont app f, record_line line t -> read r line = (o, r', Ok true) ->
  type_info (ident r') cont app -> ident r' <> lit "EP" -> ident r' <> lit "EU" ->
  In f (fields r') -> f_name f = lit "Application Type" -> f_value f = columns t app.
Proof. exact c45_app. Qed.
Print Assumptions C45_displayed_application_type.
(* the excepted types show other columns *)
Theorem C45_displayed_refuted :
  (exists line, record_line line line /\ returned (read new_record line) = Ok true /\ ident (after (read new_record line)) = lit "PT" /\
     continuation (after (read new_record line)) = lit "0" /\
     In (Field (lit "Continuation Record No") (lit "ABC") F016) (fields (after (read new_record line)))) /\
  (exists line, record_line line line /\ ident (after (read new_record line)) = lit "PK" /\ returned (read new_record line) = Ok true /\
     continuation (after (read new_record line)) = lit "2" /\
     In (Field (lit "Continuation Record No") (lit "7") F016) (fields (after (read new_record line)))) /\
  (exists line, record_line line line /\ ident (after (read new_record line)) = lit "EP" /\ returned (read new_record line) = Ok true /\
     columns line [40] = lit "A" /\
     In (Field (lit "Application Type") (lit "B") F091) (fields (after (read new_record line)))).
Proof.
  split; [|split].
  - exists l_gls. split; [sample|]. compute_all.
  - exists l_taa_cont. split; [sample|]. compute_all.
  - exists l_holding_cont. split; [sample|]. compute_all.
Qed.
Print Assumptions C45_displayed_refuted.
Example C45_ex : In (Field (lit "Continuation Record No") (lit "1") F016) (fields (after (read new_record l_sea))) /\
  In (Field (lit "Application Type") (lit "P") F091) (fields (after (read new_record l_sea_cont))).
Proof. compute_all. Qed.
