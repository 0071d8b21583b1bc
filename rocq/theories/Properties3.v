(* C08, C31-C34, C43, C44, C46, C48: decoding whole records, parse, and exceptions. *)
From Coq Require Import List String NArith ZArith Bool Arith Lia.
From Verif Require Import PyBase Decoder Layouts Record Api SpecLayouts Spec SpecNum SpecCodes SpecDecode SpecRecord StrFacts FnNum ReadProps2 ReadProps3
  NumProps CodeProps DecodeProps RecordProps RecordProps2 Samples Properties1 Properties2.
Import ListNotations.
Open Scope string_scope.
Open Scope list_scope.
Local Open Scope nat_scope.

(* ================= C08 ================= *)
Theorem C08_read : forall r line e, returned (read r line) = Err e -> e = ValueError.
Proof. exact read_raises_value_error. Qed.
Print Assumptions C08_read.
Theorem C08_parse : forall line output e, snd (parse line output) = Err e -> e = ValueError \/ e = SystemExit.
Proof. exact c08_parse. Qed.
Print Assumptions C08_parse.
(* decode() on any Record that was only changed by read *)
Theorem C08_decode : forall r output e, reachable r -> snd (decode r output) = Err e -> e = ValueError \/ e = SystemExit.
Proof. exact c08_decode. Qed.
Print Assumptions C08_decode.
Theorem C08_json : forall r output single, exists text, snd (json r output single) = Ok text.
Proof. exact c08_json. Qed.
Print Assumptions C08_json.
Theorem C08_read_file : forall w path output e, snd (read_file w path output) = Err e ->
  open_text w path = Err e \/ e = ValueError \/ e = SystemExit.
Proof. exact c08_read_file. Qed.
Print Assumptions C08_read_file.
Theorem C08_search : forall w file fl e, snd (search w file fl) = Err e -> open_text w file = Err e \/ e = ValueError.
Proof. exact c08_search. Qed.
Print Assumptions C08_search.
(* both exceptions occur *)
Example C08_ex : snd (parse l_airway_x false) = Err ValueError /\ snd (parse l_acv_freq false) = Err SystemExit /\
  snd (parse [] false) = Ok false /\ snd (parse l_sea false) = Ok true.
Proof. compute_all. Qed.
(* a Record filled by hand is outside: decoders do raise IndexError on values shorter than their columns *)
Example C08_ex_short : snd (decode (Rec [] [] [] [Field (lit "Approach Identifier") [] F010] None) false) = Err IndexError.
Proof. compute_all. Qed.

(* ================= C31 ================= *)
Theorem C31_rows : forall r output o rows, decode r output = (o, Ok rows) ->
  map fst rows = map (fun f => (f_name f, quoted_value f)) (fields r) /\
  Forall2 (row_for (view r)) (fields r) rows.
Proof. intros r output o rows H. pose proof (c31 _ _ _ _ H). split; [eapply c31_names; eauto|auto]. Qed.
Print Assumptions C31_rows.
Example C31_ex : exists o rows, decode (after (read new_record l_sea)) true = (o, Ok rows) /\
  nth_error rows 3 = Some (lit "Airport ICAO Identifier", lit "'KSEA'", DStr (lit "KSEA")) /\ List.length rows = 28.
Proof. eexists. eexists. split; [vm_compute; reflexivity|]. split; vm_compute; reflexivity. Qed.

(* ================= C32 ================= *)
Theorem C32_decode_output : forall r, exists o res, decode r false = (o, res) /\
  decode r true = (o ++ match res with Ok rows => [EvTable rows] | Err _ => [] end, res).
Proof. exact c32_decode. Qed.
Print Assumptions C32_decode_output.
Theorem C32_json_output : forall r single, exists text,
  json r false single = ([], Ok text) /\ json r true single = ([EvPrint text], Ok text).
Proof. exact c32_json. Qed.
Print Assumptions C32_json_output.
Theorem C32_parse_output : forall line, exists o res table, parse line false = (o, res) /\ parse line true = (o ++ table, res) /\
  (res = Ok true -> exists rows, table = [EvTable rows] /\ snd (decode (after (read new_record line)) false) = Ok rows) /\
  (res <> Ok true -> table = []).
Proof. exact c32_parse. Qed.
Print Assumptions C32_parse_output.
Example C32_ex : exists rows, parse l_sea true = ([EvTable rows], Ok true) /\ parse l_sea false = ([], Ok true) /\ List.length rows = 28.
Proof. eexists. split; [vm_compute; reflexivity|]. split; vm_compute; reflexivity. Qed.

(* ================= C33 ================= *)
Theorem C33_silence_refuted :
  (* an unsupported continuation number *)
  (exists line, record_line line line /\ snd (parse line false) = Ok false /\ fst (parse line false) <> []) /\
  (* a boundary via code *)
  (exists line, record_line line line /\
    parse line false = ([EvPrint (lit "Unsupported Boundary Via: ""Q """)], Ok true)) /\
  (* a holding time *)
  (exists line, record_line line line /\ snd (parse line false) = Ok true /\ fst (parse line false) <> []) /\
  (* a frequency, before exit() *)
  (exists line, record_line line line /\ snd (parse line false) = Err SystemExit /\ fst (parse line false) <> []).
Proof.
  split; [exists l_sea_badcont|split; [exists l_via_q|split; [exists l_hold_1x|exists l_acv_freq]]]; (split; [sample|]); compute_all.
Qed.
Print Assumptions C33_silence_refuted.
(* these are all the cases.  A line that is parsed: *)
Theorem C33_output_of_parsed_lines : forall line o, parse line false = (o, Ok true) ->
  (o <> [] <-> Exists chatty (fields (after (read new_record line)))).
Proof. exact c33_true. Qed.
Print Assumptions C33_output_of_parsed_lines.
(* only these two decoders are chatty *)
Theorem C33_chatty_fields : forall f, chatty f -> f_fn f = F065 \/ f_fn f = F118.
Proof. intros f H. unfold chatty in H. destruct (f_fn f); try contradiction; auto. Qed.
Print Assumptions C33_chatty_fields.
(* a line that is not a record *)
Theorem C33_output_of_refused_lines : forall line o, parse line false = (o, Ok false) -> (o <> [] <-> bad_number line).
Proof. exact c33_false. Qed.
Print Assumptions C33_output_of_refused_lines.
(* a line on which read raises, and one with a field that cannot be decoded *)
Theorem C33_output_before_exceptions : forall line,
  (forall e, returned (read new_record line) = Err e -> parse line false = ([], Err e)) /\
  (forall pre f post, returned (read new_record line) = Ok true -> fields (after (read new_record line)) = pre ++ f :: post ->
     Forall decodes pre -> refuses (f_fn f) (f_value f) ->
     exists o, parse line false = (o, Err ValueError) /\ (o <> [] <-> Exists chatty pre)).
Proof. intro line. split; [intros; apply c34_read_error; auto|intros; eapply c34_refused; eauto]. Qed.
Print Assumptions C33_output_before_exceptions.
Example C33_ex : parse l_hold_1x false <> parse l_hold false /\ parse l_hold false = ([], Ok true).
Proof. compute_all. Qed.

(* ================= C34 ================= *)
Theorem C34_parse_true : forall line output, snd (parse line output) = Ok true <->
  returned (read new_record line) = Ok true /\ Forall decodes (fields (after (read new_record line))).
Proof. exact c34_true. Qed.
Print Assumptions C34_parse_true.
Theorem C34_parse_false : forall line output, snd (parse line output) = Ok false <-> returned (read new_record line) = Ok false.
Proof. exact c34_false. Qed.
Print Assumptions C34_parse_false.
Theorem C34_parse_read_raises : forall line output e, returned (read new_record line) = Err e -> snd (parse line output) = Err e.
Proof. intros. rewrite (c34_read_error line output e); auto. Qed.
Print Assumptions C34_parse_read_raises.
Theorem C34_parse_first_failing_field : forall line output pre f post, returned (read new_record line) = Ok true ->
  fields (after (read new_record line)) = pre ++ f :: post -> Forall decodes pre ->
  (refuses (f_fn f) (f_value f) -> snd (parse line output) = Err ValueError) /\
  (exits (f_fn f) (f_value f) -> snd (parse line output) = Err SystemExit).
Proof.
  intros line output pre f post R E P. split; intro F.
  - destruct (c34_refused line output pre f post R E P F) as [o [-> _]]. reflexivity.
  - destruct (c34_exit line output pre f post R E P F) as [o1 [o2 [-> _]]]. reflexivity.
Qed.
Print Assumptions C34_parse_first_failing_field.
(* the cases are complete *)
Theorem C34_cases : forall line, Forall decodes (fields (after (read new_record line))) \/
  exists pre f post, fields (after (read new_record line)) = pre ++ f :: post /\ Forall decodes pre /\
    (refuses (f_fn f) (f_value f) \/ exits (f_fn f) (f_value f)).
Proof. intro line. apply first_failure. apply reachable_after. constructor. Qed.
Print Assumptions C34_cases.
Example C34_ex : snd (parse l_sea_sup true) = Err ValueError /\ returned (read new_record l_sea_sup) = Ok true /\
  refuses F032 [56; 178; 48; 56]%N.
Proof.
  split; [vm_compute; reflexivity|]. split; [vm_compute; reflexivity|].
  apply (proj1 (proj1 (c44_exact F032 [56; 178; 48; 56]%N no_record (le_n_S _ _ (le_n_S _ _ (Nat.le_0_l _)))))). vm_compute. reflexivity.
Qed.

(* ================= C43 ================= *)
Theorem C43_when_decode_exits : forall r output, reachable r ->
  (snd (decode r output) = Err SystemExit <->
   exists pre f post, fields r = pre ++ f :: post /\ Forall decodes pre /\
     f_fn f = F034 /\ forall t, trimmed (f_value f) t -> t <> [] /\ ~ all_numeric t).
Proof. exact c43. Qed.
Print Assumptions C43_when_decode_exits.
Theorem C43_message : forall r output pre f post t, reachable r -> fields r = pre ++ f :: post -> Forall decodes pre ->
  f_fn f = F034 -> trimmed (f_value f) t -> t <> [] -> ~ all_numeric t ->
  exists o, decode r output = (o ++ [EvPrint (lit "Unsupported VOR/NDB Frequency: """ ++ t ++ lit """");
       EvPrint (lit "from record type """ ++ ident r ++ lit """: """ ++ raw r ++ lit """")], Err SystemExit).
Proof.
  intros r output pre f post t H E P F T NE NN.
  assert (X : exits (f_fn f) (f_value f)).
  { split; auto. intros t' T'. assert (t' = t) by (apply trimmed_iff in T, T'; congruence). subst. auto. }
  destruct (c43_message r output pre f post H E P X) as [o1 [o2 [D [_ [_ [t' [T' ->]]]]]]].
  assert (t' = t) by (apply trimmed_iff in T, T'; congruence). subst. exists o1. exact D.
Qed.
Print Assumptions C43_message.
Example C43_ex : decode (after (read new_record l_acv_freq)) true =
  ([EvPrint (lit "Unsupported VOR/NDB Frequency: ""11X20""");
    EvPrint (lit "from record type ""D "": """ ++ l_acv_freq ++ lit """")], Err SystemExit) /\
  parse l_acv_nofreq false = ([], Ok true) /\ parse l_acv false = ([], Ok true).
Proof. compute_all. Qed.

(* ================= C44 ================= *)
Theorem C44_which_decoders_raise : forall f v r e, width f <= List.length v -> snd (run_fn f v r) = Err e ->
  (e = ValueError /\ In f refusing) \/ (e = SystemExit /\ f = F034).
Proof.
  intros f v r e W H. destruct (c44_exact f v r W) as [A [B [C D]]]. destruct e; try contradiction.
  - left. split; auto. eapply refuses_in. apply A. exact H.
  - right. split; auto. apply B in H. apply H.
Qed.
Print Assumptions C44_which_decoders_raise.
Theorem C44_exactly_when : forall f v r, width f <= List.length v ->
  (snd (run_fn f v r) = Err ValueError <-> refuses f v) /\
  (snd (run_fn f v r) = Err SystemExit <-> exits f v).
Proof. intros f v r W. destruct (c44_exact f v r W) as [A [B _]]. auto. Qed.
Print Assumptions C44_exactly_when.
(* the fields of a record have the columns their decoders need *)
Theorem C44_fields_are_wide : forall r, reachable r -> Forall wide (fields r).
Proof. exact reachable_wide. Qed.
Print Assumptions C44_fields_are_wide.
(* on ASCII text the numeric decoders never raise ValueError *)
Theorem C44_ascii_numbers : forall f v r, In f [F034; F045; F062; F103; F135] -> Forall (fun c => (c < 128)%N) v ->
  snd (run_fn f v r) <> Err ValueError.
Proof.
  intros f v r I A H. apply (c44_ascii f v I A). apply (c44_exact f v r); auto.
  cbn [In] in I. destruct I as [<-|[<-|[<-|[<-|[<-|[]]]]]]; apply Nat.le_0_l.
Qed.
Print Assumptions C44_ascii_numbers.
(* each listed decoder does raise on some value *)
Definition refusing_witness (f : fn) : str :=
  match f with
  | F008 => lit "?" | F021 | F022 => lit "1" | F023 | F024 | F025 => lit "12345" | F026 => lit "ABC" | F027 => lit "X"
  | F032 => lit "AA00" | F034 | F045 | F062 | F103 | F135 => [178]%N | F039 => lit "EX" | F072 => lit "X" | F082 => lit "XX"
  | F178 => [945; 48; 48]%N | F269 => lit "X" | _ => lit "?"
  end.
Definition witness_refused (f : fn) : bool :=
  (width f <=? List.length (refusing_witness f)) &&
  match run_fn f (refusing_witness f) no_record with ([], Err ValueError) => true | _ => false end.
Theorem C44_all_of_them_do : forall f, In f refusing -> exists v, width f <= List.length v /\ fails f v no_record ValueError.
Proof.
  intros f H. assert (K : forallb witness_refused refusing = true) by (vm_compute; reflexivity).
  pose proof (proj1 (forallb_forall _ _) K f H) as X. unfold witness_refused in X. apply andb_true_iff in X as [X Y]. apply Nat.leb_le in X.
  exists (refusing_witness f). split; auto. unfold fails. destruct (run_fn f (refusing_witness f) no_record) as [[|ev o] [d|[]]]; try discriminate. reflexivity.
Qed.
Print Assumptions C44_all_of_them_do.
Example C44_ex : List.length refusing = 24 /\ ~ In F071 refusing /\ In F002 refusing.
Proof. split; [reflexivity|]. split; [|left; reflexivity]. intro H. repeat (destruct H as [H|H]; [discriminate|]). exact H. Qed.

(* ================= C46 ================= *)
Theorem C46_decode_depends_on_fields_and_section : forall r r' output, ident r = ident r' -> fields r = fields r' ->
  decode r output = decode r' output \/ (snd (decode r output) = Err SystemExit /\ snd (decode r' output) = Err SystemExit).
Proof. exact c46. Qed.
Print Assumptions C46_decode_depends_on_fields_and_section.
(* json() depends on the fields only *)
Theorem C46_json_depends_on_fields : forall r r' output single, fields r = fields r' -> json r output single = json r' output single.
Proof. intros r r' output single H. unfold json. rewrite H. reflexivity. Qed.
Print Assumptions C46_json_depends_on_fields.
(* the section code does matter *)
Example C46_ex : let fs := [Field (lit "Route Type") (lit "O") F007] in
  decode (Rec (lit "ER") [] [] fs None) false <> decode (Rec (lit "PD") [] [] fs None) false /\
  decode (Rec (lit "ER") (lit "x") [] fs None) false = decode (Rec (lit "ER") [] (lit "0") fs None) false.
Proof. compute_all. Qed.

(* ================= C48 ================= *)
Theorem C48_cycle_date_refuted : exists line, record_line line line /\ returned (read new_record line) = Ok true /\
  snd (decode (after (read new_record line)) false) = Err ValueError /\
  snd (run_fn F032 (columns line [129; 130; 131; 132]) no_record) = Err ValueError.
Proof. exists l_sea_sup. split; [sample|]. compute_all. Qed.
Print Assumptions C48_cycle_date_refuted.
Theorem C48_ascii_cycle_date : forall r line t o r' f rv, record_line line t -> Forall (fun c => (c < 128)%N) t -> read r line = (o, r', Ok true) ->
  In f (fields r') -> f_fn f = F032 -> exists text, shows F032 (f_value f) rv text.
Proof. exact c48_ascii. Qed.
Print Assumptions C48_ascii_cycle_date.
Example C48_ex : Forall (fun c => (c < 128)%N) l_sea /\ In (Field (lit "Cycle Date") (lit "8808") F032) (fields (after (read new_record l_sea))) /\
  shows F032 (lit "8808") no_record (lit "1988, Release 08").
Proof.
  split; [apply Forall_forall; intros c H; assert (K : forallb (fun c => N.ltb c 128) l_sea = true) by (vm_compute; reflexivity);
    apply N.ltb_lt; exact (proj1 (forallb_forall _ _) K c H)|]. split; [apply has_field|]; shown.
Qed.
