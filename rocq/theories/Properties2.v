(* C16-C27, C47, C49-C52: what each field is shown as. *)
From Coq Require Import List String NArith ZArith Bool Arith Lia.
From Verif Require Import PyBase Decoder SpecLayouts Spec SpecNum SpecCodes SpecDecode SpecLiteral LiteralProps StrFacts ReadProps3 NumProps ReprFacts CodeProps DecodeProps.
Import ListNotations.
Open Scope string_scope.
Open Scope list_scope.
Local Open Scope nat_scope.

Ltac shown := vm_compute; reflexivity.
Ltac a_digit_string := split; [discriminate|repeat constructor; vm_compute; discriminate].
Definition no_record : recview := RecView [] [].

(* ================= C16 ================= *)
Theorem C16_cycle_date : forall a b rest r, digit_string [a; b] ->
  exists y year, cycle_year (number [a; b]) y /\ is_natural y year /\
    shows F032 ([a; b] ++ rest) r (year ++ lit ", Release " ++ rest).
Proof. exact c16_value. Qed.
Print Assumptions C16_cycle_date.
Theorem C16_injective : forall v v' r t, List.length v = 4 -> List.length v' = 4 -> shows F032 v r t -> shows F032 v' r t -> v = v'.
Proof. exact c16_inj. Qed.
Print Assumptions C16_injective.
Theorem C16_failure : forall a b rest r, (fails F032 ([a; b] ++ rest) r ValueError <-> ~ two_char_int a b) /\
  (two_char_int a b -> exists t, shows F032 ([a; b] ++ rest) r t).
Proof. exact c16_fails. Qed.
Print Assumptions C16_failure.
Example C16_ex : shows F032 (lit "1713") no_record (lit "2017, Release 13") /\ shows F032 (lit "5001") no_record (lit "2050, Release 01") /\
  shows F032 (lit "5112") no_record (lit "1951, Release 12") /\ fails F032 (lit "A501") no_record ValueError.
Proof. repeat split. Qed.
Example C16_ex_year : cycle_year 17 2017 /\ cycle_year 50 2050 /\ cycle_year 51 1951 /\ ~ cycle_year 51 2051.
Proof. unfold cycle_year. repeat split; try (vm_compute; discriminate || reflexivity). intros [[_ H] _]. vm_compute in H. congruence. Qed.

(* ================= C17 ================= *)
Theorem C17_altitude : forall f v r, In f altitude_fns -> digit_string v -> number v <> 0%N ->
  exists d, is_natural (number v) d /\ shows f v r (d ++ lit " ft").
Proof. exact c17_value. Qed.
Print Assumptions C17_altitude.
(* all zeros: no number is shown, so the claim fails for every all-zero altitude *)
Theorem C17_zero_altitude_refuted : forall f v r, In f altitude_fns -> digit_string v -> number v = 0%N ->
  shows f v r (lit " ft") /\ ~ exists d, is_natural (number v) d /\ shows f v r (d ++ lit " ft").
Proof.
  intros f v r F D Z0. pose proof (c17_zero f v r F D Z0) as S. split; [exact S|]. intros [d [[[NE _] _] S']]. unfold shows in S, S'.
  rewrite S in S'. injection S' as E. apply NE. destruct d as [|x d]; [reflexivity|]. exfalso.
  apply (f_equal (@List.length N)) in E. rewrite app_length in E. cbn [List.length] in E. lia.
Qed.
Print Assumptions C17_zero_altitude_refuted.
(* other numerals lose the zeros in front; what is not numeric is shown unchanged: every string is covered *)
Theorem C17_other_values : forall f v r, In f altitude_fns ->
  (forall zeros rest, v <> [] -> all_numeric v -> v = zeros ++ rest -> Forall (eq 48%N) zeros -> column rest 1 <> Some 48%N ->
     shows f v r (rest ++ lit " ft")) /\
  (v = [] \/ (exists c, In c v /\ numeric_char c = false) -> shows f v r v).
Proof.
  intros f v r F. split; [intros; eapply c17_numeral; eauto|]. intros [->|[c [I C]]]; [apply c17_empty; exact F|eapply c17_other; eauto].
Qed.
Print Assumptions C17_other_values.
Example C17_ex : In F073 altitude_fns /\ shows F073 (lit "00432") no_record (lit "432 ft") /\ shows F030 (lit "05000") no_record (lit "5000 ft") /\
  shows F030 (lit "FL250") no_record (lit "FL250") /\ shows F050 (lit "0000") no_record (lit " ft") /\ shows F030 (lit "-0012") no_record (lit "-0012").
Proof. split; [cbn; tauto|]. repeat split. Qed.

(* ================= C18 ================= *)
Theorem C18_longest_runway : forall v r, digit_string v -> number v <> 0%N ->
  exists d, is_natural (100 * number v) d /\ shows F054 v r (d ++ lit " ft").
Proof. exact c18_value. Qed.
Print Assumptions C18_longest_runway.
Theorem C18_zero_and_other_values : forall v r,
  (digit_string v -> number v = 0%N -> shows F054 v r (lit "00 ft")) /\
  (forall zeros rest, v <> [] -> all_numeric v -> v = zeros ++ rest -> Forall (eq 48%N) zeros -> column rest 1 <> Some 48%N ->
     shows F054 v r (rest ++ lit "00 ft")) /\
  (v = [] \/ (exists c, In c v /\ numeric_char c = false) -> shows F054 v r v).
Proof. intros v r. split; [apply c18_zero|]. split; [intros; eapply c18_numeral; eauto|apply c18_other]. Qed.
Print Assumptions C18_zero_and_other_values.
Example C18_ex : shows F054 (lit "119") no_record (lit "11900 ft") /\ shows F054 (lit "045") no_record (lit "4500 ft") /\
  shows F054 (lit "000") no_record (lit "00 ft") /\ shows F054 (lit "   ") no_record (lit "   ").
Proof. repeat split. Qed.

(* ================= C19 ================= *)
Theorem C19_frequency : forall f v r, In f [F034; F045; F103] -> digit_string v -> List.length v <= 15 ->
  exists s, is_decimal 2 (number v) s /\ shows f v r s.
Proof. exact c19. Qed.
Print Assumptions C19_frequency.
Example C19_ex : shows F034 (lit "11630") no_record (lit "116.30") /\ shows F103 (lit "1109") no_record (lit "11.09") /\
  is_decimal 2 11630 (lit "116.30") /\ shows F034 (lit "     ") no_record [].
Proof.
  split; [shown|]. split; [shown|]. split; [|shown]. exists (lit "116"), (lit "30"). split; [reflexivity|].
  split; [a_digit_string|]. split; [right; discriminate|]. split; [a_digit_string|]. split; reflexivity.
Qed.

(* ================= C20 ================= *)
Theorem C20_course : forall v r, digit_string v -> List.length v <= 4 ->
  exists s, is_decimal 1 (number v) s /\ shows F026 v r s.
Proof. exact c20_course. Qed.
Print Assumptions C20_course.
Theorem C20_distance : forall v r, digit_string v -> List.length v <= 15 ->
  exists s, is_decimal 1 (number v) s /\ shows F027 v r (s ++ lit " nm").
Proof. exact c20_distance. Qed.
Print Assumptions C20_distance.
Theorem C20_time : forall v r, digit_string v -> List.length v <= 15 ->
  exists s, is_decimal 1 (number v) s /\ shows F027 (lit "T" ++ v) r (s ++ lit " min").
Proof. exact c20_time. Qed.
Print Assumptions C20_time.
Example C20_ex : shows F026 (lit "1337") no_record (lit "133.7") /\ shows F027 (lit "0043") no_record (lit "4.3 nm") /\
  shows F027 (lit "T010") no_record (lit "1.0 min") /\ shows F026 (lit "0005") no_record (lit "0.5").
Proof. repeat split. Qed.

(* ================= C21 ================= *)
(* expected: an accepted course is a number of tenths or a true course; it is not *)
Theorem C21_courses_are_numbers_refuted :
  shows F026 (lit "NAN ") no_record (lit "nan") /\ shows F026 (lit "INF ") no_record (lit "inf") /\
  shows F026 (lit "1E03") no_record (lit "100.0") /\ shows F026 (lit "XYZT") no_record (lit "XYZT") /\
  shows F026 (lit "   T") no_record (lit "T").
Proof. split; [shown|]. split; [shown|]. split; [shown|]. split; shown. Qed.
Print Assumptions C21_courses_are_numbers_refuted.
(* exactly what is accepted *)
Theorem C21_course_acceptance : forall v t r, trimmed v t ->
  (fails F026 v r ValueError <->
     t <> [] /\ (Exists (fun c => alnum_char c = false) t \/ 4 < List.length t \/ (~ ends_in_T t /\ ~ alnum_float t))) /\
  (~ fails F026 v r ValueError -> exists s, shows F026 v r s) /\
  (t = [] \/ (Forall (fun c => alnum_char c = true) t /\ List.length t <= 4 /\ ends_in_T t) -> shows F026 v r t).
Proof. exact c21_outcome. Qed.
Print Assumptions C21_course_acceptance.
Example C21_ex : fails F026 (lit "1-30") no_record ValueError /\ fails F026 (lit "12AB") no_record ValueError /\
  shows F026 (lit "347T") no_record (lit "347T") /\ shows F026 (lit "    ") no_record [] /\ fails F026 (lit "E 12") no_record ValueError.
Proof. repeat split. Qed.

(* ================= C22 ================= *)
Theorem C22_magnetic_variation : forall c d r, digit_string d ->
  exists s, digit_string s /\ number s = number d /\ (List.length s = 3 \/ (3 < List.length s /\ plain s)) /\
    shows F039 (c :: d) r (s ++ lit " " ++ [c]).
Proof. exact c22_value. Qed.
Print Assumptions C22_magnetic_variation.
Theorem C22_injective : forall c d c' d' r t, digit_string d -> digit_string d' -> List.length d = List.length d' ->
  shows F039 (c :: d) r t -> shows F039 (c' :: d') r t -> c :: d = c' :: d'.
Proof. exact c22_inj. Qed.
Print Assumptions C22_injective.
Theorem C22_blank : forall v r, whitespace v -> shows F039 v r v.
Proof. exact c22_blank. Qed.
Print Assumptions C22_blank.
Theorem C22_outcomes : forall v r, (exists t, shows F039 v r t) \/ fails F039 v r ValueError.
Proof. exact c22_outcomes. Qed.
Print Assumptions C22_outcomes.
Example C22_ex : shows F039 (lit "E0140") no_record (lit "140 E") /\ shows F039 (lit "W1234") no_record (lit "1234 W") /\
  shows F039 (lit "T0000") no_record (lit "000 T") /\ fails F039 (lit "E 1 0") no_record ValueError /\ shows F039 (lit "     ") no_record (lit "     ").
Proof. repeat split. Qed.

(* ================= C23 ================= *)
Theorem C23_zones_west : forall l h mm r, In (l, h) zone_letters -> (1 <= h)%Z -> isnumeric mm = true ->
  exists text, zone_text h mm text /\ shows F178 (lit l ++ mm) r text.
Proof. exact c23_right. Qed.
Print Assumptions C23_zones_west.
(* every other zone letter is shown wrongly *)
Theorem C23_zones_east_refuted : forall l h mm r, In (l, h) zone_letters -> (h <= 0)%Z -> isnumeric mm = true ->
  exists text, shows F178 (lit l ++ mm) r text /\ ~ zone_text h mm text.
Proof. exact c23_wrong. Qed.
Print Assumptions C23_zones_east_refuted.
Theorem C23_what_is_shown : forall l p mm r, In (l, p) zone_prefixes -> isnumeric mm = true -> shows F178 (lit l ++ mm) r (lit p ++ mm).
Proof. exact c23_actual. Qed.
Print Assumptions C23_what_is_shown.
Theorem C23_other_values : forall c mm r,
  (alpha_char c = true -> ~ (65 <= c <= 90)%N -> isnumeric mm = true -> fails F178 (c :: mm) r ValueError) /\
  (alpha_char c = false \/ isnumeric mm = false -> shows F178 (c :: mm) r (lit "Unsupported Value: """ ++ (c :: mm) ++ lit """")).
Proof. intros. split; [apply c23_not_a_letter|apply c23_other]. Qed.
Print Assumptions C23_other_values.
Example C23_ex : shows F178 (lit "U00") no_record (lit "GMT +8:00") /\ shows F178 (lit "Z00") no_record (lit "GMT +13:00") /\
  shows F178 (lit "A30") no_record (lit "GMT --12:30") /\ shows F178 (lit "M00") no_record (lit "GMT +0:00") /\
  fails F178 (lit "u00") no_record ValueError /\ shows F178 (lit "   ") no_record (lit "Unsupported Value: ""   """).
Proof. repeat split. Qed.

(* ================= C24 ================= *)
Theorem C24_waypoint_description : forall a b c d rest r t1 t2 t3 t4,
  meaning codes_017_1 a t1 -> meaning codes_017_2 b t2 -> meaning codes_017_3 c t3 -> meaning codes_017_4 d t4 ->
  shows F017 (a :: b :: c :: d :: rest) r (one_per_line (t1 ++ t2 ++ t3 ++ t4)).
Proof. exact c24. Qed.
Print Assumptions C24_waypoint_description.
(* every column has a meaning (or none), so the above covers every value; no text starts or ends with whitespace *)
Theorem C24_total : forall a b c d, exists t1 t2 t3 t4,
  meaning codes_017_1 a t1 /\ meaning codes_017_2 b t2 /\ meaning codes_017_3 c t3 /\ meaning codes_017_4 d t4 /\
  no_leading_space (one_per_line (t1 ++ t2 ++ t3 ++ t4)) /\ no_trailing_space (one_per_line (t1 ++ t2 ++ t3 ++ t4)).
Proof.
  intros a b c d. destruct (meaning_total codes_017_1 a) as [t1 A]. destruct (meaning_total codes_017_2 b) as [t2 B].
  destruct (meaning_total codes_017_3 c) as [t3 C]. destruct (meaning_total codes_017_4 d) as [t4 D]. exists t1, t2, t3, t4.
  do 4 (split; [assumption|]).
  assert (S : Forall (fun t => solid t = true) (t1 ++ t2 ++ t3 ++ t4)).
  { rewrite !Forall_app. repeat match goal with |- _ /\ _ => split end; eapply solid_meaning; eauto; reflexivity. }
  destruct (t1 ++ t2 ++ t3 ++ t4) as [|t ts]; [split; intros x X; discriminate|].
  apply lines_solid in S. apply solid_ends in S. tauto.
Qed.
Print Assumptions C24_total.
Example C24_ex : shows F017 (lit "EE B") no_record (lit "Essential Waypoint" ++ [10%N] ++
  lit "End of Enroute Airway or Terminal Procedure Route Type" ++ [10%N] ++ lit "Intermediate Approach Fix").
Proof. shown. Qed.
Example C24_ex_blank : shows F017 (lit "    ") no_record [] /\ shows F017 (lit "zzzz") no_record [].
Proof. split; shown. Qed.

(* ================= C25 ================= *)
Theorem C25_known_codes : forall cf code text r, In cf code_fields -> In (code, text) (cf_codes cf) -> shows (cf_fn cf) (lit code) r (lit text).
Proof. exact c25_listed. Qed.
Print Assumptions C25_known_codes.
Theorem C25_blank : forall cf v r, In cf code_fields -> cf_blank cf = true -> whitespace v -> shows (cf_fn cf) v r v.
Proof. exact c25_blank. Qed.
Print Assumptions C25_blank.
Theorem C25_other_values : forall cf v r, In cf code_fields -> ~ listed (cf_codes cf) v -> (cf_blank cf = true -> ~ whitespace v) ->
  match cf_other cf with
  | Itself => shows (cf_fn cf) v r v
  | Unknown => shows (cf_fn cf) v r (lit "<UNKNOWN>")
  | Between a b => shows (cf_fn cf) v r (lit a ++ v ++ lit b)
  | Refused => fails (cf_fn cf) v r ValueError
  end.
Proof. exact c25_other. Qed.
Print Assumptions C25_other_values.
(* "BAD VALUE" is never shown by these, nor by the route type *)
Theorem C25_never_bad_value : forall f v r, In f (F007 :: map cf_fn code_fields) -> v <> lit "BAD VALUE" -> ~ shows f v r (lit "BAD VALUE").
Proof.
  assert (T : forallb (fun cf => forallb (fun p => negb (str_eqb (lit (snd p)) (lit "BAD VALUE"))) (cf_codes cf)) code_fields = true)
    by (vm_compute; reflexivity).
  intros f v r [<-|F] NV S.
  - unfold shows in S. rewrite route_run in S. injection S as S. unfold lookup in S.
    destruct (assoc v (route_table (rv_ident r))) as [x|] eqn:A; [|discriminate]. subst x. apply assoc_in in A.
    unfold route_table in A. destruct (find _ route_types) as [[secs codes]|] eqn:F; [|contradiction]. apply find_some in F as [F _]. cbn [snd] in A.
    assert (K : forallb (fun p => forallb (fun q => negb (str_eqb (lit (snd q)) (lit "BAD VALUE"))) (snd p)) route_types = true) by (vm_compute; reflexivity).
    pose proof (proj1 (forallb_forall _ _) K _ F) as K'. cbn [snd] in K'. unfold lits in A. apply in_map_iff in A as [p [E I]].
    pose proof (proj1 (forallb_forall _ _) K' _ I) as K''. cbn beta in K''. injection E as _ E. rewrite E, str_eqb_refl in K''. discriminate.
  - apply in_map_iff in F as [cf [<- H]]. unfold shows in S. rewrite code_run_eq in S by auto. unfold code_run in S.
    destruct (cf_blank cf && blank v); [injection S as S; congruence|].
    destruct (assoc v (lits (cf_codes cf))) as [x|] eqn:A.
    + injection S as ->. apply assoc_in in A. unfold lits in A. apply in_map_iff in A as [p [E I]]. injection E as _ E.
      pose proof (proj1 (forallb_forall _ _) T _ H) as K. cbn beta in K. pose proof (proj1 (forallb_forall _ _) K _ I) as K'. cbn beta in K'.
      rewrite E, str_eqb_refl in K'. discriminate.
    + assert (B : forallb (fun cf => match cf_other cf with Between a b => match lit a with c :: _ => negb (N.eqb c 66) | [] => true end && (match lit b with [] => match lit a with [] => false | _ => true end | x => negb (N.eqb (last x 0%N) 69) end) | _ => true end) code_fields = true) by (vm_compute; reflexivity).
      pose proof (proj1 (forallb_forall _ _) B _ H) as B'. cbn beta in B'.
      destruct (cf_other cf) as [| |a b|]; [injection S as S; congruence|discriminate| |discriminate]. injection S as S.
      apply andb_true_iff in B' as [B1 B2]. destruct (lit a) as [|c a'].
      * cbn [app] in S. destruct (lit b) as [|y b']; [discriminate|]. assert (L : last (v ++ y :: b') 0%N = last (lit "BAD VALUE") 0%N) by (rewrite S; reflexivity).
        rewrite last_app in L by discriminate. rewrite L in B2. discriminate.
      * injection S as S _. subst c. discriminate.
Qed.
Print Assumptions C25_never_bad_value.
Example C25_ex : List.length code_fields = 23 /\ shows F004 (lit "PA") no_record (lit "Airport Reference Point") /\
  shows F004 (lit "XX") no_record (lit "<UNKNOWN>") /\ shows F004 (lit "  ") no_record (lit "  ") /\
  shows F016 (lit "1") no_record (lit "Primary Record (with Cont.)") /\ shows F016 (lit "2") no_record (lit "2 - Continuation") /\
  fails F002 (lit "X") no_record ValueError /\ shows F049 (lit "?") no_record (lit "?").
Proof. repeat split. Qed.

(* ================= C26 ================= *)
Theorem C26_every_section_is_named : forall s r, In s sections ->
  exists text, In (s, text) codes_004 /\ shows F004 (lit s) r (lit text) /\ lit text <> lit "<UNKNOWN>".
Proof.
  intros s r H.
  assert (K : forallb (fun s => existsb (fun p => String.eqb (fst p) s && negb (str_eqb (lit (snd p)) (lit "<UNKNOWN>"))) codes_004) sections = true)
    by (vm_compute; reflexivity).
  pose proof (proj1 (forallb_forall _ _) K _ H) as K'. cbn beta in K'. apply existsb_exists in K' as [[a text] [I E]].
  apply andb_true_iff in E as [E1 E2]. apply String.eqb_eq in E1. cbn [fst snd] in *. subst a. exists text. split; [exact I|]. split.
  - apply (c25_listed (CodeField F004 codes_004 true Unknown) s text r); [right; right; left; reflexivity|exact I].
  - apply negb_true_iff in E2. intro X. rewrite X, str_eqb_refl in E2. discriminate.
Qed.
Print Assumptions C26_every_section_is_named.
Theorem C26_only_TN_has_no_records : forall s text, In (s, text) codes_004 -> In s sections \/ s = "TN".
Proof.
  intros s text H. assert (K : forallb (fun p => existsb (String.eqb (fst p)) ("TN" :: sections)) codes_004 = true) by (vm_compute; reflexivity).
  pose proof (proj1 (forallb_forall _ _) K _ H) as K'. apply existsb_exists in K' as [x [I E]]. apply String.eqb_eq in E. cbn [fst] in E. subst x.
  destruct I as [<-|I]; auto.
Qed.
Print Assumptions C26_only_TN_has_no_records.
Example C26_ex : shows F004 (lit "D ") no_record (lit "VHF Navaid") /\ ~ In "TN" sections.
Proof. split; [shown|]. unfold sections. cbn [In]. intuition discriminate. Qed.

(* ================= C27 ================= *)
Theorem C27_route_types : forall secs codes s raw, In (secs, codes) route_types -> In s secs ->
  (forall code text, In (code, text) codes -> shows F007 (lit code) (RecView (lit s) raw) (lit text)) /\
  (forall v, ~ listed codes v -> shows F007 v (RecView (lit s) raw) (lit "<UNKNOWN>")).
Proof. intros. split; intros; [eapply c27_listed; eauto|eapply c27_other; eauto]. Qed.
Print Assumptions C27_route_types.
Theorem C27_no_route_types : forall v id raw, (forall secs codes s, In (secs, codes) route_types -> In s secs -> id <> lit s) ->
  shows F007 v (RecView id raw) (lit "<UNKNOWN>").
Proof. exact c27_no_table. Qed.
Print Assumptions C27_no_route_types.
Theorem C27_section_only : forall v r r', rv_ident r = rv_ident r' -> run_fn F007 v r = run_fn F007 v r'.
Proof. exact c27_ident_only. Qed.
Print Assumptions C27_section_only.
Theorem C27_airports_and_heliports : forall v raw raw' p h, In (p, h) [("PD", "HD"); ("PE", "HE"); ("PF", "HF")] ->
  run_fn F007 v (RecView (lit p) raw) = run_fn F007 v (RecView (lit h) raw').
Proof.
  intros v raw raw' p h H. rewrite !route_run. cbn [rv_ident]. cbn [In] in H.
  repeat match goal with H : _ \/ _ |- _ => destruct H as [H|H] end; try contradiction; injection H as <- <-; reflexivity.
Qed.
Print Assumptions C27_airports_and_heliports.
Example C27_ex : shows F007 (lit "O") (RecView (lit "ER") []) (lit "Officially Designated Airways") /\
  shows F007 (lit "O") (RecView (lit "PA") []) (lit "<UNKNOWN>") /\ map fst route_types = [["ER"]; ["ET"]; ["PD"; "HD"]; ["PE"; "HE"]; ["PF"; "HF"]].
Proof. split; [shown|]. split; shown. Qed.

(* ================= C47 ================= *)
Theorem C47_holding_time : forall m t rest r dm dt, decimal_val m = Some dm -> decimal_val t = Some dt ->
  exists mm ss, is_natural dm mm /\ is_natural (6 * dt) ss /\ shows F065 (m :: t :: rest) r (mm ++ lit "m " ++ ss ++ lit "s").
Proof. exact c47_value. Qed.
Print Assumptions C47_holding_time.
Theorem C47_blank_and_other_values : forall v r,
  (whitespace v -> run_fn F065 v r = ([], Ok DNone)) /\
  (~ whitespace v -> (forall m t rest, v = m :: t :: rest -> ~ decimal_char m \/ ~ decimal_char t) ->
   exists o, run_fn F065 v r = ([EvPrint o], Ok (DStr (lit "Invalid Value: """ ++ v ++ lit """")))).
Proof. intros. split; [apply c47_blank|apply c47_other]. Qed.
Print Assumptions C47_blank_and_other_values.
(* what is printed then: the value, and which character int() refused *)
Theorem C47_message : forall v r, ~ whitespace v -> (forall m t rest, v = m :: t :: rest -> ~ decimal_char m \/ ~ decimal_char t) ->
  exists e, complaint v e /\ run_fn F065 v r =
    ([EvPrint (lit "Error: Invalid value passed to format_time. Value: """ ++ v ++ lit """. Error: " ++ e)], Ok (DStr (lit "Invalid Value: """ ++ v ++ lit """"))).
Proof. exact c47_message. Qed.
Print Assumptions C47_message.
Example C47_ex_message : fst (run_fn F065 (lit "1X") no_record) =
    [EvPrint (lit "Error: Invalid value passed to format_time. Value: ""1X"". Error: invalid literal for int() with base 10: 'X'")] /\
  fst (run_fn F065 (lit "1") no_record) = [EvPrint (lit "Error: Invalid value passed to format_time. Value: ""1"". Error: string index out of range")] /\
  complaint (lit "1") (lit "string index out of range").
Proof. split; [vm_compute; reflexivity|]. split; [vm_compute; reflexivity|]. apply no_tenths. discriminate. Qed.
Example C47_ex : decimal_val 49 = Some 1%N /\ decimal_val 53 = Some 5%N /\ shows F065 (lit "15") no_record (lit "1m 30s") /\
  run_fn F065 (lit "  ") no_record = ([], Ok DNone) /\ snd (run_fn F065 (lit "1X") no_record) = Ok (DStr (lit "Invalid Value: ""1X""")).
Proof. repeat split. Qed.

(* ================= C49 ================= *)
Theorem C49_float_fields : forall f v r, In f [F062; F135; F269] -> digit_string v -> List.length v <= 15 ->
  exists x, run_fn f v r = ([], Ok (DFloat x)) /\ is_decimal 1 (number v) (repr_fl x).
Proof. exact c49. Qed.
Print Assumptions C49_float_fields.
Example C49_ex : exists x, run_fn F062 (lit "0913") no_record = ([], Ok (DFloat x)) /\ repr_fl x = lit "91.3".
Proof. eexists. split; [vm_compute; reflexivity|vm_compute; reflexivity]. Qed.

(* ================= C50 ================= *)
Theorem C50_name_format : forall a b rest r t1 t2, meaning codes_196_1 a t1 -> meaning codes_196_2 b t2 ->
  shows F196 (a :: b :: rest) r (first_of (t1 ++ t2) "Unknown Name Format Indicator").
Proof. exact c50_name. Qed.
Print Assumptions C50_name_format.
Theorem C50_waypoint_type : forall a b rest r t1 t2, [a] <> lit "N" -> meaning codes_042_1 a t1 -> meaning codes_042_2 b t2 ->
  shows F042 (a :: b :: rest) r (first_of (t1 ++ t2) "Unknown Waypoint Type").
Proof. exact c50_type. Qed.
Print Assumptions C50_waypoint_type.
(* an NDB used as waypoint: the remaining columns are appended to the text *)
Theorem C50_waypoint_type_N : forall rest r, shows F042 (lit "N" ++ rest) r (lit "NDB Navaid as Waypoint" ++ rest).
Proof. exact c50_ndb. Qed.
Print Assumptions C50_waypoint_type_N.
Theorem C50_boundary_via : forall a b rest r,
  (forall text, meaning codes_118_1 a [text] ->
     shows F118 (a :: b :: rest) r (text ++ (if N.eqb b 69 then lit ", End of description, return to origin point" else []))) /\
  (~ listed codes_118_1 [a] ->
     run_fn F118 (a :: rest) r = ([EvPrint (lit "Unsupported Boundary Via: """ ++ (a :: rest) ++ lit """")],
       Ok (DStr (lit "Unsupported Value: """ ++ (a :: rest) ++ lit """")))).
Proof. intros. split; [intros; apply c50_via; auto|apply c50_via_other]. Qed.
Print Assumptions C50_boundary_via.
Theorem C50_usage : forall a b rest r t2, meaning usage_codes b t2 ->
  match t2 with
  | [text] => shows F082 (a :: b :: rest) r text
  | _ => if N.eqb a 82 then shows F082 (a :: b :: rest) r (lit "RNAV") else fails F082 (a :: b :: rest) r ValueError
  end.
Proof. exact c50_usage. Qed.
Print Assumptions C50_usage.
Example C50_ex : shows F042 (lit "N  ") no_record (lit "NDB Navaid as Waypoint  ") /\ shows F082 (lit "RB") no_record (lit "HI and LO Altitude") /\
  shows F118 (lit "GE") no_record (lit "Great Circle, End of description, return to origin point") /\
  shows F196 (lit "   ") no_record (lit "Unknown Name Format Indicator").
Proof. repeat split. Qed.

(* ================= C51 ================= *)
Theorem C51_shown_as_is : forall f v r, In f shown_as_is -> shows f v r v.
Proof. exact c51_as_is. Qed.
Print Assumptions C51_shown_as_is.
(* with the altitudes, the code lists and the 30 remaining decoders these are all *)
Theorem C51_all_decoders : forall f, In f shown_as_is \/ In f altitude_fns \/ In f (map cf_fn code_fields) \/
  In f [F007; F008; F009; F010; F012; F017; F021; F022; F023; F024; F025; F026; F027; F032; F034; F039; F042; F043; F045; F054; F062;
        F065; F072; F082; F103; F118; F135; F178; F196; F269].
Proof. exact fn_partition. Qed.
Print Assumptions C51_all_decoders.
Example C51_ex : List.length shown_as_is = 205 /\ In F071 shown_as_is /\
  shows F071 (lit "SEATTLE-TACOMA INTL           ") no_record (lit "SEATTLE-TACOMA INTL           ").
Proof. split; [reflexivity|]. split; [|shown]. unfold shown_as_is. cbn [In]. tauto. Qed.

(* ================= C52 ================= *)
Theorem C52_route_identifiers : forall v t r, trimmed v t ->
  (t <> [] /\ Forall (fun c => alnum_char c = true) t -> shows F008 v r v /\ shows F009 v r v) /\
  (~ (t <> [] /\ Forall (fun c => alnum_char c = true) t) -> fails F008 v r ValueError /\ run_fn F009 v r = ([], Ok DNone)).
Proof. exact c52_route. Qed.
Print Assumptions C52_route_identifiers.
Theorem C52_approach_identifier : forall a v r, shows F010 (a :: v) r (lit "Approach: " ++ [a] ++ lit ", Runway: " ++ columns (a :: v) [2; 3; 4]).
Proof. exact c52_approach. Qed.
Print Assumptions C52_approach_identifier.
Theorem C52_sequence_number : forall v t r, trimmed v t ->
  (forall k s, In (k, s) sequence_texts -> List.length t = k -> shows F012 v r (lit s ++ lit " - Sequence No. " ++ v)) /\
  ((forall k s, In (k, s) sequence_texts -> List.length t <> k) -> shows F012 v r v).
Proof. exact c52_sequence. Qed.
Print Assumptions C52_sequence_number.
Theorem C52_path_and_terminator : forall v t r, trimmed v t ->
  (t = [] -> shows F021 v r []) /\
  (t <> [] -> Exists (fun c => alpha_char c = false) t -> fails F021 v r ValueError) /\
  (forall code text, In (code, text) codes_021 -> t = lit code -> shows F021 v r (lit text)) /\
  (t <> [] -> Forall (fun c => alpha_char c = true) t -> ~ listed codes_021 t -> shows F021 v r (lit "<UNKNOWN>")).
Proof. exact c52_leg. Qed.
Print Assumptions C52_path_and_terminator.
Theorem C52_turn_direction_valid : forall v t r, trimmed v t ->
  (Forall (fun c => alpha_char c = true) t -> shows F022 v r t) /\
  (Exists (fun c => alpha_char c = false) t -> fails F022 v r ValueError).
Proof. exact c52_tdv. Qed.
Print Assumptions C52_turn_direction_valid.
Theorem C52_navaid_theta_rho : forall f v t r, In f [F023; F024; F025] -> trimmed v t ->
  (Forall (fun c => alnum_char c = true) t -> List.length t <= 4 -> shows f v r t) /\
  (Exists (fun c => alnum_char c = false) t \/ 4 < List.length t -> fails f v r ValueError).
Proof. exact c52_navaid. Qed.
Print Assumptions C52_navaid_theta_rho.
Theorem C52_waypoint_name : forall v t r, trimmed v t -> shows F043 v r t.
Proof. exact c52_name. Qed.
Print Assumptions C52_waypoint_name.
Theorem C52_speed_limit : forall v r,
  (v <> [] -> Forall (fun c => numeric_char c = true) v -> shows F072 v r (v ++ lit " knots (IAS)")) /\
  (whitespace v -> shows F072 v r v) /\
  (Exists (fun c => numeric_char c = false) v -> ~ whitespace v -> fails F072 v r ValueError).
Proof. exact c52_speed. Qed.
Print Assumptions C52_speed_limit.
Theorem C52_helicopter_procedure_course : forall v r, (whitespace v -> shows F269 v r v) /\
  (~ whitespace v -> (exists x, run_fn F269 v r = ([], Ok (DFloat x))) \/ fails F269 v r ValueError).
Proof. exact c52_hpc. Qed.
Print Assumptions C52_helicopter_procedure_course.
Example C52_ex : shows F008 (lit "V2   ") no_record (lit "V2   ") /\ fails F008 (lit "     ") no_record ValueError /\
  shows F010 (lit "I26L  ") no_record (lit "Approach: I, Runway: 26L") /\ shows F012 (lit "010") no_record (lit "SID/STAR/Approach and Company Routes - Sequence No. 010") /\
  shows F021 (lit "TF") no_record (lit "Track to a Fix or TF Leg.") /\
  shows F023 (lit "SEA ") no_record (lit "SEA") /\ shows F072 (lit "250") no_record (lit "250 knots (IAS)").
Proof. repeat split. Qed.
