(* C53-C55: Python numbers, the fields that hold one, and how floats are shown. *)
From Coq Require Import List String NArith ZArith Bool Arith Lia.
From Verif Require Import PyBase Decoder Spec SpecNum SpecFloat SpecPyNum SpecRepr SpecDecode StrFacts NumFacts RoundFacts FloatFacts PyNumProps ReprFacts NumFields Properties2.
Import ListNotations.
Open Scope string_scope.
Open Scope list_scope.
Local Open Scope nat_scope.

(* ================= C53 ================= *)
Theorem C53_int : forall s, (forall z, py_int s = Some z <-> int_reads s z) /\ (py_int s = None <-> ~ exists z, int_reads s z).
Proof. intro s. split; [intro z; apply int_iff|]. symmetry. apply int_none. Qed.
Print Assumptions C53_int.
Theorem C53_float : forall s, (forall x, py_float s = Some x <-> float_reads s x) /\ (py_float s = None <-> ~ exists x, float_reads s x).
Proof. intro s. split; [intro x; apply float_iff|]. symmetry. apply float_none. Qed.
Print Assumptions C53_float.
(* a text stands for one number at most *)
Theorem C53_unambiguous : forall s x y z z', (float_reads s x -> float_reads s y -> x = y) /\ (int_reads s z -> int_reads s z' -> z = z').
Proof.
  intros s x y z z'. split; intros A B.
  - apply float_iff in A, B. congruence.
  - apply int_iff in A, B. congruence.
Qed.
Print Assumptions C53_unambiguous.
(* rounding: there is always exactly one result *)
Theorem C53_rounding : forall neg p q, (0 < p)%Z -> (0 < q)%Z -> forall x, rounded neg p q x <-> x = round_q neg p q.
Proof. intros neg p q P Q x. apply rounded_iff; auto. Qed.
Print Assumptions C53_rounding.
Theorem C53_division : forall x d y, (0 < d)%Z -> (y = fl_div x d <-> divided x d y).
Proof. intros. symmetry. apply divided_iff. auto. Qed.
Print Assumptions C53_division.
Theorem C53_format_fixed : forall k x t, 1 <= k -> (t = fmt_fixed k x <-> fixed_places k x t).
Proof. intros. symmetry. apply fixed_iff. auto. Qed.
Print Assumptions C53_format_fixed.
Theorem C53_format_padded : forall z t, t = fmt03 z <-> padded 3 z t.
Proof. intros. symmetry. apply padded_iff. Qed.
Print Assumptions C53_format_padded.
Example C53_ex :
  (* 1_0 in Arabic-Indic digits, between a no-break space and a newline, is ten; 1__0 and 28-31 as spaces are not accepted *)
  int_reads [160; 43; 1633; 95; 1632; 10]%N 10 /\ (~ exists z, int_reads (lit "1__0") z) /\ (~ exists z, int_reads (28 :: lit "7")%N z) /\ (~ exists z, int_reads [] z) /\
  (* one tenth, rounded; the largest number below infinity; smaller than half the least number *)
  float_reads (lit " -.1e0 ") (FFin true 7205759403792794 (-56)) /\ float_reads (lit "1.7976931348623158e308") (FFin false 9007199254740991 971) /\
  float_reads (lit "1.7976931348623159e308") (FInf false) /\ float_reads (lit "-2e-324") (FZero true) /\ float_reads (lit "3e-324") (FFin false 1 (-1074)) /\
  float_reads (lit "iNF") (FInf false) /\ float_reads (lit "NaN") FNan /\ (~ exists x, float_reads (lit ".") x) /\ (~ exists x, float_reads (lit "1e") x) /\
  (* 0.125 and 0.375 are halfway: to the even digit *)
  divided (FFin false 1 0) 8 (FFin false 4503599627370496 (-55)) /\
  fixed_places 2 (FFin false 1 (-3)) (lit "0.12") /\ fixed_places 2 (FFin true 3 (-3)) (lit "-0.38") /\
  padded 3 7 (lit "007") /\ padded 3 (-7) (lit "-07") /\ padded 3 1234 (lit "1234").
Proof.
  repeat match goal with |- _ /\ _ => split end;
    try (apply int_iff; vm_compute; reflexivity); try (apply float_iff; vm_compute; reflexivity);
    try (apply int_none; vm_compute; reflexivity); try (apply float_none; vm_compute; reflexivity);
    try (apply divided_iff; [lia|vm_compute; reflexivity]); try (apply fixed_iff; [lia|vm_compute; reflexivity]); apply padded_iff; vm_compute; reflexivity.
Qed.
(* the grammar and the rounding by hand, without the theorems *)
Example C53_by_hand : int_reads (lit " -4_2") (-42) /\ float_reads (lit "6.25") (FFin false 7036874417766400 (-50)).
Proof.
  split.
  - exists (lit "-"), true, (lit "4_2"), [4; 2]%N. split; [exists (lit " "), []; split; [reflexivity|split; repeat constructor; try (vm_compute; intros [? ?]; congruence)]|].
    split; [constructor|]. split; [|reflexivity]. apply digits_underscore; [reflexivity|]. apply digits_one. reflexivity.
  - exists (Finite false 625 (-2)). split.
    + exists [], false, (lit "6.25"). split; [exists [], []; repeat split; constructor|]. split; [constructor|].
      apply (float_number (lit "6.25") [6; 2; 5]%N 2 [] 0); [|constructor].
      apply (point_inside (lit "6") [6]%N (lit "25") [2; 5]%N); [apply digits_one; reflexivity|]. apply digits_more; [reflexivity|]. apply digits_one. reflexivity.
    + exists 7036874417766400%Z, (-50)%Z. split; [|reflexivity].
      assert (D0 : distance (Z.of_N 625 * 10 ^ Z.max (-2) 0) (10 ^ Z.max (- -2) 0) 7036874417766400 (-50) = 0%Z) by (vm_compute; reflexivity).
      split; [split; [split; [discriminate|vm_compute; reflexivity]|discriminate]|]. split; [left; vm_compute; discriminate|]. split.
      * intros m' e' _. rewrite D0. apply Z.abs_nonneg.
      * intros m' e' _ NE E. exfalso. rewrite D0 in E. unfold distance in E, D0. apply (proj1 (Z.abs_0_iff _)) in E. apply (proj1 (Z.abs_0_iff _)) in D0. apply NE.
        apply (Z.mul_reg_r _ _ (10 ^ Z.max (- -2) 0)); [discriminate|]. apply (proj1 (Z.sub_move_0_r _ _)) in E. apply (proj1 (Z.sub_move_0_r _ _)) in D0. exact (eq_trans E (eq_sym D0)).
Qed.

(* ================= C54 ================= *)
(* the fields with one or two implied decimals: as a number of that many decimals, correctly rounded twice *)
Theorem C54_course : forall v t r s, trimmed v t -> t <> [] -> all_alnum t -> List.length t <= 4 -> ~ ends_in_T t ->
  (shows F026 v r s <-> scaled t 1 s).
Proof. exact c54_course. Qed.
Print Assumptions C54_course.
Theorem C54_distance : forall v t r s, trimmed v t -> t <> [] -> (forall t', t <> lit "T" ++ t') ->
  (shows F027 v r s <-> exists n, scaled t 1 n /\ s = n ++ lit " nm").
Proof. exact c54_distance. Qed.
Print Assumptions C54_distance.
Theorem C54_time : forall v t r s, trimmed v (lit "T" ++ t) -> (shows F027 v r s <-> exists n, scaled t 1 n /\ s = n ++ lit " min").
Proof. exact c54_time. Qed.
Print Assumptions C54_time.
Theorem C54_vor_frequency : forall v t r s, trimmed v t -> t <> [] -> all_numeric t -> (shows F034 v r s <-> scaled t 2 s).
Proof. exact c54_vor. Qed.
Print Assumptions C54_vor_frequency.
Theorem C54_frequency : forall f v r s, In f [F045; F103] -> v <> [] -> all_numeric v -> (shows f v r s <-> scaled v 2 s).
Proof. exact c54_frequency. Qed.
Print Assumptions C54_frequency.
Theorem C54_tenths : forall f v r y, (In f [F062; F135] /\ v <> [] /\ all_numeric v) \/ (f = F269 /\ ~ whitespace v) ->
  (run_fn f v r = ([], Ok (DFloat y)) <-> exists x, float_reads v x /\ divided x 10 y).
Proof. intros f v r y [[A [B C]]|[A B]]; [apply (proj1 (c54_tenths f v r y)); auto|apply (proj2 (c54_tenths f v r y)); auto]. Qed.
Print Assumptions C54_tenths.
Theorem C54_magnetic_variation : forall c d r t, ~ whitespace (c :: d) ->
  (shows F039 (c :: d) r t <-> exists z s, int_reads d z /\ padded 3 z s /\ t = s ++ lit " " ++ [c]).
Proof. exact c54_magnetic. Qed.
Print Assumptions C54_magnetic_variation.
Theorem C54_cycle_date : forall a b rest r t,
  shows F032 (a :: b :: rest) r t <-> exists z, int_reads [a; b] z /\ t = (if Z.ltb 50 z then lit "19" else lit "20") ++ [a; b] ++ lit ", Release " ++ rest.
Proof. exact c54_cycle. Qed.
Print Assumptions C54_cycle_date.
(* numbers that nobody meant: exponents, the words for infinity, underscores, other scripts *)
Example C54_ex : shows F026 (lit "1e3") no_record (lit "100.0") /\ shows F026 (lit "INF") no_record (lit "inf") /\ shows F027 (lit "1_05") no_record (lit "10.5 nm") /\
  shows F027 (lit "T-5") no_record (lit "-0.5 min") /\ shows F027 (lit "nan ") no_record (lit "nan nm") /\ shows F034 ([1633; 1632; 1632; 1639; 1637]%N) no_record (lit "100.75") /\
  run_fn F269 (lit "+1.5") no_record = ([], Ok (DFloat (FFin false 5404319552844595 (-55)))) /\
  shows F039 (lit "E 1 ") no_record (lit "001 E") /\ shows F039 (lit "E-1") no_record (lit "-01 E") /\ shows F039 (lit "W1_0") no_record (lit "010 W") /\
  shows F032 (lit "-113") no_record (lit "20-1, Release 13") /\ shows F032 (lit " 113") no_record (lit "20 1, Release 13").
Proof. repeat split; vm_compute; reflexivity. Qed.

(* ================= C55 ================= *)
(* str(x) of a float x: the shortest decimal that reads back as x, of these the nearest, laid out in one way *)
Theorem C55_shortest : forall x, a_double x -> forall t, t = repr_fl x <-> shows_float x t.
Proof. intros x A t. symmetry. apply shows_iff. exact A. Qed.
Print Assumptions C55_shortest.
Theorem C55_reads_back : forall x, a_double x -> float_reads (repr_fl x) x.
Proof. exact repr_reads. Qed.
Print Assumptions C55_reads_back.
(* so that different numbers are shown differently *)
Theorem C55_injective : forall x y, a_double x -> a_double y -> repr_fl x = repr_fl y -> x = y.
Proof. intros x y A B E. apply repr_reads in A, B. rewrite E in A. apply (C53_unambiguous (repr_fl y) x y 0%Z 0%Z); auto. Qed.
Print Assumptions C55_injective.
(* every float that the decoders compute is such a number *)
Theorem C55_decoded_floats : forall f v r evs x, run_fn f v r = (evs, Ok (DFloat x)) -> a_double x.
Proof. exact decoded_double. Qed.
Print Assumptions C55_decoded_floats.
Example C55_ex : shows_float (FFin false 7205759403792794 (-56)) (lit "0.1") /\ shows_float (FFin true 1 (-1074)) (lit "-5e-324") /\
  shows_float (FFin false 9007199254740991 971) (lit "1.7976931348623157e+308") /\ shows_float (FFin false 5000000000000000 1) (lit "1e+16") /\
  shows_float (FFin false 4503599627370496 (-96)) (lit "5.684341886080802e-14") /\ shows_float (FFin false 7036874417766400 (-43)) (lit "800.0") /\ shows_float (FZero true) (lit "-0.0").
Proof. repeat match goal with |- _ /\ _ => split end; (apply shows_iff; [vm_compute; intuition discriminate || exact I|vm_compute; reflexivity]). Qed.
