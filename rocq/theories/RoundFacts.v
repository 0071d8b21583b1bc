(* Rounding a quotient to binary64. *)
From Coq Require Import List String NArith ZArith Bool Arith Lia.
From Verif Require Import PyBase DecoderTables Decoder Record Spec StrFacts SpecNum NumFacts SpecCodes SpecDecode NumProps.
Import ListNotations.
Open Scope string_scope.
Open Scope list_scope.
Local Open Scope Z_scope.

(* ---- powers of ten with any exponent, as numerator and denominator ---- *)
Definition p10 (k : Z) : Z := 10 ^ Z.max k 0.
Definition n10 (k : Z) : Z := 10 ^ Z.max (- k) 0.
Lemma p10_pos : forall k, 0 < p10 k. Proof. intro. apply Z.pow_pos_nonneg; lia. Qed.
Lemma n10_pos : forall k, 0 < n10 k. Proof. intro. apply Z.pow_pos_nonneg; lia. Qed.
Lemma p10_shift : forall k i, 0 <= i -> p10 (k + i) * n10 k = 10 ^ i * p10 k * n10 (k + i).
Proof. intros k i I. unfold p10, n10. rewrite <- !Z.pow_add_r by lia. f_equal. lia. Qed.
Lemma p10_sum : forall s k i, s + k = i -> 0 <= i -> p10 s * p10 k = 10 ^ i * n10 s * n10 k.
Proof. intros s k i E I. unfold p10, n10. rewrite <- !Z.pow_add_r by lia. f_equal. lia. Qed.
Lemma p10_opp : forall k, p10 (- k) = n10 k. Proof. reflexivity. Qed.
Lemma n10_opp : forall k, n10 (- k) = p10 k. Proof. intro k. unfold n10. rewrite Z.opp_involutive. reflexivity. Qed.
Lemma p10_bound : forall k, k <= 40 -> p10 k < 2 ^ 140.
Proof. intros k K. apply Z.le_lt_trans with (10 ^ 40); [apply Z.pow_le_mono_r; lia|reflexivity]. Qed.
Lemma n10_bound : forall k, -40 <= k -> n10 k < 2 ^ 140.
Proof. intros k K. apply Z.le_lt_trans with (10 ^ 40); [apply Z.pow_le_mono_r; lia|reflexivity]. Qed.

(* ---- rounding depends on the ratio only ---- *)
Lemma rne_scale : forall p q k, 0 < q -> 0 < k -> rne (p * k) (q * k) = rne p q.
Proof.
  intros p q k Q K. unfold rne. rewrite Z.div_mul_cancel_r, Z.mul_mod_distr_r by lia.
  replace (2 * (p mod q * k)) with (2 * (p mod q) * k) by ring. rewrite <- Zmult_compare_compat_r by lia. reflexivity.
Qed.
Lemma rne_ratio : forall p q p' q', 0 < q -> 0 < q' -> p * q' = p' * q -> rne p q = rne p' q'.
Proof. intros p q p' q' Q Q' E. rewrite <- (rne_scale p q q'), <- (rne_scale p' q' q), E by lia. f_equal. ring. Qed.
Lemma rne_lower : forall p q a, 0 < q -> a * q <= p -> a <= rne p q.
Proof. intros p q a Q H. pose proof (rne_close p q Q). destruct (Z_lt_le_dec (rne p q) a); [|lia]. nia. Qed.
Lemma rne_upper : forall p q a, 0 < q -> p <= a * q -> rne p q <= a.
Proof. intros p q a Q H. pose proof (rne_close p q Q). destruct (Z_lt_le_dec a (rne p q)); [|lia]. nia. Qed.

Definition normal (p q e : Z) : Prop := q * pos2 e * 2 ^ 52 <= p * neg2 e < q * pos2 e * 2 ^ 53.
Lemma normal_lt : forall p q e e', 0 < p -> 0 < q -> normal p q e -> normal p q e' -> e < e' -> False.
Proof.
  intros p q e e' P Q [_ H] [H' _] L.
  assert (S : 2 * (pos2 e * neg2 e') <= pos2 e' * neg2 e).
  { unfold pos2, neg2. rewrite <- !Z.pow_add_r, <- Z.pow_succ_r by lia. apply Z.pow_le_mono_r; lia. }
  pose proof (pos2_pos e). pose proof (neg2_pos e). pose proof (pos2_pos e'). pose proof (neg2_pos e').
  (* p/q < 2^(e+53) <= 2^(e'+52) <= p/q *)
  assert (A : p * neg2 e * neg2 e' < q * pos2 e * 2 ^ 53 * neg2 e') by (apply Z.mul_lt_mono_pos_r; lia).
  assert (B : q * pos2 e' * 2 ^ 52 * neg2 e <= p * neg2 e' * neg2 e) by (apply Z.mul_le_mono_nonneg_r; lia).
  assert (C : q * 2 ^ 52 * (2 * (pos2 e * neg2 e')) <= q * 2 ^ 52 * (pos2 e' * neg2 e)) by (apply Z.mul_le_mono_nonneg_l; lia).
  change (2 ^ 53) with (2 * 2 ^ 52) in A. lia.
Qed.
Lemma normal_unique : forall p q e e', 0 < p -> 0 < q -> normal p q e -> normal p q e' -> e = e'.
Proof.
  intros p q e e' P Q H H'. destruct (Z.lt_trichotomy e e') as [L|[L|L]]; auto; exfalso; [apply (normal_lt p q e e')|apply (normal_lt p q e' e)]; auto.
Qed.
Lemma normal_ratio : forall p q p' q' e, 0 < p -> 0 < q -> 0 < p' -> 0 < q' -> p * q' = p' * q -> normal p q e -> normal p' q' e.
Proof.
  intros p q p' q' e P Q P' Q' E [A B]. split.
  - apply (Z.mul_le_mono_pos_r _ _ q Q). replace (p' * neg2 e * q) with (p * q' * neg2 e) by (rewrite E; ring).
    replace (q' * pos2 e * 2 ^ 52 * q) with (q' * (q * pos2 e * 2 ^ 52)) by ring. replace (p * q' * neg2 e) with (q' * (p * neg2 e)) by ring.
    apply Z.mul_le_mono_pos_l; auto.
  - apply (Z.mul_lt_mono_pos_r q _ _ Q). replace (p' * neg2 e * q) with (p * q' * neg2 e) by (rewrite E; ring).
    replace (q' * pos2 e * 2 ^ 53 * q) with (q' * (q * pos2 e * 2 ^ 53)) by ring. replace (p * q' * neg2 e) with (q' * (p * neg2 e)) by ring.
    apply Z.mul_lt_mono_pos_l; auto.
Qed.
Definition round_at (neg : bool) (p q e2 : Z) : fl :=
  let e := Z.max e2 (-1074) in
  let m := rne (mul2neg p e) (mul2pos q e) in
  let '(m, e) := if m =? 2 ^ 53 then (2 ^ 52, e + 1) else (m, e) in
  if 971 <? e then FInf neg else
  match m with Zpos pm => FFin neg pm e | _ => FZero neg end.
Lemma round_q_at : forall neg p q, 0 < p -> 0 < q -> exists e, normal p q e /\ round_q neg p q = round_at neg p q e.
Proof.
  intros neg p q Hp Hq. unfold round_q.
  pose proof (Z.log2_spec p ltac:(lia)) as [P1 P2]. pose proof (Z.log2_spec q ltac:(lia)) as [Q1 Q2].
  pose proof (Z.log2_nonneg p) as LP. pose proof (Z.log2_nonneg q) as LQ.
  set (e1 := Z.log2 p - Z.log2 q - 53).
  pose proof (pos2_pos e1) as PP. pose proof (neg2_pos e1) as NP.
  assert (N1 : q * pos2 e1 * 2 ^ 52 <= p * neg2 e1).
  { assert (q * pos2 e1 * 2 ^ 52 <= 2 ^ Z.succ (Z.log2 q) * pos2 e1 * 2 ^ 52) by nia.
    assert (2 ^ Z.log2 p * neg2 e1 <= p * neg2 e1) by nia.
    enough (2 ^ Z.succ (Z.log2 q) * pos2 e1 * 2 ^ 52 <= 2 ^ Z.log2 p * neg2 e1) by lia.
    unfold pos2, neg2. rewrite <- !Z.pow_add_r by lia. apply Z.pow_le_mono_r; lia. }
  assert (N3 : p * neg2 e1 < q * pos2 e1 * 2 ^ 54).
  { assert (2 ^ Z.log2 q * pos2 e1 * 2 ^ 54 <= q * pos2 e1 * 2 ^ 54) by nia.
    assert (p * neg2 e1 < 2 ^ Z.succ (Z.log2 p) * neg2 e1) by nia.
    enough (2 ^ Z.succ (Z.log2 p) * neg2 e1 <= 2 ^ Z.log2 q * pos2 e1 * 2 ^ 54) by lia.
    unfold pos2, neg2. rewrite <- !Z.pow_add_r by lia. apply Z.pow_le_mono_r; lia. }
  exists (if mul2pos q e1 * 2 ^ 53 <=? mul2neg p e1 then e1 + 1 else e1). split; [|reflexivity].
  rewrite mul2pos_eq, mul2neg_eq. unfold normal. destruct (Z.leb_spec (q * pos2 e1 * 2 ^ 53) (p * neg2 e1)); [|lia].
  change (2 ^ 54) with (2 * 2 ^ 53) in N3. change (2 ^ 53) with (2 * 2 ^ 52) in *.
  destruct (step2 e1) as [[S1 S2]|[S1 S2]].
  - rewrite S1, S2. lia.
  - rewrite S1. rewrite S2 in *. lia.
Qed.
Lemma round_q_ratio : forall neg p q p' q', 0 < p -> 0 < q -> 0 < p' -> 0 < q' -> p * q' = p' * q -> round_q neg p q = round_q neg p' q'.
Proof.
  intros neg p q p' q' P Q P' Q' E. destruct (round_q_at neg p q P Q) as [e [N ->]]. destruct (round_q_at neg p' q' P' Q') as [e' [N' ->]].
  rewrite (normal_unique p' q' e' e P' Q' N' (normal_ratio p q p' q' e P Q P' Q' E N)). unfold round_at.
  rewrite (rne_ratio (mul2neg p (Z.max e (-1074))) (mul2pos q (Z.max e (-1074))) (mul2neg p' (Z.max e (-1074))) (mul2pos q' (Z.max e (-1074)))); [reflexivity| | |].
  - rewrite mul2pos_eq. pose proof (pos2_pos (Z.max e (-1074))). nia.
  - rewrite mul2pos_eq. pose proof (pos2_pos (Z.max e (-1074))). nia.
  - rewrite !mul2pos_eq, !mul2neg_eq. set (a := pos2 _). set (b := neg2 _). replace (p * b * (q' * a)) with (p * q' * (a * b)) by ring. rewrite E. ring.
Qed.
Lemma dec_to_fl_eq : forall m s, 0 < m -> dec_to_fl false m s = round_q false (m * p10 s) (n10 s).
Proof.
  intros m s M. unfold dec_to_fl, p10, n10. rewrite (proj2 (Z.eqb_neq m 0)) by lia. destruct (Z.leb_spec 0 s).
  - rewrite Z.max_l, Z.max_r by lia. reflexivity.
  - rewrite Z.max_r, Z.max_l by lia. rewrite Z.mul_1_r. reflexivity.
Qed.

(* ---- decimals of up to 15 digits are told apart ---- *)
Lemma close_integers : forall a b, 0 < a < 10 ^ 15 -> 0 < b -> 2 ^ 53 * Z.abs (a - b) <= a + b -> a = b.
Proof. intros a b A B H. change (10 ^ 15) with 1000000000000000 in A. change (2 ^ 53) with 9007199254740992 in H. lia. Qed.
Lemma approx_cross : forall m e p q p' q', 0 < p -> 0 < q -> 0 < p' -> 0 < q' -> approx m e p q -> approx m e p' q' ->
  2 ^ 53 * Z.abs (p * q' - p' * q) <= p * q' + p' * q.
Proof.
  intros m e p q p' q' P Q P' Q' A A'. unfold approx in *. pose proof (neg2_pos e) as N. set (V := m * pos2 e). set (n := neg2 e) in *.
  replace (m * q * pos2 e) with (V * q) in A by (unfold V; ring). replace (m * q' * pos2 e) with (V * q') in A' by (unfold V; ring).
  apply (Z.mul_le_mono_nonneg_l _ _ q') in A; [|lia]. apply (Z.mul_le_mono_nonneg_l _ _ q) in A'; [|lia].
  replace (q' * (2 ^ 53 * Z.abs (V * q - p * n))) with (2 ^ 53 * Z.abs (q' * (V * q - p * n))) in A by (rewrite Z.abs_mul, (Z.abs_eq q') by lia; ring).
  replace (q * (2 ^ 53 * Z.abs (V * q' - p' * n))) with (2 ^ 53 * Z.abs (q * (V * q' - p' * n))) in A' by (rewrite Z.abs_mul, (Z.abs_eq q) by lia; ring).
  assert (T : Z.abs (n * (p * q' - p' * q)) <= Z.abs (q' * (V * q - p * n)) + Z.abs (q * (V * q' - p' * n))).
  { replace (n * (p * q' - p' * q)) with (q * (V * q' - p' * n) - q' * (V * q - p * n)) by ring. lia. }
  rewrite Z.abs_mul, (Z.abs_eq n) in T by lia. apply (Z.mul_le_mono_pos_l _ _ n N).
  replace (n * (2 ^ 53 * Z.abs (p * q' - p' * q))) with (2 ^ 53 * (n * Z.abs (p * q' - p' * q))) by ring.
  replace (n * (p * q' + p' * q)) with (q' * (p * n) + q * (p' * n)) by ring. lia.
Qed.
Lemma dec_inj_le : forall a s b t, 0 < a < 10 ^ 15 -> 0 < b < 10 ^ 15 -> -40 <= s -> t <= 40 -> s <= t ->
  dec_to_fl false a s = dec_to_fl false b t -> a = b * 10 ^ (t - s).
Proof.
  intros a s b t A B S T L E. rewrite !dec_to_fl_eq in E by lia.
  pose proof (p10_pos s). pose proof (n10_pos s). pose proof (p10_pos t). pose proof (n10_pos t).
  pose proof (p10_bound s ltac:(lia)). pose proof (n10_bound s ltac:(lia)). pose proof (p10_bound t ltac:(lia)). pose proof (n10_bound t ltac:(lia)).
  assert (BB : 10 ^ 15 * 2 ^ 140 < 2 ^ 400) by reflexivity. assert (BC : 2 ^ 140 < 2 ^ 400) by reflexivity.
  set (M := 2 ^ 400) in *. set (K := 2 ^ 140) in *. change (10 ^ 15) with 1000000000000000 in *.
  assert (PA : 0 < a * p10 s) by nia. assert (PB : 0 < b * p10 t) by nia.
  destruct (round_q_approx false (a * p10 s) (n10 s)) as [m [e [E1 A1]]]; [split; nia|split; lia|].
  destruct (round_q_approx false (b * p10 t) (n10 t)) as [m' [e' [E2 A2]]]; [split; nia|split; lia|].
  rewrite E1, E2 in E. injection E as <- <-.
  pose proof (approx_cross _ _ _ _ _ _ PA (n10_pos s) PB (n10_pos t) A1 A2) as C.
  pose proof (p10_shift s (t - s) ltac:(lia)) as SH. replace (s + (t - s)) with t in SH by lia.
  assert (W : 0 < p10 s * n10 t) by nia. set (U := p10 s * n10 t) in *. pose proof (Z.pow_pos_nonneg 10 (t - s) ltac:(lia) ltac:(lia)) as WP.
  replace (a * p10 s * n10 t) with (U * a) in C by (unfold U; ring).
  replace (b * p10 t * n10 s) with (U * (b * 10 ^ (t - s))) in C.
  2:{ replace (b * p10 t * n10 s) with (b * (p10 t * n10 s)) by ring. rewrite SH. unfold U. ring. }
  rewrite <- Z.mul_sub_distr_l, <- Z.mul_add_distr_l, Z.abs_mul, (Z.abs_eq U) in C by lia.
  apply close_integers; [exact A|nia|]. apply (Z.mul_le_mono_pos_l _ _ U W).
  replace (U * (2 ^ 53 * Z.abs (a - b * 10 ^ (t - s)))) with (2 ^ 53 * (U * Z.abs (a - b * 10 ^ (t - s)))) by ring. exact C.
Qed.
