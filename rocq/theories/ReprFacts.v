(* repr_fl is the shortest decimal that reads back (SpecRepr.v); n / 10 is shown as such for n of up to 15 digits (C49). *)
From Coq Require Import List String NArith ZArith Bool Arith Lia.
From Verif Require Import PyBase DecoderTables Decoder Record Spec StrFacts SpecNum SpecFloat SpecPyNum SpecRepr NumFacts SpecCodes SpecDecode NumProps
  RoundFacts FloatFacts PyNumProps.
Import ListNotations.
Open Scope string_scope.
Open Scope list_scope.
Local Open Scope Z_scope.

(* ---- powers of ten and of two ---- *)
Lemma pow_root : forall a b c, 0 <= a -> 0 <= b -> 0 < c -> a ^ c <= b ^ c -> a <= b.
Proof. intros a b c A B C H. destruct (Z_le_gt_dec a b); auto. exfalso. pose proof (Z.pow_lt_mono_l b a c C ltac:(lia)). lia. Qed.
Lemma ten_le_two : forall k L, 196 * k <= 59 * L -> 93 * k <= 28 * L -> p10 k * neg2 L <= n10 k * pos2 L.
Proof.
  intros k L A B. unfold p10, n10, pos2, neg2. destruct (Z_le_gt_dec 0 k) as [K|K].
  - rewrite (Z.max_l k 0), (Z.max_r (- L) 0), (Z.max_r (- k) 0), (Z.max_l L 0) by lia. change (2 ^ 0) with 1. change (10 ^ 0) with 1. rewrite Z.mul_1_r, Z.mul_1_l.
    apply (pow_root _ _ 196); try (apply Z.pow_nonneg; lia); [lia|]. rewrite <- !Z.pow_mul_r by lia.
    apply Z.le_trans with (10 ^ (59 * L)); [apply Z.pow_le_mono_r; lia|]. rewrite (Z.mul_comm L), !Z.pow_mul_r by lia. apply Z.pow_le_mono_l. split; [discriminate|]. vm_compute. discriminate.
  - rewrite (Z.max_r k 0), (Z.max_l (- k) 0) by lia. change (10 ^ 0) with 1. rewrite Z.mul_1_l. destruct (Z_le_gt_dec 0 L) as [L0|L0].
    + rewrite (Z.max_r (- L) 0), (Z.max_l L 0) by lia. change (2 ^ 0) with 1. pose proof (Z.pow_pos_nonneg 10 (- k) ltac:(lia) ltac:(lia)). pose proof (Z.pow_pos_nonneg 2 L ltac:(lia) ltac:(lia)). nia.
    + rewrite (Z.max_l (- L) 0), (Z.max_r L 0) by lia. change (2 ^ 0) with 1. rewrite Z.mul_1_r.
      apply (pow_root _ _ 93); try (apply Z.pow_nonneg; lia); [lia|]. rewrite <- !Z.pow_mul_r by lia.
      apply Z.le_trans with (10 ^ (28 * - L)); [|apply Z.pow_le_mono_r; lia]. rewrite (Z.mul_comm (- L)), !Z.pow_mul_r by lia. apply Z.pow_le_mono_l. split; [discriminate|]. vm_compute. discriminate.
Qed.
Lemma two_le_ten : forall k L, 59 * L <= 196 * k -> 28 * L <= 93 * k -> pos2 L * n10 k <= neg2 L * p10 k.
Proof.
  intros k L A B. pose proof (ten_le_two (- k) (- L) ltac:(lia) ltac:(lia)) as H. rewrite p10_opp, n10_opp in H.
  unfold pos2, neg2 in *. rewrite Z.opp_involutive in H. lia.
Qed.
(* p / q >= 10^k *)
Definition at_least (p q k : Z) : Prop := q * p10 k <= p * n10 k.
Lemma at_least_mono : forall p q k k', 0 < p -> 0 < q -> k <= k' -> at_least p q k' -> at_least p q k.
Proof.
  intros p q k k' P Q L H. unfold at_least in *. pose proof (p10_shift k (k' - k) ltac:(lia)) as S. replace (k + (k' - k)) with k' in S by lia.
  pose proof (Z.pow_pos_nonneg 10 (k' - k) ltac:(lia) ltac:(lia)) as T. pose proof (n10_pos k) as W1. pose proof (n10_pos k') as W2. pose proof (p10_pos k) as W3. pose proof (p10_pos k') as W4.
  apply (Z.mul_le_mono_pos_r _ _ (n10 k') W2). apply Z.le_trans with (q * (10 ^ (k' - k) * p10 k * n10 k')).
  - replace (q * (10 ^ (k' - k) * p10 k * n10 k')) with (10 ^ (k' - k) * (q * p10 k * n10 k')) by ring.
    assert (0 < q * p10 k * n10 k') by (apply Z.mul_pos_pos; [apply Z.mul_pos_pos|]; lia). nia.
  - rewrite <- S. replace (q * (p10 k' * n10 k)) with (q * p10 k' * n10 k) by ring. replace (p * n10 k * n10 k') with (p * n10 k' * n10 k) by ring.
    apply Z.mul_le_mono_nonneg_r; lia.
Qed.
Lemma pow10_floor_spec : forall p q, 0 < p -> 0 < q -> -10000 <= Z.log2 p - Z.log2 q <= 10000 ->
  at_least p q (pow10_floor p q) /\ ~ at_least p q (pow10_floor p q + 1).
Proof.
  intros p q P Q X. unfold pow10_floor.
  pose proof (Z.log2_spec p P) as [P1 P2]. pose proof (Z.log2_spec q Q) as [Q1 Q2].
  pose proof (Z.log2_nonneg p) as LP. pose proof (Z.log2_nonneg q) as LQ. set (dl := Z.log2 p - Z.log2 q) in *.
  assert (H1 : p * neg2 (dl + 1) < q * pos2 (dl + 1)).
  { pose proof (neg2_pos (dl + 1)). pose proof (pos2_pos (dl + 1)).
    assert (p * neg2 (dl + 1) < 2 ^ Z.succ (Z.log2 p) * neg2 (dl + 1)) by nia.
    assert (2 ^ Z.log2 q * pos2 (dl + 1) <= q * pos2 (dl + 1)) by nia.
    enough (2 ^ Z.succ (Z.log2 p) * neg2 (dl + 1) <= 2 ^ Z.log2 q * pos2 (dl + 1)) by lia.
    unfold pos2, neg2. rewrite <- !Z.pow_add_r by lia. apply Z.pow_le_mono_r; lia. }
  assert (H2 : q * pos2 (dl - 1) < p * neg2 (dl - 1)).
  { pose proof (neg2_pos (dl - 1)). pose proof (pos2_pos (dl - 1)).
    assert (q * pos2 (dl - 1) < 2 ^ Z.succ (Z.log2 q) * pos2 (dl - 1)) by nia.
    assert (2 ^ Z.log2 p * neg2 (dl - 1) <= p * neg2 (dl - 1)) by nia.
    enough (2 ^ Z.succ (Z.log2 q) * pos2 (dl - 1) <= 2 ^ Z.log2 p * neg2 (dl - 1)) by lia.
    unfold pos2, neg2. rewrite <- !Z.pow_add_r by lia. apply Z.pow_le_mono_r; lia. }
  set (est := dl * 1233 / 4096 - 1).
  assert (EB : 4096 * (est + 1) <= dl * 1233 < 4096 * (est + 2)).
  { pose proof (Z.div_mod (dl * 1233) 4096 ltac:(lia)) as DM. pose proof (Z.mod_pos_bound (dl * 1233) 4096 ltac:(lia)). unfold est. lia. }
  assert (LO : at_least p q est).
  { pose proof (ten_le_two est (dl - 1) ltac:(lia) ltac:(lia)) as T. pose proof (p10_pos est) as W1. pose proof (n10_pos est) as W2. pose proof (neg2_pos (dl - 1)) as W3. pose proof (pos2_pos (dl - 1)) as W4.
    unfold at_least. apply (Z.mul_le_mono_pos_r _ _ (neg2 (dl - 1)) W3).
    apply Z.le_trans with (n10 est * (q * pos2 (dl - 1))).
    - replace (q * p10 est * neg2 (dl - 1)) with (q * (p10 est * neg2 (dl - 1))) by ring. replace (n10 est * (q * pos2 (dl - 1))) with (q * (n10 est * pos2 (dl - 1))) by ring.
      apply Z.mul_le_mono_nonneg_l; lia.
    - replace (p * n10 est * neg2 (dl - 1)) with (n10 est * (p * neg2 (dl - 1))) by ring. apply Z.mul_le_mono_nonneg_l; lia. }
  assert (HI : ~ at_least p q (est + 3)).
  { intro A. unfold at_least in A. pose proof (two_le_ten (est + 3) (dl + 1) ltac:(lia) ltac:(lia)) as T.
    pose proof (p10_pos (est + 3)) as W1. pose proof (n10_pos (est + 3)) as W2. pose proof (neg2_pos (dl + 1)) as W3. pose proof (pos2_pos (dl + 1)) as W4.
    apply (Z.mul_le_mono_pos_r _ _ (neg2 (dl + 1)) W3) in A.
    assert (n10 (est + 3) * (p * neg2 (dl + 1)) < n10 (est + 3) * (q * pos2 (dl + 1))) by (apply Z.mul_lt_mono_pos_l; lia).
    assert (q * (pos2 (dl + 1) * n10 (est + 3)) <= q * (neg2 (dl + 1) * p10 (est + 3))) by (apply Z.mul_le_mono_nonneg_l; lia). lia. }
  assert (G : forall k, (if 0 <=? k then q * 10 ^ k <=? p else q <=? p * 10 ^ (- k)) = (q * p10 k <=? p * n10 k)).
  { intro k. unfold p10, n10. destruct (Z.leb_spec 0 k).
    - rewrite Z.max_l, Z.max_r by lia. rewrite Z.mul_1_r. reflexivity.
    - rewrite Z.max_r, Z.max_l by lia. rewrite Z.mul_1_r. reflexivity. }
  cbv zeta. rewrite !G. destruct (Z.leb_spec (q * p10 (est + 2)) (p * n10 (est + 2))) as [A|A].
  { split; [exact A|]. replace (est + 2 + 1) with (est + 3) by lia. exact HI. }
  destruct (Z.leb_spec (q * p10 (est + 1)) (p * n10 (est + 1))) as [B|B].
  { split; [exact B|]. replace (est + 1 + 1) with (est + 2) by lia. unfold at_least. lia. }
  split; [exact LO|]. unfold at_least. lia.
Qed.

(* ---- which numbers round to a double ---- *)
(* between the midpoints to its neighbours, these included if m is even *)
Definition cell (p q m e : Z) : Prop := forall m' e', double m' e' ->
  (units m e < units m' e' -> 2 * (p * 2 ^ 1074) < (units m e + units m' e') * q \/ (2 * (p * 2 ^ 1074) = (units m e + units m' e') * q /\ Z.even m = true)) /\
  (units m' e' < units m e -> (units m e + units m' e') * q < 2 * (p * 2 ^ 1074) \/ (2 * (p * 2 ^ 1074) = (units m e + units m' e') * q /\ Z.even m = true)).
Lemma nearest_cell : forall p q m e, 0 < q -> (nearest p q m e <-> double m e /\ (2 ^ 52 <= m \/ e = -1074) /\ cell p q m e).
Proof.
  intros p q m e Q. unfold nearest, cell, distance. set (A := p * 2 ^ 1074). split.
  - intros [D [C [B T]]]. split; [exact D|]. split; [exact C|]. intros m' e' D'. pose proof (B m' e' D') as B'. pose proof (T m' e' D') as T'.
    set (u := units m e) in *. set (u' := units m' e') in *. split; intro L.
    + assert (u * q < u' * q) by nia. destruct (Z.eq_dec (2 * A) ((u + u') * q)) as [E|E]; [right; split; [exact E|apply T'; lia]|left; lia].
    + assert (u' * q < u * q) by nia. destruct (Z.eq_dec (2 * A) ((u + u') * q)) as [E|E]; [right; split; [exact E|apply T'; lia]|left; lia].
  - intros [D [C H]]. split; [exact D|]. split; [exact C|].
    assert (K : forall m' e', double m' e' -> Z.abs (units m e * q - A) <= Z.abs (units m' e' * q - A) /\
      (units m' e' <> units m e -> Z.abs (units m' e' * q - A) = Z.abs (units m e * q - A) -> Z.even m = true)).
    { intros m' e' D'. destruct (H m' e' D') as [H1 H2]. set (u := units m e) in *. set (u' := units m' e') in *.
      destruct (Z.lt_trichotomy u u') as [L|[L|L]].
      - specialize (H1 L). assert (u * q < u' * q) by nia. split; [lia|]. intros _ EQ. destruct H1 as [H1|[_ H1]]; [lia|exact H1].
      - rewrite L. split; [lia|]. congruence.
      - specialize (H2 L). assert (u' * q < u * q) by nia. split; [lia|]. intros _ EQ. destruct H2 as [H2|[_ H2]]; [lia|exact H2]. }
    split; intros m' e' D'; apply (K m' e' D').
Qed.
Lemma cell_convex : forall p q p1 q1 p2 q2 m e, 0 < q -> 0 < q1 -> 0 < q2 -> p1 * q <= p * q1 -> p * q2 <= p2 * q ->
  cell p1 q1 m e -> cell p2 q2 m e -> cell p q m e.
Proof.
  intros p q p1 q1 p2 q2 m e Q Q1 Q2 L1 L2 C1 C2 m' e' D'. destruct (C1 m' e' D') as [_ A]. destruct (C2 m' e' D') as [B _].
  set (S := units m e + units m' e') in *. assert (T : 0 < 2 ^ 1074) by reflexivity. set (t := 2 ^ 1074) in *. split; intro L.
  - specialize (B L). assert (E : 2 * (p2 * t) * q <= S * q2 * q) by (apply Z.mul_le_mono_nonneg_r; [lia|]; destruct B as [B|[B _]]; lia).
    assert (F : 2 * t * (p * q2) <= 2 * t * (p2 * q)) by (apply Z.mul_le_mono_nonneg_l; lia).
    destruct (Z.eq_dec (2 * (p * t)) (S * q)) as [EQ|NE].
    + right. split; [exact EQ|]. destruct B as [B|[_ B]]; [exfalso|exact B].
      assert (2 * (p2 * t) * q < S * q2 * q) by (apply Z.mul_lt_mono_pos_r; lia).
      assert (2 * (p * t) * q2 = S * q * q2) by (rewrite EQ; ring). lia.
    + left. assert (2 * (p * t) <= S * q); [|lia]. apply (Z.mul_le_mono_pos_r _ _ q2 Q2). lia.
  - specialize (A L). assert (E : S * q1 * q <= 2 * (p1 * t) * q) by (apply Z.mul_le_mono_nonneg_r; [lia|]; destruct A as [A|[A _]]; lia).
    assert (F : 2 * t * (p1 * q) <= 2 * t * (p * q1)) by (apply Z.mul_le_mono_nonneg_l; lia).
    destruct (Z.eq_dec (2 * (p * t)) (S * q)) as [EQ|NE].
    + right. split; [exact EQ|]. destruct A as [A|[_ A]]; [exfalso|exact A].
      assert (S * q1 * q < 2 * (p1 * t) * q) by (apply Z.mul_lt_mono_pos_r; lia).
      assert (2 * (p * t) * q1 = S * q * q1) by (rewrite EQ; ring). lia.
    + left. assert (S * q <= 2 * (p * t)); [|lia]. apply (Z.mul_le_mono_pos_r _ _ q1 Q1). lia.
Qed.
(* doubles are at least 2^-53 of their value apart *)
Lemma gap : forall m e m' e', double m e -> (2 ^ 52 <= m \/ e = -1074) -> double m' e' -> units m' e' <> units m e ->
  units m e <= 2 ^ 53 * Z.abs (units m' e' - units m e).
Proof.
  intros m e m' e' D C D' NE. destruct (Z.lt_trichotomy (units m e) (units m' e')) as [L|[L|L]]; [|congruence|].
  - pose proof (units_lt_next m e m' e' D C D' L) as NX. rewrite Z.abs_eq by lia. destruct D as [M E]. unfold units in *.
    pose proof (Z.pow_pos_nonneg 2 (e + 1074) ltac:(lia) ltac:(lia)) as G. set (g := 2 ^ (e + 1074)) in *. set (B := 2 ^ 53) in *. nia.
  - rewrite Z.abs_neq by lia. destruct D as [M E], D' as [M' E']. unfold units in *. destruct (Z_le_gt_dec e e') as [K|K].
    + assert (S : 2 ^ (e' + 1074) = 2 ^ (e' - e) * 2 ^ (e + 1074)) by (rewrite <- Z.pow_add_r by lia; f_equal; lia). rewrite S in *.
      pose proof (Z.pow_pos_nonneg 2 (e + 1074) ltac:(lia) ltac:(lia)) as G. set (g := 2 ^ (e + 1074)) in *. set (B := 2 ^ 53) in *. rewrite Z.mul_assoc in *.
      apply (Z.mul_lt_mono_pos_r _ _ _ G) in L. assert ((m' * 2 ^ (e' - e) + 1) * g <= m * g) by (apply Z.mul_le_mono_nonneg_r; lia). nia.
    + destruct C as [C|C]; [|lia]. rewrite (pow_split e e') in * by lia.
      pose proof (Z.pow_pos_nonneg 2 (e' + 1074) ltac:(lia) ltac:(lia)) as G. pose proof (Z.pow_pos_nonneg 2 (e - e' - 1) ltac:(lia) ltac:(lia)) as H.
      set (g := 2 ^ (e' + 1074)) in *. set (h := 2 ^ (e - e' - 1)) in *. change (2 ^ 53) with (2 * 2 ^ 52) in *. set (B := 2 ^ 52) in *.
      assert (BP : 1 <= B) by (unfold B; vm_compute; discriminate).
      assert (U : 2 * B * g <= m * (h * (2 * g))).
      { assert (B * (2 * g) <= m * (2 * g)) by (apply Z.mul_le_mono_nonneg_r; lia). assert (m * (2 * g) * 1 <= m * (2 * g) * h) by (apply Z.mul_le_mono_nonneg_l; nia). lia. }
      assert (U' : m' * g <= (2 * B - 1) * g) by (apply Z.mul_le_mono_nonneg_r; lia).
      set (u := m * (h * (2 * g))) in *. set (u' := m' * g) in *. clearbody u u'. nia.
Qed.
Lemma fl_eqb_eq : forall x y, fl_eqb x y = true -> x = y.
Proof.
  intros [s|s| |s m e] [s'|s'| |s' m' e'] H; cbn [fl_eqb] in H; try discriminate; try (apply Bool.eqb_prop in H; congruence); auto.
  apply andb_true_iff in H as [H H3]. apply andb_true_iff in H as [H1 H2]. apply Bool.eqb_prop in H1. apply Pos.eqb_eq in H2. apply Z.eqb_eq in H3. congruence.
Qed.
Lemma fl_eqb_refl : forall s m e, fl_eqb (FFin s m e) (FFin s m e) = true.
Proof. intros. cbn [fl_eqb]. rewrite Bool.eqb_reflx, Pos.eqb_refl, Z.eqb_refl. reflexivity. Qed.

Section Repr.
Variables (m : positive) (e : Z).
Hypothesis F : finite_double m e.
Local Definition p := Zpos m * pos2 e.
Local Definition q := neg2 e.
Lemma p_pos : 0 < p. Proof. unfold p. pose proof (pos2_pos e). nia. Qed.
Lemma q_pos : 0 < q. Proof. apply neg2_pos. Qed.
Lemma value_units : units (Zpos m) e * q = p * 2 ^ 1074.
Proof.
  destruct F as [[_ E] _]. unfold units, p, q, pos2, neg2. rewrite <- !Z.mul_assoc, <- !Z.pow_add_r by lia. f_equal. f_equal. lia.
Qed.
Lemma value_cell : cell p q (Zpos m) e.
Proof. intros m' e' D'. pose proof q_pos as Q. pose proof value_units as V. split; intro L; left; nia. Qed.
(* d * 10^k rounds to the double *)
Definition reads (d k : Z) : Prop := cell (d * p10 k) (n10 k) (Zpos m) e.
Lemma dec_to_fl_neg : forall neg d k, 0 < d -> dec_to_fl neg d k = round_q neg (d * p10 k) (n10 k).
Proof.
  intros neg d s M. unfold dec_to_fl, p10, n10. rewrite (proj2 (Z.eqb_neq d 0)) by lia. destruct (Z.leb_spec 0 s).
  - rewrite Z.max_l, Z.max_r by lia. reflexivity.
  - rewrite Z.max_r, Z.max_l by lia. rewrite Z.mul_1_r. reflexivity.
Qed.
Lemma reads_iff : forall neg d k, 0 < d -> (dec_to_fl neg d k = FFin neg m e <-> reads d k).
Proof.
  intros neg d k D. rewrite dec_to_fl_neg by exact D. pose proof (p10_pos k) as W1. pose proof (n10_pos k) as W2. assert (P : 0 < d * p10 k) by nia. split.
  - intro E. symmetry in E. apply rounded_iff in E; auto. destruct E as [m' [e' [N E]]]. destruct m' as [|m'|m']; try discriminate.
    destruct (971 <? e'); [discriminate|]. injection E as <- <-. apply nearest_cell in N; auto. apply N.
  - intro C. symmetry. apply rounded_iff; auto. destruct F as [F1 [F2 F3]]. exists (Zpos m), e. split; [apply nearest_cell; auto|].
    rewrite (proj2 (Z.ltb_ge 971 e)) by lia. reflexivity.
Qed.
(* comparing decimals *)
Definition dec_le (d k d' k' : Z) : Prop := d * p10 k * n10 k' <= d' * p10 k' * n10 k.
Lemma reads_between_low : forall d k d' k', dec_le d' k' d k -> d * p10 k * q <= p * n10 k -> reads d' k' -> reads d k.
Proof.
  intros d k d' k' L V R. unfold reads in *. apply (cell_convex _ _ (d' * p10 k') (n10 k') p q); auto using n10_pos, q_pos, value_cell.
Qed.
Lemma reads_between_high : forall d k d' k', dec_le d k d' k' -> p * n10 k <= d * p10 k * q -> reads d' k' -> reads d k.
Proof.
  intros d k d' k' L V R. unfold reads in *. apply (cell_convex _ _ p q (d' * p10 k') (n10 k')); auto using n10_pos, q_pos, value_cell.
Qed.
Lemma reads_same : forall d k d' k', d * p10 k * n10 k' = d' * p10 k' * n10 k -> reads d k -> reads d' k'.
Proof.
  intros d k d' k' E R. unfold reads in *. apply (cell_convex _ _ (d * p10 k) (n10 k) (d * p10 k) (n10 k)); auto using n10_pos; lia.
Qed.
(* the distance from the double, over n10 k * q *)
Definition err (d k : Z) : Z := Z.abs (d * p10 k * q - p * n10 k).
Lemma err_low : forall d k d' k', dec_le d' k' d k -> d * p10 k * q <= p * n10 k -> err d k * n10 k' <= err d' k' * n10 k.
Proof.
  intros d k d' k' L V. unfold err, dec_le in *. pose proof (n10_pos k) as W1. pose proof (n10_pos k') as W2. pose proof q_pos as Q.
  assert (L' : d' * p10 k' * n10 k * q <= d * p10 k * n10 k' * q) by (apply Z.mul_le_mono_nonneg_r; lia).
  rewrite (Z.abs_neq (d * p10 k * q - p * n10 k)) by lia.
  apply Z.le_trans with (- (d' * p10 k' * q - p * n10 k') * n10 k); [lia|]. apply Z.mul_le_mono_nonneg_r; lia.
Qed.
Lemma err_high : forall d k d' k', dec_le d k d' k' -> p * n10 k <= d * p10 k * q -> err d k * n10 k' <= err d' k' * n10 k.
Proof.
  intros d k d' k' L V. unfold err, dec_le in *. pose proof (n10_pos k) as W1. pose proof (n10_pos k') as W2. pose proof q_pos as Q.
  assert (L' : d * p10 k * n10 k' * q <= d' * p10 k' * n10 k * q) by (apply Z.mul_le_mono_nonneg_r; lia).
  rewrite (Z.abs_eq (d * p10 k * q - p * n10 k)) by lia.
  apply Z.le_trans with ((d' * p10 k' * q - p * n10 k') * n10 k); [lia|]. apply Z.mul_le_mono_nonneg_r; lia.
Qed.
Lemma err_low_lt : forall d k d' k', d' * p10 k' * n10 k < d * p10 k * n10 k' -> d * p10 k * q <= p * n10 k -> err d k * n10 k' < err d' k' * n10 k.
Proof.
  intros d k d' k' L V. unfold err in *. pose proof (n10_pos k) as W1. pose proof (n10_pos k') as W2. pose proof q_pos as Q.
  assert (L' : d' * p10 k' * n10 k * q < d * p10 k * n10 k' * q) by (apply Z.mul_lt_mono_pos_r; lia).
  rewrite (Z.abs_neq (d * p10 k * q - p * n10 k)) by lia.
  apply Z.lt_le_trans with (- (d' * p10 k' * q - p * n10 k') * n10 k); [lia|]. apply Z.mul_le_mono_nonneg_r; lia.
Qed.
Lemma err_high_lt : forall d k d' k', d * p10 k * n10 k' < d' * p10 k' * n10 k -> p * n10 k <= d * p10 k * q -> err d k * n10 k' < err d' k' * n10 k.
Proof.
  intros d k d' k' L V. unfold err in *. pose proof (n10_pos k) as W1. pose proof (n10_pos k') as W2. pose proof q_pos as Q.
  assert (L' : d * p10 k * n10 k' * q < d' * p10 k' * n10 k * q) by (apply Z.mul_lt_mono_pos_r; lia).
  rewrite (Z.abs_eq (d * p10 k * q - p * n10 k)) by lia.
  apply Z.lt_le_trans with ((d' * p10 k' * q - p * n10 k') * n10 k); [lia|]. apply Z.mul_le_mono_nonneg_r; lia.
Qed.
Definition same (d k d' k' : Z) : Prop := d * p10 k * n10 k' = d' * p10 k' * n10 k.
(* no farther than d' * 10^k', and even in the last place if equally far *)
Definition better (even : bool) (d k d' k' : Z) : Prop :=
  err d k * n10 k' <= err d' k' * n10 k /\ (err d k * n10 k' = err d' k' * n10 k -> same d k d' k' \/ even = true).
Local Definition x := pow10_floor p q.
Lemma log_range : -10000 <= Z.log2 p - Z.log2 q <= 10000.
Proof.
  destruct F as [[M E] [_ E']]. unfold p, q, pos2, neg2. rewrite Z.log2_mul_pow2, Z.log2_pow2 by lia.
  assert (Z.log2 (Zpos m) < 53) by (apply Z.log2_lt_pow2; lia). pose proof (Z.log2_nonneg (Zpos m)). lia.
Qed.
Lemma x_low : at_least p q x. Proof. apply pow10_floor_spec; [apply p_pos|apply q_pos|apply log_range]. Qed.
Lemma x_high : p * n10 (x + 1) < q * p10 (x + 1).
Proof. pose proof (proj2 (pow10_floor_spec p q p_pos q_pos log_range)) as H. fold x in H. unfold at_least in H. lia. Qed.
Section Digits.
Variable nd : Z.
Hypothesis ND : 1 <= nd.
Local Definition t := x - (nd - 1).
Local Definition p' := p * n10 t.
Local Definition q' := q * p10 t.
Lemma q'_pos : 0 < q'. Proof. clear ND. unfold q'. pose proof q_pos. pose proof (p10_pos t). nia. Qed.
Lemma p'_low : 10 ^ (nd - 1) * q' <= p'.
Proof.
  pose proof x_low as L. unfold at_least in L. unfold p', q'. pose proof (n10_pos x) as X2. apply (Z.mul_le_mono_pos_r _ _ (n10 x) X2).
  pose proof (p10_shift t (nd - 1) ltac:(lia)) as H. replace (t + (nd - 1)) with x in H by (unfold t; lia).
  replace (10 ^ (nd - 1) * (q * p10 t) * n10 x) with (q * (10 ^ (nd - 1) * p10 t * n10 x)) by ring. rewrite <- H.
  replace (q * (p10 x * n10 t)) with (n10 t * (q * p10 x)) by ring. replace (p * n10 t * n10 x) with (n10 t * (p * n10 x)) by ring.
  apply Z.mul_le_mono_pos_l; auto using n10_pos.
Qed.
Lemma p'_high : p' < 10 ^ nd * q'.
Proof.
  pose proof x_high as L. unfold p', q'. pose proof (n10_pos (x + 1)) as X2. apply (Z.mul_lt_mono_pos_r (n10 (x + 1)) _ _ X2).
  pose proof (p10_shift t nd ltac:(lia)) as H. replace (t + nd) with (x + 1) in H by (unfold t; lia).
  replace (10 ^ nd * (q * p10 t) * n10 (x + 1)) with (q * (10 ^ nd * p10 t * n10 (x + 1))) by ring. rewrite <- H.
  replace (q * (p10 (x + 1) * n10 t)) with (n10 t * (q * p10 (x + 1))) by ring. replace (p * n10 t * n10 (x + 1)) with (n10 t * (p * n10 (x + 1))) by ring.
  apply Z.mul_lt_mono_pos_l; auto using n10_pos.
Qed.
Local Definition lo := p' / q'.
Local Definition near := rne p' q'.
Local Definition far := if near =? lo then near + 1 else lo.
Lemma lo_le : lo * q' <= p'. Proof. pose proof (Z.mul_div_le p' q' q'_pos). unfold lo. lia. Qed.
Lemma lo_gt : p' < (lo + 1) * q'. Proof. pose proof (Z.mul_succ_div_gt p' q' q'_pos). unfold lo. lia. Qed.
Lemma lo_range : 10 ^ (nd - 1) <= lo < 10 ^ nd.
Proof.
  pose proof q'_pos as Q. pose proof lo_le. pose proof lo_gt. pose proof p'_low. pose proof p'_high. split.
  - apply Z.lt_succ_r. apply (Z.mul_lt_mono_pos_r q' _ _ Q). lia.
  - apply (Z.mul_lt_mono_pos_r q' _ _ Q). lia.
Qed.
Lemma near_cases : (near = lo /\ far = lo + 1) \/ (near = lo + 1 /\ far = lo).
Proof.
  assert (H : near = lo \/ near = lo + 1) by (unfold near, lo, rne; destruct (_ ?= _); auto; destruct (Z.even _); auto). unfold far.
  destruct H as [->| ->]; [left|right].
  - rewrite Z.eqb_refl. auto.
  - rewrite (proj2 (Z.eqb_neq (lo + 1) lo)) by lia. auto.
Qed.
(* a decimal of nd digits is not strictly between lo and lo + 1 *)
Lemma outside : forall d' k', 0 < d' < 10 ^ nd -> dec_le d' k' lo t \/ dec_le (lo + 1) t d' k'.
Proof.
  intros d' k' D. unfold dec_le. pose proof (p10_pos t) as W1. pose proof (n10_pos t) as W2. pose proof (p10_pos k') as W3. pose proof (n10_pos k') as W4.
  destruct (Z_le_gt_dec t k') as [L|L].
  - pose proof (p10_shift t (k' - t) ltac:(lia)) as S. replace (t + (k' - t)) with k' in S by lia.
    replace (d' * p10 k' * n10 t) with (d' * (p10 k' * n10 t)) by ring. rewrite S. replace (d' * (10 ^ (k' - t) * p10 t * n10 k')) with (d' * 10 ^ (k' - t) * (p10 t * n10 k')) by ring.
    rewrite <- !Z.mul_assoc. rewrite !(Z.mul_assoc d'). destruct (Z_le_gt_dec (d' * 10 ^ (k' - t)) lo); [left|right]; apply Z.mul_le_mono_nonneg_r; nia.
  - left. pose proof (p10_shift k' (t - k') ltac:(lia)) as S. replace (k' + (t - k')) with t in S by lia.
    replace (lo * p10 t * n10 k') with (lo * (p10 t * n10 k')) by ring. rewrite S. pose proof lo_range as [LR _].
    replace (lo * (10 ^ (t - k') * p10 k' * n10 t)) with (lo * 10 ^ (t - k') * (p10 k' * n10 t)) by ring.
    replace (d' * p10 k' * n10 t) with (d' * (p10 k' * n10 t)) by ring. apply Z.mul_le_mono_nonneg_r; [nia|].
    assert (10 ^ nd = 10 * 10 ^ (nd - 1)) by (rewrite <- Z.pow_succ_r by lia; f_equal; lia).
    assert (10 ^ 1 <= 10 ^ (t - k')) by (apply Z.pow_le_mono_r; lia). change (10 ^ 1) with 10 in *. nia.
Qed.
Lemma lo_value : lo * p10 t * q <= p * n10 t.
Proof. pose proof lo_le as H. unfold p', q' in H. lia. Qed.
Lemma hi_value : p * n10 t <= (lo + 1) * p10 t * q.
Proof. pose proof lo_gt as H. unfold p', q' in H. lia. Qed.
Lemma near_err : forall d, err near t <= err d t.
Proof.
  intro d. pose proof (rne_nearest p' q' d q'_pos) as H. fold near in H. unfold err. unfold p', q' in H.
  replace (near * p10 t * q) with (near * (q * p10 t)) by ring. replace (d * p10 t * q) with (d * (q * p10 t)) by ring. exact H.
Qed.
(* if any nd-digit decimal reads back, so does near or far, and then it is no nearer *)
Lemma some_reads : forall d' k', 0 < d' < 10 ^ nd -> reads d' k' -> reads near t \/ reads far t.
Proof.
  intros d' k' D R. assert (H : reads lo t \/ reads (lo + 1) t).
  { destruct (outside d' k' D) as [O|O]; [left; eapply reads_between_low; eauto using lo_value|right; eapply reads_between_high; eauto using hi_value]. }
  destruct near_cases as [[-> ->]|[-> ->]]; tauto.
Qed.
Lemma near_tie : forall d, d <> near -> err d t = err near t -> Z.even near = true.
Proof.
  intros d NE E. pose proof (proj2 (nearest_integer_iff p' q' near q'_pos) eq_refl) as [_ H]. apply (H d NE). unfold err in E. unfold p', q'.
  replace (d * (q * p10 t)) with (d * p10 t * q) by ring. replace (near * (q * p10 t)) with (near * p10 t * q) by ring. exact E.
Qed.
Lemma near_best : forall d' k', 0 < d' < 10 ^ nd -> better (Z.even near) near t d' k'.
Proof.
  intros d' k' D. pose proof (n10_pos k') as W. destruct near_cases as [[A _]|[A _]]; destruct (outside d' k' D) as [O|O]; unfold dec_le in O.
  - rewrite A in *. split; [apply err_low; auto using lo_value|]. intro E. left. unfold same.
    destruct (Z.eq_dec (lo * p10 t * n10 k') (d' * p10 k' * n10 t)); auto. pose proof (err_low_lt lo t d' k' ltac:(lia) lo_value). lia.
  - pose proof (err_high (lo + 1) t d' k' O hi_value) as H. pose proof (near_err (lo + 1)) as H1.
    assert (H2 : err near t * n10 k' <= err (lo + 1) t * n10 k') by (apply Z.mul_le_mono_nonneg_r; lia). split; [lia|]. intro E. right.
    apply (near_tie (lo + 1)); [lia|]. apply (Z.mul_reg_r _ _ (n10 k')); lia.
  - pose proof (err_low lo t d' k' O lo_value) as H. pose proof (near_err lo) as H1.
    assert (H2 : err near t * n10 k' <= err lo t * n10 k') by (apply Z.mul_le_mono_nonneg_r; lia). split; [lia|]. intro E. right.
    apply (near_tie lo); [lia|]. apply (Z.mul_reg_r _ _ (n10 k')); lia.
  - rewrite A in *. split; [apply err_high; auto using hi_value|]. intro E. left. unfold same.
    destruct (Z.eq_dec ((lo + 1) * p10 t * n10 k') (d' * p10 k' * n10 t)); auto. pose proof (err_high_lt (lo + 1) t d' k' ltac:(lia) hi_value). lia.
Qed.
Lemma far_best : forall d' k', ~ reads near t -> 0 < d' < 10 ^ nd -> reads d' k' -> better (Z.even far) far t d' k'.
Proof.
  intros d' k' NR D R. destruct near_cases as [[A B]|[A B]]; rewrite A in NR; rewrite B; destruct (outside d' k' D) as [O|O].
  - exfalso. apply NR. eapply reads_between_low; eauto using lo_value.
  - split; [apply err_high; auto using hi_value|]. intro E. left. unfold same, dec_le in *.
    destruct (Z.eq_dec ((lo + 1) * p10 t * n10 k') (d' * p10 k' * n10 t)); auto. pose proof (err_high_lt (lo + 1) t d' k' ltac:(lia) hi_value). lia.
  - split; [apply err_low; auto using lo_value|]. intro E. left. unfold same, dec_le in *.
    destruct (Z.eq_dec (lo * p10 t * n10 k') (d' * p10 k' * n10 t)); auto. pose proof (err_low_lt lo t d' k' ltac:(lia) lo_value). lia.
  - exfalso. apply NR. eapply reads_between_high; eauto using hi_value.
Qed.
End Digits.
(* seventeen digits are always enough *)
Lemma near17 : reads (near 17) (t 17).
Proof.
  pose proof (rne_close (p' 17) (q' 17) (q'_pos 17)) as H. fold (near 17) in H. pose proof (p'_low 17 ltac:(lia)) as L. change (17 - 1) with 16 in L.
  pose proof (q'_pos 17) as Q'. pose proof q_pos as Q. pose proof value_units as V. pose proof (n10_pos (t 17)) as W.
  unfold reads, cell. intros m' e' D'. destruct F as [F1 [F2 _]]. set (A := 2 ^ 1074) in *.
  assert (AP : 0 < A) by (apply Z.pow_pos_nonneg; lia).
  assert (S : 2 ^ 53 * (q' 17 * A) < p' 17 * A).
  { change (10 ^ 16) with 10000000000000000 in L. change (2 ^ 53) with 9007199254740992. nia. }
  assert (E : units (Zpos m) e * q * n10 (t 17) = p' 17 * A) by (rewrite V; unfold p'; ring).
  assert (X : near 17 * p10 (t 17) * q = near 17 * q' 17) by (unfold q'; ring).
  assert (G : units m' e' <> units (Zpos m) e -> q' 17 * A < Z.abs (units m' e' - units (Zpos m) e) * (q * n10 (t 17))).
  { intro NE. pose proof (gap _ _ _ _ F1 F2 D' NE) as G. set (u := units (Zpos m) e) in *. set (u' := units m' e') in *. set (w := q * n10 (t 17)) in *.
    assert (WP : 0 < w) by (unfold w; nia). set (B := 2 ^ 53) in *. assert (0 < B) by (unfold B; lia).
    assert (G' : u * w <= B * Z.abs (u' - u) * w) by (apply Z.mul_le_mono_nonneg_r; lia).
    replace (u * q * n10 (t 17)) with (u * w) in E by (unfold w; ring). apply (Z.mul_lt_mono_pos_l B); [assumption|]. lia. }
  assert (H' : - (q' 17) <= 2 * (near 17 * q' 17 - p' 17) <= q' 17) by lia.
  assert (H1 : (2 * (near 17 * q' 17)) * A <= (2 * p' 17 + q' 17) * A) by (apply Z.mul_le_mono_nonneg_r; lia).
  assert (H2 : (2 * p' 17) * A <= (2 * (near 17 * q' 17) + q' 17) * A) by (apply Z.mul_le_mono_nonneg_r; lia).
  clearbody A.
  set (u := units (Zpos m) e) in *. set (u' := units m' e') in *. split; intro LT; left; apply (Z.mul_lt_mono_pos_r q); try exact Q.
  - specialize (G ltac:(lia)). rewrite Z.abs_eq in G by lia.
    replace (2 * (near 17 * p10 (t 17) * A) * q) with (2 * (near 17 * p10 (t 17) * q * A)) by ring. rewrite X.
    replace ((u + u') * n10 (t 17) * q) with (2 * (u * q * n10 (t 17)) + (u' - u) * (q * n10 (t 17))) by ring. rewrite E. lia.
  - specialize (G ltac:(lia)). rewrite Z.abs_neq in G by lia.
    replace (2 * (near 17 * p10 (t 17) * A) * q) with (2 * (near 17 * p10 (t 17) * q * A)) by ring. rewrite X.
    replace ((u + u') * n10 (t 17) * q) with (2 * (u * q * n10 (t 17)) - - (u' - u) * (q * n10 (t 17))) by ring. rewrite E. lia.
Qed.
(* what the search returns: a number a of nd digits and an exponent y such that a * 10^(y-(nd-1)) is the shortest and nearest *)
Definition found (r : str * Z) : Prop := exists nd a y, 1 <= nd /\ r = (str_of_Z a, y) /\ (y = x \/ y = x + 1) /\ 10 ^ (nd - 1) <= a < 10 ^ nd /\ reads a (y - (nd - 1)) /\
  (forall d' k', 0 < d' -> reads d' k' -> 10 ^ (nd - 1) <= d' /\ (d' < 10 ^ nd -> better ((k' <? y - (nd - 1)) || Z.even a) a (y - (nd - 1)) d' k')).
Lemma err_same : forall d k d' k', d * p10 k * n10 k' = d' * p10 k' * n10 k -> err d k * n10 k' = err d' k' * n10 k.
Proof.
  intros d k d' k' E. unfold err. pose proof (n10_pos k) as W1. pose proof (n10_pos k') as W2.
  rewrite <- (Z.abs_eq (n10 k')) at 1 by lia. rewrite <- (Z.abs_eq (n10 k)) at 2 by lia. rewrite <- !Z.abs_mul. f_equal.
  replace ((d * p10 k * q - p * n10 k) * n10 k') with (d * p10 k * n10 k' * q - p * n10 k * n10 k') by ring. rewrite E. ring.
Qed.
Lemma result_found : forall nd d, 1 <= nd -> d = lo nd \/ d = lo nd + 1 -> reads d (t nd) ->
  (forall d' k', 0 < d' -> reads d' k' -> 10 ^ (nd - 1) <= d') ->
  (forall d' k', 0 < d' < 10 ^ nd -> reads d' k' -> better (Z.even d) d (t nd) d' k') ->
  found (if d =? 10 ^ nd then (str_of_Z (10 ^ (nd - 1)), x + 1) else (str_of_Z d, x)).
Proof.
  intros nd d ND DL R MIN BEST. pose proof (lo_range nd ND) as LR. assert (T : 10 ^ nd = 10 * 10 ^ (nd - 1)) by (rewrite <- Z.pow_succ_r by lia; f_equal; lia).
  pose proof (Z.pow_pos_nonneg 10 (nd - 1) ltac:(lia) ltac:(lia)) as TP. destruct (Z.eqb_spec d (10 ^ nd)) as [E|NE].
  - exists nd, (10 ^ (nd - 1)), (x + 1). split; [lia|]. split; [reflexivity|]. split; [lia|]. split; [lia|].
    replace (x + 1 - (nd - 1)) with (t nd + 1) by (unfold t; lia).
    pose proof (p10_shift (t nd) 1 ltac:(lia)) as S. change (10 ^ 1) with 10 in S.
    assert (EQ : d * p10 (t nd) * n10 (t nd + 1) = 10 ^ (nd - 1) * p10 (t nd + 1) * n10 (t nd)).
    { rewrite E, T. replace (10 ^ (nd - 1) * p10 (t nd + 1) * n10 (t nd)) with (10 ^ (nd - 1) * (p10 (t nd + 1) * n10 (t nd))) by ring. rewrite S. ring. }
    split; [eapply reads_same; [exact EQ|exact R]|]. intros d' k' D' R'. split; [eapply MIN; eauto|]. intro LT.
    specialize (BEST d' k' (conj D' LT) R') as [BE TIE]. pose proof (err_same _ _ _ _ EQ) as ER.
    pose proof (n10_pos (t nd)) as W1. pose proof (n10_pos (t nd + 1)) as W2. pose proof (n10_pos k') as W3.
    assert (SC : err (10 ^ (nd - 1)) (t nd + 1) * n10 k' * n10 (t nd) = err d (t nd) * n10 k' * n10 (t nd + 1)).
    { replace (err (10 ^ (nd - 1)) (t nd + 1) * n10 k' * n10 (t nd)) with (err (10 ^ (nd - 1)) (t nd + 1) * n10 (t nd) * n10 k') by ring. rewrite <- ER. ring. }
    assert (SC' : err d' k' * n10 (t nd + 1) * n10 (t nd) = err d' k' * n10 (t nd) * n10 (t nd + 1)) by ring. split.
    + apply (Z.mul_le_mono_pos_r _ _ (n10 (t nd)) W1). rewrite SC, SC'. apply Z.mul_le_mono_nonneg_r; lia.
    + intro TE. assert (TE' : err d (t nd) * n10 k' = err d' k' * n10 (t nd)) by (apply (Z.mul_reg_r _ _ (n10 (t nd + 1))); [lia|rewrite <- SC, <- SC', TE; reflexivity]).
      destruct (Z.eq_dec nd 1) as [->|N1].
      2:{ right. apply orb_true_iff. right. replace (nd - 1) with (Z.succ (nd - 2)) by lia. rewrite Z.pow_succ_r by lia. rewrite Z.even_mul. reflexivity. }
      destruct (Z.ltb_spec k' (t 1 + 1)) as [K|K]; [right; reflexivity|left]. unfold same. change (10 ^ (1 - 1)) with 1 in *. change (10 ^ 1) with 10 in *.
      pose proof (p10_shift (t 1 + 1) (k' - (t 1 + 1)) ltac:(lia)) as S'. replace (t 1 + 1 + (k' - (t 1 + 1))) with k' in S' by lia.
      destruct (Z.eq_dec (1 * p10 (t 1 + 1) * n10 k') (d' * p10 k' * n10 (t 1 + 1))) as [|NE]; auto. exfalso.
      pose proof (Z.pow_pos_nonneg 10 (k' - (t 1 + 1)) ltac:(lia) ltac:(lia)) as TP'.
      assert (GE : 1 * p10 (t 1 + 1) * n10 k' < d' * p10 k' * n10 (t 1 + 1)).
      { replace (d' * p10 k' * n10 (t 1 + 1)) with (d' * 10 ^ (k' - (t 1 + 1)) * (p10 (t 1 + 1) * n10 k')) in * by (rewrite <- Z.mul_assoc, Z.mul_assoc with (n := 10 ^ _), <- S'; ring).
        rewrite Z.mul_1_l in *. pose proof (p10_pos (t 1 + 1)) as W4. assert (0 < p10 (t 1 + 1) * n10 k') by nia. assert (1 <= d' * 10 ^ (k' - (t 1 + 1))) by nia. nia. }
      assert (HV : p * n10 (t 1 + 1) <= 1 * p10 (t 1 + 1) * q).
      { pose proof (hi_value 1) as HV. assert (DL' : d = lo 1 + 1) by lia. rewrite <- DL' in HV. apply (Z.mul_le_mono_pos_r _ _ (n10 (t 1)) W1).
        replace (p * n10 (t 1 + 1) * n10 (t 1)) with (p * n10 (t 1) * n10 (t 1 + 1)) by ring.
        replace (1 * p10 (t 1 + 1) * q * n10 (t 1)) with (1 * p10 (t 1 + 1) * n10 (t 1) * q) by ring. rewrite <- EQ.
        replace (d * p10 (t 1) * n10 (t 1 + 1) * q) with (d * p10 (t 1) * q * n10 (t 1 + 1)) by ring. apply Z.mul_le_mono_nonneg_r; lia. }
      pose proof (err_high_lt 1 (t 1 + 1) d' k' GE HV). lia.
  - exists nd, d, x. split; [lia|]. split; [reflexivity|]. split; [lia|]. split; [lia|]. change (x - (nd - 1)) with (t nd). split; [exact R|].
    intros d' k' D' R'. split; [eapply MIN; eauto|]. intro LT. destruct (BEST d' k' (conj D' LT) R') as [BE TIE]. split; [exact BE|].
    intro TE. destruct (TIE TE) as [H|H]; [left; exact H|right; rewrite H; apply orb_true_r].
Qed.
Lemma scale_forms : forall nd, let s := nd - 1 - x in (if 0 <=? s then p * 10 ^ s else p) = p' nd /\ (if 0 <=? s then q else q * 10 ^ (- s)) = q' nd.
Proof.
  intros nd s. unfold p', q', t, n10, p10. replace (x - (nd - 1)) with (- s) by (unfold s; lia). rewrite Z.opp_involutive. destruct (Z.leb_spec 0 s).
  - rewrite Z.max_l, Z.max_r by lia. change (10 ^ 0) with 1. split; ring.
  - rewrite Z.max_r, Z.max_l by lia. change (10 ^ 0) with 1. split; ring.
Qed.
Lemma back_reads : forall d k, 0 < d -> fl_eqb (dec_to_fl false d k) (FFin false m e) = true <-> reads d k.
Proof.
  intros d k D. rewrite <- (reads_iff false d k D). split; [apply fl_eqb_eq|intros ->; apply fl_eqb_refl].
Qed.
Lemma shortest_found : forall fuel nd, 1 <= nd -> nd + Z.of_nat fuel = 17 -> (forall d' k', 0 < d' -> reads d' k' -> 10 ^ (nd - 1) <= d') ->
  found (shortest fuel nd m e p q).
Proof.
  induction fuel as [|fuel IH]; intros nd ND FU MIN; cbn [shortest]; cbv zeta; fold x; destruct (scale_forms nd) as [-> ->]; fold (near nd) (lo nd);
    fold (far nd); change (x - (nd - 1)) with (t nd); destruct (lo_range nd ND) as [LR _];
    pose proof (Z.pow_pos_nonneg 10 (nd - 1) ltac:(lia) ltac:(lia)) as TP.
  - assert (nd = 17) by lia. subst nd. apply result_found; auto; [|apply near17|].
    + destruct (near_cases 17) as [[A _]|[A _]]; auto.
    + intros d' k' D R. apply near_best; auto.
  - assert (NL : near nd = lo nd \/ near nd = lo nd + 1) by (destruct (near_cases nd) as [[A _]|[A _]]; auto).
    assert (FL : far nd = lo nd \/ far nd = lo nd + 1) by (destruct (near_cases nd) as [[_ A]|[_ A]]; auto).
    pose proof (back_reads (near nd) (t nd) ltac:(lia)) as BN. pose proof (back_reads (far nd) (t nd) ltac:(lia)) as BF.
    destruct (fl_eqb (dec_to_fl false (near nd) (t nd)) (FFin false m e)).
    + apply result_found; auto; [apply BN; reflexivity|]. intros d' k' D R. apply near_best; auto.
    + assert (NR : ~ reads (near nd) (t nd)) by (intro H; apply BN in H; discriminate).
      destruct (fl_eqb (dec_to_fl false (far nd) (t nd)) (FFin false m e)).
      * apply result_found; auto; [apply BF; reflexivity|]. intros d' k' D R. apply far_best; auto.
      * assert (NF : ~ reads (far nd) (t nd)) by (intro H; apply BF in H; discriminate).
        apply IH; [lia|lia|]. intros d' k' D R. replace (nd + 1 - 1) with nd by lia. destruct (Z_le_gt_dec (10 ^ nd) d'); auto. exfalso.
        destruct (some_reads nd ND d' k' ltac:(lia) R); auto.
Qed.
End Repr.
(* ---- digit strings ---- *)
Lemma split_tens : forall n, 0 < n -> exists k j, n = k * 10 ^ Z.of_nat j /\ 0 < k /\ k mod 10 <> 0.
Proof.
  intros n. pattern n. apply (well_founded_induction (Z.lt_wf 0)). clear n. intros n IH N. destruct (Z.eq_dec (n mod 10) 0) as [Z0|NZ].
  - assert (M : n = 10 * (n / 10)) by (apply Z_div_exact_full_2; lia). destruct (IH (n / 10)) as [k [j [E H]]]; [lia|lia|].
    exists k, (S j). split; [|exact H]. rewrite M, E, Nat2Z.inj_succ, Z.pow_succ_r by lia. ring.
  - exists n, 0%nat. split; [|split; auto]. change (10 ^ Z.of_nat 0) with 1. lia.
Qed.
Lemma number_digits : forall n, (0 < n)%N -> exists ds, str_of_N n = ds /\ digit_string ds /\ column ds 1 <> Some 48%N /\ number ds = n /\
  10 ^ (Z.of_nat (List.length ds) - 1) <= Z.of_N n < 10 ^ Z.of_nat (List.length ds).
Proof.
  intros n N0. exists (str_of_N n). pose proof (str_of_N_digits n) as D. pose proof (str_of_N_plain n) as P. pose proof (number_str_of_N n) as E.
  assert (C : column (str_of_N n) 1 <> Some 48%N).
  { destruct P as [P|P]; auto. rewrite P in E. subst n. inversion N0. }
  repeat split; auto; try apply D.
  - destruct (le_lt_dec 2 (List.length (str_of_N n))) as [L|L].
    + pose proof (plain_lower _ D P L) as B. rewrite E in B. apply N2Z.inj_le in B. rewrite N2Z.inj_pow in B. change (Z.of_N 10) with 10 in B.
      replace (Z.of_N (N.of_nat (List.length (str_of_N n) - 1))) with (Z.of_nat (List.length (str_of_N n)) - 1) in B by lia. exact B.
    + assert (List.length (str_of_N n) <> 0%nat) by (destruct (str_of_N n); [destruct D; congruence|discriminate]).
      replace (Z.of_nat (List.length (str_of_N n)) - 1) with 0 by lia. change (10 ^ 0) with 1. lia.
  - pose proof (number_bound _ (proj2 D)) as B. rewrite E in B. apply N2Z.inj_lt in B. rewrite N2Z.inj_pow in B. change (Z.of_N 10) with 10 in B.
    rewrite nat_N_Z in B. exact B.
Qed.
Lemma strip_trailing0_id : forall ds, digit_string ds -> (number ds mod 10 <> 0)%N -> strip_trailing0 ds = ds.
Proof.
  intros ds [NE D] M. destruct (exists_last NE) as [a [c ->]]. unfold strip_trailing0, drop_while_end. rewrite rev_app_distr. cbn [rev app drop_while].
  rewrite number_app in M. cbn [List.length] in M. change (10 ^ N.of_nat 1)%N with 10%N in M. change (number [c]) with (10 * 0 + (c - 48))%N in M.
  rewrite N.add_comm, N.mod_add in M by lia. destruct (N.eqb_spec 48 c) as [<-|NC]; [exfalso; apply M; reflexivity|].
  change (c :: rev a) with (rev [c] ++ rev a). rewrite <- rev_app_distr, rev_involutive. reflexivity.
Qed.
Lemma firstn_digits : forall k s, Forall (fun c => 48 <= c <= 57)%N s -> Forall (fun c => 48 <= c <= 57)%N (firstn k s).
Proof. intros k s F. rewrite <- (firstn_skipn k s) in F. apply Forall_app in F. apply F. Qed.
Lemma skipn_digits : forall k s, Forall (fun c => 48 <= c <= 57)%N s -> Forall (fun c => 48 <= c <= 57)%N (skipn k s).
Proof. intros k s F. rewrite <- (firstn_skipn k s) in F. apply Forall_app in F. apply F. Qed.
Lemma zero_digits : forall k, Forall (fun c => 48 <= c <= 57)%N (repeat 48%N k).
Proof. induction k; constructor; auto; lia. Qed.
Lemma number_zeros : forall k, number (repeat 48%N k) = 0%N.
Proof. intro k. rewrite <- (List.app_nil_r (repeat 48%N k)), number_repeat0. reflexivity. Qed.
(* ---- repr ---- *)
Lemma round_q_double : forall neg p q m e, 0 < p -> 0 < q -> round_q neg p q = FFin neg m e -> finite_double m e.
Proof.
  intros neg p q m e P Q E. symmetry in E. apply rounded_iff in E; auto. destruct E as [m' [e' [[D [C _]] E]]]. destruct m' as [|m'|m']; try discriminate.
  destruct (Z.ltb_spec 971 e'); [discriminate|]. injection E as <- <-. split; auto.
Qed.
Lemma repr_search : forall m e, finite_double m e -> exists nd a y, (1 <= nd)%nat /\ shortest 16 1 m e (mul2pos (Zpos m) e) (mul2neg 1 e) = (str_of_Z a, y) /\
  (y = x m e \/ y = x m e + 1) /\ 10 ^ (Z.of_nat nd - 1) <= a < 10 ^ Z.of_nat nd /\ a mod 10 <> 0 /\ reads m e a (y - (Z.of_nat nd - 1)) /\
  (forall d' k', 0 < d' -> reads m e d' k' -> 10 ^ (Z.of_nat nd - 1) <= d' /\
    (d' < 10 ^ Z.of_nat nd -> better m e ((k' <? y - (Z.of_nat nd - 1)) || Z.even a) a (y - (Z.of_nat nd - 1)) d' k')).
Proof.
  intros m e F. destruct (shortest_found m e F 16 1) as [nd [a [y [ND [E [Y [A [R B]]]]]]]]; [lia|reflexivity|intros d' k' D _; change (10 ^ (1 - 1)) with 1; lia|].
  exists (Z.to_nat nd), a, y. rewrite Z2Nat.id by lia. rewrite mul2pos_eq, mul2neg_eq, Z.mul_1_l. repeat (split; [assumption || lia|]). split; [|split; assumption].
  intro M. pose proof (Z.pow_pos_nonneg 10 (nd - 1) ltac:(lia) ltac:(lia)) as TP. assert (T : 10 ^ nd = 10 * 10 ^ (nd - 1)) by (rewrite <- Z.pow_succ_r by lia; f_equal; lia).
  assert (AE : a = 10 * (a / 10)) by (apply Z_div_exact_full_2; lia). set (b := a / 10) in *. set (k := y - (nd - 1)) in *.
  assert (RB : reads m e b (k + 1)).
  { eapply reads_same; [|exact R]. pose proof (p10_shift k 1 ltac:(lia)) as S. change (10 ^ 1) with 10 in S.
    replace (b * p10 (k + 1) * n10 k) with (b * (p10 (k + 1) * n10 k)) by ring. rewrite S, AE. ring. }
  destruct (B b (k + 1) ltac:(lia) RB) as [H _]. lia.
Qed.
Lemma exponent_text_exp : forall y, exponent_text y (101%N :: exp_str y).
Proof.
  intro y. exists (zpad 2 (str_of_N (Z.abs_N y))). split; [apply zero_filled_iff; [lia|reflexivity]|]. unfold exp_str.
  replace (Z.to_N (Z.abs y)) with (Z.abs_N y) by lia. destruct (y <? 0); reflexivity.
Qed.
Lemma repr_digits_written : forall n ds y, is_natural n ds -> (n mod 10 <> 0)%N -> written n (y - (Z.of_nat (List.length ds) - 1)) (repr_digits ds y).
Proof.
  intros n ds y I M. pose proof I as [D [P NU]]. unfold repr_digits. rewrite strip_trailing0_id by (try rewrite NU; auto).
  assert (LN : (1 <= List.length ds)%nat) by (destruct D as [D _]; destruct ds; [congruence|cbn; lia]). set (k := y - (Z.of_nat (List.length ds) - 1)).
  destruct ((-4 <=? y) && (y <? 16)) eqn:Y.
  - apply andb_true_iff in Y as [Y1 Y2]. apply Z.leb_le in Y1. apply Z.ltb_lt in Y2. destruct (Z.ltb_spec y 0) as [X|X].
    + replace (- y - 1) with (- (Z.of_nat (List.length ds) + k)) by (unfold k; lia). apply written_small; [exact I|unfold k; lia].
    + destruct (Z.leb_spec (Z.of_nat (List.length ds)) (y + 1)) as [X1|X1].
      * replace (y + 1 - Z.of_nat (List.length ds)) with k by (unfold k; lia). apply written_whole; [exact I|unfold k; lia|unfold k; lia].
      * assert (FL : List.length (firstn (Z.to_nat (y + 1)) ds) = Z.to_nat (y + 1)) by (rewrite firstn_length; lia).
        assert (SL : List.length (skipn (Z.to_nat (y + 1)) ds) = (List.length ds - Z.to_nat (y + 1))%nat) by (rewrite skipn_length; lia).
        apply (written_inside n k (firstn (Z.to_nat (y + 1)) ds) (skipn (Z.to_nat (y + 1)) ds)).
        -- rewrite firstn_skipn. exact I.
        -- lia.
        -- lia.
        -- unfold k. lia.
  - assert (Y' : y <= -5 \/ 16 <= y) by (apply andb_false_iff in Y as [Y|Y]; [apply Z.leb_gt in Y|apply Z.ltb_ge in Y]; lia).
    destruct ds as [|d [|d' ds]]; [cbn in LN; lia| |].
    + apply (written_exponent1 n k d); [exact I| |]; change (Z.of_nat (List.length [d])) with 1 in *; [unfold k; lia|].
      replace (1 + k - 1) with y by (unfold k; lia). apply exponent_text_exp.
    + apply (written_exponent n k d (d' :: ds)); [exact I|discriminate| |]; [unfold k; lia|].
      replace (Z.of_nat (List.length (d :: d' :: ds)) + k - 1) with y by (unfold k; lia). apply exponent_text_exp.
Qed.
Lemma denotes_reads : forall neg m e n k, finite_double m e -> (denotes (Finite neg n k) (FFin neg m e) <-> (0 < n)%N /\ reads m e (Z.of_N n) k).
Proof.
  intros neg m e n k F. rewrite denotes_iff. cbn [fl_of]. destruct n as [|n].
  - split; [intro H; discriminate|intros [H _]; discriminate].
  - rewrite <- (reads_iff m e F neg (Z.of_N (Npos n)) k) by reflexivity. split; [intro H; split; [reflexivity|auto]|intros [_ H]; auto].
Qed.
Lemma natural_length : forall n ds nd, is_natural n ds -> (1 <= nd)%nat -> 10 ^ (Z.of_nat nd - 1) <= Z.of_N n < 10 ^ Z.of_nat nd -> List.length ds = nd.
Proof.
  intros n ds nd I ND B. apply natural_unique in I. subst ds. assert (N0 : (0 < n)%N) by (pose proof (Z.pow_pos_nonneg 10 (Z.of_nat nd - 1) ltac:(lia) ltac:(lia)); lia).
  destruct (number_digits n N0) as [ds [-> [D [_ [_ R]]]]]. assert (LN : (1 <= List.length ds)%nat) by (destruct D as [D _]; destruct ds; [congruence|cbn; lia]).
  set (l := List.length ds) in *. destruct (lt_eq_lt_dec l nd) as [[L|L]|L]; auto; exfalso.
  - assert (10 ^ Z.of_nat l <= 10 ^ (Z.of_nat nd - 1)) by (apply Z.pow_le_mono_r; lia). lia.
  - assert (10 ^ Z.of_nat nd <= 10 ^ (Z.of_nat l - 1)) by (apply Z.pow_le_mono_r; lia). lia.
Qed.
Lemma repr_shows : forall x, a_double x -> shows_float x (repr_fl x).
Proof.
  intros [neg|neg| |neg m e] A; try reflexivity. cbn [a_double] in A. unfold shows_float, repr_fl.
  destruct (repr_search m e A) as [nd [a [y [ND [-> [_ [B [M [R BEST]]]]]]]]]. pose proof (Z.pow_pos_nonneg 10 (Z.of_nat nd - 1) ltac:(lia) ltac:(lia)) as TP.
  assert (SA : str_of_Z a = str_of_N (Z.to_N a)) by (unfold str_of_Z; rewrite (proj2 (Z.ltb_ge a 0)) by lia; reflexivity).
  assert (I : is_natural (Z.to_N a) (str_of_Z a)) by (rewrite SA; apply str_of_N_natural).
  assert (L : List.length (str_of_Z a) = nd) by (eapply natural_length; [exact I|exact ND|rewrite Z2N.id by lia; exact B]).
  assert (M' : (Z.to_N a mod 10 <> 0)%N).
  { intro H. apply M. apply (f_equal Z.of_N) in H. rewrite N2Z.inj_mod, Z2N.id in H by lia. exact H. }
  exists (Z.to_N a), (y - (Z.of_nat nd - 1)), (repr_digits (str_of_Z a) y). split; [|split; [exact M'|split; [|reflexivity]]].
  - split; [apply denotes_reads; auto; rewrite Z2N.id by lia; split; [lia|exact R]|]. intros n' k' D'. apply denotes_reads in D'; auto. destruct D' as [N' R'].
    destruct (BEST (Z.of_N n') k' ltac:(lia) R') as [B1 B2]. split.
    + intros j LT. assert (Z.of_N n' < 10 ^ Z.of_N j) by (apply N2Z.inj_lt in LT; rewrite N2Z.inj_pow in LT; exact LT).
      assert (Z.of_nat nd - 1 < Z.of_N j) by (apply (Z.pow_lt_mono_r_iff 10); lia). apply N2Z.inj_lt. rewrite N2Z.inj_pow, Z2N.id by lia. change (Z.of_N 10) with 10.
      apply Z.lt_le_trans with (10 ^ Z.of_nat nd); [lia|]. apply Z.pow_le_mono_r; lia.
    + assert (NB : no_longer n' (Z.to_N a) -> better m e ((k' <? y - (Z.of_nat nd - 1)) || Z.even a) a (y - (Z.of_nat nd - 1)) (Z.of_N n') k').
      { intro NL. specialize (NL (N.of_nat nd)). apply B2.
        assert (H : (Z.to_N a < 10 ^ N.of_nat nd)%N) by (apply N2Z.inj_lt; rewrite N2Z.inj_pow, Z2N.id, nat_N_Z by lia; apply B).
        apply NL in H. apply N2Z.inj_lt in H. rewrite N2Z.inj_pow, nat_N_Z in H. exact H. }
      unfold no_farther, error, same_decimal. rewrite Z2N.id by lia. split; [intro NL; apply (NB NL)|].
      intros NL NF. destruct (NB NL) as [LE TIE]. destruct (TIE (Z.le_antisymm _ _ LE NF)) as [H|H]; [left; exact H|right].
      apply orb_true_iff in H as [H|H]; [left; apply Z.ltb_lt; exact H|right]. destruct a as [|[u|u|]|u]; auto; discriminate.
  - rewrite <- L. apply repr_digits_written; auto.
Qed.
(* no other decimal is like that *)
Lemma no_tie : forall m e, finite_double m e -> forall L n k n' k', 1 <= L -> k <= k' -> 0 < n < 10 ^ L ->
  reads m e n k -> reads m e n' k' ->
  (forall d, 0 < d < 10 ^ L -> reads m e d k -> err m e n k <= err m e d k /\ err m e n' k' * n10 k <= err m e d k * n10 k') ->
  Z.even n = true -> Z.even (n' * 10 ^ (k' - k)) = true -> n < n' * 10 ^ (k' - k) -> False.
Proof.
  intros m e F L n k n' k' LP K NB R R' BEST EV EV' LT.
  pose proof (n10_pos k) as W1. pose proof (n10_pos k') as W2. pose proof (p10_pos k) as W3.
  assert (T : 10 ^ L = 10 * 10 ^ (L - 1)) by (rewrite <- Z.pow_succ_r by lia; f_equal; lia).
  assert (N1 : n + 1 <> 10 ^ L).
  { intro H. apply (f_equal Z.even) in H. rewrite T, Z.even_mul, Z.even_add, EV in H. discriminate. }
  assert (N2 : n + 1 <> n' * 10 ^ (k' - k)).
  { intro H. apply (f_equal Z.even) in H. rewrite EV', Z.even_add, EV in H. discriminate. }
  pose proof (p10_shift k (k' - k) ltac:(lia)) as S. replace (k + (k' - k)) with k' in S by lia.
  assert (X : n' * p10 k' * n10 k = n' * 10 ^ (k' - k) * (p10 k * n10 k')).
  { replace (n' * p10 k' * n10 k) with (n' * (p10 k' * n10 k)) by ring. rewrite S. ring. }
  assert (W4 : 0 < p10 k * n10 k') by nia. assert (W5 : 0 < p10 k * n10 k) by nia.
  destruct (Z_le_gt_dec ((n + 1) * p10 k * q e) (p m e * n10 k)) as [V|V].
  - assert (LL : n * p10 k * n10 k < (n + 1) * p10 k * n10 k) by nia.
    assert (R1 : reads m e (n + 1) k).
    { apply (reads_between_low m e F (n + 1) k n k); auto. unfold dec_le. lia. }
    pose proof (err_low_lt m e (n + 1) k n k LL V) as E. destruct (BEST (n + 1) ltac:(lia) R1) as [B _]. nia.
  - assert (LL : (n + 1) * p10 k * n10 k' < n' * p10 k' * n10 k) by (rewrite X; nia).
    assert (R1 : reads m e (n + 1) k).
    { apply (reads_between_high m e F (n + 1) k n' k'); auto; [unfold dec_le|]; lia. }
    pose proof (err_high_lt m e (n + 1) k n' k' LL ltac:(lia)) as E. destruct (BEST (n + 1) ltac:(lia) R1) as [_ B]. lia.
Qed.
Lemma same_equal : forall n k n' k', 0 < n -> 0 < n' -> n mod 10 <> 0 -> n' mod 10 <> 0 -> same n k n' k' -> n = n' /\ k = k'.
Proof.
  assert (W : forall n k n' k', 0 < n -> 0 < n' -> n mod 10 <> 0 -> k <= k' -> same n k n' k' -> n = n' /\ k = k').
  { intros n k n' k' N0 N0' M K S. unfold same in S. pose proof (p10_shift k (k' - k) ltac:(lia)) as SH. replace (k + (k' - k)) with k' in SH by lia.
    pose proof (n10_pos k') as W2. pose proof (p10_pos k) as W3. assert (W4 : 0 < p10 k * n10 k') by nia.
    assert (E : n = n' * 10 ^ (k' - k)).
    { apply (Z.mul_reg_r _ _ (p10 k * n10 k')); [lia|]. replace (n' * 10 ^ (k' - k) * (p10 k * n10 k')) with (n' * (10 ^ (k' - k) * p10 k * n10 k')) by ring. rewrite <- SH. lia. }
    destruct (Z.eq_dec k k') as [->|NE].
    - rewrite Z.sub_diag in E. change (10 ^ 0) with 1 in E. split; lia.
    - exfalso. apply M. rewrite E. replace (k' - k) with (Z.succ (k' - k - 1)) by lia. rewrite Z.pow_succ_r by lia.
      replace (n' * (10 * 10 ^ (k' - k - 1))) with (n' * 10 ^ (k' - k - 1) * 10) by ring. apply Z.mod_mul. lia. }
  intros n k n' k' N0 N0' M M' S. destruct (Z_le_gt_dec k k') as [L|L]; [apply W; auto|].
  destruct (W n' k' n k) as [A B]; auto; [lia|unfold same in *; lia].
Qed.
Lemma common_length : forall n n', (0 < n)%N -> no_longer n n' -> no_longer n' n -> exists L, 1 <= L /\
  10 ^ (L - 1) <= Z.of_N n < 10 ^ L /\ 10 ^ (L - 1) <= Z.of_N n' < 10 ^ L /\ forall d, (Z.of_N d < 10 ^ L) -> no_longer d n /\ no_longer d n'.
Proof.
  intros n n' N0 A B. destruct (number_digits n N0) as [ds [_ [D [_ [_ R]]]]]. assert (LN : (1 <= List.length ds)%nat) by (destruct D as [D _]; destruct ds; [congruence|cbn; lia]).
  set (l := List.length ds) in *. exists (Z.of_nat l).
  assert (TR : forall u (j : N), (u < 10 ^ j)%N <-> Z.of_N u < 10 ^ Z.of_N j).
  { intros u j. rewrite N2Z.inj_lt, N2Z.inj_pow. reflexivity. }
  assert (LJ : Z.of_nat l = Z.of_N (N.of_nat l)) by lia. assert (LJ' : Z.of_nat l - 1 = Z.of_N (N.of_nat (l - 1))) by lia.
  assert (LO : 10 ^ (Z.of_nat l - 1) <= Z.of_N n').
  { destruct (Z_le_gt_dec (10 ^ (Z.of_nat l - 1)) (Z.of_N n')) as [|H]; auto. exfalso. rewrite LJ' in *. apply Z.gt_lt in H. apply TR in H. apply A in H. apply TR in H. lia. }
  split; [lia|]. split; [exact R|]. split.
  - split; [exact LO|]. rewrite LJ. apply TR. apply B. apply TR. rewrite <- LJ. apply R.
  - intros d H. assert (G : forall u, 10 ^ (Z.of_nat l - 1) <= Z.of_N u -> no_longer d u).
    { intros u U j J. apply TR in J. apply TR. assert (Z.of_nat l - 1 < Z.of_N j) by (apply (Z.pow_lt_mono_r_iff 10); lia).
      apply Z.lt_le_trans with (10 ^ Z.of_nat l); [exact H|]. apply Z.pow_le_mono_r; lia. }
    split; apply G; [apply R|exact LO].
Qed.
Lemma shortest_unique : forall neg m e n k n' k', finite_double m e -> shortest_decimal neg m e n k -> (n mod 10 <> 0)%N ->
  shortest_decimal neg m e n' k' -> (n' mod 10 <> 0)%N -> n = n' /\ k = k'.
Proof.
  intros neg m e n k n' k' F [D B] M [D' B'] M'. destruct (B n' k' D') as [L1 [F1 T1]]. destruct (B' n k D) as [L2 [F2 T2]].
  specialize (F1 L2). specialize (F2 L1). specialize (T1 L2 F2). specialize (T2 L1 F1).
  apply denotes_reads in D as [N0 R]; auto. apply denotes_reads in D' as [N0' R']; auto.
  assert (ZM : forall u, (u mod 10 <> 0)%N -> Z.of_N u mod 10 <> 0) by (intros u U H; apply U; apply N2Z.inj; rewrite N2Z.inj_mod; exact H).
  assert (ZE : forall u, N.even u = true -> Z.even (Z.of_N u) = true) by (intros [|[u|u|]]; auto).
  assert (G : same (Z.of_N n) k (Z.of_N n') k' \/ ~ same (Z.of_N n) k (Z.of_N n') k') by (unfold same; lia).
  destruct G as [S|NS].
  { destruct (same_equal (Z.of_N n) k (Z.of_N n') k') as [E1 E2]; auto; lia. }
  exfalso. destruct (common_length n n' N0 L1 L2) as [L [LP [RN [RN' SH]]]].
  assert (BEST : forall d j, 0 < d < 10 ^ L -> reads m e d j -> err m e (Z.of_N n) k * n10 j <= err m e d j * n10 k /\ err m e (Z.of_N n') k' * n10 j <= err m e d j * n10 k').
  { intros d j DB DR. destruct (SH (Z.to_N d)) as [S1 S2]; [rewrite Z2N.id by lia; lia|].
    assert (DD : denotes (Finite neg (Z.to_N d) j) (FFin neg m e)) by (apply denotes_reads; auto; rewrite Z2N.id by lia; split; [lia|exact DR]).
    destruct (B _ _ DD) as [_ [BF _]]. destruct (B' _ _ DD) as [_ [BF' _]]. specialize (BF S1). specialize (BF' S2).
    unfold no_farther, error in BF, BF'. rewrite !Z2N.id in BF, BF' by lia. split; assumption. }
  assert (BEST1 : forall d, 0 < d < 10 ^ L -> reads m e d k -> err m e (Z.of_N n) k <= err m e d k /\ err m e (Z.of_N n') k' * n10 k <= err m e d k * n10 k').
  { intros d DB DR. destruct (BEST d k DB DR) as [X Y]. split; [|exact Y]. apply (Z.mul_le_mono_pos_r _ _ (n10 k) (n10_pos k)). exact X. }
  assert (BEST2 : forall d, 0 < d < 10 ^ L -> reads m e d k' -> err m e (Z.of_N n') k' <= err m e d k' /\ err m e (Z.of_N n) k * n10 k' <= err m e d k' * n10 k).
  { intros d DB DR. destruct (BEST d k' DB DR) as [X Y]. split; [|exact X]. apply (Z.mul_le_mono_pos_r _ _ (n10 k') (n10_pos k')). exact Y. }
  assert (S1 : ~ same_decimal n k n' k') by exact NS. assert (S2 : ~ same_decimal n' k' n k) by (unfold same_decimal, same in *; unfold p10, n10 in NS; lia).
  assert (T : 10 ^ L = 10 * 10 ^ (L - 1)) by (rewrite <- Z.pow_succ_r by lia; f_equal; lia).
  assert (FAR : forall a b j, 0 < j -> Z.of_N a < 10 ^ L -> 10 ^ (L - 1) <= Z.of_N b -> Z.of_N a < Z.of_N b * 10 ^ j).
  { intros a b j J A1 B1. assert (10 ^ 1 <= 10 ^ j) by (apply Z.pow_le_mono_r; lia). change (10 ^ 1) with 10 in *. nia. }
  assert (EVJ : forall b j, 0 < j -> Z.even (b * 10 ^ j) = true).
  { intros b j J. rewrite Z.even_mul, Z.even_pow by lia. apply orb_true_r. }
  destruct (Z.lt_trichotomy k k') as [K|[K|K]].
  - destruct T1 as [H|[H|EV]]; [contradiction|lia|]. apply (no_tie m e F L (Z.of_N n) k (Z.of_N n') k'); auto; try lia; [apply EVJ; lia|apply FAR; lia].
  - subst k'. destruct T1 as [H|[H|EV]]; [contradiction|lia|]. destruct T2 as [H|[H|EV']]; [contradiction|lia|].
    assert (ONE : forall u, u * 10 ^ (k - k) = u) by (intro u; rewrite Z.sub_diag; change (10 ^ 0) with 1; lia).
    destruct (Z.lt_trichotomy (Z.of_N n) (Z.of_N n')) as [O|[O|O]].
    + apply (no_tie m e F L (Z.of_N n) k (Z.of_N n') k); auto; rewrite ?ONE; auto; lia.
    + apply NS. unfold same. rewrite O. reflexivity.
    + apply (no_tie m e F L (Z.of_N n') k (Z.of_N n) k); auto; rewrite ?ONE; auto; lia.
  - destruct T2 as [H|[H|EV]]; [contradiction|lia|]. apply (no_tie m e F L (Z.of_N n') k' (Z.of_N n) k); auto; try lia; [apply EVJ; lia|apply FAR; lia].
Qed.
Lemma exponent_text_unique : forall y t, exponent_text y t -> t = 101%N :: exp_str y.
Proof.
  intros y t [b [Z2 ->]]. apply zero_filled_iff in Z2; [|lia]. subst b. unfold exp_str. replace (Z.to_N (Z.abs y)) with (Z.abs_N y) by lia. destruct (y <? 0); reflexivity.
Qed.
Lemma written_unique : forall n k t, (n mod 10 <> 0)%N -> written n k t -> t = repr_digits (str_of_N n) (k + (Z.of_nat (List.length (str_of_N n)) - 1)).
Proof.
  intros n k t M W. assert (ST : forall ds, is_natural n ds -> str_of_N n = ds) by (intros ds I; symmetry; apply natural_unique; exact I).
  assert (S0 : strip_trailing0 (str_of_N n) = str_of_N n) by (destruct (str_of_N_natural n) as [D [_ NU]]; apply strip_trailing0_id; auto; rewrite NU; exact M).
  assert (LN : (1 <= List.length (str_of_N n))%nat) by (destruct (str_of_N_natural n) as [[D _] _]; destruct (str_of_N n); [congruence|cbn; lia]).
  assert (IN : forall y, -4 <= y < 16 -> ((-4 <=? y) && (y <? 16)) = true) by (intros y Y; apply andb_true_iff; split; [apply Z.leb_le|apply Z.ltb_lt]; lia).
  assert (OUT : forall y, y <= -5 \/ 16 <= y -> ((-4 <=? y) && (y <? 16)) = false).
  { intros y Y. apply andb_false_iff. destruct Y; [left; apply Z.leb_gt; lia|right; apply Z.ltb_ge; lia]. }
  unfold repr_digits. rewrite S0. destruct W as [ds I x X|a b I LA LB K|ds I K X|d t I x X T|d ds t I NE x X T]; pose proof (ST _ I) as E; rewrite E in *.
  - subst x. rewrite IN by lia. rewrite (proj2 (Z.ltb_lt _ 0)) by lia. unfold zeros. do 4 f_equal. lia.
  - rewrite app_length in *. rewrite IN by lia. rewrite (proj2 (Z.ltb_ge _ 0)) by lia. rewrite (proj2 (Z.leb_gt _ _)) by lia.
    replace (Z.to_nat (k + (Z.of_nat (List.length a + List.length b) - 1) + 1)) with (List.length a) by lia.
    rewrite firstn_app, skipn_app, Nat.sub_diag, firstn_all, skipn_all, firstn_O, skipn_O, List.app_nil_r. reflexivity.
  - rewrite IN by lia. rewrite (proj2 (Z.ltb_ge _ 0)) by lia. rewrite (proj2 (Z.leb_le _ _)) by lia. unfold zeros. do 4 f_equal. lia.
  - subst x. apply exponent_text_unique in T. subst t. cbn [List.length]. change (Z.of_nat 1) with 1. rewrite OUT by lia. cbn [app]. do 3 f_equal. lia.
  - subst x. apply exponent_text_unique in T. subst t. rewrite OUT by lia. destruct ds as [|d' ds]; [congruence|]. cbn [app lit]. 
    replace (k + (Z.of_nat (List.length (d :: d' :: ds)) - 1)) with (Z.of_nat (List.length (d :: d' :: ds)) + k - 1) by lia. reflexivity.
Qed.
Lemma shows_unique : forall x s t, a_double x -> shows_float x s -> shows_float x t -> s = t.
Proof.
  intros [neg|neg| |neg m e] s t A S T; cbn [shows_float] in S, T; try congruence.
  destruct S as [n [k [b [S [M [W ->]]]]]]. destruct T as [n' [k' [b' [T [M' [W' ->]]]]]].
  destruct (shortest_unique neg m e n k n' k' A S M T M') as [<- <-]. rewrite (written_unique n k b M W), (written_unique n k b' M W'). reflexivity.
Qed.
Lemma shows_iff : forall x t, a_double x -> (shows_float x t <-> t = repr_fl x).
Proof.
  intros x t A. split; [|intros ->; apply repr_shows; exact A]. intro S. apply (shows_unique x); auto. apply repr_shows. exact A.
Qed.
(* the text reads back as the number *)
Lemma ascii_digits : forall s, digit_string s -> digits s (dvals s) /\ base_ten (dvals s) = number s.
Proof.
  intros s D. assert (F : Forall (fun c => is_digit c = true) s) by (apply digit_string_forallb in D; apply all_nonempty_iff in D; apply D). split.
  - apply drop_all_digits; [rewrite to_ascii_digits by apply D; apply drop_underscores_digits; apply D|apply digit_string_forallb; exact D].
  - apply N2Z.inj. rewrite <- digits_val_base, dvals_dchars by exact F. apply digits_val_number. apply D.
Qed.
Lemma dvals_app : forall a b, dvals (a ++ b) = dvals a ++ dvals b. Proof. intros. apply map_app. Qed.
Lemma digit_parts : forall a b, Forall (fun c => 48 <= c <= 57)%N (a ++ b) -> a <> [] -> b <> [] -> digit_string a /\ digit_string b.
Proof. intros a b F A B. apply Forall_app in F as [FA FB]. repeat split; auto. Qed.
Lemma exponent_reads : forall y t, exponent_text y t -> exponent t y.
Proof.
  intros y t [b [[D [NU _]] ->]]. destruct (ascii_digits b D) as [DG BT].
  assert (E : y = signed (y <? 0) (base_ten (dvals b))).
  { rewrite BT, NU. unfold signed. destruct (Z.ltb_spec y 0); lia. }
  rewrite E at 2. destruct (y <? 0); [apply (exp_some 101 (lit "-") true b (dvals b)); auto; constructor|apply (exp_some 101 (lit "+") false b (dvals b)); auto; constructor].
Qed.
Lemma written_reads : forall neg n k t, written n k t -> exists n' k', float_body t neg (Finite neg n' k') /\ same (Z.of_N n) k (Z.of_N n') k' /\ ((0 < n)%N -> (0 < n')%N).
Proof.
  intros neg n k t W. destruct W as [ds I x X|a b I LA LB K|ds I K X|d t I x X T|d ds t I NE x X T]; pose proof I as [D [_ NU]].
  - assert (DZ : digit_string (zeros (- x) ++ ds)).
    { split; [destruct D as [D _]; destruct (zeros (- x)); [exact D|discriminate]|apply Forall_app; split; [apply zero_digits|apply D]]. }
    destruct (ascii_digits _ DZ) as [DG BT]. assert (D0 : digits [48%N] [0%N]) by (constructor; reflexivity).
    exists n, k. split; [|split; [reflexivity|auto]].
    pose proof (float_number _ _ _ [] 0 neg (point_inside _ _ _ _ D0 DG) exp_none) as FB.
    rewrite List.app_nil_r in FB. replace (base_ten ([0%N] ++ dvals (zeros (- x) ++ ds))) with n in FB.
    2:{ change (base_ten ([0%N] ++ dvals (zeros (- x) ++ ds))) with (base_ten (dvals (zeros (- x) ++ ds))). rewrite BT. unfold zeros. rewrite number_repeat0. auto. }
    replace (0 - Z.of_nat (List.length (dvals (zeros (- x) ++ ds)))) with k in FB; [exact FB|].
    unfold dvals. rewrite map_length, app_length. unfold zeros. rewrite repeat_length. subst x. lia.
  - destruct (digit_parts a b (proj2 D)) as [DA DB]; [intros ->; cbn in LA; lia|intros ->; cbn in LB; lia|].
    destruct (ascii_digits _ DA) as [DG1 _]. destruct (ascii_digits _ DB) as [DG2 _]. destruct (ascii_digits _ D) as [_ BT].
    exists n, k. split; [|split; [reflexivity|auto]].
    pose proof (float_number _ _ _ [] 0 neg (point_inside _ _ _ _ DG1 DG2) exp_none) as FB. rewrite List.app_nil_r, <- dvals_app, BT, NU in FB.
    replace (0 - Z.of_nat (List.length (dvals b))) with k in FB; [exact FB|]. unfold dvals. rewrite map_length. lia.
  - assert (DZ : digit_string (ds ++ zeros k)).
    { split; [destruct D as [D _]; destruct ds; [congruence|discriminate]|apply Forall_app; split; [apply D|apply zero_digits]]. }
    destruct (ascii_digits _ DZ) as [DG BT]. assert (D0 : digits [48%N] [0%N]) by (constructor; reflexivity).
    exists (number ((ds ++ zeros k) ++ [48%N])), (-1).
    assert (VAL : number ((ds ++ zeros k) ++ [48%N]) = (n * 10 ^ Z.to_N k * 10)%N).
    { rewrite !number_app, NU. unfold zeros. rewrite number_zeros, repeat_length. change (List.length [48%N]) with 1%nat. change (number [48%N]) with 0%N.
      change (N.of_nat 1) with 1%N. rewrite N.pow_1_r. replace (N.of_nat (Z.to_nat k)) with (Z.to_N k) by lia. lia. }
    split; [|split].
    + pose proof (float_number _ _ _ [] 0 neg (point_inside _ _ _ _ DG D0) exp_none) as FB. rewrite List.app_nil_r in FB.
      replace (base_ten (dvals (ds ++ zeros k) ++ [0%N])) with (number ((ds ++ zeros k) ++ [48%N])) in FB.
      * change (0 - Z.of_nat (List.length [0%N])) with (-1) in FB. rewrite <- app_assoc in FB. exact FB.
      * change [0%N] with (dvals [48%N]). rewrite <- dvals_app. symmetry. apply ascii_digits.
        split; [destruct (ds ++ zeros k); discriminate|apply Forall_app; split; [apply DZ|repeat constructor; lia]].
    + rewrite VAL. unfold same, p10, n10. rewrite !N2Z.inj_mul, N2Z.inj_pow, Z2N.id by lia. rewrite Z.max_l, (Z.max_r (- k)) by lia.
      change (Z.max (- -1) 0) with 1. change (Z.max (-1) 0) with 0. change (10 ^ 0) with 1. change (10 ^ 1) with 10. change (Z.of_N 10) with 10. ring.
    + intro N0. rewrite VAL. assert (0 < 10 ^ Z.to_N k)%N by (apply N.neq_0_lt_0; apply N.pow_nonzero; discriminate). nia.
  - destruct (ascii_digits _ D) as [DG BT]. exists n, k. split; [|split; [reflexivity|auto]].
    pose proof (float_number _ _ _ t (x - 1) neg (point_none _ _ DG) (exponent_reads _ _ T)) as FB. rewrite BT, NU in FB.
    replace (x - 1 - Z.of_nat 0) with k in FB by (subst x; lia). exact FB.
  - destruct (digit_parts [d] ds (proj2 D)) as [DA DB]; [discriminate|exact NE|]. destruct (ascii_digits _ DA) as [DG1 _]. destruct (ascii_digits _ DB) as [DG2 _]. destruct (ascii_digits _ D) as [_ BT].
    exists n, k. split; [|split; [reflexivity|auto]].
    pose proof (float_number _ _ _ t (x - 1) neg (point_inside _ _ _ _ DG1 DG2) (exponent_reads _ _ T)) as FB. rewrite <- dvals_app in FB. cbn [app] in BT, FB.
    change ([d] ++ ds) with (d :: ds) in FB. rewrite BT, NU in FB. rewrite <- !app_assoc in FB.
    replace (x - 1 - Z.of_nat (List.length (dvals ds))) with k in FB; [exact FB|]. unfold dvals. rewrite map_length. subst x. cbn [List.length]. lia.
Qed.
Lemma minus_body : forall neg b r, float_body b neg r -> float_literal (minus neg ++ b) r.
Proof.
  intros neg b r B. exists (minus neg), neg, b. split; [exists [], []; rewrite List.app_nil_r; repeat split; constructor|]. split; [destruct neg; constructor|exact B].
Qed.
Lemma repr_reads : forall x, a_double x -> float_reads (repr_fl x) x.
Proof.
  intros x A. pose proof (repr_shows x A) as S. destruct x as [neg|neg| |neg m e].
  - exists (Finite neg 0 (-1)). split; [|reflexivity]. apply minus_body.
    apply (float_number (lit "0.0") [0; 0]%N 1 [] 0); [|constructor]. apply (point_inside [48%N] [0%N] [48%N] [0%N]); constructor; reflexivity.
  - exists (Infinite neg). split; [|reflexivity]. apply minus_body. apply float_infinite. left. reflexivity.
  - exists NotANumber. split; [|reflexivity]. apply (minus_body false). apply float_nan. reflexivity.
  - destruct S as [n [k [b [[D _] [M [W E]]]]]]. cbn [shows_float] in E. rewrite E. apply denotes_reads in D as [N0 R]; auto.
    destruct (written_reads neg n k b W) as [n' [k' [FB [SM NP]]]]. exists (Finite neg n' k'). split; [apply minus_body; exact FB|].
    apply denotes_reads; auto. split; [auto|]. eapply reads_same; [exact SM|exact R].
Qed.
(* floats computed from texts and by division are doubles *)
Lemma round_q_a_double : forall neg p q, 0 < p -> 0 < q -> a_double (round_q neg p q).
Proof.
  intros neg p q P Q. assert (R : rounded neg p q (round_q neg p q)) by (apply rounded_iff; auto). destruct R as [m [e [[D [C _]] E]]]. rewrite E.
  destruct m as [|m|m]; try exact I. destruct (Z.ltb_spec 971 e); [exact I|]. split; auto.
Qed.
Lemma float_a_double : forall s x, py_float s = Some x -> a_double x.
Proof.
  intros s x H. apply float_iff in H as [r [_ D]]. apply denotes_iff in D. subst x. destruct r as [neg n k|neg|]; try exact I. cbn [fl_of].
  destruct n as [|n]; [exact I|]. rewrite dec_to_fl_neg by reflexivity. apply round_q_a_double; [|apply n10_pos]. pose proof (p10_pos k). nia.
Qed.
Lemma fl_div_a_double : forall x d, 0 < d -> a_double x -> a_double (fl_div x d).
Proof.
  intros [neg|neg| |neg m e] d D A; try exact I. unfold fl_div. apply round_q_a_double.
  - rewrite mul2pos_eq. pose proof (pos2_pos e). nia.
  - rewrite mul2neg_eq. pose proof (neg2_pos e). nia.
Qed.
(* ---- n / 10 shown by repr ---- *)
Lemma repr_digits_tenth : forall ds j, digit_string ds -> column ds 1 <> Some 48%N -> (number ds mod 10 <> 0)%N -> (List.length ds + j <= 15)%nat ->
  is_decimal 1 (number ds * 10 ^ N.of_nat j) (repr_digits ds (Z.of_nat (List.length ds) - 1 + (Z.of_nat j - 1))).
Proof.
  intros ds j D C M L. unfold repr_digits. rewrite strip_trailing0_id by auto. destruct D as [NE D].
  assert (LN : (1 <= List.length ds)%nat) by (destruct ds; [congruence|cbn; lia]). set (l := List.length ds) in *.
  replace ((-4 <=? Z.of_nat l - 1 + (Z.of_nat j - 1)) && (Z.of_nat l - 1 + (Z.of_nat j - 1) <? 16)) with true by (symmetry; apply andb_true_iff; split; [apply Z.leb_le|apply Z.ltb_lt]; lia).
  destruct (Z.ltb_spec (Z.of_nat l - 1 + (Z.of_nat j - 1)) 0) as [X|X].
  - assert (l = 1%nat /\ j = 0%nat) as [L1 J0] by lia. subst j. rewrite L1. cbn [Z.of_nat Z.to_nat Z.sub Z.opp Z.add repeat app].
    exists [48%N], ds. split; [reflexivity|]. split; [split; [discriminate|repeat constructor; lia]|]. split; [left; reflexivity|].
    split; [split; auto|]. split; [exact L1|]. change (N.of_nat 0) with 0%N. rewrite N.pow_0_r, N.mul_1_r. exact (number_repeat0 1 ds).
  - destruct (Z.leb_spec (Z.of_nat l) (Z.of_nat l - 1 + (Z.of_nat j - 1) + 1)) as [Y|Y].
    + replace (Z.to_nat (Z.of_nat l - 1 + (Z.of_nat j - 1) + 1 - Z.of_nat l)) with (j - 1)%nat by lia.
      exists (ds ++ repeat 48%N (j - 1)), [48%N]. split; [rewrite <- app_assoc; reflexivity|].
      split; [split; [destruct ds; [congruence|discriminate]|apply Forall_app; split; auto using zero_digits]|].
      split; [right; destruct ds; [congruence|exact C]|]. split; [split; [discriminate|repeat constructor; lia]|]. split; [reflexivity|].
      rewrite <- app_assoc. rewrite number_app. replace (repeat 48%N (j - 1) ++ [48%N]) with (repeat 48%N j).
      * rewrite repeat_length, number_zeros. lia.
      * rewrite <- repeat_cons. change (48%N :: repeat 48%N (j - 1)) with (repeat 48%N (S (j - 1))). f_equal. lia.
    + assert (J0 : j = 0%nat) by lia. subst j. replace (Z.to_nat (Z.of_nat l - 1 + (Z.of_nat 0 - 1) + 1)) with (l - 1)%nat by lia.
      exists (firstn (l - 1) ds), (skipn (l - 1) ds). split; [reflexivity|].
      assert (FL : List.length (firstn (l - 1) ds) = (l - 1)%nat) by (rewrite firstn_length; fold l; lia).
      split; [split; [intro F; rewrite F in FL; cbn in FL; lia|apply firstn_digits; exact D]|].
      split; [right|].
      { destruct ds as [|c ds]; [congruence|]. destruct (l - 1)%nat eqn:LE; [cbn in FL; lia|]. exact C. }
      assert (SL : List.length (skipn (l - 1) ds) = 1%nat) by (rewrite skipn_length; fold l; lia).
      split; [split; [intro F; rewrite F in SL; discriminate|apply skipn_digits; exact D]|]. split; [exact SL|].
      rewrite firstn_skipn. change (N.of_nat 0) with 0%N. lia.
Qed.
Lemma fl_div_tenth : forall n, 0 < n < 10 ^ 15 -> fl_div (dec_to_fl false n 0) 10 = round_q false n 10.
Proof.
  intros n N1. change (10 ^ 15) with 1000000000000000 in N1. rewrite dec_to_fl_eq by lia. change (p10 0) with 1. change (n10 0) with 1. rewrite Z.mul_1_r.
  destruct (round_q_exact false n) as [m [e [-> [E0 [EM EL]]]]]; [change (2 ^ 53) with 9007199254740992; lia|]. unfold fl_div.
  apply round_q_ratio; try (rewrite ?mul2pos_eq, ?mul2neg_eq; pose proof (pos2_pos e); pose proof (neg2_pos e); lia).
  rewrite ?mul2pos_eq, ?mul2neg_eq. unfold pos2, neg2. rewrite Z.max_r, Z.max_l, EM by lia. ring.
Qed.

Lemma tenth_repr : forall n, (n < 10 ^ 15)%N -> is_decimal 1 n (repr_fl (fl_div (dec_to_fl false (Z.of_N n) 0) 10)).
Proof.
  intros n B. destruct (N.eq_dec n 0) as [->|NZ].
  { exists [48%N], [48%N]. vm_compute. repeat split; auto; try discriminate; repeat constructor; discriminate. }
  change (10 ^ 15)%N with 1000000000000000%N in B. destruct (split_tens (Z.of_N n) ltac:(lia)) as [k [j [E [KP K10]]]].
  assert (KN : (0 < Z.to_N k)%N) by lia. destruct (number_digits _ KN) as [ds [DS [D [C [V R]]]]]. rewrite Z2N.id in R by lia.
  set (l := List.length ds) in *. assert (L1 : (1 <= l)%nat) by (unfold l; destruct D as [D _]; destruct ds; [congruence|cbn; lia]).
  assert (LJ : (l + j <= 15)%nat).
  { destruct (le_lt_dec (l + j) 15); auto. exfalso. pose proof (Z.pow_pos_nonneg 10 (Z.of_nat j) ltac:(lia) ltac:(lia)) as T.
    assert (10 ^ (Z.of_nat l - 1) * 10 ^ Z.of_nat j <= k * 10 ^ Z.of_nat j) by (apply Z.mul_le_mono_pos_r; lia).
    rewrite <- Z.pow_add_r in H by lia. assert (10 ^ 15 <= 10 ^ (Z.of_nat l - 1 + Z.of_nat j)) by (apply Z.pow_le_mono_r; lia).
    change (10 ^ 15) with 1000000000000000 in *. lia. }
  assert (NV : (n = number ds * 10 ^ N.of_nat j)%N).
  { apply N2Z.inj. rewrite E, V, N2Z.inj_mul, N2Z.inj_pow, Z2N.id, nat_N_Z by lia. reflexivity. }
  assert (M10 : (number ds mod 10 <> 0)%N).
  { rewrite V. intro H. apply K10. apply (f_equal Z.of_N) in H. rewrite N2Z.inj_mod, Z2N.id in H by lia. exact H. }
  rewrite fl_div_tenth by (change (10 ^ 15) with 1000000000000000; lia).
  assert (X : round_q false (Z.of_N n) 10 = dec_to_fl false k (Z.of_nat j - 1)).
  { rewrite dec_to_fl_eq by lia. apply round_q_ratio; try lia; try (pose proof (p10_pos (Z.of_nat j - 1)); pose proof (n10_pos (Z.of_nat j - 1)); nia).
    rewrite E. pose proof (p10_shift (Z.of_nat j - 1) 1 ltac:(lia)) as S. replace (Z.of_nat j - 1 + 1) with (Z.of_nat j) in S by lia.
    unfold p10 at 1, n10 at 2 in S. rewrite (Z.max_l (Z.of_nat j)), (Z.max_r (- Z.of_nat j)) in S by lia. change (10 ^ 0) with 1 in S. change (10 ^ 1) with 10 in S.
    replace (k * 10 ^ Z.of_nat j * n10 (Z.of_nat j - 1)) with (k * (10 ^ Z.of_nat j * n10 (Z.of_nat j - 1))) by ring. rewrite S. ring. }
  rewrite X. set (i := Z.of_nat j - 1) in *. assert (IB : -1 <= i <= 14) by lia.
  assert (NB : 0 < Z.of_N n < 10 ^ 15) by (change (10 ^ 15) with 1000000000000000; lia).
  destruct (round_q_approx false (Z.of_N n) 10) as [m [e [RE AP]]]; [assert (10 ^ 15 < 2 ^ 400) by reflexivity; lia|assert (10 < 2 ^ 400) by reflexivity; lia|].
  rewrite X in RE. assert (FD : finite_double m e).
  { apply (round_q_double false (Z.of_N n) 10); [lia|lia|]. rewrite X. exact RE. }
  rewrite RE. assert (RK : reads m e k i) by (apply (reads_iff m e FD false); auto).
  unfold approx in AP. assert (AP' : 2 ^ 53 * Z.abs (10 * p m e - Z.of_N n * q e) <= Z.of_N n * q e).
  { unfold p, q. replace (10 * (Z.pos m * pos2 e)) with (Z.pos m * 10 * pos2 e) by ring. exact AP. }
  pose proof (q_pos e) as QP. assert (NQ : 0 < Z.of_N n * q e) by (apply Z.mul_pos_pos; lia). change (2 ^ 53) with 9007199254740992 in AP'.
  assert (XB : -3 <= x m e < 15).
  { split.
    - destruct (Z_le_gt_dec (-3) (x m e)); auto. exfalso. pose proof (x_high m e FD) as H.
      assert (AL : at_least (p m e) (q e) (-2)) by (unfold at_least; change (p10 (-2)) with 1; change (n10 (-2)) with 100; nia).
      pose proof (at_least_mono (p m e) (q e) (x m e + 1) (-2) (p_pos m e) QP ltac:(lia) AL) as AL'. unfold at_least in AL'. lia.
    - destruct (Z_lt_ge_dec (x m e) 15); auto. exfalso. pose proof (x_low m e FD) as H.
      pose proof (at_least_mono (p m e) (q e) 15 (x m e) (p_pos m e) QP ltac:(lia) H) as AL. unfold at_least in AL. change (p10 15) with (10 ^ 15) in AL. change (n10 15) with 1 in AL.
      change (10 ^ 15) with 1000000000000000 in *. nia. }
  unfold repr_fl. destruct (repr_search m e FD) as [nd [a [y [ND [-> [Y [AB [A10 [RA BEST]]]]]]]]]. cbn [sign_str app].
  destruct (BEST k i KP RK) as [B1 _]. assert (NL : Z.of_nat nd - 1 < Z.of_nat l) by (apply (Z.pow_lt_mono_r_iff 10); lia).
  pose proof (Z.pow_pos_nonneg 10 (Z.of_nat nd - 1) ltac:(lia) ltac:(lia)) as TP.
  assert (P15 : forall u, u <= 15 -> 10 ^ u <= 10 ^ 15) by (intros u U; apply Z.pow_le_mono_r; lia).
  pose proof (P15 (Z.of_nat l) ltac:(lia)) as KB. pose proof (P15 (Z.of_nat nd) ltac:(lia)) as AB'.
  set (s := y - (Z.of_nat nd - 1)) in *. apply (reads_iff m e FD false) in RA; [|lia]. apply (reads_iff m e FD false) in RK; [|lia].
  assert (EQ : a = k /\ s = i).
  { assert (W : forall a0 s0 k0 i0, 0 < a0 < 10 ^ 15 -> 0 < k0 < 10 ^ 15 -> -40 <= s0 -> i0 <= 40 -> s0 <= i0 -> a0 mod 10 <> 0 ->
      dec_to_fl false a0 s0 = dec_to_fl false k0 i0 -> a0 = k0 /\ s0 = i0).
    { intros a0 s0 k0 i0 H1 H2 H3 H4 H5 H6 H7. pose proof (dec_inj_le a0 s0 k0 i0 H1 H2 H3 H4 H5 H7) as E0. destruct (Z.eq_dec s0 i0) as [->|NE].
      - rewrite Z.sub_diag in E0. change (10 ^ 0) with 1 in E0. lia.
      - exfalso. apply H6. rewrite E0. replace (i0 - s0) with (Z.succ (i0 - s0 - 1)) by lia. rewrite Z.pow_succ_r by lia.
        replace (k0 * (10 * 10 ^ (i0 - s0 - 1))) with (k0 * 10 ^ (i0 - s0 - 1) * 10) by ring. apply Z.mod_mul. lia. }
    destruct (Z_le_gt_dec s i) as [L|L]; [apply W; auto; try lia; congruence|]. destruct (W k i a s); auto; try lia. congruence. }
  destruct EQ as [-> SI]. assert (SK : str_of_Z k = ds) by (unfold str_of_Z; rewrite (proj2 (Z.ltb_ge k 0)) by lia; exact DS). rewrite SK.
  assert (NDL : nd = l) by (symmetry; apply (natural_length (Z.to_N k) ds nd); [split; [exact D|split; [right; exact C|exact V]]|exact ND|rewrite Z2N.id by lia; exact AB]).
  replace y with (Z.of_nat l - 1 + i) by (unfold s in SI; lia). rewrite NV. apply repr_digits_tenth; auto.
Qed.

Lemma c49 : forall f v r, In f [F062; F135; F269] -> digit_string v -> (List.length v <= 15)%nat ->
  exists x, run_fn f v r = ([], Ok (DFloat x)) /\ is_decimal 1 (number v) (repr_fl x).
Proof.
  intros f v r F D L. exists (fl_div (dec_to_fl false (Z.of_N (number v)) 0) 10). split.
  - cbn [In] in F. repeat match goal with H : _ \/ _ |- _ => destruct H as [<-|H] end; try contradiction.
    + unfold run_fn, field_062. rewrite isnumeric_digits by auto. unfold float_of. rewrite py_float_digits by auto. reflexivity.
    + unfold run_fn, field_135. rewrite isnumeric_digits by auto. unfold float_of. rewrite py_float_digits by auto. reflexivity.
    + unfold run_fn, field_269. assert (B : blank v = false).
      { unfold blank. rewrite strip_digits by apply D. apply str_eqb_neq. apply D. }
      rewrite B. cbn [negb]. unfold float_of. rewrite py_float_digits by auto. reflexivity.
  - apply tenth_repr. pose proof (number_bound _ (proj2 D)) as B.
    assert (10 ^ N.of_nat (List.length v) <= 10 ^ 15)%N by (apply N.pow_le_mono_r; lia). lia.
Qed.
