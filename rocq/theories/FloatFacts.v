(* round_q is IEEE 754 rounding. *)
From Coq Require Import List NArith ZArith Bool Arith Lia.
From Verif Require Import PyNum SpecFloat NumFacts RoundFacts.
Local Open Scope Z_scope.

Lemma rne_nearest : forall p q k, 0 < q -> Z.abs (rne p q * q - p) <= Z.abs (k * q - p).
Proof.
  intros p q k Q. pose proof (rne_close p q Q) as C. destruct (Z.eq_dec k (rne p q)) as [->|NE]; [lia|].
  set (m := rne p q) in *. destruct (Z_lt_le_dec k m); nia.
Qed.
Lemma rne_tie : forall p q k, 0 < q -> k <> rne p q -> Z.abs (k * q - p) = Z.abs (rne p q * q - p) -> Z.even (rne p q) = true.
Proof.
  intros p q k Q NE. unfold rne in *. pose proof (Z.div_mod p q ltac:(lia)) as DM. pose proof (Z.mod_pos_bound p q Q) as B.
  set (a := p / q) in *. set (r := p mod q) in *. destruct (Z.compare_spec (2 * r) q) as [E|E|E].
  - intros _. destruct (Z.even a) eqn:EV; [exact EV|]. rewrite Z.add_1_r, Z.even_succ, <- Z.negb_even, EV. reflexivity.
  - intro H. exfalso. assert (k < a \/ a + 1 <= k) as [L|L] by lia.
    + assert (k * q <= (a - 1) * q) by nia. nia.
    + assert ((a + 1) * q <= k * q) by nia. nia.
  - intro H. exfalso. assert (k <= a \/ a + 2 <= k) as [L|L] by lia.
    + assert (k * q <= a * q) by nia. nia.
    + assert ((a + 2) * q <= k * q) by nia. nia.
Qed.

Lemma pow_split : forall e e', -1074 <= e' < e -> 2 ^ (e + 1074) = 2 ^ (e - e' - 1) * (2 * 2 ^ (e' + 1074)).
Proof. intros e e' H. rewrite <- Z.pow_succ_r, <- Z.pow_add_r by lia. f_equal. lia. Qed.
Lemma below_normal : forall B m m' a b, 0 < a -> 0 < b -> 0 < B -> B <= m -> m' < 2 * B -> m' * b < m * (a * (2 * b)).
Proof. intros. assert (m' * b < 2 * B * b) by nia. assert (2 * B * b <= m * (2 * b)) by nia. assert (m * (2 * b) * 1 <= m * (2 * b) * a) by (apply Z.mul_le_mono_nonneg_l; nia). lia. Qed.
Section Round.
Variables p q e2 : Z.
Hypothesis P : 0 < p.
Hypothesis Q : 0 < q.
Hypothesis N : normal p q e2.
Local Definition e := Z.max e2 (-1074).
Local Definition m := rne (mul2neg p e) (mul2pos q e).
Local Definition G := 2 ^ (e + 1074).                        (* grid, in units *)
Lemma G_pos : 0 < G. Proof. apply Z.pow_pos_nonneg; unfold e; lia. Qed.
(* pos2 e * 2^1074 = G * neg2 e *)
Lemma grid_pos2 : pos2 e * 2 ^ 1074 = G * neg2 e.
Proof. unfold pos2, neg2, G. rewrite <- !Z.pow_add_r by (unfold e; lia). f_equal. lia. Qed.
Lemma m_is : m = rne (p * 2 ^ 1074) (G * q).
Proof.
  unfold m. pose proof (pos2_pos e). pose proof G_pos. apply rne_ratio; [rewrite mul2pos_eq; nia|nia|].
  rewrite mul2pos_eq, mul2neg_eq. replace (p * 2 ^ 1074 * (q * pos2 e)) with (p * q * (pos2 e * 2 ^ 1074)) by ring. rewrite grid_pos2. ring.
Qed.
Lemma GQ : 0 < G * q. Proof. pose proof G_pos. nia. Qed.
Lemma v_upper : p * 2 ^ 1074 < 2 ^ 53 * (G * q).
Proof.
  destruct N as [_ U]. pose proof (neg2_pos e2). pose proof (pos2_pos e2).
  assert (S : pos2 e2 * 2 ^ 1074 <= G * neg2 e2).
  { unfold pos2, neg2, G. rewrite <- !Z.pow_add_r by (unfold e; lia). apply Z.pow_le_mono_r; unfold e; lia. }
  apply (Z.mul_lt_mono_pos_r (neg2 e2)); [assumption|].
  assert (p * neg2 e2 * 2 ^ 1074 < q * pos2 e2 * 2 ^ 53 * 2 ^ 1074) by (apply Z.mul_lt_mono_pos_r; [reflexivity|exact U]).
  assert (q * 2 ^ 53 * (pos2 e2 * 2 ^ 1074) <= q * 2 ^ 53 * (G * neg2 e2)) by (apply Z.mul_le_mono_nonneg_l; lia).
  set (A := 2 ^ 1074) in *. set (B := 2 ^ 53) in *. lia.
Qed.
Lemma v_lower : -1074 < e -> 2 ^ 52 * (G * q) <= p * 2 ^ 1074.
Proof.
  intro L. assert (E : e2 = e) by (unfold e in *; lia). destruct N as [U _]. rewrite E in U. pose proof (neg2_pos e) as NP.
  apply (Z.mul_le_mono_pos_r _ _ (neg2 e) NP).
  assert (q * pos2 e * 2 ^ 52 * 2 ^ 1074 <= p * neg2 e * 2 ^ 1074) by (apply Z.mul_le_mono_nonneg_r; [lia|exact U]).
  replace (q * pos2 e * 2 ^ 52 * 2 ^ 1074) with (q * 2 ^ 52 * (pos2 e * 2 ^ 1074)) in H by ring. rewrite grid_pos2 in H.
  set (A := 2 ^ 1074) in *. set (B := 2 ^ 52) in *. lia.
Qed.
Lemma m_range : 0 <= m <= 2 ^ 53 /\ (-1074 < e -> 2 ^ 52 <= m).
Proof.
  rewrite m_is. pose proof GQ as GQ. split; [split|].
  - apply rne_lower; [exact GQ|]. rewrite Z.mul_0_l. apply Z.mul_nonneg_nonneg; [lia|discriminate].
  - apply rne_upper; [exact GQ|]. pose proof v_upper. lia.
  - intro L. apply rne_lower; [exact GQ|]. apply v_lower. exact L.
Qed.
(* every double is on the grid, or below the least value of this exponent *)
Lemma on_grid : forall m' e', double m' e' -> (exists k, units m' e' = k * G) \/ (-1074 < e /\ units m' e' < 2 ^ 52 * G).
Proof.
  intros m' e' [[M0 M1] E']. unfold units. destruct (Z_le_gt_dec e e') as [L|L].
  - left. exists (m' * 2 ^ (e' - e)). unfold G. rewrite <- Z.mul_assoc, <- Z.pow_add_r by (unfold e in *; lia). f_equal. f_equal. lia.
  - right. split; [lia|]. unfold G. rewrite (pow_split e e') by lia. apply (below_normal (2 ^ 52)); try lia; try (apply Z.pow_pos_nonneg; lia).
Qed.
Definition D (u : Z) : Z := Z.abs (u * q - p * 2 ^ 1074).
Lemma D_grid : forall k, D (m * G) <= D (k * G).
Proof.
  intro k. unfold D. rewrite m_is. pose proof (rne_nearest (p * 2 ^ 1074) (G * q) k GQ) as H. rewrite <- !Z.mul_assoc. exact H.
Qed.
Lemma D_below : forall u, -1074 < e -> u < 2 ^ 52 * G -> D (m * G) < D u.
Proof.
  intros u L U. apply Z.le_lt_trans with (D (2 ^ 52 * G)); [apply D_grid|]. unfold D. pose proof (v_lower L) as V. set (A := p * 2 ^ 1074) in *. set (B := 2 ^ 52) in *.
  assert (u * q < B * G * q) by nia. assert (B * (G * q) = B * G * q) by ring. lia.
Qed.
Lemma m_best : forall m' e', double m' e' -> D (m * G) <= D (units m' e').
Proof.
  intros m' e' H. destruct (on_grid m' e' H) as [[k ->]|[L U]]; [apply D_grid|]. apply Z.lt_le_incl. apply D_below; auto.
Qed.
Lemma m_even : forall m' e', double m' e' -> units m' e' <> m * G -> D (units m' e') = D (m * G) -> Z.even m = true.
Proof.
  intros m' e' H NE EQ. destruct (on_grid m' e' H) as [[k E]|[L U]].
  - rewrite E in *. rewrite m_is in *. apply (rne_tie _ _ k GQ); [intro; subst k; apply NE; reflexivity|]. unfold D in EQ. rewrite <- !Z.mul_assoc in EQ. exact EQ.
  - exfalso. pose proof (D_below (units m' e') L U). lia.
Qed.
Lemma round_at_rounded : forall neg, rounded neg p q (round_at neg p q e2).
Proof.
  intro neg. unfold round_at. fold e. fold m. destruct m_range as [[M0 M1] M2]. destruct (Z.eqb_spec m (2 ^ 53)) as [E|E].
  - exists (2 ^ 52), (e + 1). split; [|reflexivity].
    assert (UE : units (2 ^ 52) (e + 1) = m * G).
    { rewrite E. unfold units, G. replace (e + 1 + 1074) with (1 + (e + 1074)) by lia. rewrite Z.pow_add_r by (unfold e; lia). change (2 ^ 53) with (2 ^ 52 * 2 ^ 1). ring. }
    split; [split; [split; [lia|reflexivity]|unfold e; lia]|]. split; [left; lia|]. unfold distance. rewrite UE. split.
    + intros m' e' H. apply m_best. exact H.
    + intros. reflexivity.
  - exists m, e. split.
    + split; [split; [lia|unfold e; lia]|]. split; [destruct (Z.eq_dec e (-1074)); [right; assumption|left; apply M2; unfold e in *; lia]|].
      split; [exact m_best|exact m_even].
    + destruct (971 <? e) eqn:F; [|reflexivity]. apply Z.ltb_lt in F. assert (2 ^ 52 <= m) by (apply M2; lia). destruct m; auto; lia.
Qed.
End Round.

Lemma round_q_rounded : forall neg p q, 0 < p -> 0 < q -> rounded neg p q (round_q neg p q).
Proof. intros neg p q P Q. destruct (round_q_at neg p q P Q) as [e [N ->]]. apply round_at_rounded; auto. Qed.

(* there is one such double *)
Lemma units_lt_next : forall m e m' e', double m e -> (2 ^ 52 <= m \/ e = -1074) -> double m' e' -> units m e < units m' e' ->
  units (m + 1) e <= units m' e'.
Proof.
  intros m e m' e' [M E] C [M' E'] L. unfold units in *. destruct (Z_le_gt_dec e e') as [K|K].
  - assert (S : 2 ^ (e' + 1074) = 2 ^ (e' - e) * 2 ^ (e + 1074)) by (rewrite <- Z.pow_add_r by lia; f_equal; lia). rewrite S in *.
    pose proof (Z.pow_pos_nonneg 2 (e + 1074) ltac:(lia) ltac:(lia)) as GP. rewrite Z.mul_assoc in *. apply (Z.mul_lt_mono_pos_r _ _ _ GP) in L.
    apply Z.mul_le_mono_nonneg_r; lia.
  - exfalso. destruct C as [C|C]; [|lia]. rewrite (pow_split e e') in L by lia.
    assert (m' * 2 ^ (e' + 1074) < m * (2 ^ (e - e' - 1) * (2 * 2 ^ (e' + 1074)))) by (apply (below_normal (2 ^ 52)); try lia; try (apply Z.pow_pos_nonneg; lia)). lia.
Qed.
Lemma units_inj : forall m e m' e', double m e -> (2 ^ 52 <= m \/ e = -1074) -> double m' e' -> (2 ^ 52 <= m' \/ e' = -1074) ->
  units m e = units m' e' -> m = m' /\ e = e'.
Proof.
  assert (A : forall m e m' e', double m e -> (2 ^ 52 <= m \/ e = -1074) -> double m' e' -> units m e = units m' e' -> e <= e').
  { intros m e m' e' [M E] C [M' E'] H. destruct (Z_le_gt_dec e e'); auto. exfalso. destruct C as [C|C]; [|lia]. unfold units in H.
    rewrite (pow_split e e') in H by lia.
    assert (m' * 2 ^ (e' + 1074) < m * (2 ^ (e - e' - 1) * (2 * 2 ^ (e' + 1074)))) by (apply (below_normal (2 ^ 52)); try lia; try (apply Z.pow_pos_nonneg; lia)). lia. }
  intros m e m' e' D C D' C' H. assert (e = e') as <- by (pose proof (A m e m' e' D C D' H); pose proof (A m' e' m e D' C' D (eq_sym H)); lia).
  split; [|reflexivity]. unfold units in H. apply Z.mul_reg_r in H; auto. pose proof (Z.pow_pos_nonneg 2 (e + 1074) ltac:(lia)). destruct D. lia.
Qed.
Lemma nearest_not_lt : forall p q m e m' e', 0 < q -> nearest p q m e -> nearest p q m' e' -> units m e < units m' e' -> False.
Proof.
  intros p q m e m' e' Q [D [C [B T]]] [D' [C' [B' T']]] L.
  assert (EQ : distance p q m e = distance p q m' e') by (pose proof (B _ _ D'); pose proof (B' _ _ D); lia).
  assert (EV : Z.even m = true) by (apply (T m' e'); [exact D'|lia|lia]).
  assert (EV' : Z.even m' = true) by (apply (T' m e); [exact D|lia|lia]).
  pose proof (units_lt_next m e m' e' D C D' L) as NX.
  (* the next double is m' e' itself *)
  assert (X : exists k f, double k f /\ (2 ^ 52 <= k \/ f = -1074) /\ units k f = units (m + 1) e /\ (k = m + 1 /\ f = e \/ m + 1 = 2 ^ 53)).
  { destruct D as [M E]. destruct (Z.eq_dec (m + 1) (2 ^ 53)) as [F|F].
    - exists (2 ^ 52), (e + 1). split; [split; [split; [lia|reflexivity]|lia]|]. split; [left; lia|]. split; [|right; exact F]. rewrite F. unfold units.
      replace (e + 1 + 1074) with (1 + (e + 1074)) by lia. rewrite Z.pow_add_r by lia. change (2 ^ 53) with (2 ^ 52 * 2 ^ 1). ring.
    - exists (m + 1), e. split; [split; lia|]. split; [lia|]. split; [reflexivity|left; auto]. }
  destruct X as [k [f [KD [KC [KU KE]]]]].
  assert (units (m + 1) e = units m' e').
  { destruct (Z.eq_dec (units (m + 1) e) (units m' e')); auto. exfalso. pose proof (B _ _ KD) as BK. unfold distance in *. rewrite KU in BK.
    assert (units m e < units (m + 1) e). { unfold units. pose proof (Z.pow_pos_nonneg 2 (e + 1074) ltac:(lia) ltac:(destruct D; lia)). nia. }
    assert (units m e * q < units (m + 1) e * q) by nia. assert (units (m + 1) e * q < units m' e' * q) by nia. lia. }
  rewrite <- KU in H. destruct (units_inj _ _ _ _ KD KC D' C' H) as [<- <-]. destruct KE as [[-> _]|KE].
  - rewrite Z.add_1_r, Z.even_succ, <- Z.negb_even, EV in EV'. discriminate.
  - replace m with (2 ^ 53 - 1) in EV by lia. discriminate.
Qed.
Lemma nearest_unique : forall p q m e m' e', 0 < q -> nearest p q m e -> nearest p q m' e' -> m = m' /\ e = e'.
Proof.
  intros p q m e m' e' Q H H'. pose proof H as [D [C _]]. pose proof H' as [D' [C' _]]. apply units_inj; auto.
  destruct (Z.lt_trichotomy (units m e) (units m' e')) as [L|[L|L]]; auto; exfalso; [apply (nearest_not_lt p q m e m' e')|apply (nearest_not_lt p q m' e' m e)]; auto.
Qed.
Lemma rounded_iff : forall neg p q x, 0 < p -> 0 < q -> (rounded neg p q x <-> x = round_q neg p q).
Proof.
  intros neg p q x P Q. split; [|intros ->; apply round_q_rounded; auto]. intros [m [e [N E]]]. destruct (round_q_rounded neg p q P Q) as [m' [e' [N' E']]].
  destruct (nearest_unique _ _ _ _ _ _ Q N N') as [<- <-]. congruence.
Qed.
