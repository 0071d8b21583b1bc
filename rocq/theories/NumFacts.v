(* Facts about numerals and binary64. *)
From Coq Require Import List String NArith ZArith Bool Arith Lia DecimalN DecimalFacts.
From Verif Require Import Unicode PyStr PyNum Spec SpecNum StrFacts.
Import ListNotations.
Local Open Scope Z_scope.

(* ---- number ---- *)
Lemma number_from_app : forall s t a, number_from a (s ++ t) = number_from (number_from a s) t.
Proof. induction s; simpl; intros; auto. Qed.
Lemma number_from_linear : forall s a, number_from a s = (a * 10 ^ N.of_nat (List.length s) + number s)%N.
Proof.
  unfold number. induction s as [|c s IH]; intro a.
  - simpl. lia.
  - cbn [number_from List.length]. rewrite (IH (10 * a + (c - 48))%N), (IH (10 * 0 + (c - 48))%N).
    rewrite Nat2N.inj_succ, N.pow_succ_r'. lia.
Qed.
Lemma number_app : forall s t, number (s ++ t) = (number s * 10 ^ N.of_nat (List.length t) + number t)%N.
Proof. intros. unfold number at 1. rewrite number_from_app. apply number_from_linear. Qed.
Lemma digit_string_forallb : forall s, digit_string s <-> all_nonempty is_digit s = true.
Proof.
  intro s. unfold digit_string. rewrite all_nonempty_iff. apply and_iff_compat_l. rewrite !Forall_forall.
  unfold is_digit. split; intros H c Hc; specialize (H c Hc).
  - apply andb_true_iff; split; apply N.leb_le; lia.
  - apply andb_true_iff in H as [H1 H2]. apply N.leb_le in H1, H2. lia.
Qed.
Lemma digits_val_number : forall s, Forall (fun c => 48 <= c <= 57)%N s -> digits_val s = Z.of_N (number s).
Proof.
  intros s H. unfold digits_val, number.
  assert (G : forall s a b, Forall (fun c => 48 <= c <= 57)%N s -> a = Z.of_N b ->
    fold_left (fun a c => 10 * a + (Z.of_N c - 48)) s a = Z.of_N (number_from b s)).
  { induction s0 as [|c s0 IH]; intros a b F E; [auto|]. inversion F; subst. cbn [fold_left number_from]. apply IH; auto. lia. }
  apply G; auto.
Qed.
Lemma number_bound : forall s, Forall (fun c => 48 <= c <= 57)%N s -> (number s < 10 ^ N.of_nat (List.length s))%N.
Proof.
  induction s as [|c s IH] using rev_ind; intro H; [reflexivity|].
  apply Forall_app in H as [H1 H2]. inversion H2; subst. rewrite number_app, app_length. cbn [List.length].
  specialize (IH H1). change (10 ^ N.of_nat 1)%N with 10%N. rewrite Nat.add_1_r, Nat2N.inj_succ, N.pow_succ_r'.
  unfold number at 2. cbn [number_from]. lia.
Qed.

(* ---- str_of_N ---- *)
Lemma uint_str_digits : forall u, Forall (fun c => 48 <= c <= 57)%N (uint_str u).
Proof. induction u; simpl; constructor; auto; lia. Qed.
Lemma of_uint_acc_number : forall u acc, Npos (Pos.of_uint_acc u acc) = number_from (Npos acc) (uint_str u).
Proof.
  induction u; intro acc; cbn [Pos.of_uint_acc uint_str number_from]; [reflexivity|..]; rewrite IHu; f_equal; lia.
Qed.
Lemma of_uint_number : forall u, N.of_uint u = number (uint_str u).
Proof.
  intro u. unfold N.of_uint, number. induction u; cbn [Pos.of_uint uint_str number_from]; auto; rewrite of_uint_acc_number; reflexivity.
Qed.
Lemma number_str_of_N : forall n, number (str_of_N n) = n.
Proof. intro. unfold str_of_N. rewrite <- of_uint_number. apply DecimalN.Unsigned.of_to. Qed.
Lemma str_of_N_digits : forall n, digit_string (str_of_N n).
Proof.
  intro n. split; [|apply uint_str_digits]. unfold str_of_N.
  assert (H : N.to_uint n <> Decimal.Nil).
  { destruct n; [discriminate|]. apply DecimalPos.Unsigned.to_uint_nonnil. }
  destruct (N.to_uint n); try discriminate. congruence.
Qed.
Lemma str_of_N_plain : forall n, plain (str_of_N n).
Proof.
  intro n. unfold str_of_N.
  assert (H : Decimal.unorm (N.to_uint n) = N.to_uint n).
  { rewrite <- DecimalN.Unsigned.to_of, DecimalN.Unsigned.of_to. reflexivity. }
  destruct (N.to_uint n) as [|u|u|u|u|u|u|u|u|u|u] eqn:E; try (right; cbn; discriminate).
  unfold Decimal.unorm in H. cbn [Decimal.nzhead] in H.
  destruct (Decimal.nzhead u) as [|w|w|w|w|w|w|w|w|w|w] eqn:F; try discriminate.
  - injection H as <-. left. reflexivity.
  - exfalso. apply (nzhead_nonzero u w). exact F.
Qed.
Lemma str_of_N_natural : forall n, is_natural n (str_of_N n).
Proof. intro. split; [apply str_of_N_digits|split; [apply str_of_N_plain|apply number_str_of_N]]. Qed.
Lemma number_repeat0 : forall k s, number (repeat 48%N k ++ s) = number s.
Proof. induction k; intro s; [reflexivity|]. cbn [repeat app]. unfold number in *. cbn [number_from]. apply IHk. Qed.
Lemma number_zpad : forall w s, number (zpad w s) = number s.
Proof. intros. apply number_repeat0. Qed.
Lemma zpad_digits : forall w s, Forall (fun c => 48 <= c <= 57)%N s -> Forall (fun c => 48 <= c <= 57)%N (zpad w s).
Proof.
  intros. unfold zpad. apply Forall_app. split; auto. apply Forall_forall. intros x Hx. apply repeat_spec in Hx. subst. lia.
Qed.
Lemma zpad_length : forall w s, (List.length s <= w)%nat -> List.length (zpad w s) = w.
Proof. intros. unfold zpad. rewrite app_length, repeat_length. lia. Qed.

(* a plain numeral has no more digits than needed *)
Lemma plain_lower : forall s, digit_string s -> plain s -> (2 <= List.length s)%nat -> (10 ^ N.of_nat (List.length s - 1) <= number s)%N.
Proof.
  intros s [_ H] P L. destruct s as [|c s]; [simpl in L; lia|]. destruct P as [P|P].
  - injection P as -> ->. simpl in L. lia.
  - cbn in P. inversion H; subst. cbn [List.length]. rewrite Nat.sub_succ, Nat.sub_0_r.
    change (c :: s) with ([c] ++ s). rewrite number_app.
    assert (1 <= number [c])%N. { unfold number. cbn [number_from]. assert (c <> 48%N) by congruence. lia. }
    nia.
Qed.
Lemma str_of_N_length : forall n k, (1 <= k)%nat -> (n < 10 ^ N.of_nat k)%N -> (List.length (str_of_N n) <= k)%nat.
Proof.
  intros n k K H. destruct (Nat.le_gt_cases (List.length (str_of_N n)) k) as [|G]; auto. exfalso.
  pose proof (plain_lower _ (str_of_N_digits n) (str_of_N_plain n)) as P. rewrite number_str_of_N in P.
  assert (10 ^ N.of_nat k <= 10 ^ N.of_nat (List.length (str_of_N n) - 1))%N by (apply N.pow_le_mono_r; lia).
  assert (10 ^ N.of_nat (List.length (str_of_N n) - 1) <= n)%N by (apply P; lia). lia.
Qed.

(* ---- fixed_str ---- *)
Lemma fixed_str_decimal : forall k n, (1 <= k)%nat -> 0 <= n -> is_decimal k (Z.to_N n) (fixed_str k n).
Proof.
  intros k n K Hn. unfold fixed_str. set (d := 10 ^ Z.of_nat k).
  assert (Hd : 0 < d) by (apply Z.pow_pos_nonneg; lia).
  assert (Hm : 0 <= n mod d < d) by (apply Z.mod_pos_bound; lia).
  assert (Hq : 0 <= n / d) by (apply Z.div_pos; lia).
  assert (Ed : Z.to_N d = (10 ^ N.of_nat k)%N).
  { unfold d. rewrite Z2N.inj_pow by lia. rewrite <- nat_N_Z, N2Z.id. reflexivity. }
  assert (Hl : (List.length (str_of_N (Z.to_N (n mod d))) <= k)%nat).
  { apply str_of_N_length; auto. rewrite <- Ed. apply Z2N.inj_lt; lia. }
  exists (str_of_N (Z.to_N (n / d))), (zpad k (str_of_N (Z.to_N (n mod d)))).
  split; [reflexivity|]. split; [apply str_of_N_digits|]. split; [apply str_of_N_plain|].
  assert (Lz := zpad_length _ _ Hl). split; [split|split].
  - intro E. rewrite E in Lz. simpl in Lz. lia.
  - apply zpad_digits. apply uint_str_digits.
  - exact Lz.
  - rewrite number_app, Lz, number_zpad, !number_str_of_N, <- Ed.
    rewrite <- Z2N.inj_mul, <- Z2N.inj_add by nia. f_equal. rewrite (Z.div_mod n d) at 3 by lia. lia.
Qed.

(* ---- rounding ---- *)
Lemma rne_close : forall p q, 0 < q -> 2 * Z.abs (rne p q * q - p) <= q.
Proof.
  intros p q Hq. unfold rne. pose proof (Z.div_mod p q ltac:(lia)) as D. pose proof (Z.mod_pos_bound p q Hq) as B.
  set (k := p / q) in *. set (r := p mod q) in *.
  destruct (2 * r ?= q) eqn:C; [apply Z.compare_eq in C|rewrite Z.compare_lt_iff in C|rewrite Z.compare_gt_iff in C].
  - destruct (Z.even k); nia.
  - nia.
  - nia.
Qed.
Lemma rne_unique : forall p q n, 0 < q -> 2 * Z.abs (p - n * q) < q -> rne p q = n.
Proof.
  intros p q n Hq H. pose proof (rne_close p q Hq) as C.
  assert (Z.abs (rne p q * q - n * q) < q) by lia.
  replace (rne p q * q - n * q) with ((rne p q - n) * q) in H0 by ring.
  rewrite Z.abs_mul, (Z.abs_eq q) in H0 by lia. nia.
Qed.
Lemma rne_one : forall p, rne p 1 = p.
Proof. intro p. apply rne_unique; lia. Qed.

Definition pos2 (e : Z) : Z := 2 ^ Z.max e 0.
Definition neg2 (e : Z) : Z := 2 ^ Z.max (- e) 0.
Lemma pos2_pos : forall e, 0 < pos2 e. Proof. intro. apply Z.pow_pos_nonneg; lia. Qed.
Lemma neg2_pos : forall e, 0 < neg2 e. Proof. intro. apply Z.pow_pos_nonneg; lia. Qed.
Lemma mul2pos_eq : forall x e, mul2pos x e = x * pos2 e. Proof. reflexivity. Qed.
Lemma mul2neg_eq : forall x e, mul2neg x e = x * neg2 e. Proof. reflexivity. Qed.
(* stepping the exponent *)
Lemma step2 : forall e, (pos2 (e + 1) = 2 * pos2 e /\ neg2 (e + 1) = neg2 e) \/ (pos2 (e + 1) = pos2 e /\ neg2 e = 2 * neg2 (e + 1)).
Proof.
  intro e. unfold pos2, neg2. destruct (Z_lt_le_dec e 0).
  - right. rewrite !(Z.max_r _ 0) by lia. split; [reflexivity|]. rewrite !Z.max_l by lia.
    rewrite <- Z.pow_succ_r by lia. f_equal. lia.
  - left. rewrite !(Z.max_l _ 0) by lia. rewrite !Z.max_r by lia. split; [|reflexivity]. apply Z.pow_succ_r. lia.
Qed.
(* m * 2^e is within one part in 2^53 of p/q *)
Definition approx (m e p q : Z) : Prop := 2 ^ 53 * Z.abs (m * q * pos2 e - p * neg2 e) <= p * neg2 e.

Lemma round_q_approx : forall neg p q, 0 < p < 2 ^ 400 -> 0 < q < 2 ^ 400 ->
  exists m e, round_q neg p q = FFin neg m e /\ approx (Zpos m) e p q.
Proof.
  intros neg p q Hp Hq. unfold round_q.
  pose proof (Z.log2_spec p ltac:(lia)) as [P1 P2]. pose proof (Z.log2_spec q ltac:(lia)) as [Q1 Q2].
  assert (LP : 0 <= Z.log2 p < 400). { split; [apply Z.log2_nonneg|]. apply Z.log2_lt_pow2; lia. }
  assert (LQ : 0 <= Z.log2 q < 400). { split; [apply Z.log2_nonneg|]. apply Z.log2_lt_pow2; lia. }
  set (e1 := Z.log2 p - Z.log2 q - 53).
  (* normalisation at e1 *)
  assert (N1 : q * pos2 e1 * 2 ^ 52 <= p * neg2 e1).
  { assert (q * pos2 e1 * 2 ^ 52 <= 2 ^ Z.succ (Z.log2 q) * pos2 e1 * 2 ^ 52).
    { pose proof (pos2_pos e1). nia. }
    assert (2 ^ Z.log2 p * neg2 e1 <= p * neg2 e1). { pose proof (neg2_pos e1). nia. }
    enough (2 ^ Z.succ (Z.log2 q) * pos2 e1 * 2 ^ 52 <= 2 ^ Z.log2 p * neg2 e1) by lia.
    unfold pos2, neg2. rewrite <- !Z.pow_add_r by lia. apply Z.pow_le_mono_r; lia. }
  set (e2 := if mul2pos q e1 * 2 ^ 53 <=? mul2neg p e1 then e1 + 1 else e1).
  assert (N2 : q * pos2 e2 * 2 ^ 52 <= p * neg2 e2).
  { unfold e2. rewrite mul2pos_eq, mul2neg_eq. destruct (Z.leb_spec (q * pos2 e1 * 2 ^ 53) (p * neg2 e1)); [|exact N1].
    change (2 ^ 53) with (2 * 2 ^ 52) in H.
    destruct (step2 e1) as [[S1 S2]|[S1 S2]].
    - rewrite S1, S2. lia.
    - rewrite S1. rewrite S2 in H. lia. }
  assert (B2 : e1 <= e2 <= e1 + 1) by (unfold e2; destruct (_ <=? _); lia).
  rewrite (Z.max_l e2) by lia. rewrite mul2pos_eq, mul2neg_eq.
  set (Q := q * pos2 e2) in *. set (P := p * neg2 e2) in *.
  assert (HQ : 0 < Q) by (pose proof (pos2_pos e2); unfold Q; nia).
  pose proof (rne_close P Q HQ) as C. set (m := rne P Q) in *.
  assert (Hm : 0 < m). { assert (2 * (m * Q) >= Q) by lia. nia. }
  assert (A : 2 ^ 53 * Z.abs (m * q * pos2 e2 - p * neg2 e2) <= p * neg2 e2).
  { fold P. replace (m * q * pos2 e2) with (m * Q) by (unfold Q; ring). change (2 ^ 53) with (2 ^ 52 * 2). lia. }
  destruct (m =? 2 ^ 53) eqn:E.
  - apply Z.eqb_eq in E. rewrite (proj2 (Z.ltb_ge 971 (e2 + 1))) by lia. exists 4503599627370496%positive, (e2 + 1). split; [reflexivity|].
    unfold approx. rewrite E in A. change (Z.pos 4503599627370496) with (2 ^ 52). change (2 ^ 53) with (2 * 2 ^ 52) in A at 2.
    destruct (step2 e2) as [[S1 S2]|[S1 S2]].
    + rewrite S1, S2. replace (2 ^ 52 * q * (2 * pos2 e2)) with (2 * 2 ^ 52 * q * pos2 e2) by ring. exact A.
    + rewrite S1. rewrite S2 in A.
      replace (2 * 2 ^ 52 * q * pos2 e2 - p * (2 * neg2 (e2 + 1))) with (2 * (2 ^ 52 * q * pos2 e2 - p * neg2 (e2 + 1))) in A by ring.
      rewrite Z.abs_mul in A. lia.
  - rewrite (proj2 (Z.ltb_ge 971 e2)) by lia. destruct m as [|pm|pm]; try lia. eexists. exists e2. split; [reflexivity|]. exact A.
Qed.

(* integers below 2^53 are exact *)
Lemma round_q_exact : forall neg n, 0 < n < 2 ^ 53 -> exists m e, round_q neg n 1 = FFin neg m e /\ e <= 0 /\ Zpos m = n * 2 ^ (- e) /\ -52 <= e.
Proof.
  intros neg n Hn. unfold round_q. change (Z.log2 1) with 0.
  pose proof (Z.log2_spec n ltac:(lia)) as [P1 P2].
  assert (L : 0 <= Z.log2 n < 53). { split; [apply Z.log2_nonneg|]. apply Z.log2_lt_pow2; lia. }
  set (l := Z.log2 n) in *. replace (l - 0 - 53) with (l - 53) by lia.
  assert (E2 : mul2pos 1 (l - 53) * 2 ^ 53 <=? mul2neg n (l - 53) = true).
  { apply Z.leb_le. unfold mul2pos, mul2neg. rewrite (Z.max_r (l - 53) 0), (Z.max_l (- (l - 53)) 0) by lia. change (1 * 2 ^ 0) with 1. rewrite Z.mul_1_l.
    replace 53 with (l + (53 - l)) at 1 by lia. rewrite Z.pow_add_r by lia. replace (- (l - 53)) with (53 - l) by lia.
    pose proof (Z.pow_pos_nonneg 2 (53 - l) ltac:(lia) ltac:(lia)). nia. }
  rewrite E2. rewrite (Z.max_l _ (-1074)) by lia. set (e := l - 53 + 1) in *.
  assert (Ep : mul2pos 1 e = 1). { unfold mul2pos. rewrite Z.max_r by lia. reflexivity. }
  assert (En : mul2neg n e = n * 2 ^ (- e)). { unfold mul2neg. rewrite Z.max_l by lia. reflexivity. }
  rewrite Ep, En, rne_one.
  assert (Hm : n * 2 ^ (- e) < 2 ^ 53).
  { assert (n * 2 ^ (- e) < 2 ^ Z.succ l * 2 ^ (- e)). { pose proof (Z.pow_pos_nonneg 2 (- e) ltac:(lia) ltac:(lia)). nia. }
    rewrite <- Z.pow_add_r in H by lia. replace (Z.succ l + - e) with 53 in H by lia. exact H. }
  rewrite (proj2 (Z.eqb_neq (n * 2 ^ (- e)) (2 ^ 53))) by lia.
  rewrite (proj2 (Z.ltb_ge 971 e)) by lia.
  assert (0 < n * 2 ^ (- e)). { pose proof (Z.pow_pos_nonneg 2 (- e) ltac:(lia) ltac:(lia)). nia. }
  destruct (n * 2 ^ (- e)) as [|pm|pm] eqn:M; try lia. exists pm, e. repeat split; auto; lia.
Qed.

(* "{:.kf}".format(n / 10^k) is exact *)
Lemma fmt_div_exact : forall k n, (1 <= k <= 30)%nat -> 0 <= n < 2 ^ 52 ->
  fmt_fixed k (fl_div (dec_to_fl false n 0) (10 ^ Z.of_nat k)) = fixed_str k n.
Proof.
  intros k n K Hn. unfold dec_to_fl. destruct (Z.eqb_spec n 0) as [->|N0].
  { reflexivity. }
  change (0 <=? 0) with true. cbv iota. rewrite Z.pow_0_r, Z.mul_1_r.
  destruct (round_q_exact false n) as [m [e [E1 [E2 [E3 E4]]]]]; [lia|]. rewrite E1. unfold fl_div.
  set (d := 10 ^ Z.of_nat k).
  assert (Hd : 0 < d < 2 ^ 120).
  { split; [apply Z.pow_pos_nonneg; lia|]. unfold d. apply Z.le_lt_trans with (10 ^ 30); [apply Z.pow_le_mono_r; lia|reflexivity]. }
  assert (Hp : mul2pos (Z.pos m) e = n * 2 ^ (- e)).
  { unfold mul2pos. rewrite Z.max_r by lia. rewrite Z.pow_0_r, E3. lia. }
  assert (Hq : mul2neg d e = d * 2 ^ (- e)). { unfold mul2neg. rewrite Z.max_l by lia. reflexivity. }
  rewrite Hp, Hq.
  assert (B : 0 < 2 ^ (- e) <= 2 ^ 52).
  { split; [apply Z.pow_pos_nonneg; lia|apply Z.pow_le_mono_r; lia]. }
  destruct (round_q_approx false (n * 2 ^ (- e)) (d * 2 ^ (- e))) as [m' [e' [F1 F2]]].
  { split; [nia|]. apply Z.le_lt_trans with (2 ^ 52 * 2 ^ 52); [nia|reflexivity]. }
  { split; [nia|]. apply Z.le_lt_trans with (2 ^ 120 * 2 ^ 52); [nia|reflexivity]. }
  rewrite F1. unfold fmt_fixed. cbn [sign_str]. rewrite List.app_nil_l. f_equal. fold d.
  rewrite mul2pos_eq, mul2neg_eq, Z.mul_1_l. apply rne_unique; [apply neg2_pos|].
  unfold approx in F2. set (t := 2 ^ (- e)) in *. set (A := pos2 e') in *. pose proof (neg2_pos e') as HB. set (Bn := neg2 e') in *.
  replace (Z.pos m' * (d * t) * A - n * t * Bn) with (t * (Z.pos m' * d * A - n * Bn)) in F2 by ring.
  rewrite Z.abs_mul, (Z.abs_eq t) in F2 by lia.
  assert (F3 : 2 ^ 53 * Z.abs (Z.pos m' * d * A - n * Bn) <= n * Bn).
  { replace (2 ^ 53 * (t * Z.abs (Z.pos m' * d * A - n * Bn))) with (t * (2 ^ 53 * Z.abs (Z.pos m' * d * A - n * Bn))) in F2 by ring.
    replace (n * t * Bn) with (t * (n * Bn)) in F2 by ring. apply Z.mul_le_mono_pos_l in F2; lia. }
  change (2 ^ 53) with (2 ^ 52 * 2) in F3. nia.
Qed.

(* ---- int() and float() of ASCII digits ---- *)
Lemma digit_not_space : forall c, (48 <= c <= 57)%N -> c_space c = false.
Proof.
  intros c H. unfold c_space. apply orb_false_iff. split; [apply andb_false_iff; right; apply N.leb_gt; lia|apply N.eqb_neq; lia].
Qed.
Lemma to_ascii_digits : forall s, Forall (fun c => 48 <= c <= 57)%N s -> to_ascii s = s.
Proof.
  induction 1 as [|c s H _ IH]; [reflexivity|]. unfold to_ascii in *. cbn [map]. rewrite IH. f_equal.
  unfold to_ascii1. rewrite (proj2 (N.ltb_lt c 127)) by lia. reflexivity.
Qed.
Lemma drop_while_none : forall p s, Forall (fun c => p c = false) s -> drop_while p s = s.
Proof. intros p s H. destruct H; simpl; [reflexivity|]. rewrite H. reflexivity. Qed.
Lemma strip_c_digits : forall s, Forall (fun c => 48 <= c <= 57)%N s -> strip_c s = s.
Proof.
  intros s H. unfold strip_c, drop_while_end.
  assert (F : Forall (fun c => c_space c = false) s) by (eapply Forall_impl; [|exact H]; intros; apply digit_not_space; auto).
  rewrite (drop_while_none _ s) by auto. rewrite drop_while_none by (apply Forall_rev; auto). apply List.rev_involutive.
Qed.
Lemma drop_underscores_digits : forall s b, Forall (fun c => 48 <= c <= 57)%N s -> drop_underscores b s = Some s.
Proof.
  induction s as [|c s IH]; intros b H; [reflexivity|]. inversion H; subst. cbn [drop_underscores].
  rewrite (proj2 (N.eqb_neq c 95)) by lia. rewrite IH by auto. reflexivity.
Qed.
Lemma take_sign_digits : forall s, Forall (fun c => 48 <= c <= 57)%N s -> take_sign s = (false, s).
Proof.
  intros s H. destruct H as [|c s H]; [reflexivity|]. unfold take_sign.
  rewrite (proj2 (N.eqb_neq c 43)), (proj2 (N.eqb_neq c 45)) by lia. reflexivity.
Qed.
Lemma py_int_digits : forall s, digit_string s -> py_int s = Some (Z.of_N (number s)).
Proof.
  intros s D. pose proof D as [NE H]. unfold py_int.
  rewrite to_ascii_digits, strip_c_digits, take_sign_digits, drop_underscores_digits by auto.
  apply digit_string_forallb in D. rewrite D. rewrite digits_val_number by auto. reflexivity.
Qed.
Lemma span_digits : forall s, Forall (fun c => 48 <= c <= 57)%N s -> span is_digit s = (s, []).
Proof.
  induction 1 as [|c s H _ IH]; [reflexivity|]. cbn [span].
  replace (is_digit c) with true by (symmetry; unfold is_digit; apply andb_true_iff; split; apply N.leb_le; lia).
  rewrite IH. reflexivity.
Qed.
Lemma py_float_digits : forall s, digit_string s -> py_float s = Some (dec_to_fl false (Z.of_N (number s)) 0).
Proof.
  intros s [NE H]. unfold py_float.
  rewrite to_ascii_digits, strip_c_digits, drop_underscores_digits, take_sign_digits by auto.
  assert (L : map lower s = s).
  { clear NE. induction H as [|c s H _ IH]; [reflexivity|]. cbn [map]. rewrite IH. f_equal. unfold lower.
    rewrite (proj2 (N.leb_gt 65 c)) by lia. reflexivity. }
  rewrite L. destruct s as [|c s]; [congruence|].
  assert (C : (48 <= c <= 57)%N) by (inversion H; auto).
  assert (X : forall w x r, lit w = x :: r -> (97 <= x)%N -> str_eqb (c :: s) (lit w) = false).
  { intros w x r E Hx. rewrite E. cbn [str_eqb]. rewrite (proj2 (N.eqb_neq c x)) by lia. reflexivity. }
  rewrite (X "inf"%string 105%N (lit "nf")), (X "infinity"%string 105%N (lit "nfinity")), (X "nan"%string 110%N (lit "an")) by (reflexivity || lia).
  cbn [orb]. unfold parse_decimal. rewrite span_digits by auto. rewrite List.app_nil_r. cbn [parse_exp List.length].
  rewrite digits_val_number by auto. reflexivity.
Qed.

(* ---- character classes of ASCII digits ---- *)
Lemma digit_cases : forall (P : N -> Prop) c, (48 <= c <= 57)%N ->
  P 48%N -> P 49%N -> P 50%N -> P 51%N -> P 52%N -> P 53%N -> P 54%N -> P 55%N -> P 56%N -> P 57%N -> P c.
Proof.
  intros P c H. intros.
  assert (c = 48 \/ c = 49 \/ c = 50 \/ c = 51 \/ c = 52 \/ c = 53 \/ c = 54 \/ c = 55 \/ c = 56 \/ c = 57)%N by lia.
  intuition subst; assumption.
Qed.
Lemma digit_numeric : forall c, (48 <= c <= 57)%N -> numeric_char c = true.
Proof. intros c H. pattern c. apply digit_cases; auto; reflexivity. Qed.
Lemma digit_alnum : forall c, (48 <= c <= 57)%N -> alnum_char c = true.
Proof. intros c H. unfold alnum_char. rewrite digit_numeric by auto. apply orb_true_r. Qed.
Lemma digit_not_alpha : forall c, (48 <= c <= 57)%N -> alpha_char c = false.
Proof. intros c H. pattern c. apply digit_cases; auto; reflexivity. Qed.
Lemma digit_not_sp : forall c, (48 <= c <= 57)%N -> space_char c = false.
Proof. intros c H. pattern c. apply digit_cases; auto; reflexivity. Qed.
Lemma isnumeric_digits : forall s, digit_string s -> isnumeric s = true.
Proof.
  intros s [NE H]. apply all_nonempty_iff. split; auto. eapply Forall_impl; [|exact H]. intros; apply digit_numeric; auto.
Qed.
Lemma isalnum_digits : forall s, digit_string s -> isalnum s = true.
Proof.
  intros s [NE H]. apply all_nonempty_iff. split; auto. eapply Forall_impl; [|exact H]. intros; apply digit_alnum; auto.
Qed.
Lemma strip_digits : forall s, Forall (fun c => 48 <= c <= 57)%N s -> strip s = s.
Proof.
  intros s H. unfold strip, drop_while_end.
  assert (F : Forall (fun c => space_char c = false) s) by (eapply Forall_impl; [|exact H]; intros; apply digit_not_sp; auto).
  rewrite (drop_while_none _ s) by auto. rewrite drop_while_none by (apply Forall_rev; auto). apply List.rev_involutive.
Qed.
