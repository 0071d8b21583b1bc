(* Lemmas behind C16-C23, C47, C48: decoders that compute with numbers. *)
From Coq Require Import List String NArith ZArith Bool Arith Lia.
From Verif Require Import PyBase DecoderTables Decoder Record Spec StrFacts SpecNum NumFacts SpecCodes SpecDecode.
Import ListNotations.
Open Scope string_scope.
Open Scope list_scope.
Local Open Scope nat_scope.

(* ---- numerals denote one number and each number has one numeral ---- *)
Lemma number_cons : forall c s, number (c :: s) = ((c - 48) * 10 ^ N.of_nat (List.length s) + number s)%N.
Proof. intros. unfold number at 1. cbn [number_from]. rewrite N.mul_0_r, N.add_0_l. apply number_from_linear. Qed.
Lemma number_inj : forall s t, Forall (fun c => 48 <= c <= 57)%N s -> Forall (fun c => 48 <= c <= 57)%N t ->
  List.length s = List.length t -> number s = number t -> s = t.
Proof.
  induction s as [|c s IH]; intros [|d t] HS HT L E; try discriminate; [reflexivity|].
  inversion HS; subst. inversion HT; subst. rewrite !number_cons in E. injection L as L. rewrite <- L in E.
  pose proof (number_bound _ H2) as B1. pose proof (number_bound _ H4) as B2. rewrite <- L in B2.
  set (w := (10 ^ N.of_nat (List.length s))%N) in *.
  assert (c = d /\ number s = number t) as [-> E'].
  { assert (((c - 48) * w + number s) / w = ((d - 48) * w + number t) / w)%N as Q by (rewrite E; reflexivity).
    rewrite !N.div_add_l in Q by lia. rewrite !N.div_small in Q by lia. split; [lia|].
    assert (c - 48 = d - 48)%N by lia. lia. }
  f_equal. apply IH; auto.
Qed.
Lemma natural_unique : forall n s, is_natural n s -> s = str_of_N n.
Proof.
  intros n s [D [P E]]. pose proof (str_of_N_natural n) as [D' [P' E']].
  apply number_inj; [apply D|apply D'| |congruence].
  pose proof (plain_lower _ D P) as L. pose proof (plain_lower _ D' P') as L'.
  pose proof (number_bound _ (proj2 D)) as B. pose proof (number_bound _ (proj2 D')) as B'.
  destruct D as [NE _], D' as [NE' _].
  assert (1 <= List.length s) by (destruct s; [congruence|simpl; lia]).
  assert (1 <= List.length (str_of_N n)) by (destruct (str_of_N n); [congruence|simpl; lia]).
  rewrite E in *. rewrite E' in *.
  destruct (Nat.lt_trichotomy (List.length s) (List.length (str_of_N n))) as [G|[G|G]]; auto; exfalso.
  - specialize (L' ltac:(lia)). assert (10 ^ N.of_nat (List.length s) <= 10 ^ N.of_nat (List.length (str_of_N n) - 1))%N by (apply N.pow_le_mono_r; lia). lia.
  - specialize (L ltac:(lia)). assert (10 ^ N.of_nat (List.length (str_of_N n)) <= 10 ^ N.of_nat (List.length s - 1))%N by (apply N.pow_le_mono_r; lia). lia.
Qed.
Lemma app_split_tail : forall (a a' b b' : str) c, List.length b = List.length b' -> a ++ [c] ++ b = a' ++ [c] ++ b' -> a = a' /\ b = b'.
Proof.
  intros a a' b b' c L E.
  assert (LA : List.length a = List.length a').
  { apply (f_equal (@List.length N)) in E. rewrite !app_length in E. cbn [List.length] in E. lia. }
  clear L. revert a' LA E. induction a as [|x a IH]; intros [|y a'] LA E; try discriminate.
  - injection E as E. auto.
  - injection E as -> E. injection LA as LA. destruct (IH a' LA E) as [-> ->]. auto.
Qed.
(* the text determines the number *)
Lemma decimal_inj : forall k n n' s, is_decimal k n s -> is_decimal k n' s -> n = n'.
Proof.
  intros k n n' s [a [b [E [_ [_ [_ [L <-]]]]]]] [a' [b' [E' [_ [_ [_ [L' <-]]]]]]].
  rewrite E in E'. apply app_split_tail in E' as [-> ->]; congruence.
Qed.

(* ---- altitudes, runway length ---- *)
Lemma drop_zeros : forall s, Forall (fun c => 48 <= c <= 57)%N s -> number (drop_while (N.eqb 48) s) = number s /\
  Forall (fun c => 48 <= c <= 57)%N (drop_while (N.eqb 48) s) /\
  (drop_while (N.eqb 48) s = [] <-> number s = 0%N) /\ column (drop_while (N.eqb 48) s) 1 <> Some 48%N.
Proof.
  induction s as [|c s IH]; intro H; [repeat split; auto; discriminate|]. inversion H; subst. cbn [drop_while].
  destruct (N.eqb_spec 48 c) as [<-|NE].
  - rewrite number_cons. replace (48 - 48)%N with 0%N by reflexivity. rewrite N.mul_0_l, N.add_0_l. apply IH; auto.
  - repeat split; auto.
    + discriminate.
    + rewrite number_cons. assert (1 <= c - 48)%N by lia.
      assert (1 * 1 <= (c - 48) * 10 ^ N.of_nat (List.length s))%N.
      { apply N.mul_le_mono; auto. pose proof (N.pow_nonzero 10 (N.of_nat (List.length s)) ltac:(lia)). lia. }
      lia.
    + simpl. congruence.
Qed.
Lemma lstrip0_natural : forall s, digit_string s -> number s <> 0%N -> is_natural (number s) (lstrip0 s).
Proof.
  intros s [NE H] N0. unfold lstrip0. destruct (drop_zeros s H) as [E [F [Z P]]]. split; [split|split]; auto.
  - intro X. apply Z in X. congruence.
  - right. exact P.
Qed.
Lemma lstrip0_zero : forall s, digit_string s -> number s = 0%N -> lstrip0 s = [].
Proof. intros s [NE H] E. apply (drop_zeros s H). exact E. Qed.


Lemma ft_body : forall f v r, In f altitude_fns -> run_fn f v r = ret (DStr (if isnumeric v then lstrip0 v ++ lit " ft" else v)).
Proof.
  intros f v r H. unfold altitude_fns in H. cbn [In] in H.
  repeat match goal with H : _ \/ _ |- _ => destruct H as [<-|H] end; try contradiction; reflexivity.
Qed.
Lemma c17_value : forall f v r, In f altitude_fns -> digit_string v -> number v <> 0%N ->
  exists d, is_natural (number v) d /\ shows f v r (d ++ lit " ft").
Proof.
  intros f v r F D N0. exists (lstrip0 v). split; [apply lstrip0_natural; auto|].
  unfold shows. rewrite ft_body by auto. rewrite isnumeric_digits by auto. reflexivity.
Qed.
Lemma c17_zero : forall f v r, In f altitude_fns -> digit_string v -> number v = 0%N -> shows f v r (lit " ft").
Proof.
  intros f v r F D N0. unfold shows. rewrite ft_body by auto. rewrite isnumeric_digits by auto.
  rewrite lstrip0_zero by auto. reflexivity.
Qed.
Lemma c17_other : forall f v r c, In f altitude_fns -> In c v -> numeric_char c = false -> shows f v r v.
Proof.
  intros f v r c F I C. unfold shows. rewrite ft_body by auto.
  destruct (isnumeric v) eqn:E; [|reflexivity]. apply all_nonempty_iff in E as [_ E].
  rewrite Forall_forall in E. rewrite (E _ I) in C. discriminate.
Qed.
Lemma c17_empty : forall f r, In f altitude_fns -> shows f [] r [].
Proof. intros. unfold shows. rewrite ft_body by auto. reflexivity. Qed.

(* any numerals: the value without the zeros in front *)
Lemma lstrip0_split : forall v, exists zeros, v = zeros ++ lstrip0 v /\ Forall (eq 48%N) zeros /\ column (lstrip0 v) 1 <> Some 48%N.
Proof.
  intro v. unfold lstrip0. destruct (drop_while_spec (N.eqb 48) v) as [pre [A [B C]]]. exists pre. split; [exact A|]. split.
  - eapply Forall_impl; [|exact B]. intros c H. apply N.eqb_eq. exact H.
  - intro H. cbn [column] in H. specialize (C _ H). discriminate.
Qed.
Lemma zeros_split_unique : forall a b c d, a ++ b = c ++ d -> Forall (eq 48%N) a -> Forall (eq 48%N) c ->
  column b 1 <> Some 48%N -> column d 1 <> Some 48%N -> b = d.
Proof.
  induction a as [|x a IH]; intros b c d E A C B D.
  - destruct c as [|y c]; [exact E|]. cbn [app] in E. subst b. inversion C; subst. exfalso. apply B. reflexivity.
  - inversion A; subst. destruct c as [|y c].
    + cbn [app] in E. subst d. exfalso. apply D. reflexivity.
    + injection E as <- E. inversion C; subst. eapply IH; eauto.
Qed.
Lemma c17_numeral : forall f v r zeros rest, In f altitude_fns -> v <> [] -> all_numeric v -> v = zeros ++ rest -> Forall (eq 48%N) zeros ->
  column rest 1 <> Some 48%N -> shows f v r (rest ++ lit " ft").
Proof.
  intros f v r zeros rest F NE N E Z H. unfold shows. rewrite ft_body by auto. rewrite (proj2 (all_nonempty_iff numeric_char v) (conj NE N) : isnumeric v = true).
  destruct (lstrip0_split v) as [z' [A [B C]]]. rewrite (zeros_split_unique z' (lstrip0 v) zeros rest); auto. congruence.
Qed.
Lemma c18_numeral : forall v r zeros rest, v <> [] -> all_numeric v -> v = zeros ++ rest -> Forall (eq 48%N) zeros ->
  column rest 1 <> Some 48%N -> shows F054 v r (rest ++ lit "00 ft").
Proof.
  intros v r zeros rest NE N E Z H. unfold shows, run_fn, field_054. rewrite (proj2 (all_nonempty_iff numeric_char v) (conj NE N) : isnumeric v = true).
  destruct (lstrip0_split v) as [z' [A [B C]]]. rewrite (zeros_split_unique z' (lstrip0 v) zeros rest); auto. congruence.
Qed.

Lemma natural_hundred : forall n s, is_natural n s -> n <> 0%N -> is_natural (100 * n) (s ++ lit "00").
Proof.
  intros n s [[NE D] [P E]] N0. split; [split|split].
  - destruct s; discriminate.
  - apply Forall_app. split; auto. repeat constructor; vm_compute; discriminate.
  - right. destruct P as [->|P]; [exfalso; apply N0; rewrite <- E; reflexivity|]. destruct s; [congruence|exact P].
  - rewrite number_app, E. change (number (lit "00")) with 0%N. change (List.length (lit "00")) with 2. lia.
Qed.
Lemma c18_value : forall v r, digit_string v -> number v <> 0%N ->
  exists d, is_natural (100 * number v) d /\ shows F054 v r (d ++ lit " ft").
Proof.
  intros v r D N0. exists (lstrip0 v ++ lit "00"). split; [apply natural_hundred; auto; apply lstrip0_natural; auto|].
  unfold shows, run_fn, field_054. rewrite isnumeric_digits by auto. rewrite <- app_assoc. reflexivity.
Qed.
Lemma c18_zero : forall v r, digit_string v -> number v = 0%N -> shows F054 v r (lit "00 ft").
Proof.
  intros v r D N0. unfold shows, run_fn, field_054. rewrite isnumeric_digits by auto. rewrite lstrip0_zero by auto. reflexivity.
Qed.
Lemma c18_other : forall v r, (v = [] \/ exists c, In c v /\ numeric_char c = false) -> shows F054 v r v.
Proof.
  intros v r H. unfold shows, run_fn, field_054. destruct (isnumeric v) eqn:E; [|reflexivity].
  apply all_nonempty_iff in E as [NE E]. destruct H as [->|[c [I C]]]; [congruence|].
  rewrite Forall_forall in E. rewrite (E _ I) in C. discriminate.
Qed.

(* ---- decimals ---- *)
Lemma number_small : forall v, digit_string v -> List.length v <= 15 -> (0 <= Z.of_N (number v) < 2 ^ 52)%Z.
Proof.
  intros v [_ D] L. pose proof (number_bound _ D) as B.
  assert (10 ^ N.of_nat (List.length v) <= 10 ^ 15)%N by (apply N.pow_le_mono_r; lia).
  assert (10 ^ 15 < 2 ^ 52)%N by reflexivity. split; [lia|].
  change (2 ^ 52)%Z with (Z.of_N (2 ^ 52)). lia.
Qed.
Lemma decimal_text : forall k v, 1 <= k <= 30 -> digit_string v -> List.length v <= 15 ->
  is_decimal k (number v) (fmt_fixed k (fl_div (dec_to_fl false (Z.of_N (number v)) 0) (10 ^ Z.of_nat k))).
Proof.
  intros k v K D L. pose proof (number_small v D L) as B. rewrite fmt_div_exact by auto.
  rewrite <- (N2Z.id (number v)) at 1. apply fixed_str_decimal; lia.
Qed.
Lemma c19 : forall f v r, In f [F034; F045; F103] -> digit_string v -> List.length v <= 15 ->
  exists s, is_decimal 2 (number v) s /\ shows f v r s.
Proof.
  intros f v r F D L. eexists. split; [apply (decimal_text 2); auto; lia|]. unfold shows.
  cbn [In] in F. repeat match goal with H : _ \/ _ |- _ => destruct H as [<-|H] end; try contradiction.
  - unfold run_fn, field_034. cbv zeta. rewrite strip_digits by apply D.
    destruct v as [|c v']; [exfalso; apply (proj1 D); reflexivity|]. cbn [List.length Nat.ltb Nat.leb].
    rewrite isnumeric_digits by auto. unfold negb, float_of. rewrite py_float_digits by auto. reflexivity.
  - unfold run_fn, field_045. rewrite isnumeric_digits by auto. unfold float_of. rewrite py_float_digits by auto. reflexivity.
  - unfold run_fn, field_103. rewrite isnumeric_digits by auto. unfold float_of. rewrite py_float_digits by auto. reflexivity.
Qed.
Lemma endswith_T_digits : forall v, digit_string v -> endswith v (lit "T") = false.
Proof.
  intros v [_ D]. destruct (endswith v (lit "T")) eqn:E; [|reflexivity]. apply endswith_iff in E as [a ->].
  change (lit "T") with [84%N] in D. apply Forall_app in D as [_ D]. inversion D; subst. lia.
Qed.
Lemma c20_course : forall v r, digit_string v -> List.length v <= 4 ->
  exists s, is_decimal 1 (number v) s /\ shows F026 v r s.
Proof.
  intros v r D L. eexists. split; [apply (decimal_text 1); auto; lia|]. unfold shows, run_fn, field_026. cbv zeta.
  rewrite strip_digits by apply D. destruct v as [|c v']; [exfalso; apply (proj1 D); reflexivity|].
  rewrite isalnum_digits by auto. rewrite (proj2 (Nat.ltb_ge 4 _)) by auto. cbn [List.length Nat.eqb negb orb].
  rewrite endswith_T_digits by auto. unfold float_of. rewrite py_float_digits by auto. reflexivity.
Qed.
Lemma c20_distance : forall v r, digit_string v -> List.length v <= 15 ->
  exists s, is_decimal 1 (number v) s /\ shows F027 v r (s ++ lit " nm").
Proof.
  intros v r D L. eexists. split; [apply (decimal_text 1); auto; lia|]. unfold shows, run_fn, field_027. cbv zeta.
  rewrite strip_digits by apply D. destruct v as [|c v'] eqn:E; [exfalso; apply (proj1 D); reflexivity|]. rewrite <- E in *.
  assert (C : (48 <= c <= 57)%N) by (destruct D as [_ D]; rewrite E in D; inversion D; auto).
  replace (Nat.ltb 0 (List.length v)) with true by (rewrite E; reflexivity).
  replace (index v 0) with (Ok [c]) by (rewrite E; reflexivity). unfold lift, bind.
  replace (str_eqb [c] (lit "T")) with false by (symmetry; apply str_eqb_neq; change (lit "T") with [84%N]; intro X; injection X as X; lia).
  unfold float_of. rewrite py_float_digits by auto. reflexivity.
Qed.
Lemma strip_char_digits : forall c v, space_char c = false -> digit_string v -> strip (c :: v) = c :: v.
Proof.
  intros c v C [NE D]. apply strip_id.
  - intros x H. injection H as <-. exact C.
  - intros x H. rewrite column_last in H. cbn [List.length] in H. rewrite Nat.sub_succ, Nat.sub_0_r in H.
    destruct v as [|d v]; [congruence|]. cbn [List.length nth_error] in H. apply nth_error_In in H.
    rewrite Forall_forall in D. apply digit_not_sp. apply D. exact H.
Qed.
Lemma c20_time : forall v r, digit_string v -> List.length v <= 15 ->
  exists s, is_decimal 1 (number v) s /\ shows F027 (lit "T" ++ v) r (s ++ lit " min").
Proof.
  intros v r D L. eexists. split; [apply (decimal_text 1); auto; lia|]. unfold shows, run_fn, field_027. cbv zeta.
  change (lit "T" ++ v) with (84%N :: v). rewrite strip_char_digits by (auto; reflexivity).
  cbn [List.length Nat.ltb Nat.leb index nth_error lift bind]. replace (str_eqb [84%N] (lit "T")) with true by reflexivity.
  unfold slice_from. cbn [skipn]. unfold float_of. rewrite py_float_digits by auto. reflexivity.
Qed.

(* ---- character classes ---- *)
Definition below (n : nat) : list N := map N.of_nat (seq 0 n).
Lemma below_in : forall n c, (c < N.of_nat n)%N -> In c (below n).
Proof. intros n c H. unfold below. apply in_map_iff. exists (N.to_nat c). split; [apply N2Nat.id|]. apply in_seq. lia. Qed.
Lemma below_forall : forall n (p : N -> bool), forallb p (below n) = true -> forall c, (c < N.of_nat n)%N -> p c = true.
Proof. intros n p H c L. rewrite forallb_forall in H. apply H. apply below_in. exact L. Qed.
Lemma in_ranges_iff : forall t c, in_ranges t c = true <-> exists r, In r t /\ (fst r <= c <= snd r)%N.
Proof.
  intros t c. unfold in_ranges. rewrite existsb_exists. split; intros [r [I H]]; exists r; split; auto.
  - apply andb_true_iff in H as [A B]. apply N.leb_le in A, B. auto.
  - apply andb_true_iff. split; apply N.leb_le; apply H.
Qed.
Definition disjointb (t u : list (N * N)) : bool :=
  forallb (fun r => forallb (fun s => (snd r <? fst s)%N || (snd s <? fst r)%N) u) t.
Lemma disjointb_spec : forall t u c, disjointb t u = true -> in_ranges t c = true -> in_ranges u c = false.
Proof.
  intros t u c D H. destruct (in_ranges u c) eqn:E; [|reflexivity]. apply in_ranges_iff in H as [r [I1 B1]]. apply in_ranges_iff in E as [s [I2 B2]].
  unfold disjointb in D. rewrite forallb_forall in D. specialize (D r I1). rewrite forallb_forall in D. specialize (D s I2).
  apply orb_true_iff in D as [D|D]; apply N.ltb_lt in D; lia.
Qed.
Definition insideb (t u : list (N * N)) : bool :=
  forallb (fun r => existsb (fun s => (fst s <=? fst r)%N && (snd r <=? snd s)%N) u) t.
Lemma insideb_spec : forall t u c, insideb t u = true -> in_ranges t c = true -> in_ranges u c = true.
Proof.
  intros t u c D H. apply in_ranges_iff in H as [r [I1 B1]]. unfold insideb in D. rewrite forallb_forall in D. specialize (D r I1).
  apply existsb_exists in D as [s [I2 B2]]. apply andb_true_iff in B2 as [X Y]. apply N.leb_le in X, Y.
  apply in_ranges_iff. exists s. split; auto. lia.
Qed.
Lemma decimal_val_iff : forall c, decimal_val c <> None <-> in_ranges Unicode.decimal_ranges c = true.
Proof.
  intro c. unfold decimal_val. generalize Unicode.decimal_ranges. induction l as [|[a b] l IH]; [cbn; intuition congruence|].
  unfold in_ranges in *. cbn [decimal_in existsb fst snd]. destruct ((a <=? c)%N && (c <=? b)%N).
  - cbn [orb]. split; [reflexivity|discriminate].
  - cbn [orb]. exact IH.
Qed.
Lemma decimal_val_lt : forall c d, decimal_val c = Some d -> (d < 10)%N.
Proof.
  intros c d. unfold decimal_val. generalize Unicode.decimal_ranges. induction l as [|[a b] l IH]; cbn [decimal_in]; [discriminate|].
  destruct ((a <=? c)%N && (c <=? b)%N); auto. intro H. injection H as <-. apply N.mod_lt. lia.
Qed.
Lemma decimal_numeric : forall c, decimal_char c -> numeric_char c = true.
Proof. intros c H. apply decimal_val_iff in H. revert H. apply insideb_spec. vm_compute. reflexivity. Qed.
Lemma numeric_not_space : forall c, numeric_char c = true -> space_char c = false.
Proof. intro c. apply disjointb_spec. vm_compute. reflexivity. Qed.
Lemma alpha_not_space : forall c, alpha_char c = true -> space_char c = false.
Proof. intro c. apply disjointb_spec. vm_compute. reflexivity. Qed.
Lemma alnum_not_space : forall c, alnum_char c = true -> space_char c = false.
Proof. intros c H. apply orb_true_iff in H as [H|H]; [apply alpha_not_space|apply numeric_not_space]; auto. Qed.
Lemma alpha_not_decimal : forall c, alpha_char c = true -> decimal_val c = None.
Proof.
  intros c H. destruct (decimal_val c) eqn:E; [|reflexivity].
  assert (in_ranges Unicode.decimal_ranges c = true) by (apply decimal_val_iff; congruence).
  assert (D : disjointb Unicode.alpha_ranges Unicode.decimal_ranges = true) by (vm_compute; reflexivity).
  pose proof (disjointb_spec _ _ c D H). congruence.
Qed.
Lemma to_ascii_lt : forall c, (to_ascii1 c < 127)%N.
Proof.
  intro c. unfold to_ascii1. destruct (N.ltb_spec c 127); [auto|]. destruct (space_char c); [lia|].
  destruct (decimal_val c) eqn:E; [apply decimal_val_lt in E; lia|lia].
Qed.
Lemma ascii_decimal : forall c, (c < 127)%N -> decimal_val c = if is_digit c then Some (c - 48)%N else None.
Proof.
  intros c H.
  assert (K : forallb (fun c => match decimal_val c, is_digit c with
     | Some d, true => (d =? c - 48)%N | None, false => true | _, _ => false end) (below 127) = true) by (vm_compute; reflexivity).
  pose proof (below_forall _ _ K c H) as E. cbv beta in E. clear K.
  destruct (decimal_val c), (is_digit c); try discriminate; auto. apply N.eqb_eq in E. congruence.
Qed.
(* the digit, as ASCII *)
Lemma to_ascii_decimal : forall c d, decimal_val c = Some d -> to_ascii1 c = (48 + d)%N.
Proof.
  intros c d H. unfold to_ascii1. destruct (N.ltb_spec c 127) as [L|L].
  - rewrite ascii_decimal in H by auto. destruct (is_digit c) eqn:E; [|discriminate]. injection H as <-.
    apply andb_true_iff in E as [A B]. apply N.leb_le in A, B. lia.
  - rewrite numeric_not_space by (apply decimal_numeric; unfold decimal_char; congruence). rewrite H. reflexivity.
Qed.
Lemma to_ascii_digit_iff : forall c, is_digit (to_ascii1 c) = true <-> decimal_char c.
Proof.
  intro c. unfold decimal_char. split.
  - unfold to_ascii1. destruct (N.ltb_spec c 127) as [L|L].
    + intro H. rewrite ascii_decimal by auto. rewrite H. discriminate.
    + destruct (space_char c); [discriminate|]. destruct (decimal_val c); [discriminate|]. intro X. discriminate.
  - destruct (decimal_val c) as [d|] eqn:E; [|congruence]. intros _. rewrite (to_ascii_decimal _ _ E).
    pose proof (decimal_val_lt _ _ E). unfold is_digit. apply andb_true_iff. split; apply N.leb_le; lia.
Qed.
Lemma to_ascii_space_iff : forall c, c_space (to_ascii1 c) = true <-> number_space c.
Proof.
  intro c. unfold number_space, to_ascii1. destruct (N.ltb_spec c 127) as [L|L].
  - assert (K : forallb (fun c => Bool.eqb (c_space c) (space_char c && negb ((28 <=? c)%N && (c <=? 31)%N))) (below 127) = true)
      by (vm_compute; reflexivity).
    pose proof (below_forall _ _ K c L) as E. cbv beta in E. clear K. apply Bool.eqb_prop in E. rewrite E.
    rewrite andb_true_iff, negb_true_iff. apply and_iff_compat_l. split.
    + intros H X. destruct X as [X Y]. apply N.leb_le in X, Y. rewrite X, Y in H. discriminate.
    + intro H. destruct (N.leb_spec 28 c), (N.leb_spec c 31); auto; exfalso; apply H; lia.
  - destruct (space_char c) eqn:E.
    + split; [intros _; split; [reflexivity|lia]|reflexivity].
    + split; [|intros [X _]; discriminate]. destruct (decimal_val c) as [d|] eqn:F; [|discriminate].
      pose proof (decimal_val_lt _ _ F). rewrite digit_not_space by lia. discriminate.
Qed.
Lemma to_ascii_sign : forall c x, (x = 43 \/ x = 45)%N -> (to_ascii1 c = x <-> c = x).
Proof.
  intros c x X. unfold to_ascii1. destruct (N.ltb_spec c 127) as [L|L]; [tauto|].
  split; intro H; [|lia]. destruct (space_char c); [lia|]. destruct (decimal_val c); lia.
Qed.

(* ---- int() ---- *)
Definition int_ascii (t : str) : option Z :=
  let '(neg, d) := take_sign (strip_c t) in
  match drop_underscores false d with
  | Some ds => if all_nonempty is_digit ds then Some (if neg then - digits_val ds else digits_val ds)%Z else None
  | None => None
  end.
Lemma py_int_ascii : forall s, py_int s = int_ascii (to_ascii s).
Proof. reflexivity. Qed.
Definition int2_ok (x y : N) : bool :=
  ((is_digit x || c_space x || (x =? 43)%N || (x =? 45)%N) && is_digit y) || (is_digit x && c_space y).
Lemma int2_check : forallb (fun x => forallb (fun y =>
  Bool.eqb (match int_ascii [x; y] with Some _ => true | None => false end) (int2_ok x y)) (below 127)) (below 127) = true.
Proof. vm_compute. reflexivity. Qed.
Lemma int2 : forall a b, (exists n, py_int [a; b] = Some n) <-> two_char_int a b.
Proof.
  intros a b. rewrite py_int_ascii. change (to_ascii [a; b]) with [to_ascii1 a; to_ascii1 b].
  pose proof (below_forall _ _ int2_check _ (to_ascii_lt a)) as C. cbv beta in C.
  pose proof (below_forall _ _ C _ (to_ascii_lt b)) as D. cbv beta in D. clear C. apply Bool.eqb_prop in D.
  unfold two_char_int. rewrite <- !to_ascii_digit_iff, <- !to_ascii_space_iff.
  rewrite <- (to_ascii_sign a 43) by auto. rewrite <- (to_ascii_sign a 45) by auto.
  rewrite <- (N.eqb_eq (to_ascii1 a) 43), <- (N.eqb_eq (to_ascii1 a) 45).
  unfold int2_ok in D.
  destruct (int_ascii [to_ascii1 a; to_ascii1 b]) as [n|].
  - split; [intros _|eauto]. symmetry in D. rewrite !orb_true_iff, !andb_true_iff, !orb_true_iff in D. tauto.
  - split; [intros [? X]; discriminate|]. intro H. exfalso. symmetry in D. rewrite <- not_true_iff_false in D. apply D.
    rewrite !orb_true_iff, !andb_true_iff, !orb_true_iff. tauto.
Qed.
(* a single character *)
Lemma int1 : forall c, py_int [c] = match decimal_val c with Some d => Some (Z.of_N d) | None => None end.
Proof.
  intro c. rewrite py_int_ascii. change (to_ascii [c]) with [to_ascii1 c].
  assert (K : forallb (fun x => match int_ascii [x] with
    | Some n => is_digit x && Z.eqb n (Z.of_N (x - 48)) | None => negb (is_digit x) end) (below 127) = true) by (vm_compute; reflexivity).
  pose proof (below_forall _ _ K _ (to_ascii_lt c)) as E. cbv beta in E. clear K.
  destruct (decimal_val c) as [d|] eqn:F.
  - assert (decimal_char c) as D by (unfold decimal_char; congruence). apply to_ascii_digit_iff in D. rewrite D in E.
    destruct (int_ascii [to_ascii1 c]); [|discriminate]. cbn [andb] in E. apply Z.eqb_eq in E.
    rewrite (to_ascii_decimal _ _ F) in E. replace (48 + d - 48)%N with d in E by lia. congruence.
  - destruct (int_ascii [to_ascii1 c]); [|reflexivity]. apply andb_true_iff in E as [E _]. apply to_ascii_digit_iff in E. contradiction.
Qed.

(* ---- cycle date ---- *)
Lemma lit_year : forall p a b q, (48 <= a <= 57)%N -> (48 <= b <= 57)%N -> p = 49%N \/ p = 50%N -> (48 <= q <= 57)%N ->
  is_natural (number [p; q] * 100 + number [a; b]) ([p; q] ++ [a; b]).
Proof.
  intros p a b q A B P Q. split; [split|split].
  - discriminate.
  - repeat constructor; destruct P; lia.
  - right. simpl. destruct P; congruence.
  - rewrite number_app. reflexivity.
Qed.
Lemma c16_value : forall a b rest r, digit_string [a; b] ->
  exists y year, cycle_year (number [a; b]) y /\ is_natural y year /\
    shows F032 ([a; b] ++ rest) r (year ++ lit ", Release " ++ rest).
Proof.
  intros a b rest r D. destruct D as [NE D]. inversion D as [|? ? A D1]; subst. inversion D1 as [|? ? B _]; subst.
  pose proof (number_bound _ D) as NB. change (10 ^ N.of_nat (List.length [a; b]))%N with 100%N in NB.
  assert (RUN : run_fn F032 ([a; b] ++ rest) r =
    ret (DStr ((if Z.ltb 50 (Z.of_N (number [a; b])) then lit "19" ++ [a; b] else lit "20" ++ [a; b]) ++ lit ", Release " ++ rest))).
  { unfold run_fn, field_032. unfold slice_to, slice_from. cbn [app firstn skipn]. unfold int_of.
    rewrite py_int_digits by (split; auto). reflexivity. }
  destruct (Z.ltb_spec 50 (Z.of_N (number [a; b]))) as [G|G].
  - exists (1900 + number [a; b])%N, (lit "19" ++ [a; b]). split; [|split].
    + split; [lia|]. replace (1900 + number [a; b])%N with (number [a; b] + 19 * 100)%N by lia. rewrite N.mod_add by lia. apply N.mod_small. lia.
    + apply (lit_year 49 a b 57); auto; lia.
    + unfold shows. rewrite RUN. rewrite <- app_assoc. reflexivity.
  - exists (2000 + number [a; b])%N, (lit "20" ++ [a; b]). split; [|split].
    + split; [lia|]. replace (2000 + number [a; b])%N with (number [a; b] + 20 * 100)%N by lia. rewrite N.mod_add by lia. apply N.mod_small. lia.
    + apply (lit_year 50 a b 48); auto; lia.
    + unfold shows. rewrite RUN. rewrite <- app_assoc. reflexivity.
Qed.
Lemma c16_inj : forall v v' r t, List.length v = 4 -> List.length v' = 4 -> shows F032 v r t -> shows F032 v' r t -> v = v'.
Proof.
  intros v v' r t L L' H H'.
  destruct v as [|a [|b [|c [|d [|]]]]]; try discriminate L. destruct v' as [|a' [|b' [|c' [|d' [|]]]]]; try discriminate L'.
  unfold shows, run_fn, field_032, slice_to, slice_from in *. cbn [firstn skipn] in *.
  unfold int_of in *. destruct (py_int [a; b]); [|discriminate]. destruct (py_int [a'; b']); [|discriminate].
  cbn [bind ret app] in *. rewrite <- H' in H. clear H'. injection H as H.
  destruct (Z.ltb 50 _), (Z.ltb 50 _); vm_compute in H; congruence.
Qed.
Lemma c16_fails : forall a b rest r, (fails F032 ([a; b] ++ rest) r ValueError <-> ~ two_char_int a b) /\
  (two_char_int a b -> exists t, shows F032 ([a; b] ++ rest) r t).
Proof.
  intros. unfold fails, shows, run_fn, field_032, slice_to, slice_from. cbn [app firstn skipn]. rewrite <- int2. unfold int_of.
  destruct (py_int [a; b]) as [n|] eqn:E.
  - split; [|intros _; eexists; reflexivity]. split; [discriminate|]. intro H. exfalso. apply H. eauto.
  - split; [|intros [n X]; discriminate]. split; [intros _ [n X]; discriminate|reflexivity].
Qed.
Lemma numeric_int2 : forall a b, numeric_char a = true -> numeric_char b = true -> (two_char_int a b <-> decimal_char a /\ decimal_char b).
Proof.
  intros a b A B. unfold two_char_int, number_space. rewrite (numeric_not_space a), (numeric_not_space b) by auto. split.
  - intros [[[H|[[H _]|[-> | ->]]] K]|[_ [H _]]]; try discriminate; auto; vm_compute in A; discriminate.
  - tauto.
Qed.

(* ---- holding time ---- *)
Lemma decimal_char_val : forall c, decimal_char c -> exists d, decimal_val c = Some d.
Proof. intros c H. destruct (decimal_val c) eqn:E; [eauto|contradiction]. Qed.
Lemma str_of_Z_N : forall n, str_of_Z (Z.of_N n) = str_of_N n.
Proof. intro n. unfold str_of_Z. rewrite (proj2 (Z.ltb_ge _ _)) by lia. rewrite N2Z.id. reflexivity. Qed.
Lemma c47_value : forall m t rest r dm dt, decimal_val m = Some dm -> decimal_val t = Some dt ->
  exists mm ss, is_natural dm mm /\ is_natural (6 * dt) ss /\ shows F065 (m :: t :: rest) r (mm ++ lit "m " ++ ss ++ lit "s").
Proof.
  intros m t rest r dm dt M T. exists (str_of_N dm), (str_of_N (6 * dt)).
  split; [apply str_of_N_natural|]. split; [apply str_of_N_natural|].
  unfold shows, run_fn, field_065.
  assert (B : blank (m :: t :: rest) = false).
  { destruct (blank (m :: t :: rest)) eqn:E; [|reflexivity]. apply blank_iff in E. inversion E; subst.
    rewrite numeric_not_space in H1 by (apply decimal_numeric; unfold decimal_char; congruence). discriminate. }
  rewrite B. unfold holding_time. cbn [nth_error]. rewrite !int1, M, T.
  replace (Z.of_N dt * 6)%Z with (Z.of_N (6 * dt)) by lia. rewrite !str_of_Z_N. reflexivity.
Qed.
Lemma c47_blank : forall v r, whitespace v -> run_fn F065 v r = ([], Ok DNone).
Proof. intros v r H. unfold run_fn, field_065. rewrite (proj2 (blank_iff v) H). reflexivity. Qed.
Lemma c47_other : forall v r, ~ whitespace v ->
  (forall m t rest, v = m :: t :: rest -> ~ decimal_char m \/ ~ decimal_char t) ->
  exists o, run_fn F065 v r = ([EvPrint o], Ok (DStr (lit "Invalid Value: """ ++ v ++ lit """"))).
Proof.
  intros v r NW H. unfold run_fn, field_065. destruct (blank v) eqn:B; [apply blank_iff in B; contradiction|].
  assert (I : lit "Invalid Value: " ++ quoted v = lit "Invalid Value: """ ++ v ++ lit """") by reflexivity.
  rewrite I. unfold holding_time. destruct v as [|m v]; [exfalso; apply NW; constructor|].
  cbn [nth_error]. rewrite int1. destruct (decimal_val m) eqn:M; [|eexists; reflexivity].
  destruct v as [|t v]; [eexists; reflexivity|]. cbn [nth_error]. rewrite int1.
  destruct (decimal_val t) eqn:T; [|eexists; reflexivity].
  exfalso. destruct (H _ _ _ eq_refl) as [X|X]; apply X; unfold decimal_char; congruence.
Qed.

(* ---- magnetic variation ---- *)
Lemma c22_value : forall c d r, digit_string d ->
  exists s, digit_string s /\ number s = number d /\ (List.length s = 3 \/ (3 < List.length s /\ plain s)) /\
    shows F039 (c :: d) r (s ++ lit " " ++ [c]).
Proof.
  intros c d r D. exists (zpad 3 (str_of_N (number d))).
  pose proof (str_of_N_natural (number d)) as [DS [PS NS]].
  split; [|split; [|split]].
  - split; [|apply zpad_digits; apply DS]. unfold zpad. destruct DS as [NE _]. destruct (repeat 48%N _); [exact NE|discriminate].
  - rewrite number_zpad. exact NS.
  - destruct (Nat.le_gt_cases (List.length (str_of_N (number d))) 3) as [L|L].
    + left. apply zpad_length. exact L.
    + right. unfold zpad. replace (3 - List.length (str_of_N (number d))) with 0 by lia. cbn [repeat app]. auto.
  - unfold shows, run_fn, field_039.
    assert (B : blank (c :: d) = false).
    { destruct (blank (c :: d)) eqn:E; [|reflexivity]. apply blank_iff in E. inversion E; subst. destruct D as [NE D].
      destruct d as [|x d]; [congruence|]. inversion H2; subst. inversion D; subst. rewrite digit_not_sp in H3 by auto. discriminate. }
    rewrite B. unfold slice_from. cbn [skipn]. unfold int_of. rewrite py_int_digits by auto. cbn [bind ret]. unfold index. cbn [nth_error lift bind].
    unfold fmt03. rewrite (proj2 (Z.ltb_ge _ _)) by lia. rewrite N2Z.id. reflexivity.
Qed.
Lemma c22_inj : forall c d c' d' r t, digit_string d -> digit_string d' -> List.length d = List.length d' ->
  shows F039 (c :: d) r t -> shows F039 (c' :: d') r t -> c :: d = c' :: d'.
Proof.
  intros c d c' d' r t D D' L H H'.
  destruct (c22_value c d r D) as [s [_ [E [_ S]]]]. destruct (c22_value c' d' r D') as [s' [_ [E' [_ S']]]].
  unfold shows in *. rewrite S in H. rewrite S' in H'. injection H as H. injection H' as H'. rewrite <- H' in H.
  apply (app_split_tail s s' [c] [c'] 32%N) in H as [-> X]; [|reflexivity]. injection X as ->. f_equal.
  apply number_inj; [apply D|apply D'|auto|congruence].
Qed.
Lemma c22_blank : forall v r, whitespace v -> shows F039 v r v.
Proof. intros v r H. unfold shows, run_fn, field_039. rewrite (proj2 (blank_iff v) H). reflexivity. Qed.
Lemma c22_outcomes : forall v r, (exists t, shows F039 v r t) \/ fails F039 v r ValueError.
Proof.
  intros v r. unfold shows, fails, run_fn, field_039. destruct (blank v) eqn:B; [left; eexists; reflexivity|].
  destruct v as [|c v]; [discriminate|]. unfold int_of. destruct (py_int _); [left; eexists; reflexivity|right; reflexivity].
Qed.

(* ---- time zone ---- *)
Lemma c23_actual : forall l p mm r, In (l, p) zone_prefixes -> isnumeric mm = true -> shows F178 (lit l ++ mm) r (lit p ++ mm).
Proof.
  intros l p mm r H M. unfold zone_prefixes in H. cbn [In] in H. unfold shows, run_fn, field_178.
  repeat match goal with H : _ \/ _ |- _ => destruct H as [H|H] end; try contradiction; injection H as <- <-;
    unfold slice_from; cbn [lit map list_ascii_of_string app skipn]; unfold index; cbn [nth_error lift bind]; rewrite M; reflexivity.
Qed.
Lemma c23_right : forall l h mm r, In (l, h) zone_letters -> (1 <= h)%Z -> isnumeric mm = true ->
  exists text, zone_text h mm text /\ shows F178 (lit l ++ mm) r text.
Proof.
  intros l h mm r H P M. unfold zone_letters in H. cbn [In] in H.
  repeat match goal with H : _ \/ _ |- _ => destruct H as [H|H] end; try contradiction; injection H as <- <-; try lia;
    match goal with |- exists t, _ /\ shows F178 (lit ?l ++ _) _ t =>
      let p := eval vm_compute in (match find (fun q => String.eqb (fst q) l) zone_prefixes with Some q => snd q | None => "" end) in
      exists (lit p ++ mm); split; [eexists; split; [apply str_of_N_natural|reflexivity]|apply c23_actual; auto; vm_compute; tauto]
    end.
Qed.
Lemma c23_wrong : forall l h mm r, In (l, h) zone_letters -> (h <= 0)%Z -> isnumeric mm = true ->
  exists text, shows F178 (lit l ++ mm) r text /\ ~ zone_text h mm text.
Proof.
  intros l h mm r H P M. unfold zone_letters in H. cbn [In] in H.
  repeat match goal with H : _ \/ _ |- _ => destruct H as [H|H] end; try contradiction; injection H as <- <-; try lia;
    match goal with |- exists t, shows F178 (lit ?l ++ _) _ t /\ _ =>
      let p := eval vm_compute in (match find (fun q => String.eqb (fst q) l) zone_prefixes with Some q => snd q | None => "" end) in
      exists (lit p ++ mm); split; [apply c23_actual; auto; vm_compute; tauto|]
    end; intros [x [X E]]; apply natural_unique in X; subst x; vm_compute in E; discriminate.
Qed.
Lemma isalpha1 : forall c, isalpha [c] = alpha_char c.
Proof. intro c. unfold isalpha, all_nonempty, forallb. apply andb_true_r. Qed.
Lemma c23_not_a_letter : forall c mm r, alpha_char c = true -> ~ (65 <= c <= 90)%N -> isnumeric mm = true -> fails F178 (c :: mm) r ValueError.
Proof.
  intros c mm r A N M. unfold fails, run_fn, field_178. unfold index. cbn [nth_error lift bind].
  rewrite isalpha1, A. unfold slice_from. cbn [skipn]. rewrite M. unfold andb at 1, uppercase_index.
  destruct (N.leb_spec 65 c), (N.leb_spec c 90); try reflexivity. exfalso. apply N. lia.
Qed.
Lemma c23_other : forall c mm r, alpha_char c = false \/ isnumeric mm = false ->
  shows F178 (c :: mm) r (lit "Unsupported Value: """ ++ (c :: mm) ++ lit """").
Proof.
  intros c mm r H. unfold shows, run_fn, field_178. unfold index. cbn [nth_error lift bind].
  rewrite isalpha1. unfold slice_from. cbn [skipn]. destruct H as [-> | ->]; [reflexivity|]. rewrite andb_false_r. reflexivity.
Qed.

(* ---- float() of alphanumeric text ---- *)
Definition float_ascii (s : str) : option fl :=
  match drop_underscores false (strip_c s) with
  | None => None
  | Some t =>
      let '(neg, u) := take_sign t in
      let l := map lower u in
      if str_eqb l (lit "inf") || str_eqb l (lit "infinity") then Some (FInf neg)
      else if str_eqb l (lit "nan") then Some FNan
      else parse_decimal neg u
  end.
Lemma py_float_ascii : forall s, py_float s = float_ascii (to_ascii s).
Proof. reflexivity. Qed.
(* characters alphanumeric text can become *)
Definition letterish (c : N) : bool := is_digit c || ((65 <=? c)%N && (c <=? 90)%N) || ((97 <=? c)%N && (c <=? 122)%N) || (c =? 63)%N.
Lemma alnum_ascii : forall c, alnum_char c = true -> letterish (to_ascii1 c) = true.
Proof.
  intros c H. unfold to_ascii1. destruct (N.ltb_spec c 127) as [L|L].
  - assert (K : forallb (fun c => negb (alnum_char c) || letterish c) (below 127) = true) by (vm_compute; reflexivity).
    pose proof (below_forall _ _ K c L) as E. cbv beta in E. rewrite H in E. exact E.
  - rewrite alnum_not_space by auto. destruct (decimal_val c) as [d|] eqn:E; [|reflexivity].
    apply decimal_val_lt in E. unfold letterish, is_digit. rewrite (proj2 (N.leb_le 48 (48 + d))), (proj2 (N.leb_le (48 + d) 57)) by lia. reflexivity.
Qed.
Lemma letterish_facts : forall c, letterish c = true -> c_space c = false /\ (c =? 95)%N = false /\ (c =? 43)%N = false /\ (c =? 45)%N = false /\ (c =? 46)%N = false.
Proof.
  intros c H. assert (c < 127)%N as L.
  { unfold letterish, is_digit in H. rewrite !orb_true_iff, !andb_true_iff, !N.leb_le, N.eqb_eq in H. lia. }
  assert (K : forallb (fun c => negb (letterish c) || (negb (c_space c) && negb (c =? 95)%N && negb (c =? 43)%N && negb (c =? 45)%N && negb (c =? 46)%N)) (below 127) = true)
    by (vm_compute; reflexivity).
  pose proof (below_forall _ _ K c L) as E. cbv beta in E. clear K. rewrite H in E. cbn [negb orb] in E.
  rewrite !andb_true_iff, !negb_true_iff in E. tauto.
Qed.
Lemma drop_underscores_none : forall s b, Forall (fun c => (c =? 95)%N = false) s -> drop_underscores b s = Some s.
Proof.
  induction s as [|c s IH]; intros b H; [reflexivity|]. inversion H; subst. cbn [drop_underscores]. rewrite H2, IH by auto. reflexivity.
Qed.
Lemma strip_c_none : forall s, Forall (fun c => c_space c = false) s -> strip_c s = s.
Proof.
  intros s F. unfold strip_c, drop_while_end. rewrite (drop_while_none _ s) by auto.
  rewrite (drop_while_none _ (rev s)) by (apply Forall_rev; auto). apply rev_involutive.
Qed.
Lemma take_sign_none : forall s, Forall (fun c => (c =? 43)%N = false /\ (c =? 45)%N = false) s -> take_sign s = (false, s).
Proof. intros s F. destruct F as [|c s [A B]]; [reflexivity|]. unfold take_sign. rewrite A, B. reflexivity. Qed.
Lemma span_spec : forall p s, exists a b, span p s = (a, b) /\ s = a ++ b /\ Forall (fun c => p c = true) a /\ (forall c, nth_error b 0 = Some c -> p c = false).
Proof.
  induction s as [|c s IH]; [exists [], []; repeat split; auto; discriminate|]. cbn [span]. destruct (p c) eqn:E.
  - destruct IH as [a [b [-> [-> [F G]]]]]. exists (c :: a), b. repeat split; auto.
  - exists [], (c :: s). repeat split; auto. intros x H. injection H as <-. exact E.
Qed.
Definition letter_float (s : str) : bool :=
  all_nonempty is_digit s ||
  (let '(a, r) := span is_digit s in
   match r with e :: b => negb (match a with [] => true | _ => false end) && (lower e =? 101)%N && all_nonempty is_digit b | [] => false end) ||
  str_eqb (map lower s) (lit "inf") || str_eqb (map lower s) (lit "infinity") || str_eqb (map lower s) (lit "nan").
Lemma span_all : forall p s, Forall (fun c => p c = true) s -> span p s = (s, []).
Proof. induction 1 as [|c s H _ IH]; [reflexivity|]. cbn [span]. rewrite H, IH. reflexivity. Qed.
Lemma float_letters : forall s, Forall (fun c => letterish c = true) s ->
  match float_ascii s with Some _ => true | None => false end = letter_float s.
Proof.
  intros s F. unfold float_ascii.
  assert (F' : Forall (fun c => c_space c = false /\ (c =? 95)%N = false /\ (c =? 43)%N = false /\ (c =? 45)%N = false /\ (c =? 46)%N = false) s)
    by (eapply Forall_impl; [|exact F]; intros; apply letterish_facts; auto).
  rewrite strip_c_none by (eapply Forall_impl; [|exact F']; cbv beta; tauto).
  rewrite drop_underscores_none by (eapply Forall_impl; [|exact F']; cbv beta; tauto).
  rewrite take_sign_none by (eapply Forall_impl; [|exact F']; cbv beta; tauto). cbv zeta. unfold letter_float.
  destruct (str_eqb (map lower s) (lit "inf")), (str_eqb (map lower s) (lit "infinity")), (str_eqb (map lower s) (lit "nan"));
    cbn [orb]; rewrite ?orb_true_r; auto. rewrite !orb_false_r.
  unfold parse_decimal. destruct (span_spec is_digit s) as [a [b [E [-> [A B]]]]]. rewrite E.
  apply Forall_app in F' as [_ F'].
  destruct b as [|e b].
  - rewrite List.app_nil_r in *. rewrite orb_false_r. destruct a as [|x a]; [reflexivity|]. cbn [parse_exp].
    replace (all_nonempty is_digit (x :: a)) with true by (symmetry; apply all_nonempty_iff; split; auto; discriminate). reflexivity.
  - assert (N : all_nonempty is_digit (a ++ e :: b) = false).
    { destruct (all_nonempty is_digit (a ++ e :: b)) eqn:X; [|reflexivity]. apply all_nonempty_iff in X as [_ X].
      apply Forall_app in X as [_ X]. inversion X; subst. rewrite (B e eq_refl) in H1. discriminate. }
    rewrite N. cbn [orb]. inversion F' as [|? ? [_ [_ [_ [_ D]]]] F'']; subst. rewrite D. rewrite List.app_nil_r.
    destruct a as [|x a]; [reflexivity|]. cbn [negb andb parse_exp].
    destruct (lower e =? 101)%N; [|reflexivity]. cbn [andb].
    rewrite take_sign_none by (eapply Forall_impl; [|exact F'']; cbv beta; tauto).
    destruct (all_nonempty is_digit b); reflexivity.
Qed.
Lemma to_ascii_lower : forall c x, (97 <= x <= 122)%N -> (lower (to_ascii1 c) = x <-> to_lower c = x).
Proof.
  intros c x X. unfold to_ascii1. destruct (N.ltb_spec c 127) as [L|L]; [reflexivity|].
  unfold to_lower. replace (N.leb c 90) with false by (symmetry; apply N.leb_gt; lia). rewrite andb_false_r.
  split; intro H; [|exfalso; lia]. exfalso. unfold lower in H.
  destruct (space_char c); [cbn in H; lia|]. destruct (decimal_val c) as [d|] eqn:E; [|cbn in H; lia].
  apply decimal_val_lt in E. rewrite (proj2 (N.leb_gt 65 (48 + d))) in H by lia. cbn [andb] in H. lia.
Qed.
Lemma map_lower_word : forall s w, Forall (fun c => 97 <= c <= 122)%N w -> (map lower (to_ascii s) = w <-> map to_lower s = w).
Proof.
  induction s as [|c s IH]; intros [|x w] F; cbn [map to_ascii]; try (split; discriminate); [tauto|].
  inversion F; subst. change (map to_ascii1 s) with (to_ascii s).
  split; intro H; injection H as Hx Ht; f_equal.
  - apply to_ascii_lower; auto.
  - apply IH; auto.
  - apply to_ascii_lower; auto.
  - apply IH; auto.
Qed.
Lemma ascii_digits_iff : forall s, all_nonempty is_digit (to_ascii s) = true <-> decimal_string s.
Proof.
  intro s. rewrite all_nonempty_iff. unfold decimal_string, to_ascii. rewrite Forall_map. split; intros [NE F]; split.
  - intro X. apply NE. rewrite X. reflexivity.
  - eapply Forall_impl; [|exact F]. intros; apply to_ascii_digit_iff; auto.
  - destruct s; [congruence|discriminate].
  - eapply Forall_impl; [|exact F]. intros; apply to_ascii_digit_iff; auto.
Qed.
Lemma float_alnum : forall s, Forall (fun c => alnum_char c = true) s -> ((exists x, py_float s = Some x) <-> alnum_float s).
Proof.
  intros s F. rewrite py_float_ascii.
  assert (L : Forall (fun c => letterish c = true) (to_ascii s)).
  { unfold to_ascii. apply Forall_map. eapply Forall_impl; [|exact F]. intros; apply alnum_ascii; auto. }
  pose proof (float_letters _ L) as E. transitivity (letter_float (to_ascii s) = true).
  { rewrite <- E. destruct (float_ascii (to_ascii s)); split; intro X; eauto; try discriminate. destruct X; discriminate. }
  unfold letter_float, alnum_float. rewrite !orb_true_iff, !str_eqb_eq, ascii_digits_iff.
  assert (W : forall w, forallb (fun c => (97 <=? c)%N && (c <=? 122)%N) w = true -> (map lower (to_ascii s) = w <-> map to_lower s = w)).
  { intros w K. apply map_lower_word. rewrite forallb_forall in K. apply Forall_forall. intros c Hc. specialize (K c Hc).
    apply andb_true_iff in K as [A B]. apply N.leb_le in A, B. auto. }
  rewrite (W (lit "inf") eq_refl), (W (lit "infinity") eq_refl), (W (lit "nan") eq_refl). cbn [In].
  assert (M : (let '(a, r) := span is_digit (to_ascii s) in
     match r with e :: b => negb (match a with [] => true | _ => false end) && (lower e =? 101)%N && all_nonempty is_digit b | [] => false end) = true <->
     exists a e b, s = a ++ [e] ++ b /\ decimal_string a /\ to_lower e = 101%N /\ decimal_string b).
  { split.
    - destruct (span_spec is_digit (to_ascii s)) as [a [r [S [SE [A B]]]]]. rewrite S. destruct r as [|e b]; [discriminate|].
      rewrite !andb_true_iff, negb_true_iff, N.eqb_eq. intros [[NA Le] Db].
      unfold to_ascii in SE. apply map_eq_app in SE as [a' [r' [-> [E1 E2]]]]. apply map_eq_cons in E2 as [e' [b' [-> [E2 E3]]]].
      exists a', e', b'. split; [reflexivity|]. split; [|split].
      + apply ascii_digits_iff. unfold to_ascii. rewrite E1. apply all_nonempty_iff. split; auto. destruct a; [discriminate|discriminate].
      + subst e. apply to_ascii_lower; auto. lia.
      + apply ascii_digits_iff. unfold to_ascii. rewrite E3. exact Db.
    - intros [a [e [b [-> [Da [Le Db]]]]]]. unfold to_ascii. rewrite !map_app. cbn [map].
      apply ascii_digits_iff in Da. apply ascii_digits_iff in Db. fold (to_ascii a). fold (to_ascii b).
      apply (to_ascii_lower e 101) in Le; [|lia].
      assert (S : span is_digit (to_ascii a ++ to_ascii1 e :: to_ascii b) = (to_ascii a, to_ascii1 e :: to_ascii b)).
      { apply all_nonempty_iff in Da as [_ Da]. clear - Da Le. induction Da as [|c l H _ IH].
        - cbn [app span]. replace (is_digit (to_ascii1 e)) with false; [reflexivity|].
          symmetry. apply not_true_iff_false. intro X. apply andb_true_iff in X as [X Y]. apply N.leb_le in X, Y.
          unfold lower in Le. rewrite (proj2 (N.leb_gt 65 _)) in Le by lia. cbn [andb] in Le. lia.
        - cbn [app span]. rewrite H, IH. reflexivity. }
      cbn [app]. rewrite S, Db, Le. apply all_nonempty_iff in Da as [NE _]. destruct (to_ascii a); [congruence|reflexivity]. }
  rewrite M. clear. intuition congruence.
Qed.

(* ---- decoders that use float() ---- *)
Lemma numeric_not_alpha_e : forall c, numeric_char c = true -> to_lower c <> 101%N /\ to_lower c <> 105%N /\ to_lower c <> 110%N.
Proof.
  intros c H. unfold to_lower. destruct (N.ltb_spec c 127) as [L|L].
  - assert (K : forallb (fun c => negb (numeric_char c) || is_digit c) (below 127) = true) by (vm_compute; reflexivity).
    pose proof (below_forall _ _ K c L) as E. cbv beta in E. clear K. rewrite H in E. cbn [negb orb] in E.
    apply andb_true_iff in E as [A B]. apply N.leb_le in A, B. rewrite (proj2 (N.leb_gt 65 c)) by lia. cbn [andb]. lia.
  - rewrite (proj2 (N.leb_gt c 90)) by lia. rewrite andb_false_r. lia.
Qed.
Lemma float_numeric : forall s, isnumeric s = true -> ((exists x, py_float s = Some x) <-> decimal_string s).
Proof.
  intros s H. apply all_nonempty_iff in H as [NE H].
  rewrite float_alnum by (eapply Forall_impl; [|exact H]; intros; unfold alnum_char; cbv beta in *; rewrite H0; apply orb_true_r).
  unfold alnum_float. split; [|auto]. intros [D|[[a [e [b [-> [_ [E _]]]]]]|I]]; auto; exfalso.
  - apply Forall_app in H as [_ H]. apply Forall_app in H as [H _]. inversion H; subst. apply numeric_not_alpha_e in H2. tauto.
  - destruct s as [|c s]; [congruence|]. inversion H; subst. apply numeric_not_alpha_e in H2. cbn [In map] in I.
    destruct I as [I|[I|[I|I]]]; auto; injection I as I _; symmetry in I; tauto.
Qed.
Definition divisor (f : fn) : Z := match f with F034 | F045 | F103 => 100%Z | _ => 10%Z end.
Lemma numeric_decoders : forall f v r, In f [F045; F103; F062; F135] ->
  (isnumeric v = false -> shows f v r (lit "BAD VALUE")) /\
  (isnumeric v = true -> (fails f v r ValueError <-> ~ decimal_string v) /\ (decimal_string v -> exists d, run_fn f v r = ([], Ok d) /\ d <> DNone)).
Proof.
  intros f v r F. cbn [In] in F. unfold shows, fails.
  repeat match goal with H : _ \/ _ |- _ => destruct H as [<-|H] end; try contradiction;
  unfold run_fn, field_045, field_103, field_062, field_135; (split; intro H; rewrite H; [reflexivity|]);
  rewrite <- (float_numeric v H); unfold float_of; (destruct (py_float v) as [x|];
  [split; [split; [discriminate|intro X; exfalso; apply X; eauto]|intros _; eexists; split; [reflexivity|discriminate]]
  |split; [split; [intros _ [? X]; discriminate|reflexivity]|intros [? X]; discriminate]]).
Qed.
(* VOR/NDB frequency *)
Lemma c43_exit : forall v t r, trimmed v t -> t <> [] -> isnumeric t = false ->
  run_fn F034 v r = ([EvPrint (lit "Unsupported VOR/NDB Frequency: """ ++ t ++ lit """");
                      EvPrint (lit "from record type """ ++ rv_ident r ++ lit """: """ ++ rv_raw r ++ lit """")], Err SystemExit).
Proof.
  intros v t r T NE N. apply trimmed_iff in T. unfold run_fn, field_034. cbv zeta. rewrite T.
  destruct t as [|c t]; [congruence|]. cbn [List.length Nat.ltb Nat.leb]. rewrite N. unfold quoted, say, raise, bind.
  cbn [negb app]. rewrite <- !app_assoc. reflexivity.
Qed.
Lemma c34_numeric : forall v t r, trimmed v t -> isnumeric t = true ->
  (fails F034 v r ValueError <-> ~ decimal_string t) /\ (decimal_string t -> exists s, shows F034 v r s).
Proof.
  intros v t r T N. apply trimmed_iff in T. unfold shows, fails, run_fn, field_034. cbv zeta. rewrite T, N.
  rewrite <- (float_numeric t N). destruct t as [|c t]; [discriminate|]. cbn [List.length Nat.ltb Nat.leb negb]. unfold float_of.
  destruct (py_float (c :: t)) as [x|].
  - split; [split; [discriminate|intro X; exfalso; apply X; eauto]|intros _; eexists; reflexivity].
  - split; [split; [intros _ [? X]; discriminate|reflexivity]|intros [? X]; discriminate].
Qed.
Lemma c34_blank : forall v r, whitespace v -> shows F034 v r [].
Proof.
  intros v r H. apply strip_nil_iff in H. unfold shows, run_fn, field_034. cbv zeta. rewrite H. reflexivity.
Qed.
(* courses *)
Lemma c21_outcome : forall v t r, trimmed v t ->
  (fails F026 v r ValueError <->
     t <> [] /\ (Exists (fun c => alnum_char c = false) t \/ 4 < List.length t \/ (~ ends_in_T t /\ ~ alnum_float t))) /\
  (~ fails F026 v r ValueError -> exists s, shows F026 v r s) /\
  (t = [] \/ (Forall (fun c => alnum_char c = true) t /\ List.length t <= 4 /\ ends_in_T t) -> shows F026 v r t).
Proof.
  intros v t r T. apply trimmed_iff in T. unfold shows, fails, run_fn, field_026. cbv zeta. rewrite T. clear T v.
  destruct (Nat.eqb_spec (List.length t) 0) as [L|L].
  { destruct t; [|discriminate]. split; [split; [discriminate|intros [X _]; congruence]|]. split; [intros _; eexists; reflexivity|reflexivity]. }
  assert (NE : t <> []) by (destruct t; [simpl in L; congruence|discriminate]).
  destruct (isalnum t) eqn:A; cbn [negb orb].
  2:{ assert (X : Exists (fun c => alnum_char c = false) t).
      { apply not_true_iff_false in A. unfold isalnum in A. rewrite all_nonempty_iff in A.
        assert (DEC : forall c, {alnum_char c = false} + {alnum_char c <> false}) by (intro c; destruct (alnum_char c); [right; discriminate|left; reflexivity]).
        destruct (Exists_dec (fun c => alnum_char c = false) t DEC) as [E|E]; [exact E|].
        exfalso. apply A. split; auto. apply Forall_forall. intros c Hc. destruct (alnum_char c) eqn:Q; [reflexivity|].
        exfalso. apply E. apply Exists_exists. eauto. }
      split; [split; [intros _; auto|reflexivity]|]. split; [intro Y; exfalso; apply Y; reflexivity|].
      intros [Y|[Y _]]; [contradiction|]. apply Exists_exists in X as [c [I C]]. rewrite Forall_forall in Y. rewrite (Y c I) in C. discriminate. }
  apply all_nonempty_iff in A as [_ A].
  assert (NX : ~ Exists (fun c => alnum_char c = false) t).
  { intro X. apply Exists_exists in X as [c [I C]]. rewrite Forall_forall in A. rewrite (A c I) in C. discriminate. }
  destruct (Nat.ltb_spec 4 (List.length t)) as [G|G].
  { split; [split; [auto|reflexivity]|]. split; [intro Y; exfalso; apply Y; reflexivity|]. intros [Y|[_ [Y _]]]; [contradiction|lia]. }
  destruct (endswith t (lit "T")) eqn:E.
  { apply endswith_iff in E. fold (ends_in_T t) in E. split; [split; [discriminate|]|split; [intros _; eexists; reflexivity|reflexivity]].
    intros [_ [Y|[Y|[Y _]]]]; [contradiction|lia|contradiction]. }
  assert (NT : ~ ends_in_T t) by (intro Y; apply endswith_iff in Y; congruence).
  rewrite <- (float_alnum t A). unfold float_of. destruct (py_float t) as [x|].
  - split; [split; [discriminate|]|split; [intros _; eexists; reflexivity|]].
    + intros [_ [Y|[Y|[_ Y]]]]; [contradiction|lia|]. exfalso. apply Y. eauto.
    + intros [Y|[_ [_ Y]]]; contradiction.
  - split; [split; [intros _|reflexivity]|split; [intro Y; exfalso; apply Y; reflexivity|]].
    + split; auto. right. right. split; auto. intros [x X]. discriminate.
    + intros [Y|[_ [_ Y]]]; contradiction.
Qed.

