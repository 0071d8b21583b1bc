(* int() and float() of the model are the numerals of SpecPyNum.v. *)
From Coq Require Import List String NArith ZArith Bool Arith Lia.
From Verif Require Import PyBase StrFacts SpecNum SpecFloat NumFacts SpecDecode NumProps RoundFacts FloatFacts.
Import ListNotations.
Open Scope string_scope.
Open Scope list_scope.
Local Open Scope nat_scope.

Definition dchars (ds : list N) : str := map (N.add 48) ds.
Definition dvals (s : str) : list N := map (fun c => c - 48)%N s.
Lemma dvals_dchars : forall s, Forall (fun c => is_digit c = true) s -> dchars (dvals s) = s.
Proof.
  induction 1 as [|c s H _ IH]; [reflexivity|]. cbn [dvals dchars map]. f_equal; [|exact IH]. apply andb_true_iff in H as [A B]. apply N.leb_le in A, B. lia.
Qed.
Lemma is_digit_add : forall d, (d < 10)%N -> is_digit (48 + d) = true.
Proof. intros d D. unfold is_digit. apply andb_true_iff. split; apply N.leb_le; lia. Qed.
Lemma digits_small : forall s ds, digits s ds -> Forall (fun d => d < 10)%N ds.
Proof. induction 1; constructor; eauto using decimal_val_lt. Qed.
Lemma dchars_digits : forall ds, Forall (fun d => d < 10)%N ds -> Forall (fun c => is_digit c = true) (dchars ds).
Proof. induction 1; constructor; auto using is_digit_add. Qed.
Lemma digits_nonempty : forall s ds, digits s ds -> ds <> [].
Proof. destruct 1; discriminate. Qed.
Lemma digits_all : forall s ds, digits s ds -> all_nonempty is_digit (dchars ds) = true.
Proof.
  intros s ds D. apply all_nonempty_iff. split; [pose proof (digits_nonempty _ _ D); destruct ds; [congruence|discriminate]|].
  apply dchars_digits. eapply digits_small; eauto.
Qed.
Lemma digits_val_base : forall ds, digits_val (dchars ds) = Z.of_N (base_ten ds).
Proof.
  intro ds. unfold digits_val, base_ten. change 0%Z with (Z.of_N 0). generalize 0%N. induction ds as [|d ds IH]; intro a; [reflexivity|].
  cbn [dchars map fold_left]. rewrite <- IH. f_equal. lia.
Qed.
Lemma digits_head : forall s ds, digits s ds -> exists c s', s = c :: s' /\ is_digit (to_ascii1 c) = true.
Proof.
  destruct 1; eexists _, _; (split; [reflexivity|]); apply to_ascii_digit_iff; unfold decimal_char; congruence.
Qed.
Lemma digit_facts : forall d, (d < 10)%N -> (48 + d =? 95)%N = false /\ (48 + d =? 43)%N = false /\ (48 + d =? 45)%N = false /\ (48 + d =? 46)%N = false.
Proof. intros. repeat split; apply N.eqb_neq; lia. Qed.
Lemma drop_digits : forall s ds, digits s ds -> forall b rest,
  drop_underscores b (to_ascii s ++ rest) = option_map (app (dchars ds)) (drop_underscores true rest).
Proof.
  induction 1 as [c d C|c d s ds C D IH|c d s ds C D IH]; intros b rest; pose proof (decimal_val_lt _ _ C) as L; destruct (digit_facts d L) as [F _];
    unfold to_ascii; cbn [map app drop_underscores]; rewrite (to_ascii_decimal _ _ C), F, is_digit_add by auto.
  - destruct (drop_underscores true rest); reflexivity.
  - change (map to_ascii1 s) with (to_ascii s). rewrite IH. destruct (drop_underscores true rest); reflexivity.
  - change (to_ascii1 95) with 95%N. cbn [app drop_underscores]. change (95 =? 95)%N with true. cbv iota. change (map to_ascii1 s) with (to_ascii s).
    destruct (digits_head _ _ D) as [x [s' [E I]]]. rewrite E. unfold to_ascii at 1. cbn [map app]. rewrite I. cbn [andb].
    rewrite <- E. rewrite IH. destruct (drop_underscores true rest); reflexivity.
Qed.
Lemma to_ascii_app : forall a b, to_ascii (a ++ b) = to_ascii a ++ to_ascii b.
Proof. intros. apply map_app. Qed.

(* ---- no spaces inside ---- *)
Definition solid (s : str) : Prop := Forall (fun c => c_space (to_ascii1 c) = false) s.
Lemma digits_solid : forall s ds, digits s ds -> solid s.
Proof.
  assert (A : forall c d, decimal_val c = Some d -> c_space (to_ascii1 c) = false).
  { intros c d H. rewrite (to_ascii_decimal _ _ H). apply digit_not_space. apply decimal_val_lt in H. lia. }
  induction 1; repeat constructor; eauto.
Qed.
Lemma sign_solid : forall s b, sign s b -> solid s.
Proof. destruct 1; repeat constructor. Qed.
Lemma lower_e_solid : forall c x, to_lower c = x -> (97 <= x <= 122)%N -> c_space (to_ascii1 c) = false.
Proof.
  intros c x E X. apply (proj2 (to_ascii_lower c x X)) in E. destruct (c_space (to_ascii1 c)) eqn:S; [exfalso|reflexivity].
  unfold c_space in S. rewrite orb_true_iff, andb_true_iff, !N.leb_le, N.eqb_eq in S. unfold lower in E.
  destruct ((65 <=? to_ascii1 c)%N && (to_ascii1 c <=? 90)%N) eqn:G; lia.
Qed.
Lemma exponent_solid : forall s x, exponent s x -> solid s.
Proof.
  destruct 1 as [|e sg neg body ds E S D]; [constructor|]. constructor; [eapply lower_e_solid; eauto; lia|].
  apply Forall_app. split; [eapply sign_solid; eauto|eapply digits_solid; eauto].
Qed.
Lemma pointed_solid : forall s ds k, pointed s ds k -> solid s.
Proof.
  destruct 1; repeat (apply Forall_app; split); try (eapply digits_solid; eassumption); repeat constructor.
Qed.
Lemma word_solid : forall w v, map to_lower w = v -> Forall (fun c => 97 <= c <= 122)%N v -> solid w.
Proof.
  induction w as [|c w IH]; intros v E F; [constructor|]. subst v. cbn [map] in F. inversion F; subst. constructor; [eapply lower_e_solid; eauto|eapply IH; eauto].
Qed.
Lemma lit_letters : forall w, In w [lit "inf"; lit "infinity"; lit "nan"] -> Forall (fun c => 97 <= c <= 122)%N w.
Proof. intros w I. cbn [In] in I. repeat match goal with H : _ \/ _ |- _ => destruct H as [<-|H] end; try contradiction; vm_compute; repeat constructor; discriminate. Qed.
Lemma body_solid : forall s neg r, float_body s neg r -> solid s.
Proof.
  destruct 1 as [m ds k ex x neg P E|w neg I|w neg I].
  - apply Forall_app. split; [eapply pointed_solid; eauto|eapply exponent_solid; eauto].
  - eapply word_solid; [reflexivity|]. apply lit_letters. cbn [In] in *. tauto.
  - eapply word_solid; [exact I|]. apply lit_letters. cbn [In]. tauto.
Qed.
Lemma drop_while_app : forall p w s, Forall (fun c => p c = true) w -> drop_while p (w ++ s) = drop_while p s.
Proof. induction 1 as [|c w H _ IH]; [reflexivity|]. cbn [app drop_while]. rewrite H. exact IH. Qed.
Lemma strip_spaced : forall t s, spaced t s -> solid t -> strip_c (to_ascii s) = to_ascii t.
Proof.
  intros t s [w [w' [-> [W W']]]] S. rewrite !to_ascii_app.
  assert (A : forall w, Forall number_space w -> Forall (fun c => c_space c = true) (to_ascii w)).
  { intros v V. apply Forall_map. eapply Forall_impl; [|exact V]. intros c. apply to_ascii_space_iff. }
  assert (B : Forall (fun c => c_space c = false) (to_ascii t)) by (apply Forall_map; exact S).
  unfold strip_c. rewrite drop_while_app by (apply A; exact W).
  destruct t as [|c t].
  - change (to_ascii [] ++ to_ascii w') with (to_ascii w'). rewrite <- (List.app_nil_r (to_ascii w')).
    rewrite drop_while_app by (apply A; exact W'). reflexivity.
  - assert (E : drop_while c_space (to_ascii (c :: t) ++ to_ascii w') = to_ascii (c :: t) ++ to_ascii w').
    { cbn [to_ascii map app drop_while] in *. inversion B; subst. rewrite H1. reflexivity. }
    rewrite E. unfold drop_while_end. rewrite rev_app_distr. rewrite drop_while_app by (apply Forall_rev; apply A; exact W').
    rewrite drop_while_none by (apply Forall_rev; exact B). apply rev_involutive.
Qed.
Lemma drop_while_split : forall p s, exists w, s = w ++ drop_while p s /\ Forall (fun c => p c = true) w.
Proof.
  induction s as [|c s IH]; [exists []; split; [reflexivity|constructor]|]. cbn [drop_while]. destruct (p c) eqn:E.
  - destruct IH as [w [EQ F]]. exists (c :: w). split; [cbn [app]; f_equal; exact EQ|constructor; auto].
  - exists []. split; [reflexivity|constructor].
Qed.
Lemma strip_c_split : forall s, exists w w', s = w ++ strip_c s ++ w' /\ Forall (fun c => c_space c = true) w /\ Forall (fun c => c_space c = true) w'.
Proof.
  intro s. destruct (drop_while_split c_space s) as [w [E F]]. destruct (drop_while_split c_space (rev (drop_while c_space s))) as [v [E' F']].
  exists w, (rev v). split; [|split; auto using Forall_rev]. unfold strip_c, drop_while_end. rewrite <- rev_app_distr, <- E', rev_involutive. exact E.
Qed.
Lemma strip_c_core : forall s, exists t, spaced t s /\ strip_c (to_ascii s) = to_ascii t.
Proof.
  intro s. destruct (strip_c_split (to_ascii s)) as [w [w' [E [F F']]]]. unfold to_ascii in E at 1.
  apply map_eq_app in E as [a [b [-> [A B]]]]. apply map_eq_app in B as [t [c [-> [B C]]]].
  exists t. split; [|symmetry; exact B]. exists a, c. split; [reflexivity|]. subst w w'. rewrite Forall_map in F, F'.
  split; (eapply Forall_impl; [|eassumption]); intros x H; apply to_ascii_space_iff; exact H.
Qed.

(* ---- undoing drop_underscores ---- *)
Lemma to_ascii_95 : forall c, to_ascii1 c = 95%N <-> c = 95%N.
Proof.
  intro c. unfold to_ascii1. destruct (N.ltb_spec c 127) as [L|L]; [tauto|]. split; intro H; [|lia].
  destruct (space_char c); [lia|]. destruct (decimal_val c) eqn:E; [apply decimal_val_lt in E; lia|lia].
Qed.
Lemma to_ascii_46 : forall c, to_ascii1 c = 46%N <-> c = 46%N.
Proof.
  intro c. unfold to_ascii1. destruct (N.ltb_spec c 127) as [L|L]; [tauto|]. split; intro H; [|lia].
  destruct (space_char c); [lia|]. destruct (decimal_val c) eqn:E; [apply decimal_val_lt in E; lia|lia].
Qed.
Lemma to_ascii_digit : forall c, is_digit (to_ascii1 c) = true -> decimal_val c = Some (to_ascii1 c - 48)%N.
Proof.
  intros c H. apply to_ascii_digit_iff in H. unfold decimal_char in H. destruct (decimal_val c) as [d|] eqn:E; [|congruence].
  rewrite (to_ascii_decimal _ _ E). f_equal. lia.
Qed.
Lemma drop_nil : forall b t, drop_underscores b t = Some [] -> t = [].
Proof.
  intros b t. revert b. induction t as [|c t IH]; intros b H; [reflexivity|]. cbn [drop_underscores] in H. destruct (c =? 95)%N.
  - destruct t as [|d t]; [discriminate|]. destruct (b && is_digit d); [|discriminate]. apply IH in H. discriminate.
  - destruct (drop_underscores (is_digit c) t); discriminate.
Qed.
Lemma drop_head : forall b c r t, drop_underscores b (to_ascii t) = Some (c :: r) -> is_digit c = false ->
  exists x t', t = x :: t' /\ to_ascii1 x = c /\ drop_underscores false (to_ascii t') = Some r.
Proof.
  intros b c r t H D. destruct t as [|x t]; [discriminate|]. unfold to_ascii in H. cbn [map drop_underscores] in H. change (map to_ascii1 t) with (to_ascii t) in H.
  destruct (to_ascii1 x =? 95)%N eqn:E.
  - destruct t as [|y t]; [discriminate|]. unfold to_ascii in H. cbn [map] in H. destruct b; [|discriminate]. cbn [andb] in H. destruct (is_digit (to_ascii1 y)) eqn:Y; [|discriminate].
    cbn [drop_underscores] in H. destruct (to_ascii1 y =? 95)%N eqn:Y'; [apply N.eqb_eq in Y'; rewrite Y' in Y; discriminate|].
    destruct (drop_underscores _ (map to_ascii1 t)); [|discriminate]. cbn [option_map] in H. injection H as H _. congruence.
  - destruct (drop_underscores (is_digit (to_ascii1 x)) (to_ascii t)) as [u|] eqn:U; [|discriminate]. cbn [option_map] in H. injection H as <- <-.
    exists x, t. rewrite D in U. auto.
Qed.
Definition starts_otherwise (r : str) : Prop := match r with [] => True | c :: _ => is_digit c = false end.
Lemma drop_split : forall t b ds r, drop_underscores b (to_ascii t) = Some (ds ++ r) -> ds <> [] -> Forall (fun c => is_digit c = true) ds ->
  exists t1 t2, t = t1 ++ t2 /\ drop_underscores true (to_ascii t2) = Some r /\
  (digits t1 (dvals ds) \/ b = true /\ exists t1', t1 = 95%N :: t1' /\ digits t1' (dvals ds)).
Proof.
  induction t as [|c t IH]; intros b ds r H NE F.
  { destruct ds; [congruence|discriminate]. }
  unfold to_ascii in H. cbn [map drop_underscores] in H. change (map to_ascii1 t) with (to_ascii t) in H.
  destruct (to_ascii1 c =? 95)%N eqn:E.
  - apply N.eqb_eq in E. apply (proj1 (to_ascii_95 _)) in E. subst c. destruct (to_ascii t) as [|d u] eqn:T; [discriminate|]. destruct b; [|discriminate]. cbn [andb] in H.
    destruct (is_digit d); [|discriminate]. destruct (IH false ds r H NE F) as [t1 [t2 [-> [D [S|[X _]]]]]]; [|discriminate].
    exists (95%N :: t1), t2. split; [reflexivity|]. split; [exact D|]. right. split; [reflexivity|]. exists t1. auto.
  - destruct (drop_underscores (is_digit (to_ascii1 c)) (to_ascii t)) as [u|] eqn:U; [|discriminate]. cbn [option_map] in H.
    destruct ds as [|d ds]; [congruence|]. cbn [app] in H. injection H as <- ->. inversion F as [|? ? D F']; subst. rewrite D in U. apply to_ascii_digit in D.
    destruct ds as [|d' ds].
    + exists [c], t. split; [reflexivity|]. split; [exact U|]. left. constructor. exact D.
    + destruct (IH true _ _ U ltac:(discriminate) F') as [t1 [t2 [-> [DR [S|[_ [t1' [-> S]]]]]]]].
      * exists (c :: t1), t2. split; [reflexivity|]. split; [exact DR|]. left. apply digits_more; auto.
      * exists (c :: 95%N :: t1'), t2. split; [reflexivity|]. split; [exact DR|]. left. apply digits_underscore; auto.
Qed.
Lemma drop_split_first : forall t ds r, drop_underscores false (to_ascii t) = Some (ds ++ r) -> ds <> [] -> Forall (fun c => is_digit c = true) ds ->
  exists t1 t2, t = t1 ++ t2 /\ drop_underscores true (to_ascii t2) = Some r /\ digits t1 (dvals ds).
Proof.
  intros t ds r H NE F. destruct (drop_split t false ds r H NE F) as [t1 [t2 [E [D [S|[X _]]]]]]; [|discriminate]. exists t1, t2. auto.
Qed.
Lemma to_ascii_nil : forall t, to_ascii t = [] -> t = [].
Proof. destruct t; [reflexivity|discriminate]. Qed.
Lemma drop_all_digits : forall t ds, drop_underscores false (to_ascii t) = Some ds -> all_nonempty is_digit ds = true -> digits t (dvals ds).
Proof.
  intros t ds H A. apply all_nonempty_iff in A as [NE F]. rewrite <- (List.app_nil_r ds) in H.
  destruct (drop_split_first t ds [] H NE F) as [t1 [t2 [-> [D S]]]]. apply drop_nil, to_ascii_nil in D. subst t2. rewrite List.app_nil_r. exact S.
Qed.

(* ---- signs ---- *)
Lemma plus_char : forall c, to_ascii1 c = 43%N -> c = 43%N. Proof. intros c. apply (to_ascii_sign c 43). auto. Qed.
Lemma minus_char : forall c, to_ascii1 c = 45%N -> c = 45%N. Proof. intros c. apply (to_ascii_sign c 45). auto. Qed.
Lemma take_sign_digits' : forall c s, is_digit c = true -> take_sign (c :: s) = (false, c :: s).
Proof.
  intros c s D. unfold take_sign. apply andb_true_iff in D as [A B]. apply N.leb_le in A, B.
  rewrite (proj2 (N.eqb_neq c 43)), (proj2 (N.eqb_neq c 45)) by lia. reflexivity.
Qed.
Lemma take_sign_back : forall t u neg v, drop_underscores false (to_ascii t) = Some u -> take_sign u = (neg, v) ->
  exists sg t', t = sg ++ t' /\ sign sg neg /\ drop_underscores false (to_ascii t') = Some v.
Proof.
  intros t u neg v H S. destruct u as [|c u]; unfold take_sign in S.
  - injection S as <- <-. exists [], t. split; [reflexivity|]. split; [constructor|exact H].
  - destruct (N.eqb_spec c 43) as [->|N1].
    { injection S as <- <-. destruct (drop_head _ _ _ _ H eq_refl) as [x [t' [-> [X D]]]]. (apply plus_char in X || apply minus_char in X). subst x.
      exists (lit "+"), t'. split; [reflexivity|]. split; [constructor|exact D]. }
    destruct (N.eqb_spec c 45) as [->|N2].
    { injection S as <- <-. destruct (drop_head _ _ _ _ H eq_refl) as [x [t' [-> [X D]]]]. (apply plus_char in X || apply minus_char in X). subst x.
      exists (lit "-"), t'. split; [reflexivity|]. split; [constructor|exact D]. }
    injection S as <- <-. exists [], t. split; [reflexivity|]. split; [constructor|exact H].
Qed.
(* text that does not start with a sign *)
Definition unsigned_start (u : str) : Prop := match u with c :: _ => c <> 43%N /\ c <> 45%N | [] => False end.
Lemma take_sign_forward : forall sg neg u, sign sg neg -> unsigned_start u -> take_sign (to_ascii sg ++ u) = (neg, u).
Proof.
  intros sg neg u S U. destruct S; cbn [to_ascii lit map app]; [|reflexivity|reflexivity]. destruct u as [|c u]; [contradiction|]. destruct U as [A B].
  unfold take_sign. rewrite (proj2 (N.eqb_neq c 43)), (proj2 (N.eqb_neq c 45)) by auto. reflexivity.
Qed.
Lemma drop_sign : forall sg neg body u, sign sg neg -> drop_underscores false (to_ascii body) = Some u ->
  drop_underscores false (to_ascii (sg ++ body)) = Some (to_ascii sg ++ u).
Proof. intros sg neg body u S D. rewrite to_ascii_app. destruct S; [exact D| |]; change (to_ascii (lit _)) with [43%N] || change (to_ascii (lit _)) with [45%N]; cbn; rewrite D; reflexivity. Qed.
Lemma dchars_start : forall ds r, Forall (fun d => d < 10)%N ds -> ds <> [] -> unsigned_start (dchars ds ++ r).
Proof. intros ds r F NE. destruct F; [congruence|]. cbn [dchars map app unsigned_start]. lia. Qed.

(* ---- int() ---- *)
Lemma int_iff : forall s z, py_int s = Some z <-> int_reads s z.
Proof.
  intros s z. rewrite py_int_ascii. unfold int_ascii. split.
  - intro H. destruct (strip_c_core s) as [t [SP E]]. rewrite E in H. destruct (take_sign (to_ascii t)) as [neg d] eqn:TS.
    destruct (drop_underscores false d) as [ds|] eqn:DU; [|discriminate]. destruct (all_nonempty is_digit ds) eqn:A; [|discriminate]. injection H as H.
    assert (X : exists sg t', t = sg ++ t' /\ sign sg neg /\ d = to_ascii t').
    { destruct t as [|c t]; [injection TS as <- <-; exists [], []; repeat split; constructor|]. unfold to_ascii, take_sign in TS. cbn [map] in TS.
      destruct (N.eqb_spec (to_ascii1 c) 43) as [X|_]; [(apply plus_char in X || apply minus_char in X); subst c; injection TS as <- <-; exists (lit "+"), t; repeat split; constructor|].
      destruct (N.eqb_spec (to_ascii1 c) 45) as [X|_]; [(apply plus_char in X || apply minus_char in X); subst c; injection TS as <- <-; exists (lit "-"), t; repeat split; constructor|].
      injection TS as <- <-. exists [], (c :: t). repeat split; constructor. }
    destruct X as [sg [t' [-> [SG ->]]]]. pose proof (drop_all_digits _ _ DU A) as D. exists sg, neg, t', (dvals ds). repeat split; auto.
    apply all_nonempty_iff in A as [_ A]. rewrite <- (dvals_dchars ds A) in H. rewrite digits_val_base in H. unfold signed. destruct neg; congruence.
  - intros [sg [neg [body [ds [SP [SG [D ->]]]]]]].
    rewrite (strip_spaced _ _ SP) by (apply Forall_app; split; [eapply sign_solid; eauto|eapply digits_solid; eauto]).
    rewrite to_ascii_app. rewrite (take_sign_forward _ _ _ SG).
    2:{ destruct (digits_head _ _ D) as [c [s' [-> I]]]. cbn. apply andb_true_iff in I as [A B]. apply N.leb_le in A, B. lia. }
    pose proof (drop_digits _ _ D false []) as DD. rewrite List.app_nil_r in DD. rewrite DD. cbn [drop_underscores option_map]. rewrite List.app_nil_r.
    rewrite (digits_all _ _ D), digits_val_base. unfold signed. destruct neg; reflexivity.
Qed.

(* ---- float() ---- *)
Definition fl_of (r : quantity) : fl :=
  match r with Finite neg n x => dec_to_fl neg (Z.of_N n) x | Infinite neg => FInf neg | NotANumber => FNan end.
Lemma denotes_iff : forall r x, denotes r x <-> x = fl_of r.
Proof.
  intros [neg n e|neg|] x; try reflexivity. cbn [denotes fl_of]. unfold dec_to_fl. destruct n as [|n]; [reflexivity|]. cbn [Z.of_N Z.eqb].
  rewrite rounded_iff by (try apply Z.mul_pos_pos; try apply Z.pow_pos_nonneg; lia). destruct (Z.leb_spec 0 e).
  - rewrite Z.max_l, Z.max_r by lia. reflexivity.
  - rewrite Z.max_r, Z.max_l by lia. rewrite Z.mul_1_r. reflexivity.
Qed.
Lemma lower_101 : forall e, to_lower e = 101%N -> lower (to_ascii1 e) = 101%N /\ (to_ascii1 e =? 95)%N = false /\ is_digit (to_ascii1 e) = false /\ (to_ascii1 e =? 46)%N = false.
Proof.
  intros e E. apply (proj2 (to_ascii_lower e 101 ltac:(lia))) in E. split; [exact E|]. unfold lower in E.
  destruct ((65 <=? to_ascii1 e)%N && (to_ascii1 e <=? 90)%N) eqn:G.
  - apply andb_true_iff in G as [A B]. apply N.leb_le in A, B. repeat split; [apply N.eqb_neq; lia| |apply N.eqb_neq; lia]. unfold is_digit. rewrite (proj2 (N.leb_gt (to_ascii1 e) 57)) by lia. apply andb_false_r.
  - rewrite E. repeat split.
Qed.
Lemma drop_exponent : forall ex x, exponent ex x -> exists u, parse_exp u = Some x /\ starts_otherwise u /\ (match u with c :: _ => (c =? 46)%N = false | [] => True end) /\
  forall b, drop_underscores b (to_ascii ex) = Some u.
Proof.
  destruct 1 as [|e sg neg body ds E S D].
  - exists []. repeat split.
  - destruct (lower_101 e E) as [L [U [I P]]]. exists (to_ascii1 e :: to_ascii sg ++ dchars ds). split; [|split; [exact I|split; [exact P|]]].
    + cbn [parse_exp]. rewrite L. cbn [N.eqb Pos.eqb]. pose proof (digits_small _ _ D) as SM. pose proof (digits_nonempty _ _ D) as NE.
      rewrite (take_sign_forward _ _ (dchars ds) S) by (rewrite <- (List.app_nil_r (dchars ds)); apply dchars_start; auto).
      rewrite (digits_all _ _ D), digits_val_base. unfold signed. destruct neg; reflexivity.
    + intro b. unfold to_ascii. cbn [map drop_underscores]. rewrite U, I. change (map to_ascii1 (sg ++ body)) with (to_ascii (sg ++ body)).
      rewrite (drop_sign _ _ _ (dchars ds) S); [reflexivity|]. pose proof (drop_digits _ _ D false []) as DD. rewrite List.app_nil_r in DD. rewrite DD.
      cbn [drop_underscores option_map]. rewrite List.app_nil_r. reflexivity.
Qed.
Lemma span_app : forall ds r, Forall (fun c => is_digit c = true) ds -> starts_otherwise r -> span is_digit (ds ++ r) = (ds, r).
Proof.
  induction 1 as [|c ds D F IH]; intro S.
  - cbn [app]. destruct r as [|c r]; [reflexivity|]. cbn [span]. cbn in S. rewrite S. reflexivity.
  - cbn [app span]. rewrite D, (IH S). reflexivity.
Qed.
Lemma dchars_app : forall a b, dchars (a ++ b) = dchars a ++ dchars b. Proof. intros. apply map_app. Qed.
Lemma parse_value : forall neg ds u x k, ds <> [] -> parse_exp u = Some x ->
  match dchars ds with [] => None | n :: l => match parse_exp u with Some x => Some (dec_to_fl neg (digits_val (n :: l)) (x - Z.of_nat k)) | None => None end end =
  Some (dec_to_fl neg (Z.of_N (base_ten ds)) (x - Z.of_nat k)).
Proof. intros neg ds u x k NE E. rewrite E, <- digits_val_base. destruct ds; [congruence|reflexivity]. Qed.
Lemma drop_pointed : forall m ds k, pointed m ds k -> exists t, (forall rest u, (forall b, drop_underscores b rest = Some u) ->
    drop_underscores false (to_ascii m ++ rest) = Some (t ++ u)) /\
  (forall neg u x, parse_exp u = Some x -> starts_otherwise u -> (match u with c :: _ => (c =? 46)%N = false | [] => True end) ->
    parse_decimal neg (t ++ u) = Some (dec_to_fl neg (Z.of_N (base_ten ds)) (x - Z.of_nat k))) /\
  (forall u, exists c v, t ++ u = c :: v /\ (is_digit c = true \/ c = 46%N)).
Proof.
  assert (ST : forall a da u, digits a da -> exists c v, dchars da ++ u = c :: v /\ (is_digit c = true \/ c = 46%N)).
  { intros a da u D. pose proof (dchars_digits _ (digits_small _ _ D)) as F. pose proof (digits_nonempty _ _ D) as NE.
    destruct da as [|d da]; [congruence|]. cbn [dchars map] in *. inversion F; subst. eexists _, _. split; [reflexivity|]. left. assumption. }
  destruct 1 as [a ds D|a ds D|b ds D|a da b db D D'].
  - exists (dchars ds). split; [|split].
    + intros rest u R. rewrite (drop_digits _ _ D), R. reflexivity.
    + intros neg u x PX SO NP. unfold parse_decimal. rewrite (span_app _ _ (dchars_digits _ (digits_small _ _ D)) SO).
      replace (match u with c :: r' => if (c =? 46)%N then span is_digit r' else ([], u) | [] => ([], []) end) with (@nil N, u) by (destruct u as [|c u]; [reflexivity|rewrite NP; reflexivity]).
      rewrite List.app_nil_r. apply (parse_value neg ds u x); [eapply digits_nonempty; eauto|exact PX].
    + intro u. eapply ST; eauto.
  - exists (dchars ds ++ [46%N]). split; [|split].
    + intros rest u R. rewrite to_ascii_app, <- app_assoc. rewrite (drop_digits _ _ D). change (to_ascii (lit ".") ++ rest) with (46%N :: rest). cbn [drop_underscores].
      change (46 =? 95)%N with false. cbv iota. rewrite R. cbn [option_map]. rewrite <- app_assoc. reflexivity.
    + intros neg u x PX SO NP. unfold parse_decimal. rewrite <- app_assoc. change ([46%N] ++ u) with (46%N :: u).
      rewrite (span_app _ (46%N :: u) (dchars_digits _ (digits_small _ _ D)) eq_refl). change (46 =? 46)%N with true. cbv iota. change (span is_digit u) with (span is_digit ([] ++ u)). rewrite (span_app [] u (Forall_nil _) SO).
      rewrite List.app_nil_r. apply (parse_value neg ds u x); [eapply digits_nonempty; eauto|exact PX].
    + intro u. rewrite <- app_assoc. eapply ST; eauto.
  - exists (46%N :: dchars ds). split; [|split].
    + intros rest u R. rewrite to_ascii_app, <- app_assoc. change (to_ascii (lit ".") ++ to_ascii b ++ rest) with (46%N :: (to_ascii b ++ rest)). cbn [drop_underscores].
      change (46 =? 95)%N with false. cbv iota. rewrite (drop_digits _ _ D), R. reflexivity.
    + intros neg u x PX SO NP. unfold parse_decimal. cbn [app span]. change (is_digit 46) with false. cbv iota. change (46 =? 46)%N with true. cbv iota.
      rewrite (span_app _ _ (dchars_digits _ (digits_small _ _ D)) SO). cbn [app]. replace (List.length (dchars ds)) with (List.length ds) by (symmetry; apply map_length).
      apply (parse_value neg ds u x); [eapply digits_nonempty; eauto|exact PX].
    + intro u. eexists _, _. split; [reflexivity|]. right. reflexivity.
  - exists (dchars da ++ 46%N :: dchars db). split; [|split].
    + intros rest u R. rewrite !to_ascii_app, <- !app_assoc. rewrite (drop_digits _ _ D). change (to_ascii (lit ".") ++ to_ascii b ++ rest) with (46%N :: (to_ascii b ++ rest)). cbn [drop_underscores].
      change (46 =? 95)%N with false. cbv iota. rewrite (drop_digits _ _ D'), R. reflexivity.
    + intros neg u x PX SO NP. unfold parse_decimal. rewrite <- app_assoc. cbn [app].
      rewrite (span_app _ (46%N :: _) (dchars_digits _ (digits_small _ _ D)) eq_refl). change (46 =? 46)%N with true. cbv iota.
      rewrite (span_app _ _ (dchars_digits _ (digits_small _ _ D')) SO). rewrite <- dchars_app. replace (List.length (dchars db)) with (List.length db) by (symmetry; apply map_length).
      apply (parse_value neg (da ++ db) u x); [pose proof (digits_nonempty _ _ D); destruct da; [congruence|discriminate]|exact PX].
    + intro u. rewrite <- app_assoc. eapply ST; eauto.
Qed.
Definition word_test (neg : bool) (u : str) : option fl :=
  if str_eqb (map lower u) (lit "inf") || str_eqb (map lower u) (lit "infinity") then Some (FInf neg)
  else if str_eqb (map lower u) (lit "nan") then Some FNan else parse_decimal neg u.
Lemma not_a_word : forall c v neg, is_digit c = true \/ c = 46%N -> word_test neg (c :: v) = parse_decimal neg (c :: v).
Proof.
  intros c v neg H. unfold word_test. cbn [map].
  assert (L : lower c = c /\ c <> 105%N /\ c <> 110%N).
  { destruct H as [H| ->]; [|repeat split; discriminate]. apply andb_true_iff in H as [A B]. apply N.leb_le in A, B. unfold lower.
    rewrite (proj2 (N.leb_gt 65 c)) by lia. split; [reflexivity|lia]. }
  destruct L as [-> [N1 N2]].
  assert (E : forall x w, c <> x -> str_eqb (c :: map lower v) (x :: w) = false) by (intros x w NE; apply str_eqb_neq; congruence).
  change (lit "inf") with (105 :: lit "nf")%N. change (lit "infinity") with (105 :: lit "nfinity")%N. change (lit "nan") with (110 :: lit "an")%N.
  rewrite !E by auto. reflexivity.
Qed.
Lemma word_drop : forall w v, map to_lower w = v -> Forall (fun c => 97 <= c <= 122)%N v -> v <> [] ->
  drop_underscores false (to_ascii w) = Some (to_ascii w) /\ unsigned_start (to_ascii w) /\ map lower (to_ascii w) = v.
Proof.
  intros w v E F NE. assert (M : map lower (to_ascii w) = v) by (apply map_lower_word; auto).
  assert (L : Forall (fun c => 65 <= c)%N (to_ascii w) /\ Forall (fun c => (c =? 95)%N = false) (to_ascii w)).
  { rewrite <- M in F. rewrite Forall_map in F. split; (eapply Forall_impl; [|exact F]); intros c; cbv beta; unfold lower;
      destruct ((65 <=? c)%N && (c <=? 90)%N) eqn:G; try (apply andb_true_iff in G as [A B]; apply N.leb_le in A, B); intros H; try lia; apply N.eqb_neq; lia. }
  destruct L as [L1 L2]. split; [apply drop_underscores_none; exact L2|]. split; [|exact M].
  destruct (to_ascii w) as [|c u]; [cbn in M; congruence|]. inversion L1; subst. cbn. lia.
Qed.
Lemma float_forward : forall s r, float_literal s r -> py_float s = Some (fl_of r).
Proof.
  intros s r [sg [neg [body [SP [SG B]]]]]. rewrite py_float_ascii. unfold float_ascii.
  rewrite (strip_spaced _ _ SP) by (apply Forall_app; split; [eapply sign_solid; eauto|eapply body_solid; eauto]).
  assert (K : exists u, drop_underscores false (to_ascii body) = Some u /\ unsigned_start u /\ word_test neg u = Some (fl_of r)).
  { destruct B as [m ds k ex x neg P E|w neg I|w neg I].
    - destruct (drop_pointed _ _ _ P) as [t [D [PD ST]]]. destruct (drop_exponent _ _ E) as [u [PX [SO [NP DE]]]].
      exists (t ++ u). rewrite to_ascii_app. split; [apply D; exact DE|]. destruct (ST u) as [c [v [EQ CH]]]. rewrite EQ. split.
      + cbn [unsigned_start]. destruct CH as [CH| ->]; [|split; discriminate]. apply andb_true_iff in CH as [A C]. apply N.leb_le in A, C. lia.
      + rewrite not_a_word by exact CH. rewrite <- EQ. cbn [fl_of]. apply PD; auto.
    - destruct (word_drop w _ eq_refl) as [D [US M]]; [apply lit_letters; cbn [In] in *; tauto|cbn [In] in I; destruct I as [<-|[<-|[]]]; discriminate|].
      exists (to_ascii w). split; [exact D|]. split; [exact US|]. unfold word_test. rewrite M. cbn [In] in I. destruct I as [<-|[<-|[]]]; reflexivity.
    - destruct (word_drop w _ I) as [D [US M]]; [apply lit_letters; cbn [In]; tauto|discriminate|].
      exists (to_ascii w). split; [exact D|]. split; [exact US|]. unfold word_test. rewrite M. reflexivity. }
  destruct K as [u [D [US W]]]. rewrite (drop_sign _ _ _ _ SG D). rewrite (take_sign_forward _ _ _ SG US). exact W.
Qed.
Lemma drop_word : forall t b u, drop_underscores b (to_ascii t) = Some u -> Forall (fun c => is_digit c = false) u -> to_ascii t = u.
Proof.
  induction t as [|x t IH]; intros b u H F; [injection H as <-; reflexivity|]. destruct u as [|c u]; [apply drop_nil in H; discriminate|].
  inversion F; subst. destruct (drop_head _ _ _ _ H H2) as [y [t' [E [Y D]]]]. injection E as <- <-. unfold to_ascii. cbn [map]. rewrite Y. f_equal. eapply IH; eauto.
Qed.
Lemma words_no_digits : forall u v, map lower u = v -> Forall (fun c => 97 <= c <= 122)%N v -> Forall (fun c => is_digit c = false) u.
Proof.
  intros u v E F. rewrite <- E in F. rewrite Forall_map in F. eapply Forall_impl; [|exact F]. intros c H. cbv beta in H. unfold is_digit.
  destruct (N.leb_spec 48 c), (N.leb_spec c 57); auto. exfalso. unfold lower in H. rewrite (proj2 (N.leb_gt 65 c)) in H by lia. cbn [andb] in H. lia.
Qed.
Lemma exponent_back : forall b t u x, drop_underscores b (to_ascii t) = Some u -> parse_exp u = Some x -> exponent t x.
Proof.
  intros b t u x D P. destruct u as [|c u].
  - apply drop_nil, to_ascii_nil in D. subst t. injection P as <-. constructor.
  - cbn [parse_exp] in P. destruct (N.eqb_spec (lower c) 101) as [L|L]; [|discriminate].
    assert (I : is_digit c = false).
    { unfold is_digit. destruct (N.leb_spec 48 c), (N.leb_spec c 57); auto. exfalso. unfold lower in L. rewrite (proj2 (N.leb_gt 65 c)) in L by lia. cbn [andb] in L. lia. }
    destruct (drop_head _ _ _ _ D I) as [e [t' [-> [E D']]]]. destruct (take_sign u) as [neg ds] eqn:TS. destruct (take_sign_back _ _ _ _ D' TS) as [sg [t'' [-> [SG D'']]]].
    destruct (all_nonempty is_digit ds) eqn:A; [|discriminate]. injection P as <-. pose proof (drop_all_digits _ _ D'' A) as DG.
    apply all_nonempty_iff in A as [_ A]. replace (digits_val ds) with (digits_val (dchars (dvals ds))) by (rewrite dvals_dchars by exact A; reflexivity). rewrite digits_val_base. change (if neg then (- Z.of_N (base_ten (dvals ds)))%Z else Z.of_N (base_ten (dvals ds))) with (signed neg (base_ten (dvals ds))).
    constructor; auto. apply to_ascii_lower; [lia|]. rewrite E. exact L.
Qed.
Lemma starts_of_span : forall (b : str), (forall c, nth_error b 0 = Some c -> is_digit c = false) -> starts_otherwise b.
Proof. intros [|c b] H; cbn; auto. Qed.
Lemma decimal_back : forall t u neg x, drop_underscores false (to_ascii t) = Some u -> parse_decimal neg u = Some x ->
  exists r, float_body t neg r /\ x = fl_of r.
Proof.
  intros t u neg x D P. unfold parse_decimal in P. destruct (span_spec is_digit u) as [ip [r1 [E [-> [A B]]]]]. rewrite E in P. clear E.
  destruct ip as [|i ip].
  - (* no digits before the point *)
    cbn [app] in *. destruct r1 as [|c r1]; [discriminate|]. destruct (N.eqb_spec c 46) as [->|NE]; [|discriminate].
    destruct (drop_head _ _ _ _ D eq_refl) as [y [t' [-> [Y D']]]]. apply (proj1 (to_ascii_46 _)) in Y. subst y.
    destruct (span_spec is_digit r1) as [fp [r2 [E [-> [A' B']]]]]. rewrite E in P. destruct fp as [|f fp]; [discriminate|].
    destruct (drop_split_first _ _ _ D' ltac:(discriminate) A') as [t1 [t2 [-> [D2 DG]]]].
    destruct (parse_exp r2) as [ex|] eqn:PX; [|discriminate]. injection P as <-. pose proof (exponent_back _ _ _ _ D2 PX) as EX.
    exists (Finite neg (base_ten (dvals (f :: fp))) (ex - Z.of_nat (List.length (dvals (f :: fp))))). split.
    + change (46%N :: t1 ++ t2) with ((lit "." ++ t1) ++ t2). constructor; [constructor; exact DG|exact EX].
    + cbn [fl_of]. rewrite <- digits_val_base, dvals_dchars by exact A'. unfold dvals. rewrite map_length. reflexivity.
  - destruct (drop_split_first _ _ _ D ltac:(discriminate) A) as [t1 [t2 [-> [D2 DG]]]].
    assert (NOPOINT : forall ex, exponent t2 ex -> exists r, float_body (t1 ++ t2) neg r /\ dec_to_fl neg (digits_val ((i :: ip) ++ [])) (ex - Z.of_nat (List.length (@nil N))) = fl_of r).
    { intros ex EX. exists (Finite neg (base_ten (dvals (i :: ip))) (ex - Z.of_nat 0)). split; [constructor; [constructor; exact DG|exact EX]|].
      cbn [fl_of]. rewrite <- digits_val_base, dvals_dchars by exact A. rewrite List.app_nil_r. reflexivity. }
    destruct r1 as [|c r1].
    + cbn [app] in P. rewrite List.app_nil_r in P. injection P as <-. apply drop_nil, to_ascii_nil in D2. subst t2. destruct (NOPOINT 0%Z exp_none) as [r [F X]]. exists r. rewrite List.app_nil_r in X. auto.
    + destruct (N.eqb_spec c 46) as [->|NE].
      * destruct (drop_head _ _ _ _ D2 eq_refl) as [y [t' [-> [Y D']]]]. apply (proj1 (to_ascii_46 _)) in Y. subst y.
        destruct (span_spec is_digit r1) as [fp [r2 [E [-> [A' B']]]]]. rewrite E in P.
        destruct (parse_exp r2) as [ex|] eqn:PX; [|discriminate]. cbn [app] in P. injection P as <-.
        destruct fp as [|f fp].
        -- exists (Finite neg (base_ten (dvals (i :: ip))) (ex - Z.of_nat 0)). split.
           ++ change (t1 ++ 46%N :: t') with (t1 ++ (lit "." ++ t')). rewrite app_assoc. constructor; [apply point_last; exact DG|]. eapply exponent_back; [exact D'|exact PX].
           ++ cbn [fl_of]. rewrite <- digits_val_base, dvals_dchars by exact A. rewrite List.app_nil_r. reflexivity.
        -- destruct (drop_split_first _ _ _ D' ltac:(discriminate) A') as [t3 [t4 [-> [D4 DG']]]].
           exists (Finite neg (base_ten (dvals (i :: ip) ++ dvals (f :: fp))) (ex - Z.of_nat (List.length (dvals (f :: fp))))). split.
           ++ replace (t1 ++ 46%N :: t3 ++ t4) with ((t1 ++ lit "." ++ t3) ++ t4) by (rewrite <- !app_assoc; reflexivity).
              constructor; [apply point_inside; assumption|]. eapply exponent_back; [exact D4|exact PX].
           ++ cbn [fl_of]. rewrite <- digits_val_base, dchars_app, !dvals_dchars by assumption. unfold dvals. rewrite map_length. reflexivity.
      * destruct (parse_exp (c :: r1)) as [ex|] eqn:PX; [|rewrite List.app_nil_r in P; discriminate]. cbn [app] in P. injection P as <-.
        apply NOPOINT. eapply exponent_back; [exact D2|exact PX].
Qed.
Lemma float_back : forall s x, py_float s = Some x -> exists r, float_literal s r /\ x = fl_of r.
Proof.
  intros s x H. rewrite py_float_ascii in H. unfold float_ascii in H. destruct (strip_c_core s) as [t [SP E]]. rewrite E in H.
  destruct (drop_underscores false (to_ascii t)) as [u|] eqn:D; [|discriminate]. destruct (take_sign u) as [neg v] eqn:TS.
  destruct (take_sign_back _ _ _ _ D TS) as [sg [t' [-> [SG D']]]]. cbv zeta in H.
  assert (W : forall w, In w [lit "inf"; lit "infinity"; lit "nan"] -> map lower v = w -> map to_lower t' = w).
  { intros w I M. pose proof (lit_letters w I) as F. apply map_lower_word; [exact F|]. rewrite (drop_word _ _ _ D' (words_no_digits _ _ M F)). exact M. }
  destruct (str_eqb (map lower v) (lit "inf")) eqn:E1.
  { apply str_eqb_eq in E1. injection H as <-. exists (Infinite neg). split; [|reflexivity]. exists sg, neg, t'. split; [exact SP|]. split; [exact SG|]. constructor. rewrite (W (lit "inf") ltac:(cbn [In]; tauto) E1). cbn [In]. tauto. }
  destruct (str_eqb (map lower v) (lit "infinity")) eqn:E2.
  { apply str_eqb_eq in E2. injection H as <-. exists (Infinite neg). split; [|reflexivity]. exists sg, neg, t'. split; [exact SP|]. split; [exact SG|]. constructor. rewrite (W (lit "infinity") ltac:(cbn [In]; tauto) E2). cbn [In]. tauto. }
  cbn [orb] in H. destruct (str_eqb (map lower v) (lit "nan")) eqn:E3.
  { apply str_eqb_eq in E3. injection H as <-. exists NotANumber. split; [|reflexivity]. exists sg, neg, t'. split; [exact SP|]. split; [exact SG|]. constructor. apply W; [cbn [In]; tauto|exact E3]. }
  destruct (decimal_back _ _ _ _ D' H) as [r [F X]]. exists r. split; [|exact X]. exists sg, neg, t'. auto.
Qed.
Lemma float_iff : forall s x, py_float s = Some x <-> float_reads s x.
Proof.
  intros s x. split.
  - intro H. destruct (float_back s x H) as [r [L E]]. exists r. split; [exact L|]. apply denotes_iff. exact E.
  - intros [r [L D]]. apply denotes_iff in D. subst x. apply float_forward. exact L.
Qed.
Lemma float_none : forall s, not_a_float s <-> py_float s = None.
Proof.
  intro s. split.
  - intro H. destruct (py_float s) as [x|] eqn:E; [exfalso; apply H; exists x; apply float_iff; exact E|reflexivity].
  - intros H [x X]. apply float_iff in X. congruence.
Qed.
Lemma int_none : forall s, not_an_int s <-> py_int s = None.
Proof.
  intro s. split.
  - intro H. destruct (py_int s) as [x|] eqn:E; [exfalso; apply H; exists x; apply int_iff; exact E|reflexivity].
  - intros H [x X]. apply int_iff in X. congruence.
Qed.

(* ---- division and formatting ---- *)
Lemma divided_iff : forall x d y, (0 < d)%Z -> (divided x d y <-> y = fl_div x d).
Proof.
  intros [neg|neg| |neg m e] d y D; try reflexivity. unfold divided, fl_div. apply rounded_iff; apply Z.mul_pos_pos; try lia; apply Z.pow_pos_nonneg; lia.
Qed.
Lemma nearest_integer_iff : forall p q n, (0 < q)%Z -> (nearest_integer p q n <-> n = rne p q).
Proof.
  intros p q n Q. split.
  - intros [A B]. destruct (Z.eq_dec n (rne p q)) as [E|E]; [exact E|]. exfalso.
    assert (EQ : (Z.abs (n * q - p) = Z.abs (rne p q * q - p))%Z) by (apply Z.le_antisymm; [apply A|apply rne_nearest; exact Q]).
    pose proof (rne_tie p q n Q E EQ) as E1. pose proof (B (rne p q) (fun X => E (eq_sym X)) (eq_sym EQ)) as E2.
    apply Z.even_spec in E1 as [a E1], E2 as [b E2]. pose proof (A (n + 1)%Z) as A1. pose proof (A (n - 1)%Z) as A2. rewrite E1 in EQ. subst n.
    assert (a = b \/ a < b \/ b < a)%Z as [->|[L|L]] by lia; [lia| |]; nia.
  - intros ->. split; [intro k; apply rne_nearest; exact Q|]. intros k NE E. eapply rne_tie; eauto.
Qed.
Lemma decimal_unique : forall k n s t, is_decimal k n s -> is_decimal k n t -> s = t.
Proof.
  intros k n s t [a [b [-> [A [PA [B [L NU]]]]]]] [a' [b' [-> [A' [PA' [B' [L' NU']]]]]]].
  rewrite number_app in NU, NU'. rewrite L in NU. rewrite L' in NU'.
  pose proof (number_bound b (proj2 B)) as BB. pose proof (number_bound b' (proj2 B')) as BB'. rewrite L in BB. rewrite L' in BB'.
  assert (E : number a = number a' /\ number b = number b') by (clear - NU NU' BB BB'; rewrite N.mul_comm in NU, NU'; apply (N.div_mod_unique (10 ^ N.of_nat k)); congruence).
  destruct E as [EA EB]. rewrite (natural_unique (number a) a) by (repeat split; try apply A; auto). rewrite EA.
  rewrite <- (natural_unique (number a') a') by (repeat split; try apply A'; auto). f_equal. f_equal. apply number_inj; [apply B|apply B'|congruence|exact EB].
Qed.
Lemma fixed_iff : forall k x t, 1 <= k -> (fixed_places k x t <-> t = fmt_fixed k x).
Proof.
  intros k x t K.
  assert (D : forall n b, (0 <= n)%Z -> (is_decimal k (Z.to_N n) b <-> b = fixed_str k n)).
  { intros n b P. pose proof (fixed_str_decimal k n K P) as F. split; [intro B; eapply decimal_unique; eauto|intros ->; exact F]. }
  destruct x as [neg|neg| |neg m e]; cbn [fixed_places fmt_fixed]; try reflexivity.
  - change 0%N with (Z.to_N 0). split.
    + intros [b [B ->]]. apply D in B; [|lia]. subst b. reflexivity.
    + intros ->. eexists. split; [apply D; [lia|reflexivity]|reflexivity].
  - assert (Q : (0 < 2 ^ Z.max (- e) 0)%Z) by (apply Z.pow_pos_nonneg; lia).
    assert (R : (0 <= rne (mul2pos (Zpos m * 10 ^ Z.of_nat k) e) (mul2neg 1 e))%Z).
    { apply rne_lower; [unfold mul2neg; lia|]. unfold mul2pos. rewrite Z.mul_0_l. apply Z.mul_nonneg_nonneg; [apply Z.mul_nonneg_nonneg; [lia|]|]; apply Z.pow_nonneg; lia. }
    split.
    + intros [n [b [NI [B ->]]]]. apply nearest_integer_iff in NI; [|exact Q].
      replace (rne (mul2pos (Zpos m * 10 ^ Z.of_nat k) e) (mul2neg 1 e)) with n in * by (rewrite NI; unfold mul2pos, mul2neg; rewrite Z.mul_1_l; reflexivity).
      apply D in B; [|exact R]. subst b. reflexivity.
    + intros ->. exists (rne (mul2pos (Zpos m * 10 ^ Z.of_nat k) e) (mul2neg 1 e)), (fixed_str k (rne (mul2pos (Zpos m * 10 ^ Z.of_nat k) e) (mul2neg 1 e))).
      split; [|split; [apply D; [exact R|reflexivity]|reflexivity]]. apply nearest_integer_iff; [exact Q|]. unfold mul2pos, mul2neg. rewrite Z.mul_1_l. reflexivity.
Qed.
Lemma scaled_iff : forall v k t, 1 <= k -> (scaled v k t <-> exists x, py_float v = Some x /\ t = fmt_fixed k (fl_div x (10 ^ Z.of_nat k))).
Proof.
  intros v k t K. assert (P : (0 < 10 ^ Z.of_nat k)%Z) by (apply Z.pow_pos_nonneg; lia). split.
  - intros [x [y [F [D P']]]]. apply float_iff in F. apply divided_iff in D; [|exact P]. apply fixed_iff in P'; [|exact K]. subst. eauto.
  - intros [x [F ->]]. exists x, (fl_div x (10 ^ Z.of_nat k)). split; [apply float_iff; exact F|]. split; [apply divided_iff; auto|apply fixed_iff; auto].
Qed.
Lemma zero_filled_iff : forall w n t, 1 <= w -> (zero_filled w n t <-> t = zpad w (str_of_N n)).
Proof.
  intros w n t W. destruct (str_of_N_natural n) as [D [P NU]]. split.
  - intros [D' [NU' [L|[L P']]]].
    + assert (B : (n < 10 ^ N.of_nat w)%N) by (rewrite <- NU', <- L; apply number_bound; apply D').
      apply number_inj; [apply D'|apply zpad_digits; apply D| |rewrite number_zpad; congruence].
      rewrite zpad_length; [exact L|]. apply str_of_N_length; auto.
    + assert (E : t = str_of_N n) by (apply natural_unique; repeat split; auto; apply D'). subst t.
      unfold zpad. replace (w - List.length (str_of_N n)) with 0 by lia. reflexivity.
  - intros ->. unfold zero_filled. destruct (Nat.le_gt_cases (List.length (str_of_N n)) w) as [L|L].
    + split; [split; [|apply zpad_digits; apply D]|].
      * intro E. apply (f_equal (@List.length N)) in E. rewrite zpad_length in E by exact L. cbn [List.length] in E. lia.
      * split; [rewrite number_zpad; exact NU|]. left. apply zpad_length. exact L.
    + unfold zpad. replace (w - List.length (str_of_N n)) with 0 by lia. cbn [repeat app]. split; [exact D|]. split; [exact NU|]. right. auto.
Qed.
Lemma padded_iff : forall z t, padded 3 z t <-> t = fmt03 z.
Proof.
  intros z t. unfold fmt03. destruct z as [|n|n]; cbn [padded]; [apply zero_filled_iff; lia|apply zero_filled_iff; lia|].
  change (Zneg n <? 0)%Z with true. cbv iota. split.
  - intros [b [-> Z]]. apply zero_filled_iff in Z; [|lia]. subst b. reflexivity.
  - intros ->. eexists. split; [reflexivity|]. apply zero_filled_iff; [lia|reflexivity].
Qed.
