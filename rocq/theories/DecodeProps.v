(* Lemmas behind C08, C31-C34, C43, C44, C46: decoding whole records. *)
From Coq Require Import List String NArith ZArith Bool Arith Lia.
From Verif Require Import PyBase DecoderTables Decoder Layouts Record Api SpecLayouts Spec StrFacts FnNum ReadFacts ReadProps ReadProps2 ReadProps3
  SpecNum SpecCodes SpecDecode NumProps PyNumProps CodeProps.
Import ListNotations.
Open Scope string_scope.
Open Scope list_scope.
Local Open Scope nat_scope.

Definition decode_outcome (f : fn) (v : str) (r : recview) : Prop :=
  (refuses f v /\ ~ exits f v /\ run_fn f v r = ([], Err ValueError)) \/
  (exits f v /\ ~ refuses f v /\ exists o, run_fn f v r = (o, Err SystemExit)) \/
  (~ refuses f v /\ ~ exits f v /\ exists o d, run_fn f v r = (o, Ok d) /\ (talks f v <-> o <> [])).

Definition special_fns : list fn :=
  [F007; F008; F009; F010; F012; F017; F021; F022; F023; F024; F025; F026; F027; F032; F034; F039; F042; F043; F045; F054; F062;
   F065; F072; F082; F103; F118; F135; F178; F196; F269].
Lemma fn_partition : forall f, In f shown_as_is \/ In f altitude_fns \/ In f (map cf_fn code_fields) \/ In f special_fns.
Proof.
  intro f. assert (K : existsb (fn_eqb f) (shown_as_is ++ altitude_fns ++ map cf_fn code_fields ++ special_fns) = true).
  { revert f. apply forall_fn. vm_compute. reflexivity. }
  apply existsb_exists in K as [g [I E]]. apply fn_eqb_eq in E. subst g. rewrite !in_app_iff in I. tauto.
Qed.
Definition quiet (f : fn) : Prop := refuses f = (fun _ => False) /\ talks f = (fun _ => False) /\ f <> F034.
Lemma ok_outcome : forall f v r d, (refuses f v -> False) -> f <> F034 -> (talks f v -> False) -> run_fn f v r = ([], Ok d) -> decode_outcome f v r.
Proof.
  intros f v r d A B C D. right. right. split; [exact A|]. split; [intros [X _]; contradiction|]. exists [], d. split; auto.
  split; [intro X; contradiction|intro X; congruence].
Qed.
Definition plain_fns_ok : Prop := Forall (fun f => (forall v, ~ refuses f v) /\ (forall v, ~ talks f v) /\ f <> F034) (shown_as_is ++ altitude_fns).
Lemma plain_fns : plain_fns_ok.
Proof. unfold plain_fns_ok, shown_as_is, altitude_fns. cbn [app]. repeat constructor; try discriminate; intros v X; exact X. Qed.
Lemma value_error : forall f v r, f <> F034 -> refuses f v -> run_fn f v r = ([], Err ValueError) -> decode_outcome f v r.
Proof. intros f v r N H E. left. split; auto. split; auto. intros [X _]. contradiction. Qed.
Lemma not_all_exists : forall (p : N -> bool) t, ~ Forall (fun c => p c = true) t <-> Exists (fun c => p c = false) t.
Proof.
  intros p t. rewrite Exists_exists. split.
  - intro H. destruct (forallb p t) eqn:E.
    + exfalso. apply H. apply Forall_forall. rewrite forallb_forall in E. exact E.
    + clear H. induction t as [|c t IH]; [discriminate|]. cbn [forallb] in E. destruct (p c) eqn:C.
      * destruct (IH E) as [x [I X]]. exists x. split; [right|]; auto.
      * exists c. split; [left|]; auto.
  - intros [c [I C]] F. rewrite Forall_forall in F. rewrite (F c I) in C. discriminate.
Qed.
Lemma Exists_ok : forall (p : N -> bool) t, Forall (fun c => p c = true) t \/ Exists (fun c => p c = false) t.
Proof.
  intros p t. destruct (forallb p t) eqn:E.
  - left. apply Forall_forall. rewrite forallb_forall in E. exact E.
  - right. apply not_all_exists. intro X. rewrite Forall_forall in X. apply forallb_forall in X. congruence.
Qed.
(* statements about all trimmings are statements about the one *)
Lemma trim_all : forall v t (P : str -> Prop), trimmed v t -> ((forall t, trimmed v t -> P t) <-> P t).
Proof.
  intros v t P T. split; intro H; [apply H; exact T|]. intros t' T'. apply trimmed_iff in T, T'. congruence.
Qed.
Lemma code_outcome : forall f v r, In f (map cf_fn code_fields) -> decode_outcome f v r.
Proof.
  intros f v r H. apply in_map_iff in H as [cf [<- H]].
  assert (D : {listed (cf_codes cf) v} + {~ listed (cf_codes cf) v}).
  { destruct (assoc v (lits (cf_codes cf))) eqn:E; [left|right; apply assoc_lits_none; exact E].
    destruct (in_dec str_eq_dec v (map (fun p => lit (fst p)) (cf_codes cf))) as [I|N].
    - apply in_map_iff in I as [[a b] [E' I]]. exists a, b. cbn [fst] in E'. auto.
    - exfalso. apply assoc_in in E. unfold lits in E. apply N. apply in_map_iff in E as [p [E I]]. apply in_map_iff. exists p. split; auto. congruence. }
  assert (S : forall v, (refuses (cf_fn cf) v <-> cf_other cf = Refused /\ ~ listed (cf_codes cf) v) /\ ~ talks (cf_fn cf) v).
  { clear - H. unfold code_fields in H. cbn [In] in H. intro v.
    repeat match goal with H : _ \/ _ |- _ => destruct H as [<-|H] end; try contradiction; cbn [cf_fn cf_other cf_codes refuses talks];
      (split; [|tauto]); try (split; [intro; contradiction|intros [X _]; discriminate]); try (split; [auto|intros [_ X]; exact X]).
    split.
    - intros [A B]. split; auto. intros [code [text [I E]]]. apply in_app_iff in I as [I|I]; [apply A; exists code, text; auto|].
      destruct I as [I|[]]. injection I as <- <-. contradiction.
    - intros [_ A]. split.
      + intros [code [text [I E]]]. apply A. exists code, text. split; auto. apply in_app_iff. auto.
      + intros ->. apply A. exists " ", " ". split; auto. apply in_app_iff. right. left. reflexivity. }
  destruct (S v) as [S1 S2]. clear S.
  assert (N34 : cf_fn cf <> F034).
  { clear - H. assert (K : forallb (fun c => negb (fn_eqb (cf_fn c) F034)) code_fields = true) by reflexivity. rewrite forallb_forall in K.
    specialize (K _ H). intro X. rewrite X in K. discriminate. }
  destruct D as [D|D].
  - assert (NR : refuses (cf_fn cf) v -> False) by (intro X; apply S1 in X; tauto).
    destruct D as [code [text [I ->]]]. eapply ok_outcome; eauto. apply (c25_listed cf code text r H I).
  - destruct (cf_blank cf) eqn:B.
    + assert (NR : cf_other cf <> Refused).
      { clear - H B. assert (K : forallb (fun c => negb (cf_blank c && match cf_other c with Refused => true | _ => false end)) code_fields = true) by reflexivity.
        rewrite forallb_forall in K. specialize (K _ H). rewrite B in K. intro X. rewrite X in K. discriminate. }
      assert (NR' : refuses (cf_fn cf) v -> False) by (intro X; apply S1 in X; tauto).
      destruct (blank v) eqn:W; [apply blank_iff in W|assert (W' : ~ whitespace v) by (intro X; apply blank_iff in X; congruence)].
      * eapply ok_outcome; eauto. apply (c25_blank cf v r H B W).
      * pose proof (c25_other cf v r H D ltac:(auto)) as O. destruct (cf_other cf); try (eapply ok_outcome; eauto; apply O). congruence.
    + pose proof (c25_other cf v r H D ltac:(congruence)) as O. destruct (cf_other cf) eqn:E;
        try (assert (NR' : refuses (cf_fn cf) v -> False) by (intro X; apply S1 in X as [X _]; discriminate); eapply ok_outcome; eauto; apply O).
      apply value_error; auto. apply S1. auto.
Qed.
Lemma trim_of : forall v, exists t, trimmed v t /\ strip v = t.
Proof. intro v. exists (strip v). split; [apply strip_trimmed|reflexivity]. Qed.
Lemma white_dec : forall v, whitespace v \/ ~ whitespace v.
Proof. intro v. destruct (blank v) eqn:B; [left; apply blank_iff; exact B|right; intro X; apply blank_iff in X; congruence]. Qed.
Lemma numeric_dec : forall v, v <> [] -> isnumeric v = true /\ all_numeric v \/ isnumeric v = false /\ ~ all_numeric v.
Proof.
  intros v NE. destruct (isnumeric v) eqn:E.
  - left. split; auto. apply all_nonempty_iff in E. apply E.
  - right. split; auto. intro F. assert (isnumeric v = true) by (apply all_nonempty_iff; auto). congruence.
Qed.
Lemma decimal_dec : forall v, isnumeric v = true -> decimal_string v \/ ~ decimal_string v.
Proof.
  intros v H. rewrite <- (float_numeric v H). destruct (py_float v); [left; eauto|right; intros [x X]; discriminate].
Qed.
Lemma meaning_listed : forall codes c, (exists text, meaning codes c [text]) \/ ~ listed codes [c].
Proof.
  intros codes c. destruct (meaning_total codes c) as [texts [[code [text [I [E ->]]]]|[N _]]]; [left|right; exact N].
  exists (lit text). left. exists code, text. auto.
Qed.
Lemma outcome_numeric : forall f v r, In f [F045; F103; F062; F135] -> decode_outcome f v r.
Proof.
  intros f v r F. destruct (numeric_decoders f v r F) as [A B].
  assert (S : refuses f v = (v <> [] /\ all_numeric v /\ ~ decimal_string v) /\ (talks f v -> False) /\ f <> F034).
  { cbn [In] in F. repeat match goal with H : _ \/ _ |- _ => destruct H as [<-|H] end; try contradiction;
      (split; [reflexivity|split; [intro X; exact X|discriminate]]). }
  destruct S as [S1 [S2 S3]].
  destruct v as [|c v].
  { eapply ok_outcome; eauto; [rewrite S1; tauto|]. apply A. reflexivity. }
  destruct (numeric_dec (c :: v)) as [[N N']|[N N']]; [discriminate| |].
  - destruct (B N) as [B1 B2]. destruct (decimal_dec _ N) as [D|D].
    + destruct (B2 D) as [d [E _]]. eapply ok_outcome; eauto. rewrite S1. tauto.
    + apply value_error; auto; [rewrite S1; repeat split; auto; discriminate|]. apply B1. exact D.
  - eapply ok_outcome; eauto; [rewrite S1; tauto|]. apply A. exact N.
Qed.
Ltac absurd_case := let X := fresh in intro X; exact X.
Ltac easy_ok := eapply ok_outcome; [absurd_case|discriminate|absurd_case|].
Lemma special_outcome : forall f v r, In f special_fns -> width f <= List.length v -> decode_outcome f v r.
Proof.
  intros f v r F W. destruct (trim_of v) as [t [T ST]]. unfold special_fns in F. cbn [In] in F.
  repeat match goal with H : _ \/ _ |- _ => destruct H as [<-|H] end; try contradiction; cbn [width] in W.
  - easy_ok. apply route_run.
  - destruct (c52_route v t r T) as [A B].
    assert (D : (t <> [] /\ all_alnum t) \/ ~ (t <> [] /\ all_alnum t)).
    { unfold all_alnum. rewrite <- alnum_trimmed. destruct (isalnum t); [left|right]; congruence. }
    destruct D as [D|D].
    + eapply ok_outcome; [|discriminate|intro X; exact X|apply A; exact D]. cbn [refuses]. rewrite (trim_all v t _ T). tauto.
    + apply value_error; [discriminate| |apply B; exact D]. cbn [refuses]. rewrite (trim_all v t _ T).
      destruct t; [left; reflexivity|right]. intro X. apply D. split; auto. discriminate.
  - unfold decode_outcome. right. right. split; [intro X; exact X|]. split; [intros [X _]; discriminate|].
    unfold run_fn, field_009. destruct (isalnum (strip v)); (exists []; eexists; split; [reflexivity|]); cbn [talks]; intuition congruence.
  - destruct v as [|a v]; [simpl in W; lia|]. easy_ok. apply c52_approach.
  - easy_ok. reflexivity.
  - destruct v as [|a [|b [|c [|d v]]]]; try (simpl in W; lia).
    destruct (meaning_total codes_017_1 a) as [t1 A]. destruct (meaning_total codes_017_2 b) as [t2 B].
    destruct (meaning_total codes_017_3 c) as [t3 C]. destruct (meaning_total codes_017_4 d) as [t4 D].
    easy_ok. apply (c24 a b c d v r t1 t2 t3 t4); auto.
  - destruct (c52_leg v t r T) as [A [B [C D]]]. destruct (Exists_ok alpha_char t) as [P|P].
    + assert (NR : refuses F021 v -> False) by (cbn [refuses]; rewrite (trim_all v t _ T); auto).
      destruct t as [|x t]; [eapply ok_outcome; [exact NR|discriminate|intro X; exact X|apply A; reflexivity]|].
      destruct (assoc (x :: t) (lits codes_021)) eqn:E.
      * apply assoc_in in E. unfold lits in E. apply in_map_iff in E as [[code text] [E I]]. cbn [fst snd] in E. injection E as E1 E2.
        eapply ok_outcome; [exact NR|discriminate|intro X; exact X|apply (C code text I); congruence].
      * eapply ok_outcome; [exact NR|discriminate|intro X; exact X|apply D; auto; [discriminate|]]. apply assoc_lits_none. exact E.
    + apply value_error; [discriminate| |apply B; auto; destruct t; [inversion P|discriminate]].
      cbn [refuses]. rewrite (trim_all v t _ T). apply not_all_exists. exact P.
  - destruct (c52_tdv v t r T) as [A B]. destruct (Exists_ok alpha_char t) as [P|P].
    + eapply ok_outcome; [|discriminate|intro X; exact X|apply A; exact P]. cbn [refuses]. rewrite (trim_all v t _ T). auto.
    + apply value_error; [discriminate| |apply B; exact P]. cbn [refuses]. rewrite (trim_all v t _ T). apply not_all_exists. exact P.
  - destruct (c52_navaid F023 v t r ltac:(cbn; auto) T) as [A B]. destruct (Exists_ok alnum_char t) as [P|P]; [destruct (Nat.le_gt_cases (List.length t) 4)|].
    + eapply ok_outcome; [|discriminate|intro X; exact X|apply A; auto]. cbn [refuses]. rewrite (trim_all v t _ T). unfold all_alnum. intros [X|X]; [auto|lia].
    + apply value_error; [discriminate| |apply B; auto]. cbn [refuses]. rewrite (trim_all v t _ T). auto.
    + apply value_error; [discriminate| |apply B; auto]. cbn [refuses]. rewrite (trim_all v t _ T). left. apply not_all_exists. exact P.
  - destruct (c52_navaid F024 v t r ltac:(cbn; auto) T) as [A B]. destruct (Exists_ok alnum_char t) as [P|P]; [destruct (Nat.le_gt_cases (List.length t) 4)|].
    + eapply ok_outcome; [|discriminate|intro X; exact X|apply A; auto]. cbn [refuses]. rewrite (trim_all v t _ T). unfold all_alnum. intros [X|X]; [auto|lia].
    + apply value_error; [discriminate| |apply B; auto]. cbn [refuses]. rewrite (trim_all v t _ T). auto.
    + apply value_error; [discriminate| |apply B; auto]. cbn [refuses]. rewrite (trim_all v t _ T). left. apply not_all_exists. exact P.
  - destruct (c52_navaid F025 v t r ltac:(cbn; auto) T) as [A B]. destruct (Exists_ok alnum_char t) as [P|P]; [destruct (Nat.le_gt_cases (List.length t) 4)|].
    + eapply ok_outcome; [|discriminate|intro X; exact X|apply A; auto]. cbn [refuses]. rewrite (trim_all v t _ T). unfold all_alnum. intros [X|X]; [auto|lia].
    + apply value_error; [discriminate| |apply B; auto]. cbn [refuses]. rewrite (trim_all v t _ T). auto.
    + apply value_error; [discriminate| |apply B; auto]. cbn [refuses]. rewrite (trim_all v t _ T). left. apply not_all_exists. exact P.
  - destruct (c21_outcome v t r T) as [A [B C]].
    assert (R : refuses F026 v <-> fails F026 v r ValueError).
    { cbn [refuses]. rewrite (trim_all v t _ T), A. unfold all_alnum. rewrite (not_all_exists alnum_char t). reflexivity. }
    assert (D : fails F026 v r ValueError \/ ~ fails F026 v r ValueError).
    { unfold fails. destruct (run_fn F026 v r) as [[|? ?] [?|[]]]; auto; right; discriminate. }
    destruct D as [D|D]; [apply value_error; [discriminate|apply R; exact D|exact D]|].
    destruct (B D) as [s S]. eapply ok_outcome; [|discriminate|intro X; exact X|exact S]. rewrite R. exact D.
  - assert (R : refuses F027 v <-> t <> [] /\
      ((exists t', t = lit "T" ++ t' /\ not_a_float t') \/ ((forall t', t <> lit "T" ++ t') /\ not_a_float t)))
      by (cbn [refuses]; rewrite (trim_all v t _ T); reflexivity).
    destruct t as [|c t].
    { eapply ok_outcome; [rewrite R; tauto|discriminate|intro X; exact X|]. unfold run_fn, field_027. rewrite ST. reflexivity. }
    destruct (N.eq_dec c 84) as [->|NC].
    + assert (E : run_fn F027 v r = match py_float t with Some x => ret (DStr (fmt_fixed 1 (fl_div x 10) ++ lit " min")) | None => raise ValueError end).
      { unfold run_fn, field_027. rewrite ST. cbn [List.length Nat.ltb Nat.leb]. unfold index. cbn [nth_error lift bind].
        replace (str_eqb [84%N] (lit "T")) with true by reflexivity. unfold slice_from, float_of. cbn [skipn]. destruct (py_float t); reflexivity. }
      destruct (py_float t) as [x|] eqn:P.
      * eapply ok_outcome; [|discriminate|intro X; exact X|exact E]. rewrite R. intros [_ [[t' [X Y]]|[X _]]].
        { injection X as ->. apply float_none in Y. congruence. } { apply (X t). reflexivity. }
      * apply value_error; [discriminate| |exact E]. rewrite R. split; [discriminate|]. left. exists t. split; [reflexivity|apply float_none; exact P].
    + assert (E : run_fn F027 v r = match py_float (c :: t) with Some x => ret (DStr (fmt_fixed 1 (fl_div x 10) ++ lit " nm")) | None => raise ValueError end).
      { unfold run_fn, field_027. rewrite ST. cbn [List.length Nat.ltb Nat.leb]. unfold index. cbn [nth_error lift bind].
        replace (str_eqb [c] (lit "T")) with false by (symmetry; apply str_eqb_neq; change (lit "T") with [84%N]; congruence).
        unfold float_of. destruct (py_float (c :: t)); reflexivity. }
      assert (NT : forall t', c :: t <> lit "T" ++ t') by (intros t' X; injection X as X _; contradiction).
      destruct (py_float (c :: t)) as [x|] eqn:P.
      * eapply ok_outcome; [|discriminate|intro X; exact X|exact E]. rewrite R. intros [_ [[t' [X _]]|[_ X]]]; [exact (NT t' X)|apply float_none in X; congruence].
      * apply value_error; [discriminate| |exact E]. rewrite R. split; [discriminate|]. right. split; [exact NT|apply float_none; exact P].
  - destruct v as [|a [|b v]]; try (simpl in W; lia). destruct (c16_fails a b v r) as [A B].
    assert (D : two_char_int a b \/ ~ two_char_int a b).
    { rewrite <- int2. destruct (py_int [a; b]); [left; eauto|right; intros [n X]; discriminate]. }
    destruct D as [D|D].
    + destruct (B D) as [s S]. eapply ok_outcome; [|discriminate|intro X; exact X|exact S].
      cbn [refuses]. intros [a' [b' [rest [X Y]]]]. injection X as <- <- <-. contradiction.
    + apply value_error; [discriminate| |apply A; exact D]. cbn [refuses]. exists a, b, v. auto.
  - assert (R : refuses F034 v <-> t <> [] /\ all_numeric t /\ ~ decimal_string t) by (cbn [refuses]; rewrite (trim_all v t _ T); reflexivity).
    assert (EX : exits F034 v <-> t <> [] /\ ~ all_numeric t).
    { unfold exits. rewrite (trim_all v t _ T). tauto. }
    unfold decode_outcome. rewrite R, EX. destruct t as [|c t].
    { right. right. split; [tauto|]. split; [tauto|]. exists []. eexists. split; [|cbn [talks]; split; [contradiction|congruence]].
      apply c34_blank. apply strip_nil_iff. exact ST. }
    destruct (numeric_dec (c :: t)) as [[N N']|[N N']]; [discriminate| |].
    + destruct (c34_numeric v (c :: t) r T N) as [A B]. destruct (decimal_dec _ N) as [D|D].
      * right. right. split; [tauto|]. split; [tauto|]. destruct (B D) as [s S]. exists []. eexists. split; [exact S|cbn [talks]; split; [contradiction|congruence]].
      * left. split; [repeat split; auto; discriminate|]. split; [tauto|]. apply A. exact D.
    + right. left. split; [split; auto; discriminate|]. split; [tauto|]. eexists. apply (c43_exit v (c :: t) r T); auto. discriminate.
  - destruct v as [|c d]; [simpl in W; lia|]. destruct (white_dec (c :: d)) as [B|B].
    + eapply ok_outcome; [|discriminate|intro X; exact X|apply (c22_blank (c :: d) r B)]. cbn [refuses]. tauto.
    + assert (E : run_fn F039 (c :: d) r = match py_int d with Some n => ret (DStr (fmt03 n ++ lit " " ++ [c])) | None => raise ValueError end).
      { unfold run_fn, field_039. destruct (blank (c :: d)) eqn:X; [apply blank_iff in X; contradiction|].
        unfold int_of, slice_from. cbn [skipn]. destruct (py_int d); reflexivity. }
      destruct (py_int d) as [n|] eqn:P.
      * eapply ok_outcome; [|discriminate|intro X; exact X|exact E]. cbn [refuses]. intros [_ [c' [d' [X Y]]]]. injection X as <- <-. apply int_none in Y. congruence.
      * apply value_error; [discriminate| |exact E]. cbn [refuses]. split; auto. exists c, d. split; [reflexivity|apply int_none; exact P].
  - destruct v as [|a [|b v]]; try (simpl in W; lia). destruct (str_eq_dec [a] (lit "N")) as [E|E].
    + easy_ok. injection E as ->. apply (c50_ndb (b :: v) r).
    + destruct (meaning_total codes_042_1 a) as [t1 A]. destruct (meaning_total codes_042_2 b) as [t2 B]. easy_ok. apply (c50_type a b v r t1 t2); auto.
  - easy_ok. apply (c52_name v t r T).
  - apply outcome_numeric. cbn. auto.
  - destruct (isnumeric v) eqn:E; easy_ok; unfold run_fn, field_054; rewrite E; reflexivity.
  - apply outcome_numeric. cbn. auto.
  - destruct (white_dec v) as [B|B].
    + eapply ok_outcome; [intro X; exact X|discriminate| |apply (c47_blank v r B)]. cbn [talks]. tauto.
    + assert (D : (exists m x rest, v = m :: x :: rest /\ decimal_char m /\ decimal_char x) \/
                  (forall m x rest, v = m :: x :: rest -> ~ decimal_char m \/ ~ decimal_char x)).
      { unfold decimal_char. destruct v as [|m [|x v]]; [right; discriminate|right; discriminate|].
        destruct (decimal_val m) eqn:M; [destruct (decimal_val x) eqn:X|].
        - left. exists m, x, v. rewrite M, X. repeat split; discriminate.
        - right. intros m' x' rest E. injection E as <- <- <-. right. rewrite X. auto.
        - right. intros m' x' rest E. injection E as <- <- <-. left. rewrite M. auto. }
      destruct D as [[m [x [rest [-> [M X]]]]]|D].
      * destruct (decimal_char_val m M) as [dm EM]. destruct (decimal_char_val x X) as [dx EX].
        destruct (c47_value m x rest r dm dx EM EX) as [mm [ss [_ [_ S]]]].
        eapply ok_outcome; [intro Y; exact Y|discriminate| |exact S]. cbn [talks]. intros [_ Y]. destruct (Y _ _ _ eq_refl); contradiction.
      * destruct (c47_other v r B D) as [o O]. right. right. split; [intro Y; exact Y|]. split; [intros [Y _]; discriminate|].
        eexists. eexists. split; [exact O|]. cbn [talks]. split; [discriminate|auto].
  - destruct (c52_speed v r) as [A [B C]]. destruct (white_dec v) as [X|X].
    + eapply ok_outcome; [|discriminate|intro Y; exact Y|apply B; exact X]. cbn [refuses]. tauto.
    + destruct (Exists_ok numeric_char v) as [P|P].
      * eapply ok_outcome; [|discriminate|intro Y; exact Y|apply A; auto]. { cbn [refuses]. unfold all_numeric. tauto. }
        intros ->. apply X. constructor.
      * apply value_error; [discriminate| |apply C; auto]. cbn [refuses]. split; auto. apply not_all_exists. exact P.
  - destruct v as [|a [|b v]]; try (simpl in W; lia). destruct (meaning_total usage_codes b) as [t2 M]. pose proof (c50_usage a b v r t2 M) as U.
    assert (L : forall text, meaning usage_codes b [text] -> In [b] [lit "B"; lit "H"; lit "L"; lit " "]).
    { intros text [[code [tx [I [E _]]]]|[_ X]]; [|discriminate]. rewrite E. unfold usage_codes in I. cbn [In] in I.
      repeat match goal with H : _ \/ _ |- _ => destruct H as [H|H] end; try contradiction; injection I as <- <-; cbn [In]; tauto. }
    destruct M as [[code [text [I [E ->]]]]|[N ->]].
    + eapply ok_outcome; [|discriminate|intro Y; exact Y|exact U]. cbn [refuses]. intros [a' [b' [rest [X [Y _]]]]]. injection X as <- <- <-.
      apply Y. apply (L (lit text)). left. exists code, text. auto.
    + destruct (N.eqb_spec a 82) as [->|NA].
      * eapply ok_outcome; [|discriminate|intro Y; exact Y|exact U]. cbn [refuses]. intros [a' [b' [rest [X [_ Y]]]]]. injection X as <- <- <-. apply Y. reflexivity.
      * apply value_error; [discriminate| |exact U]. cbn [refuses]. exists a, b, v. split; [reflexivity|]. split.
        { intro X. apply N. cbn [In] in X. destruct X as [X|[X|[X|[X|[]]]]]; rewrite <- X;
            [exists "B", "HI and LO Altitude"|exists "H", "HI Altitude"|exists "L", "LO Altitude"|exists " ", "Terminal Use Only"]; (split; [cbn; tauto|reflexivity]). }
        { change (lit "R") with [82%N]. congruence. }
  - apply outcome_numeric. cbn. auto.
  - destruct v as [|a [|b v]]; try (simpl in W; lia). destruct (meaning_listed codes_118_1 a) as [[text M]|N].
    + eapply ok_outcome; [intro X; exact X|discriminate| |apply (c50_via a b v r text M)].
      cbn [talks]. intros [a' [rest [X Y]]]. injection X as <- <-. destruct M as [[code [tx [I [E _]]]]|[_ X]]; [|discriminate].
      apply Y. exists code, tx. auto.
    + right. right. split; [intro X; exact X|]. split; [intros [X _]; discriminate|]. eexists. eexists. split; [apply (c50_via_other a (b :: v) r N)|].
      cbn [talks]. split; [discriminate|]. intros _. exists a, (b :: v). auto.
  - apply outcome_numeric. cbn. auto.
  - destruct v as [|c mm]; [simpl in W; lia|]. destruct (isnumeric mm) eqn:M; [destruct (alpha_char c) eqn:A|].
    + pose proof M as M'. apply all_nonempty_iff in M' as [NE F]. destruct (N.le_gt_cases 65 c) as [L|L]; [destruct (N.le_gt_cases c 90) as [G|G]|].
      * eapply ok_outcome; [|discriminate|intro X; exact X|].
        { cbn [refuses]. intros [c' [m' [X [_ [Y _]]]]]. injection X as <- <-. apply Y. auto. }
        unfold run_fn, field_178, index. cbn [nth_error lift bind]. rewrite isalpha1, A. unfold slice_from. cbn [skipn]. rewrite M. cbn [andb].
        unfold uppercase_index. rewrite (proj2 (N.leb_le 65 c) L), (proj2 (N.leb_le c 90) G). cbn [andb bind ret app]. reflexivity.
      * apply value_error; [discriminate| |apply c23_not_a_letter; auto; lia]. cbn [refuses]. exists c, mm. repeat split; auto; lia.
      * apply value_error; [discriminate| |apply c23_not_a_letter; auto; lia]. cbn [refuses]. exists c, mm. repeat split; auto; lia.
    + eapply ok_outcome; [|discriminate|intro X; exact X|apply c23_other; auto].
      cbn [refuses]. intros [c' [m' [X [Y _]]]]. injection X as <- <-. congruence.
    + eapply ok_outcome; [|discriminate|intro X; exact X|apply c23_other; auto].
      cbn [refuses]. intros [c' [m' [X [_ [_ [Y Z]]]]]]. injection X as <- <-. assert (isnumeric mm = true) by (apply all_nonempty_iff; auto). congruence.
  - destruct v as [|a [|b v]]; try (simpl in W; lia). destruct (meaning_total codes_196_1 a) as [t1 A]. destruct (meaning_total codes_196_2 b) as [t2 B].
    easy_ok. apply (c50_name a b v r t1 t2); auto.
  - destruct (white_dec v) as [B|B].
    + eapply ok_outcome; [|discriminate|intro X; exact X|apply c52_hpc; exact B]. cbn [refuses]. tauto.
    + assert (E : run_fn F269 v r = match py_float v with Some x => ret (DFloat (fl_div x 10)) | None => raise ValueError end).
      { unfold run_fn, field_269. destruct (blank v) eqn:X; [apply blank_iff in X; contradiction|]. unfold float_of. destruct (py_float v); reflexivity. }
      destruct (py_float v) eqn:P.
      * eapply ok_outcome; [|discriminate|intro X; exact X|exact E]. cbn [refuses]. intros [_ X]. apply float_none in X. congruence.
      * apply value_error; [discriminate| |exact E]. cbn [refuses]. split; [exact B|apply float_none; exact P].
Qed.
Theorem outcome_all : forall f v r, width f <= List.length v -> decode_outcome f v r.
Proof.
  intros f v r W. destruct (fn_partition f) as [H|[H|[H|H]]].
  - pose proof plain_fns as K. unfold plain_fns_ok in K. rewrite Forall_forall in K. destruct (K f ltac:(apply in_app_iff; auto)) as [A [B C]].
    eapply ok_outcome; eauto; [apply A|apply B|apply (c51_as_is f v r H)].
  - pose proof plain_fns as K. unfold plain_fns_ok in K. rewrite Forall_forall in K. destruct (K f ltac:(apply in_app_iff; auto)) as [A [B C]].
    eapply ok_outcome; eauto; [apply A|apply B|apply (ft_body f v r H)].
  - apply code_outcome. exact H.
  - apply special_outcome; auto.
Qed.
