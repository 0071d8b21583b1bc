(* Lemmas: apart from ASCII, the functions return and print only characters they are given. *)
From Coq Require Import List String NArith ZArith Bool Arith Lia.
From Verif Require Import PyBase PyRepr DecoderTables Decoder Layouts Record Api SpecLayouts Spec SpecApi SpecConsole SpecChars Console ReadFacts ReadProps2 ConsoleFacts ConsoleProps.
Import ListNotations.
Open Scope string_scope.
Open Scope list_scope.
Local Open Scope nat_scope.

Section Chars.
Variable okc : N -> Prop.
Hypothesis okc_ascii : forall c, (c < 128)%N -> okc c.
Definition ctext (s : str) : Prop := Forall okc s.
Definition vis (c : N) : bool := (c <? 128)%N.
Lemma vis_okc : forall c, vis c = true -> okc c.
Proof. intros c H. apply okc_ascii. apply N.ltb_lt. exact H. Qed.
Lemma vis_text : forall s, forallb vis s = true -> ctext s.
Proof. intros s H. apply Forall_forall. intros c I. apply vis_okc. rewrite forallb_forall in H. auto. Qed.
Lemma v_lit : forall s, forallb vis (lit s) = true -> ctext (lit s).
Proof. intros s. apply vis_text. Qed.
Lemma v_nil : ctext [].
Proof. constructor. Qed.
Lemma v_app : forall a b, ctext a -> ctext b -> ctext (a ++ b).
Proof. intros. apply Forall_app. auto. Qed.
Lemma v_cons : forall c b, vis c = true -> ctext b -> ctext (c :: b).
Proof. intros c b H K. constructor; [|exact K]. apply vis_okc. exact H. Qed.
Lemma v_incl : forall a b, incl a b -> ctext b -> ctext a.
Proof. intros a b H K. apply Forall_forall. intros c I. unfold ctext in K; rewrite Forall_forall in K. auto. Qed.
Lemma v_repeat : forall c n, vis c = true -> ctext (repeat c n).
Proof. induction n; intros; [apply v_nil|]. apply v_cons; auto. Qed.
Lemma v_firstn : forall n s, ctext s -> ctext (firstn n s).
Proof. intros n s. apply v_incl. intros c H. rewrite <- (firstn_skipn n s). apply in_or_app. auto. Qed.
Lemma v_skipn : forall n s, ctext s -> ctext (skipn n s).
Proof. intros n s. apply v_incl. intros c H. rewrite <- (firstn_skipn n s). apply in_or_app. auto. Qed.
Lemma v_slice : forall a b s, ctext s -> ctext (slice a b s).
Proof. intros. apply v_firstn, v_skipn. assumption. Qed.
Lemma v_drop_while : forall p s, ctext s -> ctext (drop_while p s).
Proof. intros p s. apply v_incl. induction s as [|c s IH]; [intros x H; exact H|]. cbn [drop_while]. destruct (p c); [apply incl_tl; exact IH|apply incl_refl]. Qed.
Lemma v_rev : forall s, ctext s -> ctext (rev s).
Proof. intros s. apply v_incl. intros c H. apply in_rev. exact H. Qed.
Lemma v_drop_end : forall p s, ctext s -> ctext (drop_while_end p s).
Proof. intros. apply v_rev, v_drop_while, v_rev. assumption. Qed.
Lemma v_strip : forall s, ctext s -> ctext (strip s).
Proof. intros. apply v_drop_end, v_drop_while. assumption. Qed.
Lemma v_str_of_N : forall n, ctext (str_of_N n).
Proof. intros n. unfold str_of_N. induction (N.to_uint n); cbn [uint_str]; [apply v_nil|..]; (apply v_cons; [reflexivity|assumption]). Qed.
Lemma v_str_of_Z : forall z, ctext (str_of_Z z).
Proof. intros z. unfold str_of_Z. destruct (z <? 0)%Z; [apply v_cons; [reflexivity|]|]; apply v_str_of_N. Qed.
Lemma v_zpad : forall w s, ctext s -> ctext (zpad w s).
Proof. intros. apply v_app; [apply v_repeat; reflexivity|assumption]. Qed.
Lemma v_fmt03 : forall z, ctext (fmt03 z).
Proof. intros z. unfold fmt03. destruct (z <? 0)%Z; [apply v_cons; [reflexivity|]|]; apply v_zpad, v_str_of_N. Qed.
Lemma v_sign : forall b, ctext (sign_str b).
Proof. intros []; [apply v_cons; [reflexivity|]|]; apply v_nil. Qed.
Lemma v_fixed : forall k n, ctext (fixed_str k n).
Proof. intros. apply v_app; [apply v_str_of_N|]. apply v_cons; [reflexivity|]. apply v_zpad, v_str_of_N. Qed.
Lemma v_fmt_fixed : forall k x, ctext (fmt_fixed k x).
Proof. intros k []; cbn [fmt_fixed]; try (apply v_app; [apply v_sign|]); try apply v_fixed; apply v_lit; reflexivity. Qed.
Lemma v_shortest : forall n nd m e p q, ctext (fst (shortest n nd m e p q)).
Proof.
  induction n as [|n IH]; intros; cbn [shortest]; cbv zeta; repeat match goal with |- context [if ?b then _ else _] => destruct b end; cbn [fst]; try apply v_str_of_Z; apply IH.
Qed.
Lemma v_exp : forall x, ctext (exp_str x).
Proof. intros x. unfold exp_str. apply v_app; [destruct (x <? 0)%Z; (apply v_cons; [reflexivity|apply v_nil])|apply v_zpad, v_str_of_N]. Qed.
Lemma v_repr_digits : forall ds x, ctext ds -> ctext (repr_digits ds x).
Proof.
  intros ds x H. unfold repr_digits. cbv zeta. assert (K : ctext (strip_trailing0 ds)) by (apply v_drop_end; exact H). destruct ((-4 <=? x)%Z && (x <? 16)%Z).
  - destruct (x <? 0)%Z; [|destruct (_ <=? _)%Z].
    + apply v_app; [apply v_lit; reflexivity|]. apply v_app; [apply v_repeat; reflexivity|exact K].
    + apply v_app; [exact K|]. apply v_app; [apply v_repeat; reflexivity|apply v_lit; reflexivity].
    + apply v_app; [apply v_firstn; exact K|]. apply v_cons; [reflexivity|apply v_skipn; exact K].
  - destruct (strip_trailing0 ds) as [|d [|d' r]]; [apply v_nil|..]; inversion K; subst; (apply v_app; [constructor; [assumption|apply v_cons; [reflexivity|apply v_nil]]|]); [apply v_exp|].
    apply v_app; [assumption|]. apply v_cons; [reflexivity|apply v_exp].
Qed.
Lemma v_repr_fl : forall x, ctext (repr_fl x).
Proof.
  intros []; cbn [repr_fl]; cbv zeta; try (apply v_app; [apply v_sign|]); try (apply v_lit; reflexivity).
  match goal with |- context [shortest ?a ?b ?c ?d ?e ?f] => pose proof (v_shortest a b c d e f); destruct (shortest a b c d e f) end. apply v_app; [apply v_sign|]. apply v_repr_digits. assumption.
Qed.
Lemma v_assoc : forall k (t : list (str * str)) x, forallb (fun p => forallb vis (snd p)) t = true -> assoc k t = Some x -> ctext x.
Proof.
  induction t as [|[k' v] t IH]; intros x H E; [discriminate|]. cbn [forallb] in H. apply andb_true_iff in H. cbn [assoc] in E. destruct (str_eqb k k'); [injection E as <-; apply vis_text; apply H|]. apply IH; [apply H|exact E].
Qed.
Lemma v_lookup : forall (t : list (str * str)) k, forallb (fun p => forallb vis (snd p)) t = true -> ctext (lookup t k).
Proof. intros t k H. unfold lookup. destruct (assoc k t) eqn:E; [eapply v_assoc; eauto|]. apply v_lit. reflexivity. Qed.
Lemma v_lookup_bad : forall (t : list (str * str)) s k, forallb (fun p => forallb vis (snd p)) t = true -> ctext s -> ctext k -> ctext (lookup_bad t s k).
Proof. intros. unfold lookup_bad. destruct (negb _); [apply v_lookup; assumption|apply v_app; assumption]. Qed.
Lemma v_desc : forall (t : list (str * str)) c, forallb (fun p => forallb vis (snd p)) t = true -> ctext (desc_part t c).
Proof. intros. unfold desc_part. destruct (assoc c t) eqn:E; [eapply v_assoc; eauto|apply v_nil]. Qed.
Lemma v_quoted : forall s, ctext s -> ctext (quoted s).
Proof. intros. apply v_app; [apply v_lit; reflexivity|]. apply v_app; [assumption|apply v_lit; reflexivity]. Qed.
Lemma v_hexits : forall k c, ctext (hexits k c).
Proof.
  induction k as [|k IH]; intros c; [apply v_nil|]. cbn [hexits]. apply v_app; [apply IH|]. apply v_cons; [|apply v_nil]. unfold vis, hexit. pose proof (N.mod_lt c 16 ltac:(discriminate)) as L. apply N.ltb_lt.
  destruct (N.ltb_spec (c mod 16) 10); lia.
Qed.
Lemma v_repr_char : forall q c, (printable_char c = true -> okc c) -> vis q = true -> ctext (repr_char q c).
Proof.
  intros q c H Q. unfold repr_char. destruct ((c =? q)%N || (c =? 92)%N) eqn:E.
  { apply v_cons; [reflexivity|]. apply v_cons; [|apply v_nil]. apply orb_true_iff in E as [E|E]; apply N.eqb_eq in E; subst c; [exact Q|reflexivity]. }
  repeat match goal with |- context [if (?x =? ?y)%N then _ else _] => destruct (x =? y)%N; [apply v_lit; reflexivity|] end.
  clear E. destruct (_ || _); [apply v_app; [apply v_lit; reflexivity|apply v_hexits]|]. destruct (N.ltb_spec c 127); [apply v_cons; [apply N.ltb_lt; lia|apply v_nil]|].
  destruct (printable_char c) eqn:P; [constructor; [auto|constructor]|]. repeat match goal with |- context [if ?b then _ else _] => destruct b end; (apply v_app; [apply v_lit; reflexivity|apply v_hexits]).
Qed.
Lemma v_repr_any : forall s, (forall c, In c s -> printable_char c = true -> okc c) -> ctext (repr_str s).
Proof.
  intros s H. assert (Q : vis (repr_quote s) = true) by (unfold repr_quote; destruct (_ && _); reflexivity). unfold repr_str. cbv zeta.
  apply v_cons; [exact Q|]. apply v_app; [|apply v_cons; [exact Q|apply v_nil]]. revert Q. generalize (repr_quote s). intros q Q. induction s as [|c s IH]; [apply v_nil|]. cbn [flat_map]. apply v_app; [|apply IH; intros; apply H; [right|]; assumption].
  apply v_repr_char; [apply H; left; reflexivity|exact Q].
Qed.
Lemma v_repr_str : forall s, ctext s -> ctext (repr_str s).
Proof. intros s H. apply v_repr_any. intros c I _. unfold ctext in H. rewrite Forall_forall in H. auto. Qed.

Definition tame (e : event) : Prop := exists s, e = EvPrint s /\ ctext s.
Definition v_dval (d : dval) : Prop := ctext (cell_text d).
Definition ok {A} (P : A -> Prop) (m : M A) : Prop := Forall tame (fst m) /\ match snd m with Ok a => P a | Err _ => True end.
Lemma ok_ret : forall A (P : A -> Prop) a, P a -> ok P (ret a).
Proof. intros. split; [constructor|assumption]. Qed.
Lemma ok_str : forall s, ctext s -> ok v_dval (ret (DStr s)).
Proof. intros. apply ok_ret. assumption. Qed.
Lemma ok_float : forall x, ok v_dval (ret (DFloat x)).
Proof. intros. apply ok_ret. apply v_repr_fl. Qed.
Lemma ok_raise : forall A (P : A -> Prop) e, ok P (raise e).
Proof. intros. split; [constructor|exact Logic.I]. Qed.
Lemma ok_bind : forall A B (P : A -> Prop) (Q : B -> Prop) m k, ok P m -> (forall a, P a -> ok Q (k a)) -> ok Q (bind m k).
Proof.
  intros A B P Q [o [a|e]] k (H1 & H2) K; cbn [fst snd] in *; cbn [bind]; [|split; auto]. destruct (K a H2) as (K1 & K2). destruct (k a) as [o' r]. cbn [fst snd] in *. split; [apply Forall_app; auto|exact K2].
Qed.
Lemma ok_say : forall s, ctext s -> ok (fun _ => True) (say s).
Proof. intros s V. split; [|exact Logic.I]. constructor; [|constructor]. exists s. auto. Qed.
Lemma ok_index : forall s i, ctext s -> ok ctext (lift (index s i)).
Proof.
  intros s i H. unfold index. split; [constructor|]. cbn [lift snd]. destruct (nth_error s i) eqn:E; [|exact Logic.I]. constructor; [|constructor]. apply nth_error_In in E. unfold ctext in H. rewrite Forall_forall in H. auto.
Qed.
Lemma ok_float_of : forall s, ok (fun _ => True) (float_of s).
Proof. intros. unfold float_of. destruct (py_float s); [apply ok_ret; exact Logic.I|apply ok_raise]. Qed.
Lemma ok_int_of : forall s, ok (fun _ => True) (int_of s).
Proof. intros. unfold int_of. destruct (py_int s); [apply ok_ret; exact Logic.I|apply ok_raise]. Qed.
Lemma ok_upper : forall s, ok (fun _ => True) (uppercase_index s).
Proof. intros s. unfold uppercase_index. destruct s as [|c [|c' s]]; try apply ok_raise. destruct (_ && _); [apply ok_ret; exact Logic.I|apply ok_raise]. Qed.
Lemma v_holding : forall v, ctext v -> match holding_time v with inl t | inr t => ctext t end.
Proof.
  intros v H. unfold holding_time. assert (I : ctext index_error) by (apply v_lit; reflexivity).
  assert (E : forall i c, nth_error v i = Some c -> ctext (int_error [c])).
  { intros i c K. apply v_app; [apply v_lit; reflexivity|]. apply v_repr_str. apply nth_error_In in K. unfold ctext in H. rewrite Forall_forall in H. constructor; [auto|constructor]. }
  destruct (nth_error v 0) eqn:E0; [|exact I]. destruct (py_int [n]); [|eapply E; eauto]. destruct (nth_error v 1) eqn:E1; [|exact I]. destruct (py_int [n0]); [|eapply E; eauto].
  repeat (apply v_app; [first [apply v_str_of_Z|apply v_lit; reflexivity]|]). apply v_lit; reflexivity.
Qed.

Ltac vt := repeat first
  [ assumption
  | match goal with
    | |- ctext (if ?b then _ else _) => destruct b
    | |- ctext (lookup_bad (if ?b then _ else _) _ _) => destruct b
    | |- ctext (lstrip0 _) => unfold lstrip0
    | |- ctext (match List.length ?x with _ => _ end) => destruct (List.length x) as [|[|[|[|[|]]]]]
    | |- ctext (desc_part ?t ?c) => apply v_desc; vm_compute; reflexivity
    end
  | apply v_app | apply v_strip | apply v_slice | (unfold slice_from; apply v_skipn) | (unfold slice_to; apply v_firstn) | apply v_fmt_fixed | apply v_fmt03 | apply v_str_of_Z
  | apply v_quoted | (apply v_lookup; vm_compute; reflexivity) | (apply v_lookup_bad; [vm_compute; reflexivity| |]) | (apply v_drop_while) | (apply v_lit; vm_compute; reflexivity) | apply v_nil ].
Ltac dec := repeat first
  [ match goal with
    | |- ok _ (ret (DStr _)) => apply ok_str; solve [vt]
    | |- ok _ (ret (DFloat _)) => apply ok_float
    | |- ok _ (ret DNone) => apply ok_ret; apply v_lit; reflexivity
    | |- ok _ (raise _) => apply ok_raise
    | |- ok _ (bind (lift (index _ _)) _) => eapply ok_bind; [apply ok_index; solve [vt]|intros ? ?]
    | |- ok _ (bind (float_of _) _) => eapply ok_bind; [apply ok_float_of|intros ? ?]
    | |- ok _ (bind (int_of _) _) => eapply ok_bind; [apply ok_int_of|intros ? ?]
    | |- ok _ (bind (uppercase_index _) _) => eapply ok_bind; [apply ok_upper|intros ? ?]
    | |- ok _ (bind (say _) _) => eapply ok_bind; [apply ok_say; solve [vt]|intros ? ?]
    | |- ok _ (if ?b then _ else _) => destruct b
    | |- ok _ (match assoc ?k ?t with _ => _ end) => let E := fresh in destruct (assoc k t) eqn:E; [apply v_assoc in E; [|vm_compute; reflexivity]|]
    end ].
Theorem run_chars : forall f v rv, ctext v -> ctext (rv_ident rv) -> ctext (rv_raw rv) -> ok v_dval (run_fn f v rv).
Proof.
  intros f v rv V I R. destruct f; cbn [run_fn];
    match goal with |- ok _ (?f v rv) => unfold f end; cbv zeta; try unfold alnum4; try solve [dec].
  destruct (blank v); [dec|]. pose proof (v_holding v V) as K. destruct (holding_time v); cbn beta iota in K; dec.
Qed.

Definition good_cell (f : field) : Prop := ctext (f_name f) /\ ctext (f_value f).
Lemma column_chars : forall t ks, ctext t -> ctext (columns t ks).
Proof.
  intros t ks H. induction ks as [|k ks IH]; [constructor|]. unfold columns in *. cbn [flat_map]. apply v_app; [|exact IH]. destruct k as [|k]; [constructor|]. cbn [column].
  destruct (nth_error t k) eqn:E; [|constructor]. constructor; [|constructor]. apply nth_error_In in E. unfold ctext in H. rewrite Forall_forall in H. auto.
Qed.
Lemma layout_chars : forall code prim app cells t, layout_for code prim app = Some cells -> ctext t -> Forall good_cell (map (field_of t) cells).
Proof.
  intros code prim app cells t H V. apply layout_in in H. destruct H as (e & I & ->). apply Forall_map, Forall_forall. intros c J. split; [|apply column_chars; exact V].
  destruct (names_in catalogue catalogue_names e c I J) as (K & _). cbn [field_of f_name]. eapply Forall_impl; [|exact K]. intros x X. apply okc_ascii. unfold visible in X. lia.
Qed.
Lemma cls_name_chars : forall d, ctext (cls_name d).
Proof. intros d. destruct d; apply v_lit; reflexivity. Qed.
Lemma read_chars : forall line, ctext line -> let '(o, r', res) := read new_record line in
  Forall tame o /\ Forall good_cell (fields r') /\ ctext (ident r') /\ ctext (raw r').
Proof.
  intros line V. destruct (validate line) eqn:VA.
  2:{ unfold read. rewrite VA. cbn [negb]. repeat split; constructor. }
  rewrite read_expected by exact VA. unfold expected_read. pose proof (v_strip _ V) as VS. destruct (section_of line) as [code|] eqn:S; [|repeat split; try constructor; exact VS].
  assert (VC : ctext code).
  { unfold section_of in S. cbv zeta in S. repeat match type of S with context [if ?b then _ else _] => destruct b end; try discriminate; injection S as <-; apply column_chars; exact V. }
  assert (E : forall r, ctext (ident r) -> ctext (raw r) -> Forall good_cell (fields r) -> let '(o, r', res) := expected_fields code line r in
    Forall tame o /\ Forall good_cell (fields r') /\ ctext (ident r') /\ ctext (raw r')).
  { intros r I R F. unfold expected_fields. destruct (layout_for _ _ _) as [cs|] eqn:L; [repeat split; try assumption; [constructor|eapply layout_chars; eauto]|].
    destruct (raising code); repeat split; try assumption; constructor. }
  cbv zeta. destruct (fst (type_columns code)) as [k|]; [|apply E; [exact VC|exact VS|constructor]]. destruct (isalnum _); [apply E; [exact VC|exact VS|constructor]|].
  split; [|repeat split; try assumption; constructor]. destruct (record_class code) as [d|]; [|constructor]. unfold bad_continuation. cbn [continuation raw].
  pose proof (column_chars (strip line) [k] VS). pose proof (cls_name_chars d).
  repeat (constructor; [eexists; split; [reflexivity|solve [vt]]|]). constructor.
Qed.
Definition ev_chars (e : event) : Prop := forall c, mentions e c -> okc c.
Lemma tame_chars : forall e, tame e -> ev_chars e.
Proof. intros e (s & -> & H) c K. inversion K; subst. unfold ctext in H. rewrite Forall_forall in H. auto. Qed.
Lemma tames_chars : forall o, Forall tame o -> Forall ev_chars o.
Proof. intros o. apply Forall_impl. exact tame_chars. Qed.
Definition row_chars (r : table_row) : Prop := ctext (fst (fst r)) /\ ctext (snd (fst r)) /\ v_dval (snd r).
Lemma rows_chars : forall v fs, ctext (rv_ident v) -> ctext (rv_raw v) -> Forall good_cell fs -> ok (Forall row_chars) (decode_rows v fs).
Proof.
  intros v fs I R. induction 1 as [|f fs (N1 & V1) F IH]; [apply ok_ret; constructor|]. cbn [decode_rows]. eapply ok_bind; [apply run_chars; assumption|]. intros d D.
  eapply ok_bind; [exact IH|]. intros rows K. apply ok_ret. constructor; [|exact K]. split; [exact N1|]. split; [|exact D]. cbn [fst snd]. vt.
Qed.
Lemma table_chars : forall rows, Forall row_chars rows -> ev_chars (EvTable rows).
Proof.
  intros rows H c K. unfold row_chars, v_dval, ctext in H. rewrite Forall_forall in H. inversion K as [| |? ? ? ? ? X Y|? ? ? ? ? X Y|? ? ? d ? ? X T Y]; subst; destruct (H _ X) as (A & B & D); cbn [fst snd] in *.
  - rewrite Forall_forall in A. auto.
  - rewrite Forall_forall in B. auto.
  - rewrite Forall_forall in D. apply D. destruct d; cbn in T |- *; subst; exact Y.
Qed.
Definition clean {A} (m : M A) : Prop := Forall ev_chars (fst m).
Lemma clean_bind : forall A B (m : M A) (k : A -> M B), clean m -> (forall a, snd m = Ok a -> clean (k a)) -> clean (bind m k).
Proof. intros A B [o [a|e]] k H K; cbn [bind]; [|exact H]. specialize (K a eq_refl). unfold clean in *. destruct (k a) as [o' r]. cbn [fst] in *. apply Forall_app. auto. Qed.
Lemma clean_each : forall A (f : A -> M unit) l, (forall x, In x l -> clean (f x)) -> clean (for_each f l).
Proof. intros A f l. induction l as [|x l IH]; intros H; [constructor|]. cbn [for_each]. apply clean_bind; [apply H; left; reflexivity|]. intros _ _. apply IH. intros y Y. apply H. right. exact Y. Qed.
Lemma parse_chars : forall line output, ctext line -> clean (parse line output).
Proof.
  intros line output V. unfold clean, parse. pose proof (read_chars line V) as K. destruct (read new_record line) as [[o r'] res]. destruct K as (T & F & I & R).
  destruct res as [[|]|e]; try (apply tames_chars; exact T). pose proof (rows_chars (view r') (fields r') I R F) as (T' & D). unfold decode.
  destruct (decode_rows (view r') (fields r')) as [o' [rows|e]]; cbn [fst snd bind emit ret] in *; [|cbn [fst]; apply Forall_app; split; apply tames_chars; assumption].
  destruct output; cbn [fst snd bind emit ret]; repeat (apply Forall_app; split); try (apply tames_chars; assumption); repeat constructor. apply table_chars. exact D.
Qed.
Lemma universal_chars : forall n t, List.length t <= n -> ctext t -> ctext (universal_newlines t).
Proof.
  induction n as [|n IH]; intros [|c t] L H; cbn in L; try (apply v_nil); try lia. inversion H; subst. cbn [universal_newlines]. destruct (c =? 13)%N; [|constructor; [assumption|apply IH; [lia|assumption]]].
  destruct t as [|d t]; [apply v_cons; [reflexivity|apply v_nil]|]. inversion H3; subst. cbn in L. destruct (d =? 10)%N; (apply v_cons; [reflexivity|]); apply IH; try assumption; cbn; lia.
Qed.
Lemma lines_chars : forall t, ctext t -> Forall ctext (lines_keep t).
Proof.
  induction 1 as [|c t C H IH]; [constructor|]. cbn [lines_keep]. destruct (c =? 10)%N; [constructor; [constructor; [exact C|constructor]|exact IH]|].
  destruct (lines_keep t) as [|l ls]; [repeat constructor; exact C|]. inversion IH; subst. constructor; [constructor; assumption|assumption].
Qed.
Lemma readlines_chars : forall t, ctext t -> Forall ctext (readlines t).
Proof. intros t H. apply lines_chars. eapply universal_chars; [apply le_n|exact H]. Qed.
Lemma file_chars : forall w path output, (forall t, open_text w path = Ok t -> ctext t) -> clean (read_file w path output).
Proof.
  intros w path output H. unfold read_file. apply clean_bind; [constructor|]. intros t T. cbn [lift snd] in T. apply H in T. apply clean_each. intros l L. apply clean_bind; [|intros; constructor].
  apply parse_chars. pose proof (readlines_chars t T) as K. rewrite Forall_forall in K. auto.
Qed.
Lemma folder_chars : forall w path, (forall ns n t, scandir w path = Ok ns -> In n ns -> open_text w (path_join path n) = Ok t -> ctext t) -> clean (read_folder w path).
Proof. intros w path H. unfold read_folder. apply clean_bind; [constructor|]. intros ns E. apply clean_each. intros n I. apply file_chars. intros t. exact (H ns n t E I). Qed.
Lemma search_lines_chars : forall fl ls count, Forall ctext ls -> clean (search_lines fl count ls).
Proof.
  intros fl. induction ls as [|l ls IH]; intros count H; [constructor|]. inversion H; subst. cbn [search_lines]. pose proof (read_chars l H2) as K. destruct (read new_record l) as [[o r] [b|e]]; destruct K as (T & _ & _ & R); [|apply tames_chars; exact T].
  apply clean_bind; [apply tames_chars; exact T|]. intros _ _. destruct (negb b); [apply IH; assumption|]. destruct (negb _); [apply IH; assumption|]. apply clean_bind; [|intros; apply IH; assumption].
  constructor; [|constructor]. apply tame_chars. exists (raw r). auto.
Qed.
Lemma search_chars : forall w file fl, (forall t, open_text w file = Ok t -> ctext t) -> ctext (filters_text fl) -> clean (search w file fl).
Proof.
  intros w file fl H F. unfold search. apply clean_bind; [constructor|]. intros t T. cbn [lift snd] in T. apply H in T. apply clean_bind; [apply search_lines_chars, readlines_chars; exact T|]. intros n _.
  constructor; [|constructor]. intros c K. inversion K; subst. assert (X : ctext (lit "Found " ++ str_of_Z (Z.of_nat n) ++ lit " records that contain " ++ filters_text fl)) by vt. unfold ctext in X. rewrite Forall_forall in X. auto.
Qed.
Lemma items_chars : forall l, (forall s c, In s l -> In c s -> printable_char c = true -> okc c) -> ctext (repr_items l).
Proof.
  induction l as [|s l IH]; intros H; [apply v_nil|]. assert (V : ctext (repr_str s)) by (apply v_repr_any; intros c; apply H; left; reflexivity). cbn [repr_items]. destruct l as [|s' l]; [exact V|].
  apply v_app; [exact V|]. apply v_app; [apply v_lit; reflexivity|]. apply IH. intros x c X. apply H. right. exact X.
Qed.
Lemma list_chars : forall l, (forall s c, In s l -> In c s -> printable_char c = true -> okc c) -> ctext (repr_list l).
Proof. intros l H. unfold repr_list. apply v_app; [apply v_lit; reflexivity|]. apply v_app; [apply items_chars; exact H|apply v_lit; reflexivity]. Qed.
End Chars.

(* ---- the characters of the console ---- *)
Definition asc_or (P : N -> Prop) (c : N) : Prop := (c < 128)%N \/ P c.
Lemma asc_or_ascii : forall P c, (c < 128)%N -> asc_or P c.
Proof. left. assumption. Qed.
Lemma split_lines_in : forall s l c, In l (split_lines s) -> In c l -> In c s.
Proof.
  induction s as [|x s IH]; intros l c H K; cbn [split_lines] in H; [destruct H as [<-|[]]; destruct K|]. destruct (x =? nl)%N; [destruct H as [<-|H]; [destruct K|right; eapply IH; eassumption]|].
  destruct (split_lines s) as [|l' ls]; [destruct H as [<-|[]]; exact (match K with or_introl E => or_introl E | or_intror F => match F with end end)|]. destruct H as [<-|H]; [destruct K as [<-|K]; [left; reflexivity|right; apply (IH l' c); [left; reflexivity|exact K]]|]. right. apply (IH l c); [right; exact H|exact K].
Qed.
Lemma join_lines_in : forall ls c, In c (join_lines ls) -> c = nl \/ exists l, In l ls /\ In c l.
Proof.
  induction ls as [|l ls IH]; intros c H; [destruct H|]. cbn [join_lines] in H. destruct ls as [|l' ls]; [right; exists l; split; [left; reflexivity|exact H]|]. apply in_app_or in H as [H|[H|H]]; [right; exists l; split; [left; reflexivity|exact H]|left; auto|].
  destruct (IH c H) as [E|(x & X & Y)]; [left; exact E|right; exists x; split; [right; exact X|exact Y]].
Qed.
Lemma hrule_in : forall ws c, In c (hrule ws) -> (c < 128)%N.
Proof.
  intros ws c [<-|H]; [reflexivity|]. apply in_flat_map in H as (w & _ & H). apply in_app_or in H as [H|[<-|[]]]; [|reflexivity]. apply repeat_spec in H. subst c. reflexivity.
Qed.
Lemma row_line_in : forall ws row y c, In c (row_line ws row y) -> asc_or (fun c => exists x, In x row /\ In c x) c.
Proof.
  intros ws row y c [<-|H]; [left; reflexivity|]. apply in_flat_map in H as ([w x] & W & H). cbn [fst snd] in H. apply in_combine_r in W. apply in_app_or in H as [[<-|[]]|H]; [left; reflexivity|].
  apply in_app_or in H as [H|[<-|[<-|[]]]]; [|left; reflexivity|left; reflexivity]. unfold justify in H. apply in_app_or in H as [H|H]; [|apply repeat_spec in H; subst c; left; reflexivity].
  right. exists x. split; [exact W|]. destruct (nth_in_or_default y (split_lines x) []) as [I|E]; [eapply split_lines_in; eassumption|rewrite E in H; destruct H].
Qed.
Lemma get_string_in : forall rows c, In c (get_string rows) -> asc_or (mentions (EvTable rows)) c.
Proof.
  intros rows c H. unfold get_string in H. cbv zeta in H. apply join_lines_in in H as [->|(l & L & C)]; [left; reflexivity|]. cbn [app] in L. destruct L as [<-|[<-|[<-|L]]]; try (left; eapply hrule_in; exact C).
  { apply row_line_in in C as [C|(x & X & C)]; [left; exact C|]. left. destruct X as [<-|[<-|[<-|[]]]]; cbn in C; repeat (destruct C as [<-|C]; [reflexivity|]); destruct C. }
  apply in_app_or in L as [L|[<-|[]]]; [|left; eapply hrule_in; exact C]. apply in_flat_map in L as (r & R & L). apply in_map_iff in R as ([[n v] d] & <- & R). unfold row_lines in L. apply in_map_iff in L as (y & <- & _).
  apply row_line_in in C as [C|(x & X & C)]; [left; exact C|]. right. cbn [cells] in X. destruct X as [<-|[<-|[<-|[]]]]; [eapply in_name; eassumption|eapply in_value; eassumption|]. eapply in_decoded; [exact R| |exact C]. destruct d; reflexivity.
Qed.
Lemma colour_in : forall b c t x, In x (colored b c t) -> (x < 128)%N \/ In x t.
Proof.
  intros b c t x H. unfold colored in H. destruct b; [|right; exact H]. destruct H as [<-|H]; [left; reflexivity|]. apply in_app_or in H as [H|H]; [cbn in H; repeat (destruct H as [<-|H]; [left; reflexivity|]); destruct H|].
  apply in_app_or in H as [H|H]; [unfold colour_code in H; destruct (str_eqb _ _); cbn in H; repeat (destruct H as [<-|H]; [left; reflexivity|]); destruct H|].
  apply in_app_or in H as [H|H]; [cbn in H; repeat (destruct H as [<-|H]; [left; reflexivity|]); destruct H|]. apply in_app_or in H as [H|[<-|H]]; [right; exact H|left; reflexivity|].
  cbn in H; repeat (destruct H as [<-|H]; [left; reflexivity|]); destruct H.
Qed.
Lemma console_in : forall colours evs c, In c (console colours evs) -> (c < 128)%N \/ exists e, In e evs /\ mentions e c.
Proof.
  intros colours evs c H. apply in_flat_map in H as (e & E & H). unfold print in H. apply in_app_or in H as [H|[<-|[]]]; [|left; reflexivity]. destruct e as [s|rows|col t].
  - right. exists (EvPrint s). split; [exact E|constructor; exact H].
  - apply get_string_in in H as [H|H]; [left; exact H|right; eauto].
  - apply colour_in in H as [H|H]; [left; exact H|right; eexists; split; [exact E|constructor; exact H]].
Qed.
Lemma clean_console : forall (P : N -> Prop) A (m : M A) colours, (forall c, (c < 128)%N -> P c) -> clean P m -> Forall P (console colours (fst m)).
Proof.
  intros P A m colours H K. apply Forall_forall. intros c C. apply console_in in C as [C|(e & E & C)]; [auto|]. unfold clean in K. rewrite Forall_forall in K. exact (K e E c C).
Qed.
