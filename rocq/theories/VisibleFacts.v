(* Lemmas: a line of visible characters makes the decoders return and print visible characters only. *)
From Coq Require Import List String NArith ZArith Bool Arith Lia.
From Verif Require Import PyBase PyRepr DecoderTables Decoder Record Console SpecConsole ConsoleFacts.
Import ListNotations.
Open Scope string_scope.
Open Scope list_scope.
Local Open Scope nat_scope.

Definition vis (c : N) : bool := (32 <=? c)%N && (c <=? 126)%N.
Lemma vis_iff : forall s, forallb vis s = true <-> visible_text s.
Proof.
  intros s. unfold visible_text. rewrite Forall_forall, forallb_forall. unfold vis, visible. split; intros H c I; specialize (H c I).
  - rewrite andb_true_iff, !N.leb_le in H. exact H.
  - rewrite andb_true_iff, !N.leb_le. exact H.
Qed.
Lemma v_lit : forall s, forallb vis (lit s) = true -> visible_text (lit s).
Proof. intros s. apply vis_iff. Qed.
Lemma v_nil : visible_text [].
Proof. constructor. Qed.
Lemma v_app : forall a b, visible_text a -> visible_text b -> visible_text (a ++ b).
Proof. intros. apply Forall_app. auto. Qed.
Lemma v_cons : forall c b, vis c = true -> visible_text b -> visible_text (c :: b).
Proof. intros c b H K. constructor; [|exact K]. unfold vis in H. rewrite andb_true_iff, !N.leb_le in H. exact H. Qed.
Lemma v_incl : forall a b, incl a b -> visible_text b -> visible_text a.
Proof. intros a b H K. apply Forall_forall. intros c I. unfold visible_text in K; rewrite Forall_forall in K. auto. Qed.
Lemma v_repeat : forall c n, vis c = true -> visible_text (repeat c n).
Proof. induction n; intros; [apply v_nil|]. apply v_cons; auto. Qed.
Lemma v_firstn : forall n s, visible_text s -> visible_text (firstn n s).
Proof. intros n s. apply v_incl. intros c H. rewrite <- (firstn_skipn n s). apply in_or_app. auto. Qed.
Lemma v_skipn : forall n s, visible_text s -> visible_text (skipn n s).
Proof. intros n s. apply v_incl. intros c H. rewrite <- (firstn_skipn n s). apply in_or_app. auto. Qed.
Lemma v_slice : forall a b s, visible_text s -> visible_text (slice a b s).
Proof. intros. apply v_firstn, v_skipn. assumption. Qed.
Lemma v_drop_while : forall p s, visible_text s -> visible_text (drop_while p s).
Proof. intros p s. apply v_incl. induction s as [|c s IH]; [intros x H; exact H|]. cbn [drop_while]. destruct (p c); [apply incl_tl; exact IH|apply incl_refl]. Qed.
Lemma v_rev : forall s, visible_text s -> visible_text (rev s).
Proof. intros s. apply v_incl. intros c H. apply in_rev. exact H. Qed.
Lemma v_drop_end : forall p s, visible_text s -> visible_text (drop_while_end p s).
Proof. intros. apply v_rev, v_drop_while, v_rev. assumption. Qed.
Lemma v_strip : forall s, visible_text s -> visible_text (strip s).
Proof. intros. apply v_drop_end, v_drop_while. assumption. Qed.
Lemma v_str_of_N : forall n, visible_text (str_of_N n).
Proof. intros n. unfold str_of_N. induction (N.to_uint n); cbn [uint_str]; [apply v_nil|..]; (apply v_cons; [reflexivity|assumption]). Qed.
Lemma v_str_of_Z : forall z, visible_text (str_of_Z z).
Proof. intros z. unfold str_of_Z. destruct (z <? 0)%Z; [apply v_cons; [reflexivity|]|]; apply v_str_of_N. Qed.
Lemma v_zpad : forall w s, visible_text s -> visible_text (zpad w s).
Proof. intros. apply v_app; [apply v_repeat; reflexivity|assumption]. Qed.
Lemma v_fmt03 : forall z, visible_text (fmt03 z).
Proof. intros z. unfold fmt03. destruct (z <? 0)%Z; [apply v_cons; [reflexivity|]|]; apply v_zpad, v_str_of_N. Qed.
Lemma v_sign : forall b, visible_text (sign_str b).
Proof. intros []; [apply v_cons; [reflexivity|]|]; apply v_nil. Qed.
Lemma v_fixed : forall k n, visible_text (fixed_str k n).
Proof. intros. apply v_app; [apply v_str_of_N|]. apply v_cons; [reflexivity|]. apply v_zpad, v_str_of_N. Qed.
Lemma v_fmt_fixed : forall k x, visible_text (fmt_fixed k x).
Proof. intros k []; cbn [fmt_fixed]; try (apply v_app; [apply v_sign|]); try apply v_fixed; apply v_lit; reflexivity. Qed.
Lemma v_shortest : forall n nd m e p q, visible_text (fst (shortest n nd m e p q)).
Proof.
  induction n as [|n IH]; intros; cbn [shortest]; cbv zeta; repeat match goal with |- context [if ?b then _ else _] => destruct b end; cbn [fst]; try apply v_str_of_Z; apply IH.
Qed.
Lemma v_exp : forall x, visible_text (exp_str x).
Proof. intros x. unfold exp_str. apply v_app; [destruct (x <? 0)%Z; (apply v_cons; [reflexivity|apply v_nil])|apply v_zpad, v_str_of_N]. Qed.
Lemma v_repr_digits : forall ds x, visible_text ds -> visible_text (repr_digits ds x).
Proof.
  intros ds x H. unfold repr_digits. cbv zeta. assert (K : visible_text (strip_trailing0 ds)) by (apply v_drop_end; exact H). destruct ((-4 <=? x)%Z && (x <? 16)%Z).
  - destruct (x <? 0)%Z; [|destruct (_ <=? _)%Z].
    + apply v_app; [apply v_lit; reflexivity|]. apply v_app; [apply v_repeat; reflexivity|exact K].
    + apply v_app; [exact K|]. apply v_app; [apply v_repeat; reflexivity|apply v_lit; reflexivity].
    + apply v_app; [apply v_firstn; exact K|]. apply v_cons; [reflexivity|apply v_skipn; exact K].
  - destruct (strip_trailing0 ds) as [|d [|d' r]]; [apply v_nil|..]; inversion K; subst; (apply v_app; [constructor; [assumption|apply v_cons; [reflexivity|apply v_nil]]|]); [apply v_exp|].
    apply v_app; [assumption|]. apply v_cons; [reflexivity|apply v_exp].
Qed.
Lemma v_repr_fl : forall x, visible_text (repr_fl x).
Proof.
  intros []; cbn [repr_fl]; cbv zeta; try (apply v_app; [apply v_sign|]); try (apply v_lit; reflexivity).
  match goal with |- context [shortest ?a ?b ?c ?d ?e ?f] => pose proof (v_shortest a b c d e f); destruct (shortest a b c d e f) end. apply v_app; [apply v_sign|]. apply v_repr_digits. assumption.
Qed.
Lemma v_assoc : forall k (t : list (str * str)) x, forallb (fun p => forallb vis (snd p)) t = true -> assoc k t = Some x -> visible_text x.
Proof.
  induction t as [|[k' v] t IH]; intros x H E; [discriminate|]. cbn [forallb] in H. apply andb_true_iff in H. cbn [assoc] in E. destruct (str_eqb k k'); [injection E as <-; apply vis_iff; apply H|]. apply IH; [apply H|exact E].
Qed.
Lemma v_lookup : forall (t : list (str * str)) k, forallb (fun p => forallb vis (snd p)) t = true -> visible_text (lookup t k).
Proof. intros t k H. unfold lookup. destruct (assoc k t) eqn:E; [eapply v_assoc; eauto|]. apply v_lit. reflexivity. Qed.
Lemma v_lookup_bad : forall (t : list (str * str)) s k, forallb (fun p => forallb vis (snd p)) t = true -> visible_text s -> visible_text k -> visible_text (lookup_bad t s k).
Proof. intros. unfold lookup_bad. destruct (negb _); [apply v_lookup; assumption|apply v_app; assumption]. Qed.
Lemma v_desc : forall (t : list (str * str)) c, forallb (fun p => forallb vis (snd p)) t = true -> visible_text (desc_part t c).
Proof. intros. unfold desc_part. destruct (assoc c t) eqn:E; [eapply v_assoc; eauto|apply v_nil]. Qed.
Lemma v_quoted : forall s, visible_text s -> visible_text (quoted s).
Proof. intros. apply v_app; [apply v_lit; reflexivity|]. apply v_app; [assumption|apply v_lit; reflexivity]. Qed.
Lemma v_repr_str : forall s, visible_text s -> visible_text (repr_str s).
Proof.
  intros s H. assert (Q : vis (repr_quote s) = true) by (unfold repr_quote; destruct (_ && _); reflexivity). unfold repr_str. cbv zeta.
  apply v_cons; [exact Q|]. apply v_app; [|apply v_cons; [exact Q|apply v_nil]]. generalize (repr_quote s). intros q. clear Q. induction H as [|c s V H IH]; [apply v_nil|]. cbn [flat_map]. apply v_app; [|exact IH].
  unfold repr_char. destruct (_ || _); [apply v_cons; [reflexivity|constructor; [exact V|apply v_nil]]|].
  destruct (c =? 9)%N; [apply v_lit; reflexivity|]. destruct (c =? 10)%N; [apply v_lit; reflexivity|]. destruct (c =? 13)%N; [apply v_lit; reflexivity|]. unfold visible in V.
  destruct ((c <? 32)%N || (c =? 127)%N) eqn:E; [rewrite orb_true_iff, N.ltb_lt, N.eqb_eq in E; lia|]. destruct (N.ltb_spec c 127); [|lia]. constructor; [exact V|apply v_nil].
Qed.

(* what is printed beside the table: a visible line that does not look like one of a table *)
Definition tame (e : event) : Prop := exists s, e = EvPrint s /\ visible_text s /\ (forall t, s <> plus :: t) /\ s <> [].
Definition v_dval (d : dval) : Prop := visible_lines (cell_text d).
Lemma v_vl : forall s, visible_text s -> visible_lines s.
Proof. intros s. apply Forall_impl. auto. Qed.
Lemma vl_incl : forall a b, incl a b -> visible_lines b -> visible_lines a.
Proof. intros a b H K. apply Forall_forall. intros c I. unfold visible_lines in K. rewrite Forall_forall in K. auto. Qed.
Lemma vl_strip : forall s, visible_lines s -> visible_lines (strip s).
Proof.
  assert (D : forall p s, incl (drop_while p s) s) by (intros p s; induction s as [|c s IH]; [apply incl_refl|]; cbn [drop_while]; destruct (p c); [apply incl_tl; exact IH|apply incl_refl]).
  intros s. apply vl_incl. unfold strip, drop_while_end. intros c H. apply in_rev in H. apply D in H. apply in_rev in H. apply D in H. exact H.
Qed.
Lemma vl_desc : forall (t : list (str * str)) c, forallb (fun p => forallb (fun x => vis x || (x =? nl)%N) (snd p)) t = true -> visible_lines (desc_part t c).
Proof.
  induction t as [|[k v] t IH]; intros c H; [constructor|]. cbn [forallb snd] in H. apply andb_true_iff in H. destruct H as (H & K). unfold desc_part. cbn [assoc]. destruct (str_eqb c k); [|apply (IH c K)].
  apply Forall_forall. intros x I. rewrite forallb_forall in H. specialize (H x I). unfold vis in H. rewrite orb_true_iff, andb_true_iff, !N.leb_le, N.eqb_eq in H. exact H.
Qed.
Definition ok {A} (P : A -> Prop) (m : M A) : Prop := Forall tame (fst m) /\ match snd m with Ok a => P a | Err _ => True end.
Lemma ok_ret : forall A (P : A -> Prop) a, P a -> ok P (ret a).
Proof. intros. split; [constructor|assumption]. Qed.
Lemma ok_str : forall s, visible_text s -> ok v_dval (ret (DStr s)).
Proof. intros. apply ok_ret. apply v_vl. assumption. Qed.
Lemma ok_float : forall x, ok v_dval (ret (DFloat x)).
Proof. intros. apply ok_ret. apply v_vl, v_repr_fl. Qed.
Lemma ok_raise : forall A (P : A -> Prop) e, ok P (raise e).
Proof. intros. split; [constructor|exact Logic.I]. Qed.
Lemma ok_bind : forall A B (P : A -> Prop) (Q : B -> Prop) m k, ok P m -> (forall a, P a -> ok Q (k a)) -> ok Q (bind m k).
Proof.
  intros A B P Q [o [a|e]] k (H1 & H2) K; cbn [fst snd] in *; cbn [bind]; [|split; auto]. destruct (K a H2) as (K1 & K2). destruct (k a) as [o' r]. cbn [fst snd] in *. split; [apply Forall_app; auto|exact K2].
Qed.
Lemma ok_say : forall w s, visible_text (lit w ++ s) -> (forall t, lit w <> plus :: t) -> lit w <> [] -> ok (fun _ => True) (say (lit w ++ s)).
Proof.
  intros w s V N1 N2. split; [|exact Logic.I]. constructor; [|constructor]. eexists. split; [reflexivity|]. split; [exact V|]. destruct (lit w) as [|c l]; [congruence|]. split; [|discriminate].
  intros t H. cbn in H. injection H as -> _. apply (N1 l). reflexivity.
Qed.
Lemma ok_index : forall s i, visible_text s -> ok visible_text (lift (index s i)).
Proof.
  intros s i H. unfold index. split; [constructor|]. cbn [lift snd]. destruct (nth_error s i) eqn:E; [|exact Logic.I]. constructor; [|constructor]. apply nth_error_In in E. unfold visible_text in H. rewrite Forall_forall in H. auto.
Qed.
Lemma ok_float_of : forall s, ok (fun _ => True) (float_of s).
Proof. intros. unfold float_of. destruct (py_float s); [apply ok_ret; exact Logic.I|apply ok_raise]. Qed.
Lemma ok_int_of : forall s, ok (fun _ => True) (int_of s).
Proof. intros. unfold int_of. destruct (py_int s); [apply ok_ret; exact Logic.I|apply ok_raise]. Qed.
Lemma ok_upper : forall s, ok (fun _ => True) (uppercase_index s).
Proof. intros s. unfold uppercase_index. destruct s as [|c [|c' s]]; try apply ok_raise. destruct (_ && _); [apply ok_ret; exact Logic.I|apply ok_raise]. Qed.
Lemma v_holding : forall v, visible_text v -> match holding_time v with inl t | inr t => visible_text t end.
Proof.
  intros v H. unfold holding_time. assert (I : visible_text index_error) by (apply v_lit; reflexivity).
  assert (E : forall i c, nth_error v i = Some c -> visible_text (int_error [c])).
  { intros i c K. apply v_app; [apply v_lit; reflexivity|]. apply v_repr_str. apply nth_error_In in K. unfold visible_text in H. rewrite Forall_forall in H. constructor; [auto|constructor]. }
  destruct (nth_error v 0) eqn:E0; [|exact I]. destruct (py_int [n]); [|eapply E; eauto]. destruct (nth_error v 1) eqn:E1; [|exact I]. destruct (py_int [n0]); [|eapply E; eauto].
  repeat (apply v_app; [first [apply v_str_of_Z|apply v_lit; reflexivity]|]). apply v_lit; reflexivity.
Qed.

Ltac vt := repeat first
  [ assumption
  | match goal with
    | |- visible_text (if ?b then _ else _) => destruct b
    | |- visible_text (lookup_bad (if ?b then _ else _) _ _) => destruct b
    | |- visible_text (lstrip0 _) => unfold lstrip0
    | |- visible_text (match List.length ?x with _ => _ end) => destruct (List.length x) as [|[|[|[|[|]]]]]
    | |- visible_text (desc_part ?t ?c) => apply v_desc; vm_compute; reflexivity
    end
  | apply v_app | apply v_strip | apply v_slice | (unfold slice_from; apply v_skipn) | (unfold slice_to; apply v_firstn) | apply v_fmt_fixed | apply v_fmt03 | apply v_str_of_Z
  | apply v_quoted | (apply v_lookup; vm_compute; reflexivity) | (apply v_lookup_bad; [vm_compute; reflexivity| |]) | (apply v_drop_while) | (apply v_lit; vm_compute; reflexivity) | apply v_nil ].
Ltac dec := repeat first
  [ match goal with
    | |- ok _ (ret (DStr _)) => apply ok_str; solve [vt]
    | |- ok _ (ret (DFloat _)) => apply ok_float
    | |- ok _ (ret DNone) => apply ok_ret; apply v_vl, v_lit; reflexivity
    | |- ok _ (raise _) => apply ok_raise
    | |- ok _ (bind (lift (index _ _)) _) => eapply ok_bind; [apply ok_index; solve [vt]|intros ? ?]
    | |- ok _ (bind (float_of _) _) => eapply ok_bind; [apply ok_float_of|intros ? ?]
    | |- ok _ (bind (int_of _) _) => eapply ok_bind; [apply ok_int_of|intros ? ?]
    | |- ok _ (bind (uppercase_index _) _) => eapply ok_bind; [apply ok_upper|intros ? ?]
    | |- ok _ (bind (say _) _) => eapply ok_bind; [apply ok_say; [solve [vt]|discriminate|discriminate]|intros ? ?]
    | |- ok _ (if ?b then _ else _) => destruct b
    | |- ok _ (match assoc ?k ?t with _ => _ end) => let E := fresh in destruct (assoc k t) eqn:E; [apply v_assoc in E; [|vm_compute; reflexivity]|]
    end ].
Theorem run_visible : forall f v rv, visible_text v -> visible_text (rv_ident rv) -> visible_text (rv_raw rv) -> ok v_dval (run_fn f v rv).
Proof.
  intros f v rv V I R. destruct f; cbn [run_fn];
    match goal with |- ok _ (?f v rv) => unfold f end; cbv zeta; try unfold alnum4; try solve [dec].
  - eapply ok_bind; [apply ok_index; vt|intros c0 ?]. eapply ok_bind; [apply ok_index; vt|intros c1 ?]. eapply ok_bind; [apply ok_index; vt|intros c2 ?]. eapply ok_bind; [apply ok_index; vt|intros c3 ?].
    apply ok_ret. apply vl_strip. repeat (apply Forall_app; split); apply vl_desc; vm_compute; reflexivity.
  - destruct (blank v); [dec|]. pose proof (v_holding v V) as K. destruct (holding_time v); cbn beta iota in K; dec.
Qed.
