(* repr() writes literals, and a literal has one value. *)
From Coq Require Import List String NArith ZArith Lia Bool.
From Coq Require Import ZifyN ZifyBool.
From Verif Require Import PyStr PyNum PyBase PyRepr Decoder Spec SpecNum SpecPyNum SpecLiteral StrFacts NumFacts NumProps.
Import ListNotations.
Open Scope list_scope.
Local Open Scope N_scope.

(* ---- hexadecimal digits ---- *)
Lemma hexit_val : forall d, d < 16 -> hex_val (hexit d) d.
Proof.
  intros d L. unfold hexit. destruct (N.ltb_spec d 10).
  - replace d with (48 + d - 48) at 2 by lia. constructor. lia.
  - replace d with (87 + d - 87) at 2 by lia. constructor. lia.
Qed.
Lemma positional_app : forall a b n, positional (a ++ b) n = positional b (positional a n).
Proof. induction a as [|d a IH]; intros b n; [reflexivity|]. cbn [app positional]. apply IH. Qed.
Lemma hexits_number : forall k c, c < 16 ^ N.of_nat k -> hex_number (hexits k c) c.
Proof.
  induction k as [|k IH]; intros c L.
  - exists []. split; [constructor|]. cbn in *. lia.
  - destruct (IH (c / 16)) as [ds [F E]].
    { rewrite Nat2N.inj_succ, N.pow_succ_r' in L. apply N.div_lt_upper_bound; lia. }
    exists (ds ++ [c mod 16]). split.
    + cbn [hexits]. apply Forall2_app; auto. constructor; [|constructor]. apply hexit_val. apply N.mod_lt. lia.
    + rewrite positional_app, <- E. cbn [positional]. pose proof (N.div_mod c 16). lia.
Qed.
Lemma hexits_length : forall k c, List.length (hexits k c) = k.
Proof. induction k as [|k IH]; intro c; [reflexivity|]. cbn [hexits]. rewrite app_length, IH. cbn. lia. Qed.

Lemma repr_char_literal : forall q c, In q [39; 34] -> c < 1114112 -> literal_char q (repr_char q c) c.
Proof.
  intros q c Q L. unfold repr_char.
  destruct (N.eqb_spec c q) as [->|NQ]; cbn [orb].
  { apply lc_self. cbn in Q |- *. tauto. }
  destruct (N.eqb_spec c 92) as [->|NB]. { apply lc_self. cbn. tauto. }
  destruct (N.eqb_spec c 9) as [->|N9]. { apply (lc_letter q 116 9). cbn. tauto. }
  destruct (N.eqb_spec c 10) as [->|N10]. { apply (lc_letter q 110 10). cbn. tauto. }
  destruct (N.eqb_spec c 13) as [->|N13]. { apply (lc_letter q 114 13). cbn. tauto. }
  assert (X : forall e k, In (e, k) [(120, 2%nat); (117, 4%nat); (85, 8%nat)] -> c < 16 ^ N.of_nat k -> literal_char q (92 :: e :: hexits k c) c).
  { intros e k I B. apply (lc_hex q e k); auto; [apply hexits_length|apply hexits_number; exact B]. }
  destruct ((c <? 32) || (c =? 127)) eqn:C. { apply (X 120 2%nat); [cbn; tauto|]. cbn. lia. }
  destruct (c <? 127) eqn:D; [constructor; auto|].
  destruct (printable_char c); [constructor; auto|].
  destruct (N.ltb_spec c 256). { apply (X 120 2%nat); [cbn; tauto|]. cbn. lia. }
  destruct (N.ltb_spec c 65536). { apply (X 117 4%nat); [cbn; tauto|]. cbn. lia. }
  apply (X 85 8%nat); [cbn; tauto|]. cbn. lia.
Qed.
Lemma repr_quote_in : forall s, In (repr_quote s) [39; 34].
Proof. intro s. unfold repr_quote. destruct (_ && _); cbn; tauto. Qed.
Lemma repr_str_literal : forall s, text s -> literal (repr_str s) s.
Proof.
  intros s T. unfold repr_str. cbv zeta. exists (repr_quote s), (flat_map (repr_char (repr_quote s)) s). pose proof (repr_quote_in s) as Q.
  split; [exact Q|]. split; [reflexivity|]. generalize dependent (repr_quote s). intros q Q. induction T as [|c s L T IH]; [constructor|].
  cbn [flat_map]. constructor; auto. apply repr_char_literal; auto.
Qed.
Lemma repr_items_literal : forall l, Forall text l -> l <> [] -> literal_items (repr_items l) l.
Proof.
  intros l T. induction T as [|s l T TT IH]; intro NE; [congruence|]. destruct l as [|s' l].
  - constructor. apply repr_str_literal. exact T.
  - change (repr_items (s :: s' :: l)) with (repr_str s ++ lit ", " ++ repr_items (s' :: l)). constructor; [apply repr_str_literal; exact T|]. apply IH. discriminate.
Qed.
Lemma repr_list_literal : forall l, Forall text l -> list_literal (repr_list l) l.
Proof.
  intros [|s l] T; [left; split; reflexivity|]. right. exists (repr_items (s :: l)). split; [reflexivity|]. apply repr_items_literal; auto. discriminate.
Qed.

(* ---- a literal has one value ---- *)
Lemma hex_val_unique : forall c d d', hex_val c d -> hex_val c d' -> d = d'.
Proof. intros c d d' H H'. inversion H; inversion H'; subst; lia. Qed.
Lemma hex_number_unique : forall t n n', hex_number t n -> hex_number t n' -> n = n'.
Proof.
  intros t n n' [ds [F ->]] [ds' [F' ->]]. f_equal. revert ds' F'. induction F as [|c d t ds H _ IH]; intros ds' F'; inversion F'; subst; auto.
  f_equal; auto. eapply hex_val_unique; eauto.
Qed.
Lemma app_eq_length : forall {A} (a a' b b' : list A), List.length a = List.length a' -> a ++ b = a' ++ b' -> a = a' /\ b = b'.
Proof.
  intros A a. induction a as [|x a IH]; intros [|x' a'] b b' L E; try discriminate; auto. cbn in L, E. injection E as -> E. injection L as L.
  destruct (IH _ _ _ L E) as [-> ->]. auto.
Qed.
Lemma literal_char_unique : forall q p c p' c' r r', In q [39; 34] -> literal_char q p c -> literal_char q p' c' -> p ++ r = p' ++ r' -> p = p' /\ c = c' /\ r = r'.
Proof.
  intros q p c p' c' r r' Q H H' E.
  destruct H as [c N1 N2 N3 N4|c I|e c I|e k t c I L X B]; destruct H' as [d M1 M2 M3 M4|d J|e' d J|e' k' t' d J L' X' B'];
    cbn [app] in E; injection E as E1 E; try (injection E as E2 E); try congruence; subst;
    repeat split; auto; try congruence; cbn [In] in *;
    repeat match goal with H : _ \/ _ |- _ => destruct H as [H|H] end; try contradiction;
    repeat match goal with H : (_, _) = (_, _) |- _ => injection H as H end; subst; try discriminate; try congruence;
    (destruct (app_eq_length t t' r r') as [-> ->]; [congruence|exact E|]; try reflexivity; try (eapply hex_number_unique; eauto)).
Qed.
Lemma literal_char_start : forall q p c, In q [39; 34] -> literal_char q p c -> exists x p', p = x :: p' /\ x <> q.
Proof. intros q p c Q H. destruct H; eexists _, _; (split; [reflexivity|]); auto; intros <-; cbn in Q; repeat destruct Q as [Q|Q]; try discriminate; contradiction. Qed.
Lemma literal_body_unique : forall q b s, In q [39; 34] -> literal_body q b s -> forall b' s' r r', literal_body q b' s' ->
  b ++ [q] ++ r = b' ++ [q] ++ r' -> b = b' /\ s = s' /\ r = r'.
Proof.
  intros q b s Q H. induction H as [|p c t s C H IH]; intros b' s' r r' H' E; destruct H' as [|p' c' t' s' C' H'].
  - cbn in E. injection E as ->. auto.
  - destruct (literal_char_start _ _ _ Q C') as [x [y [-> NE]]]. cbn in E. congruence.
  - destruct (literal_char_start _ _ _ Q C) as [x [y [-> NE]]]. cbn in E. congruence.
  - rewrite <- !app_assoc in E. destruct (literal_char_unique _ _ _ _ _ _ _ Q C C' E) as [-> [-> E']].
    destruct (IH _ _ _ _ H' E') as [-> [-> ->]]. auto.
Qed.
Lemma literal_prefix : forall t s t' s' r r', literal t s -> literal t' s' -> t ++ r = t' ++ r' -> t = t' /\ s = s' /\ r = r'.
Proof.
  intros t s t' s' r r' [q [b [Q [-> B]]]] [q' [b' [_ [-> B']]]] E. cbn [app] in E. injection E as -> E. rewrite <- !app_assoc in E.
  destruct (literal_body_unique _ _ _ Q B _ _ _ _ B' E) as [-> [-> ->]]. auto.
Qed.
Lemma literal_unique : forall t s s', literal t s -> literal t s' -> s = s'.
Proof. intros t s s' H H'. destruct (literal_prefix t s t s' [] [] H H' eq_refl) as [_ [E _]]. exact E. Qed.
Lemma literal_items_prefix : forall t l, literal_items t l -> forall t' l' r r', literal_items t' l' -> t ++ lit "]" ++ r = t' ++ lit "]" ++ r' -> t = t' /\ l = l' /\ r = r'.
Proof.
  intros t l H. induction H as [t s S|t s ts l S H IH]; intros t' l' r r' H' E; destruct H' as [t' s' S'|t' s' ts' l' S' H']; rewrite <- ?app_assoc in E;
    destruct (literal_prefix _ _ _ _ _ _ S S' E) as [-> [-> E']]; try discriminate.
  - injection E' as ->. auto.
  - injection E' as E'. destruct (IH _ _ _ _ H' E') as [-> [-> ->]]. auto.
Qed.
Lemma literal_items_head : forall t l, literal_items t l -> exists q t', In q [39; 34] /\ t = q :: t'.
Proof. intros t l H. destruct H as [t s [q [b [Q [-> _]]]]|t s ts l [q [b [Q [-> _]]]] _]; exists q; eexists; (split; [exact Q|reflexivity]). Qed.
Lemma list_literal_unique : forall t l l', list_literal t l -> list_literal t l' -> l = l'.
Proof.
  assert (H : forall b l, literal_items b l -> lit "[" ++ b ++ lit "]" <> lit "[]").
  { intros b l I E. destruct (literal_items_head _ _ I) as [q [b' [Q ->]]]. cbn in E. injection E as -> _. cbn in Q. repeat destruct Q as [Q|Q]; discriminate || contradiction. }
  intros t l l' [[-> ->]|[b [-> B]]] [[E ->]|[b' [E B']]]; auto.
  - exfalso. apply (H b' l' B'). auto.
  - exfalso. apply (H b l B). auto.
  - injection E as E. destruct (literal_items_prefix _ _ B b' l' [] [] B' E) as [_ [-> _]]. auto.
Qed.

(* ---- the message of field_065 ---- *)
Lemma c47_message : forall v r, ~ whitespace v ->
  (forall m t rest, v = m :: t :: rest -> ~ decimal_char m \/ ~ decimal_char t) ->
  exists e, complaint v e /\ run_fn F065 v r =
    ([EvPrint (lit "Error: Invalid value passed to format_time. Value: """ ++ v ++ lit """. Error: " ++ e)], Ok (DStr (lit "Invalid Value: """ ++ v ++ lit """"))).
Proof.
  intros v r NW H. unfold run_fn, field_065. destruct (blank v) eqn:B; [apply blank_iff in B; contradiction|].
  assert (G : forall e, complaint v e -> holding_time v = inr e -> exists e0, complaint v e0 /\
    match holding_time v with
    | inl t => ret (DStr t)
    | inr e => say (lit "Error: Invalid value passed to format_time. Value: " ++ quoted v ++ lit ". Error: " ++ e) ;;; ret (DStr (lit "Invalid Value: " ++ quoted v))
    end = ([EvPrint (lit "Error: Invalid value passed to format_time. Value: """ ++ v ++ lit """. Error: " ++ e0)], Ok (DStr (lit "Invalid Value: """ ++ v ++ lit """")))).
  { intros e C ->. exists e. split; auto. unfold quoted, say, ret, bind. cbn [app]. rewrite <- !app_assoc. reflexivity. }
  unfold holding_time in G |- *. destruct v as [|m v]; [exfalso; apply NW; constructor|]. cbn [nth_error] in *. rewrite int1 in *.
  destruct (decimal_val m) eqn:M.
  - assert (DM : decimal_char m) by (unfold decimal_char; congruence). destruct v as [|x v]; cbn [nth_error] in *.
    + apply (G index_error); [constructor; exact DM|reflexivity].
    + rewrite int1 in *. destruct (decimal_val x) eqn:X.
      * exfalso. destruct (H _ _ _ eq_refl) as [Y|Y]; apply Y; unfold decimal_char; congruence.
      * apply (G (int_error [x])); [|reflexivity]. apply bad_tenths; [exact DM|unfold decimal_char; congruence|apply repr_str_literal].
  - apply (G (int_error [m])); [|reflexivity]. apply no_minutes; [unfold decimal_char; congruence|apply repr_str_literal].
Qed.

Lemma repr_ordinary : forall s, Forall (fun c => 32 <= c <= 126 /\ c <> 39 /\ c <> 92)%N s -> repr_str s = lit "'" ++ s ++ lit "'".
Proof.
  intros s H. assert (Q : repr_quote s = 39).
  { unfold repr_quote. replace (existsb (N.eqb 39) s) with false; [reflexivity|]. symmetry. apply not_true_iff_false. intro E. apply existsb_exists in E as [x [I E]].
    rewrite Forall_forall in H. apply H in I. apply N.eqb_eq in E. lia. }
  unfold repr_str. rewrite Q. cbv zeta. replace (flat_map (repr_char 39) s) with s; [reflexivity|]. clear Q.
  induction H as [|c s C _ IH]; [reflexivity|]. cbn [flat_map]. rewrite <- IH.
  unfold repr_char. replace ((c =? 39) || (c =? 92)) with false by lia. replace (c =? 9) with false by lia. replace (c =? 10) with false by lia.
  replace (c =? 13) with false by lia. replace ((c <? 32) || (c =? 127)) with false by lia. replace (c <? 127) with true by lia. reflexivity.
Qed.
