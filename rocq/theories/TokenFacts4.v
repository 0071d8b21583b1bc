(* Every text that has tokens after SpecTokens.v is read by the lexer, and they are what it gives. *)
From Coq Require Import List String Ascii ZArith Bool Arith Lia.
From Verif Require Import PyLex SpecLex SpecTokens LexFacts TokenFacts1 TokenFacts2 TokenFacts3.
Import ListNotations.
Local Open Scope string_scope.
Local Open Scope list_scope.
Local Open Scope nat_scope.

Scheme token_text_ind2 := Induction for token_text Sort Prop
  with parts_text_ind2 := Induction for parts_text Sort Prop
  with logical_ind2 := Induction for logical Sort Prop.
Combined Scheme token_text_mutual from token_text_ind2, parts_text_ind2, logical_ind2.

Definition first_of (f : ascii -> bool) (s : string) : bool := match s with String c _ => f c | EmptyString => false end.
Lemma start_kind : forall c, is_start c = true -> Ascii.eqb c newline = false /\ Ascii.eqb c " " = false /\ Ascii.eqb c "#" = false /\ is_digit c = false /\ (Ascii.eqb c quote || Ascii.eqb c dquote) = false.
Proof. intros [[] [] [] [] [] [] [] []] H; try discriminate H; repeat split. Qed.
Lemma digit_kind : forall c, is_digit c = true -> Ascii.eqb c newline = false /\ Ascii.eqb c " " = false /\ Ascii.eqb c "#" = false.
Proof. intros [[] [] [] [] [] [] [] []] H; try discriminate H; repeat split. Qed.
Lemma quote_kind : forall q, q = quote \/ q = dquote -> Ascii.eqb q newline = false /\ Ascii.eqb q " " = false /\ Ascii.eqb q "#" = false /\ is_digit q = false /\ (Ascii.eqb q quote || Ascii.eqb q dquote) = true /\ is_name q = false.
Proof. intros q [-> | ->]; repeat split. Qed.
Definition op_kind (c : ascii) : bool := negb (Ascii.eqb c newline || Ascii.eqb c " " || Ascii.eqb c "#" || is_digit c || (Ascii.eqb c quote || Ascii.eqb c dquote) || is_start c).
Lemma op_first : forall o, In o operators -> exists c s, o = String c s /\ op_kind c = true.
Proof.
  intros o I. assert (H : first_of op_kind o = true) by (revert o I; apply forallb_forall; vm_compute; reflexivity). destruct o as [|c s]; [discriminate|]. exists c, s. auto.
Qed.
Definition cont (ind : list nat) (tail : string) (out : list token) : Prop :=
  (tail = "" /\ out = TNewline :: dedents (tl ind)) \/ (exists s' us, tail = String newline s' /\ out = TNewline :: us /\ forall m, 2 * String.length s' + 2 <= m -> lex m s' 0 ind true = Some us).
Lemma cont_tail : forall ind tail out, cont ind tail out -> tail_of tail.
Proof. intros ind tail out [(-> & _)|(s' & us & -> & _)]; [left; reflexivity|right; eauto]. Qed.
Lemma quoted_first : forall q c s v, quoted q (String c s) v -> q = quote \/ q = dquote -> c <> q.
Proof. intros q c s v H Q X. inversion H; subst; try congruence; destruct Q as [Q|Q]; discriminate Q. Qed.
Lemma parts_first : forall q c s ps, parts_text q (String c s) ps -> q = quote \/ q = dquote -> c <> q.
Proof.
  intros q c s ps H Q X. inversion H; subst.
  - destruct t as [|d t]; [congruence|]. match goal with K : (String d t ++ _)%string = _ |- _ => cbn in K; injection K as -> _ end. match goal with K : all_chars _ (String _ _) |- _ => destruct K as ((_ & _ & K & _) & _); congruence end.
  - destruct Q as [Q|Q]; discriminate Q.
Qed.
Lemma skip_complete : forall c s, all_chars (fun e => e <> newline) c -> tail_of s -> skip_comment (String "#" (c ++ s)) = s.
Proof.
  intros c s A T. unfold skip_comment. change (String "#" (c ++ s)) with (String "#" c ++ s)%string. rewrite span_complete; [reflexivity| |].
  - split; [reflexivity|]. eapply all_impl; [|exact A]. intros d D. rewrite negb_true_iff, Ascii.eqb_neq. exact D.
  - destruct T as [->|(b & ->)]; [exact I|reflexivity].
Qed.

Lemma not_name : ~ (name_char newline \/ newline = quote \/ newline = dquote).
Proof. intros [H|[H|H]]; [exact (newline_name H)|discriminate|discriminate]. Qed.
Lemma not_point : ~ (name_char newline \/ newline = "."%char).
Proof. intros [H|H]; [exact (newline_name H)|discriminate]. Qed.
Theorem lex_complete :
  (forall t w rest, token_text t w rest -> forall tail n d d' ind, tail_of tail -> 2 * String.length w <= n -> bracket t d d' ->
     lex (S n) (w ++ (rest ++ tail)) d ind false = match lex n (rest ++ tail) d' ind false with Some ts => Some (t :: ts) | None => None end) /\
  (forall q s ps, parts_text q s ps -> q = quote \/ q = dquote -> forall n m r, String.length s + 1 <= m -> 2 * String.length s + 2 <= n -> fparts (fun e => lex_flat n e) m q (s ++ String q r) = Some (ps, r)) /\
  (forall d w ts, logical d w ts -> forall n ind tail out, cont ind tail out -> 2 * String.length (w ++ tail) + 1 <= n -> lex n (w ++ tail) d ind false = Some (ts ++ out)).
Proof.
  apply token_text_mutual.
  - intros c s rest0 L A N tail n d d' ind T B K. apply (no_next_tail _ rest0 tail T not_name) in N. generalize dependent (rest0 ++ tail)%string. intros rest N. cbn in K. subst d'. apply is_start_iff in L. destruct (start_kind c L) as (K1 & K2 & K3 & K4 & K5). cbn [append lex]. rewrite K1, K2, K3, K4, K5, L.
    change (String c (s ++ rest)) with (String c s ++ rest)%string. rewrite span_complete.
    + destruct rest as [|q rest]; [reflexivity|]. cbn in N. replace (Ascii.eqb q quote || Ascii.eqb q dquote) with false; [reflexivity|]. symmetry. rewrite orb_false_iff, !Ascii.eqb_neq. tauto.
    + split; [unfold is_name; rewrite L; reflexivity|]. eapply all_impl; [|exact A]. intros x X. apply is_name_iff. exact X.
    + destruct rest as [|q rest]; [exact I|]. cbn in N. apply (bool_no _ _ (is_name_iff q)). tauto.
  - intros s z rest0 D Z N tail n d d' ind T B K. apply (no_next_tail _ rest0 tail T not_point) in N. generalize dependent (rest0 ++ tail)%string. intros rest N. cbn in K. subst d'. destruct (decimal_number _ _ D) as (NE & A & <-). pose proof (proj2 (good_number_iff s rest NE) (conj Z N)) as G.
    destruct s as [|c s]; [congruence|]. pose proof A as (C & _). destruct (digit_kind c C) as (K1 & K2 & K3). cbn [append lex]. rewrite K1, K2, K3, C. change (String c (s ++ rest)) with (String c s ++ rest)%string. rewrite span_complete; [rewrite G; reflexivity|exact A|].
    destruct rest as [|q rest]; [exact I|]. cbn in N. apply (bool_no _ _ (is_digit_iff q)). unfold name_char in N. tauto.
  - intros q s v rest0 Q W E0 tail n d d' ind T B K. assert (E : s = "" -> no_next (eq q) (rest0 ++ tail)) by (intros Z; apply no_next_tail; [exact T|apply newline_quote; exact Q|exact (E0 Z)]). clear E0. generalize dependent (rest0 ++ tail)%string. intros rest E. cbn in K. subst d'. destruct (quote_kind q Q) as (K1 & K2 & K3 & K4 & K5 & _). cbn [append lex]. rewrite K1, K2, K3, K4, K5. rewrite app_assoc_str. change ((String q "" ++ rest)%string) with (String q rest).
    assert (X : match (s ++ String q rest)%string with String c1 (String c2 r) => if Ascii.eqb c1 q && Ascii.eqb c2 q then long_string q r else short_string q (s ++ String q rest) | _ => short_string q (s ++ String q rest) end = Some (v, rest)).
    { rewrite (short_complete q s v rest Q W). destruct s as [|c s].
      - cbn [append]. specialize (E eq_refl). destruct rest as [|c2 rest]; [reflexivity|]. cbn in E. rewrite (proj2 (Ascii.eqb_neq c2 q)) by congruence. rewrite andb_false_r. reflexivity.
      - pose proof (quoted_first _ _ _ _ W Q) as NQ. cbn [append]. destruct (s ++ String q rest)%string; [reflexivity|]. rewrite (proj2 (Ascii.eqb_neq c q) NQ). reflexivity. }
    rewrite X. reflexivity.
  - intros q s rest0 Q A X tail n d d' ind T B K. generalize (rest0 ++ tail)%string. intros rest. cbn in K. subst d'. destruct (quote_kind q Q) as (K1 & K2 & K3 & K4 & K5 & _). unfold three. cbn [append lex]. rewrite K1, K2, K3, K4, K5, !Ascii.eqb_refl. cbn [andb]. rewrite app_assoc_str.
    change ((String q (String q (String q "")) ++ rest)%string) with (three q rest). rewrite (long_complete q s rest A X). reflexivity.
  - intros q s ps rest0 Q NE W IH tail n d d' ind T B K. generalize (rest0 ++ tail)%string. intros rest. cbn in K. subst d'. destruct (quote_kind q Q) as (_ & _ & _ & _ & K5 & K6).
    change ((String "f" (String q (s ++ String q "")) ++ rest)%string) with (String "f" (String q ((s ++ String q "") ++ rest))). rewrite app_assoc_str. change ((String q "" ++ rest)%string) with (String q rest).
    change (String "f" (String q (s ++ String q rest))) with ("f" ++ String q (s ++ String q rest))%string. cbn [append lex]. change (Ascii.eqb "f" newline) with false. change (Ascii.eqb "f" " ") with false. change (Ascii.eqb "f" "#") with false.
    change (is_digit "f") with false. change (Ascii.eqb "f" quote || Ascii.eqb "f" dquote) with false. change (is_start "f") with true. cbv iota.
    change (String "f" (String q (s ++ String q rest))) with ("f" ++ String q (s ++ String q rest))%string. rewrite (span_complete is_name "f" (String q (s ++ String q rest))); [|split; [reflexivity|exact I]|exact K6]. rewrite K5. change (String.eqb "f" "f") with true. cbv iota.
    cbn [String.length] in B. rewrite length_app_str in B. cbn [String.length] in B. rewrite (IH Q n n rest) by lia. destruct s as [|c s]; [congruence|]. cbn [append]. rewrite (proj2 (Ascii.eqb_neq c q) (parts_first _ _ _ _ W Q)). reflexivity.
  - intros o rest0 I L0 tail n d d' ind T B K. assert (L : forall o', In o' operators -> begins o' (o ++ (rest0 ++ tail)) -> String.length o' <= String.length o).
    { intros o' I' B'. apply L0; [exact I'|]. rewrite <- app_assoc_str in B'. eapply begins_tail; [exact T|apply operators_plain; exact I'|exact B']. }
    clear L0. generalize dependent (rest0 ++ tail)%string. intros rest L. cbn [bracket] in K. pose proof (operator_complete _ _ I L) as O. destruct (op_first _ I) as (c & s & -> & F). unfold op_kind in F. rewrite negb_true_iff, !orb_false_iff in F. destruct F as (((((K1 & K2) & K3) & K4) & (K5 & K6)) & K7).
    cbn [append lex]. rewrite K1, K2, K3, K4, K5, K6, K7. cbn [orb]. change (String c (s ++ rest)) with (String c s ++ rest)%string. rewrite O. destruct (opens (String c s)); [subst d'; reflexivity|]. destruct (closes (String c s)); [|subst d'; reflexivity]. subst d. reflexivity.
  - intros q Q n m r L1 L2. destruct m as [|m]; [cbn in L1; lia|]. cbn. rewrite Ascii.eqb_refl. reflexivity.
  - intros q t s ps NE A M W IH Q n m r L1 L2. rewrite length_app_str in L1, L2. destruct t as [|c t]; [congruence|]. cbn [String.length] in L1, L2. destruct m as [|m]; [lia|]. cbn [fparts append]. pose proof A as ((V & N1 & N2 & N3 & N4) & _).
    rewrite (proj2 (Ascii.eqb_neq c q) N2), (proj2 (Ascii.eqb_neq c "{") N3). replace (String c ((t ++ s) ++ String q r)) with (String c t ++ (s ++ String q r))%string by (cbn; rewrite app_assoc_str; reflexivity).
    rewrite span_complete; [rewrite IH by (assumption || lia); reflexivity| |].
    + eapply all_impl; [|exact A]. intros d D. apply in_text_iff. exact D.
    + destruct s as [|d s]; cbn [append].
      * apply (bool_no _ _ (in_text_iff q q)). unfold in_text. tauto.
      * apply (bool_no _ _ (in_text_iff q d)). intros T. inversion W; subst.
        -- match goal with K : forall p ps', _ -> ~ is_text p |- _ => exact (K _ _ eq_refl Logic.I) end.
        -- destruct T as (_ & _ & _ & T & _). congruence.
  - intros q e ts s ps A W IH X IH2 Q n m r L1 L2. cbn [String.length] in L1, L2. rewrite length_app_str in L1, L2. cbn [String.length] in L1, L2. destruct m as [|m]; [lia|]. cbn [fparts append].
    replace (Ascii.eqb "{" q) with false by (destruct Q as [-> | ->]; reflexivity). rewrite Ascii.eqb_refl. rewrite app_assoc_str. rewrite span_complete.
    + cbn [append]. destruct n as [|n]; [lia|]. cbn [lex_flat]. pose proof (IH n [0] "" [TNewline] ltac:(left; split; reflexivity)) as E. rewrite app_nil_str in E. rewrite E by lia. rewrite removelast_last.
      pose proof (IH2 Q (S n) m r ltac:(lia) ltac:(lia)) as F. cbn [lex_flat] in F. rewrite F. reflexivity.
    + eapply all_impl; [|exact A]. intros d D. apply in_braces_iff. exact D.
    + apply (bool_no _ _ (in_braces_iff q "}")). unfold in_braces. tauto.
  - intros n ind tail out [(-> & ->)|(s' & us & -> & -> & H)] L; cbn [append String.length] in *; (destruct n as [|n]; [lia|]); [reflexivity|]. cbn [lex]. rewrite Ascii.eqb_refl. rewrite H by lia. reflexivity.
  - intros d s ts W IH n ind tail out C L. cbn [append String.length] in *. destruct n as [|n]; [lia|]. cbn [lex]. apply IH; [exact C|lia].
  - intros d s ts W IH n ind tail out C L. cbn [append String.length] in *. destruct n as [|n]; [lia|]. cbn [lex]. rewrite Ascii.eqb_refl. apply IH; [exact C|lia].
  - intros d c s ts A T W IH n ind tail out C L. cbn [append String.length] in *. destruct n as [|n]; [lia|]. rewrite app_assoc_str in *. rewrite length_app_str in L. cbn [lex]. change (Ascii.eqb "#" newline) with false. change (Ascii.eqb "#" " ") with false. change (Ascii.eqb "#" "#") with true. cbv iota.
    rewrite skip_complete; [apply IH; [exact C|lia]|exact A|]. destruct T as [->|(s' & ->)]; [exact (cont_tail _ _ _ C)|right; cbn; eauto].
  - intros d d' t w s ts W IH K X IH2 n ind tail out C L. rewrite app_assoc_str in *. rewrite length_app_str in L.
    assert (P : 1 <= String.length w). { destruct w; [|cbn; lia]. exfalso. inversion W; subst; [match goal with K : decimal _ _ |- _ => apply decimal_number in K; destruct K; congruence end|]. match goal with K : In _ operators |- _ => apply op_first in K; destruct K as (? & ? & E & _); discriminate E end. }
    destruct n as [|n]; [lia|]. rewrite (IH tail n d d' ind (cont_tail _ _ _ C)) by (assumption || lia). rewrite (IH2 n ind tail out C) by lia. reflexivity.
Qed.
Lemma spaces_span : forall k r, no_next (eq " "%char) r -> span (Ascii.eqb " ") (spaces k ++ r) = (spaces k, r).
Proof.
  intros k r N. apply span_complete; [induction k as [|k IH]; [exact I|split; [reflexivity|exact IH]]|]. destruct r as [|c r]; [exact I|]. apply Ascii.eqb_neq. exact N.
Qed.
Lemma spaces_length : forall k, String.length (spaces k) = k.
Proof. induction k as [|k IH]; [reflexivity|]. cbn. rewrite IH. reflexivity. Qed.
Theorem lines_complete : forall s ls, lines_text s ls -> forall n d ind ts, lay ind ls = Some ts -> 2 * String.length s + 2 <= n -> lex n s d ind true = Some ts.
Proof.
  induction 1 as [k c C|k c s ls C L IH|k w ts s ls NE F W L IH|k w ts NE F W]; intros n d ind out Y LE; (destruct n as [|n]; [lia|]).
  - cbn [lay] in Y. injection Y as <-. cbn [lex]. rewrite spaces_span by (destruct C as [->|(c' & -> & A)]; [exact I|cbn; discriminate]). destruct C as [->|(c' & -> & A)]; [reflexivity|].
    change (Ascii.eqb "#" newline) with false. change (Ascii.eqb "#" "#") with true. cbv iota. rewrite <- (app_nil_str c'). rewrite skip_complete; [reflexivity|exact A|left; reflexivity].
  - rewrite !length_app_str in LE. cbn [String.length] in LE. cbn [lex]. rewrite spaces_span by (destruct C as [->|(c' & -> & A)]; cbn; discriminate). destruct C as [->|(c' & -> & A)].
    + cbn [append]. rewrite Ascii.eqb_refl. apply IH; [exact Y|lia].
    + cbn [append]. change (Ascii.eqb "#" newline) with false. change (Ascii.eqb "#" "#") with true. cbv iota. rewrite skip_complete; [apply IH; [exact Y|lia]|exact A|right; eauto].
  - rewrite !length_app_str in LE. cbn [String.length] in LE. cbn [lay] in Y. destruct (indentation k ind) as [[us ind']|] eqn:E; [|discriminate]. destruct (lay ind' ls) as [vs|] eqn:V; [|discriminate]. injection Y as <-.
    destruct w as [|c w]; [congruence|]. cbn in F. cbn [lex]. rewrite spaces_span by (cbn; intros <-; tauto). cbn [append]. rewrite (proj2 (Ascii.eqb_neq c newline)) by tauto. rewrite (proj2 (Ascii.eqb_neq c "#")) by tauto. rewrite spaces_length, E.
    change (String c (w ++ String newline s)) with (String c w ++ String newline s)%string. rewrite (proj2 (proj2 lex_complete) _ _ _ W n ind' (String newline s) (TNewline :: vs)); [reflexivity| |].
    + right. exists s, vs. split; [reflexivity|]. split; [reflexivity|]. intros m LM. apply IH; assumption.
    + rewrite length_app_str. cbn [String.length] in *. lia.
  - rewrite !length_app_str in LE. cbn [String.length] in LE. cbn [lay] in Y. destruct (indentation k ind) as [[us ind']|] eqn:E; [|discriminate]. injection Y as <-.
    destruct w as [|c w]; [congruence|]. cbn in F. cbn [lex]. rewrite spaces_span by (cbn; intros <-; tauto). rewrite (proj2 (Ascii.eqb_neq c newline)) by tauto. rewrite (proj2 (Ascii.eqb_neq c "#")) by tauto. rewrite spaces_length, E.
    pose proof (proj2 (proj2 lex_complete) _ _ _ W n ind' "" (TNewline :: dedents (tl ind'))) as X. rewrite app_nil_str in X. rewrite X; [reflexivity|left; split; reflexivity|]. cbn [String.length] in *. lia.
Qed.
Theorem tokens_iff : forall text ts, tokens text = Some ts <-> tokens_of text ts.
Proof.
  intros text ts. unfold tokens, tokens_of. split.
  - intros H. apply (proj1 (lex_sound _)) in H. destruct H as (ls & L & Y). exists ls. split; [exact L|apply lay_block; exact Y].
  - intros (ls & L & B). apply (lines_complete _ _ L); [apply lay_block; exact B|lia].
Qed.
