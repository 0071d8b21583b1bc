(* The lexer gives the tokens of SpecTokens.v (continued). *)
From Coq Require Import List String Ascii ZArith Bool Arith Lia.
From Verif Require Import PyLex SpecLex SpecTokens LexFacts TokenFacts1 TokenFacts2.
Import ListNotations.
Local Open Scope string_scope.
Local Open Scope list_scope.
Local Open Scope nat_scope.

Definition goes_on (ind : list nat) (tail : string) (out : list token) : Prop :=
  (tail = "" /\ out = TNewline :: dedents (tl ind)) \/ (exists s' ls us, tail = String newline s' /\ out = TNewline :: us /\ lines_text s' ls /\ lay ind ls = Some us).
Lemma goes_on_tail : forall ind tail out, goes_on ind tail out -> tail_of tail.
Proof. intros ind tail out [(-> & _)|(s' & _ & _ & -> & _)]; [left; reflexivity|right; eauto]. Qed.
Definition in_text (q c : ascii) : Prop := visible c /\ c <> backslash /\ c <> q /\ c <> "{"%char /\ c <> "}"%char.
Definition in_braces (q c : ascii) : Prop := visible c /\ c <> backslash /\ c <> q /\ c <> "{"%char /\ c <> "}"%char /\ c <> "#"%char.
Lemma in_text_iff : forall q c, is_ascii c && negb (existsb (Ascii.eqb c) [backslash; q; "{"%char; "}"%char]) = true <-> in_text q c.
Proof. intros q c. unfold in_text. cbn [existsb]. rewrite andb_true_iff, negb_true_iff, is_ascii_iff, !orb_false_iff, !Ascii.eqb_neq. tauto. Qed.
Lemma in_braces_iff : forall q c, is_ascii c && negb (existsb (Ascii.eqb c) [backslash; q; "{"%char; "}"%char; "#"%char]) = true <-> in_braces q c.
Proof. intros q c. unfold in_braces. cbn [existsb]. rewrite andb_true_iff, negb_true_iff, is_ascii_iff, !orb_false_iff, !Ascii.eqb_neq. tauto. Qed.
Lemma fparts_sound : forall lexer n q s ps r, (forall e ts, all_chars (in_braces q) e -> lexer e = Some ts -> logical 0 e ts) ->
  fparts lexer n q s = Some (ps, r) -> exists w, s = (w ++ String q r)%string /\ parts_text q w ps.
Proof.
  intros lexer n q. induction n as [|n IH]; intros s ps r X H; [discriminate|]. cbn [fparts] in H. destruct s as [|c s]; [discriminate|].
  destruct (Ascii.eqb_spec c q) as [->|NQ]; [injection H as <- <-; exists ""; split; [reflexivity|constructor]|].
  destruct (Ascii.eqb_spec c "{") as [->|NB].
  - destruct (span _ s) as [e t] eqn:S in H. apply span_spec in S. destruct S as (-> & A & _).
    destruct t as [|[[] [] [] [] [] [] [] []] t]; try discriminate H.
    destruct (lexer e) as [ts|] eqn:E; [|discriminate]. destruct (fparts lexer n q t) as [[ps' r']|] eqn:F; [|discriminate]. injection H as <- <-.
    destruct (IH t ps' r' X F) as (w & -> & P). exists (String "{" (e ++ String "}" w)). split; [cbn; rewrite app_assoc_str; reflexivity|].
    assert (A' : all_chars (in_braces q) e) by (eapply all_impl; [|exact A]; intros d D; apply in_braces_iff; exact D). constructor; [exact A'|apply X; assumption|exact P].
  - destruct (span _ (String c s)) as [t u] eqn:S in H. apply span_spec in S. destruct S as (S & A & B). rewrite S. destruct t as [|c' t]; [discriminate|].
    destruct (fparts lexer n q u) as [[ps' r']|] eqn:F; [|discriminate]. injection H as <- <-. destruct (IH u ps' r' X F) as (w & -> & P).
    exists (String c' t ++ w)%string. split; [rewrite app_assoc_str; reflexivity|].
    apply parts_chars; [discriminate| | |exact P].
    + eapply all_impl; [|exact A]. intros d D. apply in_text_iff. exact D.
    + intros p ps'' -> T. destruct p as [t'|]; [|exact T]. inversion P; subst. destruct t' as [|d t']; [congruence|]. cbn [append] in B. match goal with K : all_chars _ (String d t') |- _ => destruct K as (K & _); apply in_text_iff in K; rewrite K in B end. discriminate.
Qed.
Lemma spaces_all : forall sp, all_chars (fun c => Ascii.eqb " " c = true) sp -> sp = spaces (String.length sp).
Proof. induction sp as [|c sp IH]; intros A; [reflexivity|]. destruct A as (C & A). apply Ascii.eqb_eq in C. subst c. cbn. rewrite <- (IH A). reflexivity. Qed.
Lemma tail_split : forall w t x, (w ++ t)%string = x -> tail_of x -> tail_of w.
Proof. intros [|c w] t x <- [H|(b & H)]; try (left; reflexivity); [discriminate|]. cbn in H. injection H as -> _. right. eauto. Qed.
Lemma braces_plain : forall q e, all_chars (in_braces q) e -> all_chars (fun c => c <> newline) e.
Proof. intros q e. apply all_impl. intros c ((C & _) & _) ->. vm_compute in C. apply C. reflexivity. Qed.
Theorem lex_sound : forall n,
  (forall s depth ind ts, lex n s depth ind true = Some ts -> exists ls, lines_text s ls /\ lay ind ls = Some ts) /\
  (forall s depth ind ts, lex n s depth ind false = Some ts -> exists w tail us out, s = (w ++ tail)%string /\ ts = us ++ out /\ logical depth w us /\ goes_on ind tail out) /\
  (forall s ts, all_chars (fun c => c <> newline) s -> lex_flat n s = Some ts -> logical 0 s ts).
Proof.
  induction n as [|n (IA & IB & IF)]; [repeat split; intros; discriminate|]. split; [|split].
  3:{ intros s ts N H. cbn [lex_flat] in H. destruct (lex n s 0 [0] false) as [vs|] eqn:E; [|discriminate]. injection H as <-. destruct (IB _ _ _ _ E) as (w & tail & us & out & -> & -> & L & [(-> & ->)|(s' & ls & os & -> & _)]).
      - cbn [tl dedents map]. rewrite removelast_last, app_nil_str. exact L.
      - apply all_app in N. destruct N as (_ & N & _). congruence. }
  - intros s depth ind ts H. cbn [lex] in H. destruct (span (Ascii.eqb " ") s) as [sp r] eqn:S. apply span_spec in S. destruct S as (-> & A & B). rewrite (spaces_all _ A). remember (String.length sp) as k eqn:K. clear A K sp.
    destruct r as [|c r].
    { injection H as <-. exists []. split; [apply (lines_end k ""); auto|reflexivity]. }
    destruct (Ascii.eqb_spec c newline) as [->|N1].
    { destruct (IA _ _ _ _ H) as (ls & L & Y). exists ls. split; [apply (lines_blank k "" r ls); auto|exact Y]. }
    destruct (Ascii.eqb_spec c "#") as [->|N2].
    { destruct (comment_spec r) as (cm & E & C & [Z|(s' & Z)]); rewrite Z in H; rewrite E, Z.
      - injection H as <-. rewrite app_nil_str. exists []. split; [apply lines_end; right; eauto|reflexivity].
      - destruct (IA _ _ _ _ H) as (ls & L & Y). exists ls. split; [|exact Y]. apply (lines_blank k (String "#" cm) s' ls); [right; eauto|exact L]. }
    destruct (indentation k ind) as [[us ind']|] eqn:I; [|discriminate]. destruct (lex n (String c r) 0 ind' false) as [vs|] eqn:E; [|discriminate]. injection H as <-.
    destruct (IB _ _ _ _ E) as (w & tail & ws & out & E1 & -> & L & G).
    assert (W : w <> "" /\ no_next (fun c => c = " "%char \/ c = "#"%char \/ c = newline) w).
    { destruct w as [|d w]; [cbn in E1; destruct G as [(-> & _)|(s' & _ & _ & -> & _)]; congruence|]. split; [discriminate|]. cbn in E1. injection E1 as -> _. cbn. rewrite Ascii.eqb_neq in B. intros [X|[X|X]]; congruence. }
    destruct W as (W1 & W2). rewrite E1. destruct G as [(-> & ->)|(s' & ls & os & -> & -> & L2 & Y)].
    + exists [(k, ws)]. rewrite app_nil_str. split; [apply lines_last; assumption|]. cbn [lay]. rewrite I. reflexivity.
    + exists ((k, ws) :: ls). split; [apply lines_line; assumption|]. cbn [lay]. rewrite I, Y. reflexivity.
  - intros s depth ind ts H. cbn [lex] in H.
    assert (T : forall t w r d, match lex n r d ind false with Some ts => Some (t :: ts) | None => None end = Some ts -> token_text t w r -> bracket t depth d ->
      exists w' tail us out, (w ++ r)%string = (w' ++ tail)%string /\ ts = us ++ out /\ logical depth w' us /\ goes_on ind tail out).
    { intros t w r d K W ST. destruct (lex n r d ind false) as [us|] eqn:E; [|discriminate]. injection K as <-. destruct (IB _ _ _ _ E) as (w2 & tail & us2 & out & -> & -> & L & G).
      exists (w ++ w2)%string, tail, (t :: us2), out. split; [rewrite app_assoc_str; reflexivity|]. split; [reflexivity|]. split; [|exact G]. eapply logical_token; [|exact ST|exact L].
      apply (token_text_tail t w w2 tail); [eapply goes_on_tail; exact G|exact W]. }
    destruct s as [|c s].
    { destruct depth; [|discriminate]. injection H as <-. exists "", "", [], (TNewline :: dedents (tl ind)). repeat split; [constructor|left; auto]. }
    destruct (Ascii.eqb_spec c newline) as [->|N1].
    { destruct depth as [|d].
      - destruct (lex n s 0 ind true) as [us|] eqn:E; [|discriminate]. injection H as <-. destruct (IA _ _ _ _ E) as (ls & L & Y). exists "", (String newline s), [], (TNewline :: us). repeat split; [constructor|right]. exists s, ls, us. auto.
      - destruct (IB _ _ _ _ H) as (w & tail & us & out & -> & -> & L & G). exists (String newline w), tail, us, out. repeat split; [constructor; exact L|exact G]. }
    destruct (Ascii.eqb_spec c " ") as [->|N2]; [destruct (IB _ _ _ _ H) as (w & tail & us & out & -> & -> & L & G); exists (String " " w), tail, us, out; repeat split; [constructor; exact L|exact G]|].
    destruct (Ascii.eqb_spec c "#") as [->|N3].
    { destruct (IB _ _ _ _ H) as (w & tail & us & out & E & -> & L & G). destruct (comment_spec s) as (cm & E2 & C & K). rewrite E2, E. exists (String "#" (cm ++ w)), tail, us, out. split; [cbn; rewrite app_assoc_str; reflexivity|]. split; [reflexivity|]. split; [|exact G].
      constructor; [exact C| |exact L]. apply (tail_split w tail _ (eq_sym E)). exact K. }
    destruct (is_digit c) eqn:DG.
    { destruct (span is_digit (String c s)) as [ds r] eqn:S. apply span_spec in S. destruct S as (E & A & B). destruct (good_number ds r) eqn:GN; [|discriminate]. rewrite E.
      destruct ds as [|d0 ds]; [cbn [append] in E; subst r; congruence|]. apply good_number_iff in GN; [|discriminate]. eapply T; [exact H| |reflexivity]. destruct GN. destruct A. constructor; [apply number_decimal; assumption|assumption|assumption]. }
    destruct (Ascii.eqb c quote || Ascii.eqb c dquote) eqn:QT.
    { assert (Q : c = quote \/ c = dquote) by (rewrite Bool.orb_true_iff, !Ascii.eqb_eq in QT; exact QT).
      assert (SH : match short_string c s with Some (v, r) => match lex n r depth ind false with Some ts => Some (TStr v :: ts) | None => None end | None => None end = Some ts ->
        (forall r, s <> String c (String c r)) ->
        exists w tail us out, String c s = (w ++ tail)%string /\ ts = us ++ out /\ logical depth w us /\ goes_on ind tail out).
      { intros K NL. destruct (short_string c s) as [[v r]|] eqn:E; [|discriminate]. destruct (short_spec c _ s v r (le_n _) E) as (w & -> & W).
        replace (String c (w ++ String c r)) with (String c (w ++ String c "") ++ r)%string by (cbn; rewrite app_assoc_str; reflexivity). eapply T; [exact K| |reflexivity]. constructor; [assumption|assumption|].
        intros ->. destruct r as [|d r]; [exact I|]. cbn. intros <-. apply (NL r). reflexivity. }
      destruct s as [|c1 s]; [apply SH; [exact H|discriminate]|]. destruct s as [|c2 s]; [apply SH; [exact H|discriminate]|].
      destruct (Ascii.eqb c1 c && Ascii.eqb c2 c) eqn:C; [|apply SH; [exact H|intros r X; injection X as -> -> _; rewrite !Ascii.eqb_refl in C; discriminate]].
      rewrite Bool.andb_true_iff, !Ascii.eqb_eq in C. destruct C as (-> & ->). destruct (long_string c s) as [[v r]|] eqn:E; [|discriminate]. pose proof (long_first _ _ _ _ E) as F. destruct (long_spec c s v r E) as (-> & W).
      replace (String c (String c (String c (v ++ String c (String c (String c r)))))) with (three c (v ++ three c "") ++ r)%string by (cbn; rewrite app_assoc_str; reflexivity).
      eapply T; [exact H| |reflexivity]. apply text_long; assumption. }
    destruct (is_start c) eqn:ST.
    { destruct (span is_name (String c s)) as [x r] eqn:S. apply span_spec in S. destruct S as (E & A & B). rewrite E.
      destruct x as [|c0 x]; [cbn [append] in E; subst r; unfold is_name in B; rewrite ST in B; discriminate|]. cbn [append] in E. injection E as <- E.
      assert (NM : no_next (fun d => name_char d \/ d = quote \/ d = dquote) r -> token_text (TName (String c x)) (String c x) r).
      { intros NN. destruct A as (_ & A). constructor; [apply is_start_iff; exact ST| |exact NN]. eapply all_impl; [|exact A]. intros d K. apply is_name_iff. exact K. }
      destruct r as [|q r]; [eapply T; [exact H|exact (NM I)|reflexivity]|].
      destruct (Ascii.eqb q quote || Ascii.eqb q dquote) eqn:QQ.
      2:{ eapply T; [exact H|apply NM|reflexivity]. cbn. apply (bool_no _ _ (is_name_iff q)) in B. rewrite orb_false_iff, !Ascii.eqb_neq in QQ. tauto. }
      assert (Q : q = quote \/ q = dquote) by (rewrite Bool.orb_true_iff, !Ascii.eqb_eq in QQ; exact QQ).
      destruct (String.eqb_spec (String c x) "f") as [F|F]; [|discriminate]. injection F as -> ->. destruct (fparts (fun e => lex_flat n e) n q r) as [[ps r']|] eqn:P; [|discriminate].
      destruct (fparts_sound _ _ _ _ _ _ (fun e ts N Y => IF e ts (braces_plain q e N) Y) P) as (w & -> & W).
      replace ("f" ++ String q (w ++ String q r'))%string with (String "f" (String q (w ++ String q "")) ++ r')%string by (cbn; rewrite app_assoc_str; reflexivity).
      destruct (w ++ String q r')%string as [|q1 z] eqn:Z; [discriminate|]. destruct (Ascii.eqb_spec q1 q); [discriminate|]. eapply T; [exact H| |reflexivity]. constructor; [assumption| |assumption]. intros ->. cbn in Z. congruence. }
    destruct (operator (String c s)) as [[o r]|] eqn:O; [|discriminate]. pose proof (operator_longest _ _ _ O) as LO. destruct (operator_spec _ _ _ O) as (E & I). rewrite E in *.
    assert (TT : token_text (TOp o) o r) by (constructor; [exact I|exact LO]).
    destruct (opens o) eqn:OO; [eapply T; [exact H|exact TT|cbn [bracket]; rewrite OO; reflexivity]|]. destruct (closes o) eqn:CC; [|eapply T; [exact H|exact TT|cbn [bracket]; rewrite OO, CC; reflexivity]].
    destruct depth as [|d]; [discriminate|]. eapply T; [exact H|exact TT|cbn [bracket]; rewrite OO, CC; reflexivity].
Qed.
