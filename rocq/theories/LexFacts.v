(* What the lexer gives is spelled by the text, in order and with nothing left out. *)
From Coq Require Import List String Ascii ZArith Bool Arith Lia.
From Verif Require Import PyLex SpecLex.
Import ListNotations.
Local Open Scope string_scope.
Local Open Scope list_scope.

Lemma app_nil_str : forall s, (s ++ "")%string = s.
Proof. induction s as [|c s IH]; [reflexivity|]. cbn. rewrite IH. reflexivity. Qed.
Lemma app_assoc_str : forall a b c : string, ((a ++ b) ++ c)%string = (a ++ (b ++ c))%string.
Proof. induction a as [|x a IH]; intros b c; [reflexivity|]. cbn. rewrite IH. reflexivity. Qed.
Lemma span_spec : forall f s a b, span f s = (a, b) -> s = (a ++ b)%string /\ all_chars (fun c => f c = true) a /\ match b with String c _ => f c = false | EmptyString => True end.
Proof.
  induction s as [|c s IH]; intros a b H; cbn [span] in H.
  - injection H as <- <-. repeat split.
  - destruct (f c) eqn:F.
    + destruct (span f s) as [a' b'] eqn:S. injection H as <- <-. destruct (IH a' b' eq_refl) as (-> & A & B). repeat split; assumption.
    + injection H as <- <-. repeat split. exact F.
Qed.
Lemma all_impl : forall (P Q : ascii -> Prop) s, (forall c, P c -> Q c) -> all_chars P s -> all_chars Q s.
Proof. induction s as [|c s IH]; intros H K; [exact I|]. destruct K. split; auto. Qed.
Lemma between_iff : forall a c b, between a c b = true <-> (code a <= code c <= code b)%N.
Proof.
  intros a c b. unfold between, code. rewrite Bool.andb_true_iff. unfold Ascii.leb, Ascii.compare. split.
  - intros (A & B). destruct (N.compare_spec (N_of_ascii a) (N_of_ascii c)); try discriminate; destruct (N.compare_spec (N_of_ascii c) (N_of_ascii b)); try discriminate; lia.
  - intros (A & B). split; [destruct (N.compare_spec (N_of_ascii a) (N_of_ascii c))|destruct (N.compare_spec (N_of_ascii c) (N_of_ascii b))]; try reflexivity; lia.
Qed.
Lemma is_digit_iff : forall c, is_digit c = true <-> digit c.
Proof. intros c. unfold is_digit. rewrite between_iff. reflexivity. Qed.
Lemma is_start_iff : forall c, is_start c = true <-> letter c.
Proof.
  intros c. unfold is_start. rewrite !Bool.orb_true_iff, !between_iff, Ascii.eqb_eq. unfold letter.
  change (code "a") with 97%N. change (code "z") with 122%N. change (code "A") with 65%N. change (code "Z") with 90%N.
  assert (E : c = "_"%char <-> code c = 95%N) by (split; [intros ->; reflexivity|intros H; rewrite <- (ascii_N_embedding c); unfold code in H; rewrite H; reflexivity]). rewrite E. tauto.
Qed.
Lemma is_ascii_iff : forall c, is_ascii c = true <-> visible c.
Proof. intros c. unfold is_ascii. rewrite between_iff. reflexivity. Qed.
Lemma number_more : forall s a z, decimal a z -> all_chars (fun c => is_digit c = true) s -> decimal (a ++ s) (number z s).
Proof.
  induction s as [|c s IH]; intros a z D A; cbn [number].
  - rewrite app_nil_str. exact D.
  - destruct A as (C & A). apply is_digit_iff in C. replace (a ++ String c s)%string with ((a ++ String c "") ++ s)%string by (rewrite app_assoc_str; reflexivity).
    apply IH; [|exact A]. replace (Z.of_N (N_of_ascii c - 48)) with (Z.of_N (code c) - 48)%Z by (unfold digit, code in *; lia). constructor; assumption.
Qed.
Lemma number_decimal : forall c s, is_digit c = true -> all_chars (fun c => is_digit c = true) s -> decimal (String c s) (number 0 (String c s)).
Proof.
  intros c s C A. cbn [number]. apply (number_more s (String c "")); [|exact A]. apply is_digit_iff in C.
  replace (10 * 0 + Z.of_N (N_of_ascii c - 48))%Z with (Z.of_N (code c) - 48)%Z by (unfold digit, code in *; lia). constructor. exact C.
Qed.
Lemma short_spec : forall q n s v r, String.length s <= n -> short_string q s = Some (v, r) -> exists w, s = (w ++ String q r)%string /\ quoted q w v.
Proof.
  intros q. induction n as [|n IH]; intros s v r L H; destruct s as [|c s]; try discriminate; [cbn in L; lia|]. cbn [short_string] in H. cbn [String.length] in L.
  destruct (Ascii.eqb_spec c q) as [->|NQ]; [injection H as <- <-; exists ""; split; [reflexivity|constructor]|].
  destruct (Ascii.eqb_spec c backslash) as [->|NB].
  - destruct s as [|e s]; [discriminate|]. cbn [String.length] in L. destruct (Ascii.eqb_spec e "n") as [->|NN].
    + destruct (short_string q s) as [[v' r']|] eqn:E; [|discriminate]. injection H as <- <-. destruct (IH s v' r' ltac:(lia) E) as (w & -> & Q). exists (String backslash (String "n" w)). split; [reflexivity|constructor; exact Q].
    + destruct (Ascii.eqb e backslash || Ascii.eqb e quote || Ascii.eqb e dquote) eqn:B; [|discriminate].
      destruct (short_string q s) as [[v' r']|] eqn:E; [|discriminate]. injection H as <- <-. destruct (IH s v' r' ltac:(lia) E) as (w & -> & Q). exists (String backslash (String e w)). split; [reflexivity|].
      constructor; [|exact Q]. rewrite !Bool.orb_true_iff, !Ascii.eqb_eq in B. tauto.
  - destruct (is_ascii c) eqn:A; [|discriminate]. destruct (short_string q s) as [[v' r']|] eqn:E; [|discriminate]. injection H as <- <-.
    destruct (IH s v' r' ltac:(lia) E) as (w & -> & Q). exists (String c w). split; [reflexivity|]. apply is_ascii_iff in A. constructor; assumption.
Qed.
Lemma long_spec : forall q s v r, long_string q s = Some (v, r) -> s = (v ++ String q (String q (String q r)))%string /\ all_chars (fun c => (visible c /\ c <> backslash) \/ c = newline) v.
Proof.
  intros q. induction s as [|c s IH]; intros v r H; [discriminate|]. cbn [long_string] in H. destruct s as [|c1 s]; [discriminate|]. destruct s as [|c2 s]; [discriminate|].
  destruct (Ascii.eqb c q && Ascii.eqb c1 q && Ascii.eqb c2 q) eqn:Q.
  - injection H as <- <-. rewrite !Bool.andb_true_iff, !Ascii.eqb_eq in Q. destruct Q as ((-> & ->) & ->). split; [reflexivity|exact I].
  - destruct ((is_ascii c || Ascii.eqb c newline) && negb (Ascii.eqb c backslash)) eqn:A; [|discriminate]. destruct (long_string q (String c1 (String c2 s))) as [[v' r']|] eqn:E; [|discriminate].
    injection H as <- <-. destruct (IH v' r' eq_refl) as (S & B). split; [rewrite S; reflexivity|]. split; [|exact B].
    rewrite Bool.andb_true_iff, Bool.orb_true_iff, Bool.negb_true_iff, is_ascii_iff, Ascii.eqb_eq, Ascii.eqb_neq in A. tauto.
Qed.
Lemma sub_drop : forall n s, (substring 0 n s ++ drop n s)%string = s.
Proof. induction n as [|n IH]; intros [|c s]; try reflexivity. cbn. rewrite IH. reflexivity. Qed.
Lemma operator_spec : forall s o r, operator s = Some (o, r) -> s = (o ++ r)%string /\ In o (operators1 ++ operators2 ++ operators3).
Proof.
  intros s o r H. unfold operator in H.
  assert (A : forall n ops x, (if existsb (String.eqb (substring 0 n s)) ops then Some (substring 0 n s) else None) = Some x -> x = substring 0 n s /\ In x ops).
  { intros n ops x K. destruct (existsb (String.eqb (substring 0 n s)) ops) eqn:E; [|discriminate]. injection K as <-. split; [reflexivity|]. apply existsb_exists in E. destruct E as (y & I & E). apply String.eqb_eq in E. rewrite E. exact I. }
  destruct (if existsb (String.eqb (substring 0 3 s)) operators3 then Some (substring 0 3 s) else None) as [x|] eqn:E3.
  { injection H as <- <-. destruct (A _ _ _ E3) as (-> & I). split; [symmetry; apply sub_drop|]. rewrite !in_app_iff. tauto. }
  destruct (if existsb (String.eqb (substring 0 2 s)) operators2 then Some (substring 0 2 s) else None) as [x|] eqn:E2.
  { injection H as <- <-. destruct (A _ _ _ E2) as (-> & I). split; [symmetry; apply sub_drop|]. rewrite !in_app_iff. tauto. }
  destruct (if existsb (String.eqb (substring 0 1 s)) operators1 then Some (substring 0 1 s) else None) as [x|] eqn:E1; [|discriminate].
  injection H as <- <-. destruct (A _ _ _ E1) as (-> & I). split; [symmetry; apply sub_drop|]. rewrite !in_app_iff. tauto.
Qed.
Lemma fparts_spec : forall lexer n q s ps r, (forall e ts, lexer e = Some ts -> laid_out e (filter seen ts)) ->
  fparts lexer n q s = Some (ps, r) -> exists w, s = (w ++ String q r)%string /\ spelled_parts q w ps.
Proof.
  intros lexer n q. induction n as [|n IH]; intros s ps r X H; [discriminate|]. cbn [fparts] in H. destruct s as [|c s]; [discriminate|].
  destruct (Ascii.eqb_spec c q) as [->|NQ]; [injection H as <- <-; exists ""; split; [reflexivity|constructor]|].
  destruct (Ascii.eqb_spec c "{") as [->|NB].
  - destruct (span _ s) as [e t] eqn:S in H. apply span_spec in S. destruct S as (-> & _ & _).
    destruct t as [|[[] [] [] [] [] [] [] []] t]; try discriminate H.
    destruct (lexer e) as [ts|] eqn:E; [|discriminate]. destruct (fparts lexer n q t) as [[ps' r']|] eqn:F; [|discriminate]. injection H as <- <-.
    destruct (IH t ps' r' X F) as (w & -> & P). exists (String "{" (e ++ String "}" w)). split; [cbn; rewrite app_assoc_str; reflexivity|]. constructor; [apply X; exact E|exact P].
  - destruct (span _ (String c s)) as [t u] eqn:S in H. apply span_spec in S. destruct S as (S & A & _). rewrite S. destruct t as [|c' t]; [discriminate|].
    destruct (fparts lexer n q u) as [[ps' r']|] eqn:F; [|discriminate]. injection H as <- <-. destruct (IH u ps' r' X F) as (w & -> & P).
    exists (String c' t ++ w)%string. split; [rewrite app_assoc_str; reflexivity|]. constructor; [discriminate| |exact P]. eapply all_impl; [|exact A]. cbv beta.
    intros d D. rewrite Bool.andb_true_iff, Bool.negb_true_iff, is_ascii_iff in D. destruct D as (D & K). cbn [existsb] in K. rewrite !Bool.orb_false_iff, !Ascii.eqb_neq in K. tauto.
Qed.
Lemma comment_spec : forall s, exists c, String "#" s = String "#" (c ++ skip_comment (String "#" s)) /\ all_chars (fun d => d <> newline) c /\
  (skip_comment (String "#" s) = "" \/ exists s', skip_comment (String "#" s) = String newline s').
Proof.
  intros s. unfold skip_comment. destruct (span _ (String "#" s)) as [a b] eqn:S. cbn [snd]. apply span_spec in S. destruct S as (S & A & B).
  destruct a as [|c a].
  - cbn [append] in S. subst b. discriminate B.
  - cbn [append] in S. injection S as <- S. exists a. destruct A as (_ & A). split; [rewrite S; reflexivity|]. split.
    + eapply all_impl; [|exact A]. cbv beta. intros d D. rewrite Bool.negb_true_iff, Ascii.eqb_neq in D. exact D.
    + destruct b as [|d b]; [left; reflexivity|right]. rewrite Bool.negb_false_iff, Ascii.eqb_eq in B. subst. eexists. reflexivity.
Qed.

Definition ending (ts : list token) : Prop := exists us t, ts = us ++ [t] /\ seen t = false.
Lemma ending_cons : forall t ts, ending ts -> ending (t :: ts).
Proof. intros t ts (us & u & -> & H). exists (t :: us), u. auto. Qed.
Lemma ending_app : forall a ts, ending ts -> ending (a ++ ts).
Proof. intros a ts (us & u & -> & H). exists (a ++ us), u. rewrite app_assoc. auto. Qed.
Lemma unseen : forall (A : Type) (l : list A), filter seen (map (fun _ => TDedent) l) = [].
Proof. induction l; [reflexivity|exact IHl]. Qed.
Lemma unseen_indent : forall k ind ts r, indentation k ind = Some (ts, r) -> filter seen ts = [].
Proof.
  assert (D : forall k ind ts r, dedent k ind = Some (ts, r) -> filter seen ts = []).
  { induction ind as [|i ind IH]; intros ts r H; [discriminate|]. cbn [dedent] in H. destruct (Nat.eqb k i); [injection H as <- <-; reflexivity|].
    destruct (Nat.ltb k i); [|discriminate]. destruct (dedent k ind) as [[ts' r']|]; [|discriminate]. injection H as <- <-. exact (IH ts' r' eq_refl). }
  intros k [|i ind] ts r H; [discriminate|]. cbn [indentation] in H. destruct (Nat.ltb i k); [injection H as <- <-; reflexivity|]. eapply D. exact H.
Qed.
Lemma removelast_seen : forall ts, ending ts -> filter seen (removelast ts) = filter seen ts.
Proof. intros ts (us & t & -> & H). rewrite removelast_last, filter_app. cbn [filter]. rewrite H, app_nil_r. reflexivity. Qed.
Lemma laid_spaces : forall a s ts, all_chars (fun c => Ascii.eqb " " c = true) a -> laid_out s ts -> laid_out (a ++ s) ts.
Proof. induction a as [|c a IH]; intros s ts A H; [exact H|]. destruct A as (C & A). apply Ascii.eqb_eq in C. subst c. apply laid_space. apply IH; assumption. Qed.

Theorem lex_spec : forall n,
  (forall s depth ind start ts, lex n s depth ind start = Some ts -> laid_out s (filter seen ts) /\ (start = false -> ending ts) /\ (ts = [] \/ ending ts)) /\
  (forall s ts, lex_flat n s = Some ts -> laid_out s (filter seen ts)).
Proof.
  induction n as [|n (IH & IF)]; [split; intros; discriminate|]. split.
  2:{ intros s ts H. cbn [lex_flat] in H. destruct (lex n s 0 [0] false) as [us|] eqn:E; [|discriminate]. injection H as <-. destruct (IH _ _ _ _ _ E) as (A & B & _).
      rewrite removelast_seen by (apply B; reflexivity). exact A. }
  assert (D : forall ind : list nat, map (fun _ => TDedent) (tl ind) = [] \/ ending (map (fun _ => TDedent) (tl ind))).
  { intros ind. destruct (tl ind) as [|x l] using rev_ind; [left; reflexivity|right]. rewrite map_app. exists (map (fun _ => TDedent) l), TDedent. split; reflexivity. }
  intros s depth ind start ts H. cbn [lex] in H. destruct start.
  - destruct (span (Ascii.eqb " ") s) as [sp r] eqn:S. apply span_spec in S. destruct S as (-> & A & B). destruct r as [|c r].
    { injection H as <-. rewrite unseen. split; [apply laid_spaces; [exact A|constructor]|]. split; [discriminate|apply D]. }
    destruct (Ascii.eqb_spec c newline) as [->|N1].
    { destruct (IH _ _ _ _ _ H) as (X & _ & Y). split; [apply laid_spaces; [exact A|apply laid_newline; exact X]|]. split; [discriminate|exact Y]. }
    destruct (Ascii.eqb_spec c "#") as [->|N2].
    { destruct (comment_spec r) as (cm & E & C & K). rewrite E. destruct K as [K|(s' & K)]; rewrite K in H.
      - injection H as <-. rewrite unseen. split; [apply laid_spaces; [exact A|]; apply laid_comment; [exact C|left; exact K|rewrite K; constructor]|]. split; [discriminate|apply D].
      - destruct (IH _ _ _ _ _ H) as (X & _ & Y). split; [apply laid_spaces; [exact A|]; apply laid_comment; [exact C|right; exists s'; exact K|rewrite K; apply laid_newline; exact X]|]. split; [discriminate|exact Y]. }
    destruct (indentation (String.length sp) ind) as [[us ind']|] eqn:I; [|discriminate]. destruct (lex n (String c r) 0 ind' false) as [vs|] eqn:E; [|discriminate]. injection H as <-.
    destruct (IH _ _ _ _ _ E) as (X & Y & _). rewrite filter_app, (unseen_indent _ _ _ _ I). split; [apply laid_spaces; [exact A|exact X]|]. split; [discriminate|right; apply ending_app; apply Y; reflexivity].
  - assert (T : forall t w r d, match lex n r d ind false with Some ts => Some (t :: ts) | None => None end = Some ts -> spelled t w -> seen t = true ->
      laid_out (w ++ r) (filter seen ts) /\ (false = false -> ending ts) /\ (ts = [] \/ ending ts)).
    { intros t w r d K W ST. destruct (lex n r d ind false) as [us|] eqn:E; [|discriminate]. injection K as <-. destruct (IH _ _ _ _ _ E) as (X & Y & _). cbn [filter]. rewrite ST.
      split; [apply laid_token; assumption|]. split; [intros _|right]; apply ending_cons; apply Y; reflexivity. }
    destruct s as [|c s].
    { destruct depth; [|discriminate]. injection H as <-. cbn [filter seen]. rewrite unseen. split; [constructor|].
      assert (E : ending (TNewline :: map (fun _ => TDedent) (tl ind))) by (destruct (D ind) as [->|E]; [exists [], TNewline; split; reflexivity|apply ending_cons; exact E]). auto. }
    destruct (Ascii.eqb_spec c newline) as [->|N1].
    { destruct depth as [|d].
      - destruct (lex n s 0 ind true) as [us|] eqn:E; [|discriminate]. injection H as <-. destruct (IH _ _ _ _ _ E) as (X & _ & Y). cbn [filter seen]. split; [apply laid_newline; exact X|].
        assert (Z : ending (TNewline :: us)) by (destruct Y as [->|Y]; [exists [], TNewline; split; reflexivity|apply ending_cons; exact Y]). auto.
      - destruct (IH _ _ _ _ _ H) as (X & Y). split; [apply laid_newline; exact X|exact Y]. }
    destruct (Ascii.eqb_spec c " ") as [->|N2]; [destruct (IH _ _ _ _ _ H) as (X & Y); split; [apply laid_space; exact X|exact Y]|].
    destruct (Ascii.eqb_spec c "#") as [->|N3].
    { destruct (IH _ _ _ _ _ H) as (X & Y). destruct (comment_spec s) as (cm & E & C & K). rewrite E. split; [apply laid_comment; assumption|exact Y]. }
    destruct (is_digit c) eqn:DG.
    { destruct (span is_digit (String c s)) as [ds r] eqn:S. apply span_spec in S. destruct S as (E & A & B). destruct (good_number ds r); [|discriminate]. rewrite E.
      destruct ds as [|d0 ds]; [cbn [append] in E; subst r; congruence|]. eapply T; [exact H| |reflexivity]. constructor. destruct A. apply number_decimal; assumption. }
    destruct (Ascii.eqb c quote || Ascii.eqb c dquote) eqn:QT.
    { assert (Q : c = quote \/ c = dquote) by (rewrite Bool.orb_true_iff, !Ascii.eqb_eq in QT; exact QT).
      assert (SH : match short_string c s with Some (v, r) => match lex n r depth ind false with Some ts => Some (TStr v :: ts) | None => None end | None => None end = Some ts ->
        laid_out (String c s) (filter seen ts) /\ (false = false -> ending ts) /\ (ts = [] \/ ending ts)).
      { intros K. destruct (short_string c s) as [[v r]|] eqn:E; [|discriminate]. destruct (short_spec c _ s v r (le_n _) E) as (w & -> & W).
        replace (String c (w ++ String c r)) with (String c (w ++ String c "") ++ r)%string by (cbn; rewrite app_assoc_str; reflexivity). eapply T; [exact K| |reflexivity]. constructor; assumption. }
      destruct s as [|c1 s]; [apply SH; exact H|]. destruct s as [|c2 s]; [apply SH; exact H|]. destruct (Ascii.eqb c1 c && Ascii.eqb c2 c) eqn:C; [|apply SH; exact H].
      rewrite Bool.andb_true_iff, !Ascii.eqb_eq in C. destruct C as (-> & ->). destruct (long_string c s) as [[v r]|] eqn:E; [|discriminate]. destruct (long_spec c s v r E) as (-> & W).
      replace (String c (String c (String c (v ++ String c (String c (String c r)))))) with (String c (String c (String c (v ++ String c (String c (String c ""))))) ++ r)%string by (cbn; rewrite app_assoc_str; reflexivity).
      eapply T; [exact H| |reflexivity]. constructor; assumption. }
    destruct (is_start c) eqn:ST.
    { destruct (span is_name (String c s)) as [x r] eqn:S. apply span_spec in S. destruct S as (E & A & B). rewrite E.
      destruct x as [|c0 x]; [cbn [append] in E; subst r; unfold is_name in B; rewrite ST in B; discriminate|]. cbn [append] in E. injection E as <- E.
      assert (NM : spelled (TName (String c x)) (String c x)).
      { destruct A as (_ & A). constructor; [apply is_start_iff; exact ST|]. eapply all_impl; [|exact A]. cbv beta. intros d K. unfold is_name in K. rewrite Bool.orb_true_iff, is_start_iff, is_digit_iff in K. exact K. }
      destruct r as [|q r]; [eapply T; [exact H|exact NM|reflexivity]|].
      destruct (Ascii.eqb q quote || Ascii.eqb q dquote) eqn:QQ; [|eapply T; [exact H|exact NM|reflexivity]].
      assert (Q : q = quote \/ q = dquote) by (rewrite Bool.orb_true_iff, !Ascii.eqb_eq in QQ; exact QQ).
      destruct (String.eqb_spec (String c x) "f") as [F|F]; [|discriminate]. injection F as -> ->. destruct (fparts (fun e => lex_flat n e) n q r) as [[ps r']|] eqn:P; [|discriminate].
      destruct (fparts_spec _ _ _ _ _ _ IF P) as (w & -> & W).
      replace ("f" ++ String q (w ++ String q r'))%string with (String "f" (String q (w ++ String q "")) ++ r')%string by (cbn; rewrite app_assoc_str; reflexivity).
      destruct (w ++ String q r')%string as [|q1 z]; [discriminate|]. destruct (Ascii.eqb q1 q); [discriminate|]. eapply T; [exact H| |reflexivity]. constructor; assumption. }
    destruct (operator (String c s)) as [[o r]|] eqn:O; [|discriminate]. destruct (operator_spec _ _ _ O) as (E & I). rewrite E.
    destruct (opens o); [eapply T; [exact H|constructor; exact I|reflexivity]|]. destruct (closes o); [|eapply T; [exact H|constructor; exact I|reflexivity]].
    destruct depth as [|d]; [discriminate|]. eapply T; [exact H|constructor; exact I|reflexivity].
Qed.
Theorem tokens_spec : forall s ts, tokens s = Some ts -> laid_out s (filter seen ts).
Proof. intros s ts H. unfold tokens in H. apply (proj1 (lex_spec _)) in H. apply H. Qed.
