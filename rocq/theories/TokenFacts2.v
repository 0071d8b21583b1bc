(* The lexer gives the tokens of SpecTokens.v. *)
From Coq Require Import List String Ascii ZArith Bool Arith Lia.
From Verif Require Import PyLex SpecLex SpecTokens LexFacts TokenFacts1.
Import ListNotations.
Local Open Scope string_scope.
Local Open Scope list_scope.
Local Open Scope nat_scope.

Definition tail_of (s : string) : Prop := s = "" \/ exists b, s = String newline b.
Lemma no_next_tail : forall (P : ascii -> Prop) a t, tail_of t -> ~ P newline -> no_next P (a ++ t) <-> no_next P a.
Proof. intros P [|c a] t T N; [|reflexivity]. destruct T as [->|(b & ->)]; [reflexivity|]. cbn. tauto. Qed.
Lemma begins_tail : forall o x t, tail_of t -> all_chars (fun c => c <> newline) o -> begins o (x ++ t) -> begins o x.
Proof.
  intros o x t [->|(b & ->)]; [rewrite app_nil_str; auto|]. revert x. induction o as [|c o IH]; intros x A (r & E); [exists x; reflexivity|]. destruct A as (C & A). destruct x as [|d x]; cbn in E; injection E as D E; [congruence|].
  destruct (IH x A (ex_intro _ r E)) as (r' & ->). exists r'. rewrite D. reflexivity.
Qed.
Lemma begins_more : forall o x t, begins o x -> begins o (x ++ t).
Proof. intros o x t (r & ->). exists (r ++ t)%string. apply app_assoc_str. Qed.
Fixpoint plain (s : string) : bool := match s with EmptyString => true | String c s' => negb (Ascii.eqb c newline) && plain s' end.
Lemma plain_all : forall s, plain s = true -> all_chars (fun c => c <> newline) s.
Proof. induction s as [|c s IH]; intros H; [exact I|]. cbn in H. rewrite andb_true_iff, negb_true_iff, Ascii.eqb_neq in H. split; [tauto|]. apply IH. tauto. Qed.
Lemma operators_plain : forall o, In o operators -> all_chars (fun c => c <> newline) o.
Proof. intros o H. apply plain_all. revert o H. apply forallb_forall. vm_compute. reflexivity. Qed.
Lemma newline_name : ~ name_char newline.
Proof. unfold name_char, letter, digit. change (code newline) with 10%N. lia. Qed.
Lemma newline_quote : forall q, q = quote \/ q = dquote -> q <> newline.
Proof. intros q [-> | ->]; discriminate. Qed.
Lemma token_text_tail : forall k w a t, tail_of t -> token_text k w (a ++ t) <-> token_text k w a.
Proof.
  assert (N1 : ~ (name_char newline \/ newline = quote \/ newline = dquote)) by (intros [H|[H|H]]; [exact (newline_name H)|discriminate|discriminate]).
  assert (N2 : ~ (name_char newline \/ newline = "."%char)) by (intros [H|H]; [exact (newline_name H)|discriminate]).
  intros k w a t T. split; intros H; inversion H; subst.
  - constructor; try assumption. apply (no_next_tail _ a t T N1). assumption.
  - constructor; try assumption. apply (no_next_tail _ a t T N2). assumption.
  - constructor; try assumption. intros E. apply (no_next_tail _ a t T); [apply newline_quote; assumption|auto].
  - apply text_long; assumption.
  - constructor; assumption.
  - constructor; [assumption|]. intros o' I B. apply H1; [exact I|]. rewrite <- app_assoc_str. apply begins_more. exact B.
  - constructor; try assumption. apply no_next_tail; assumption.
  - constructor; try assumption. apply no_next_tail; assumption.
  - constructor; try assumption. intros E. apply no_next_tail; [assumption| |auto]. apply newline_quote. assumption.
  - apply text_long; assumption.
  - constructor; assumption.
  - constructor; [assumption|]. intros o' I B. apply H1; [exact I|]. rewrite <- app_assoc_str in B. eapply begins_tail; [exact T|apply operators_plain; exact I|exact B].
Qed.

(* the longest operator *)
Lemma begins_sub : forall o s, begins o s <-> substring 0 (String.length o) s = o.
Proof.
  induction o as [|c o IH]; intros s; split; intros H.
  - destruct s; reflexivity.
  - exists s. reflexivity.
  - destruct H as (r & ->). cbn. f_equal. apply IH. exists r. reflexivity.
  - destruct s as [|d s]; [discriminate|]. cbn in H. injection H as -> H. apply IH in H. destruct H as (r & ->). exists r. reflexivity.
Qed.
Definition sized (n : nat) (ops : list string) : bool := forallb (fun o => Nat.eqb (String.length o) n) ops.
Lemma sized_len : forall n ops o, sized n ops = true -> In o ops -> String.length o = n.
Proof. intros n ops o H I. unfold sized in H. rewrite forallb_forall in H. apply Nat.eqb_eq. auto. Qed.
Lemma found : forall n ops s, sized n ops = true -> existsb (String.eqb (substring 0 n s)) ops = true <-> exists o, In o ops /\ begins o s.
Proof.
  intros n ops s Z. rewrite existsb_exists. split; intros (o & I & H); exists o; (split; [exact I|]).
  - apply String.eqb_eq in H. apply begins_sub. rewrite (sized_len _ _ _ Z I). exact H.
  - apply String.eqb_eq. rewrite <- (sized_len _ _ _ Z I). apply begins_sub. exact H.
Qed.
Lemma found_in : forall n ops s, existsb (String.eqb (substring 0 n s)) ops = true -> In (substring 0 n s) ops.
Proof. intros n ops s H. apply existsb_exists in H. destruct H as (o & I & H). apply String.eqb_eq in H. rewrite H. exact I. Qed.
Lemma s3 : sized 3 operators3 = true. Proof. reflexivity. Qed.
Lemma s2 : sized 2 operators2 = true. Proof. reflexivity. Qed.
Lemma s1 : sized 1 operators1 = true. Proof. reflexivity. Qed.
Lemma operator_longest : forall s o r, operator s = Some (o, r) -> forall o', In o' operators -> begins o' s -> String.length o' <= String.length o.
Proof.
  intros s o r H o' I B. unfold operators in I. rewrite !in_app_iff in I. unfold operator in H.
  destruct (existsb (String.eqb (substring 0 3 s)) operators3) eqn:E3.
  { injection H as <- <-. rewrite (sized_len _ _ _ s3 (found_in _ _ _ E3)). destruct I as [I|[I|I]]; [rewrite (sized_len _ _ _ s1 I)|rewrite (sized_len _ _ _ s2 I)|rewrite (sized_len _ _ _ s3 I)]; lia. }
  assert (I' : In o' operators1 \/ In o' operators2). { destruct I as [I|[I|I]]; auto. assert (X : existsb (String.eqb (substring 0 3 s)) operators3 = true) by (apply (found _ _ _ s3); eauto). congruence. }
  destruct (existsb (String.eqb (substring 0 2 s)) operators2) eqn:E2.
  { injection H as <- <-. rewrite (sized_len _ _ _ s2 (found_in _ _ _ E2)). destruct I' as [I'|I']; [rewrite (sized_len _ _ _ s1 I')|rewrite (sized_len _ _ _ s2 I')]; lia. }
  assert (I2 : In o' operators1). { destruct I'; auto. assert (X : existsb (String.eqb (substring 0 2 s)) operators2 = true) by (apply (found _ _ _ s2); eauto). congruence. }
  destruct (existsb (String.eqb (substring 0 1 s)) operators1) eqn:E1; [|discriminate]. injection H as <- <-. rewrite (sized_len _ _ _ s1 (found_in _ _ _ E1)), (sized_len _ _ _ s1 I2). lia.
Qed.
Lemma app_same_length : forall a b c d : string, (a ++ b)%string = (c ++ d)%string -> String.length a = String.length c -> a = c /\ b = d.
Proof. induction a as [|x a IH]; intros b [|y c] d E L; try discriminate; [split; [reflexivity|exact E]|]. cbn in E, L. injection E as -> E. destruct (IH b c d E ltac:(lia)) as (-> & ->). auto. Qed.
Lemma operator_complete : forall o r, In o operators -> (forall o', In o' operators -> begins o' (o ++ r) -> String.length o' <= String.length o) -> operator (o ++ r) = Some (o, r).
Proof.
  intros o r I L. assert (B : begins o (o ++ r)) by (exists r; reflexivity). destruct (operator (o ++ r)) as [[o2 r2]|] eqn:E.
  - pose proof (operator_longest _ _ _ E o I B). destruct (operator_spec _ _ _ E) as (S & I2). pose proof (L o2 I2 (ex_intro _ r2 S)). destruct (app_same_length _ _ _ _ S ltac:(lia)) as (-> & ->). reflexivity.
  - exfalso. unfold operators in I. rewrite !in_app_iff in I. unfold operator in E. destruct (existsb (String.eqb (substring 0 3 (o ++ r))) operators3) eqn:E3; [discriminate|].
    destruct (existsb (String.eqb (substring 0 2 (o ++ r))) operators2) eqn:E2; [discriminate|]. destruct (existsb (String.eqb (substring 0 1 (o ++ r))) operators1) eqn:E1; [discriminate|].
    destruct I as [I|[I|I]].
    + rewrite (proj2 (found _ _ _ s1)) in E1 by eauto. discriminate.
    + rewrite (proj2 (found _ _ _ s2)) in E2 by eauto. discriminate.
    + rewrite (proj2 (found _ _ _ s3)) in E3 by eauto. discriminate.
Qed.

(* strings *)
Lemma length_app_str : forall a b, String.length (a ++ b) = String.length a + String.length b.
Proof. induction a as [|c a IH]; intros b; [reflexivity|]. cbn. rewrite IH. reflexivity. Qed.
Lemma long_first : forall q s v r, long_string q s = Some (v, r) -> forall a b, (v ++ String q (String q ""))%string <> (a ++ three q b)%string.
Proof.
  intros q. induction s as [|c s IH]; intros v r H a b X; [discriminate|]. pose proof (proj1 (long_spec _ _ _ _ H)) as W. cbn [long_string] in H. destruct s as [|c1 s]; [discriminate|]. destruct s as [|c2 s]; [discriminate|].
  destruct (Ascii.eqb c q && Ascii.eqb c1 q && Ascii.eqb c2 q) eqn:Q.
  - injection H as <- <-. apply (f_equal String.length) in X. unfold three in X. rewrite !length_app_str in X. cbn in X. lia.
  - destruct ((is_ascii c || Ascii.eqb c newline) && negb (Ascii.eqb c backslash)) eqn:A; [|discriminate]. destruct (long_string q (String c1 (String c2 s))) as [[v' r']|] eqn:E; [|discriminate].
    injection H as <- <-. destruct a as [|d a]; cbn in X; injection X as -> X.
    + cbn in W. injection W as W. assert (Y : (v' ++ String q (String q (String q r')))%string = ((v' ++ String q (String q "")) ++ String q r')%string) by (rewrite app_assoc_str; reflexivity). rewrite Y, X in W. cbn in W. injection W as -> -> _.
      rewrite !Ascii.eqb_refl in Q. discriminate.
    + exact (IH v' r' eq_refl a b X).
Qed.
Lemma long_complete : forall q v r, all_chars (fun c => (visible c /\ c <> backslash) \/ c = newline) v -> (forall a b, (v ++ String q (String q ""))%string <> (a ++ three q b)%string) ->
  long_string q (v ++ three q r) = Some (v, r).
Proof.
  intros q. induction v as [|c v IH]; intros r A X.
  - cbn. rewrite !Ascii.eqb_refl. reflexivity.
  - destruct A as (C & A). specialize (IH r A ltac:(intros a b E; apply (X (String c a) b); cbn; rewrite E; reflexivity)).
    assert (Y : exists c1 c2 s t, (v ++ three q r)%string = String c1 (String c2 s) /\ (v ++ String q (String q ""))%string = String c1 (String c2 t)).
    { destruct v as [|c1 [|c2 v]]; cbn; do 4 eexists; split; reflexivity. }
    destruct Y as (c1 & c2 & s & t & Y1 & Y2). cbn [append long_string]. rewrite Y1 in *. rewrite IH.
    destruct (Ascii.eqb c q && Ascii.eqb c1 q && Ascii.eqb c2 q) eqn:Q.
    + rewrite !andb_true_iff, !Ascii.eqb_eq in Q. destruct Q as ((-> & ->) & ->). exfalso. apply (X "" t). cbn. rewrite Y2. reflexivity.
    + replace ((is_ascii c || Ascii.eqb c newline) && negb (Ascii.eqb c backslash)) with true; [reflexivity|]. symmetry.
      rewrite andb_true_iff, orb_true_iff, negb_true_iff, is_ascii_iff, Ascii.eqb_eq, Ascii.eqb_neq. destruct C as [(C1 & C2)|C]; [tauto|]. subst c. split; [tauto|discriminate].
Qed.
Lemma short_complete : forall q w v r, q = quote \/ q = dquote -> quoted q w v -> short_string q (w ++ String q r) = Some (v, r).
Proof.
  intros q w v r Q. assert (NB : Ascii.eqb backslash q = false) by (destruct Q as [-> | ->]; reflexivity).
  induction 1 as [|c s v V N1 N2 X IH|s v X IH|c s v C X IH]; cbn [append short_string].
  - rewrite Ascii.eqb_refl. reflexivity.
  - rewrite (proj2 (Ascii.eqb_neq c q) N1), (proj2 (Ascii.eqb_neq c backslash) N2), (proj2 (is_ascii_iff c) V), IH. reflexivity.
  - rewrite NB, Ascii.eqb_refl, IH. reflexivity.
  - rewrite NB, Ascii.eqb_refl. destruct (Ascii.eqb_spec c "n"); [subst c; destruct C as [C|[C|C]]; discriminate C|].
    replace (Ascii.eqb c backslash || Ascii.eqb c quote || Ascii.eqb c dquote) with true; [rewrite IH; reflexivity|]. symmetry. rewrite !orb_true_iff, !Ascii.eqb_eq. tauto.
Qed.
(* numbers *)
Lemma number_app : forall s t a, number a (s ++ t) = number (number a s) t.
Proof. induction s as [|c s IH]; intros t a; [reflexivity|]. cbn. apply IH. Qed.
Lemma all_app : forall P a b, all_chars P (a ++ b) <-> all_chars P a /\ all_chars P b.
Proof. induction a as [|c a IH]; intros b; cbn; [tauto|]. rewrite IH. tauto. Qed.
Lemma decimal_number : forall s z, decimal s z -> s <> "" /\ all_chars (fun c => is_digit c = true) s /\ number 0 s = z.
Proof.
  induction 1 as [d D|s z d X (N & A & E) D].
  - split; [discriminate|]. split; [split; [apply is_digit_iff; exact D|exact I]|]. cbn [number]. unfold digit, code in *. lia.
  - split; [destruct s; discriminate|]. split; [apply all_app; split; [exact A|split; [apply is_digit_iff; exact D|exact I]]|]. rewrite number_app, E. cbn [number]. unfold digit, code in *. lia.
Qed.
Lemma is_name_iff : forall c, is_name c = true <-> name_char c.
Proof. intros c. unfold is_name, name_char. rewrite orb_true_iff, is_start_iff, is_digit_iff. reflexivity. Qed.
Lemma bool_no : forall b (P : Prop), (b = true <-> P) -> b = false <-> ~ P.
Proof. intros [] P H; split; intros X; try discriminate; try reflexivity; [exfalso; apply X; tauto|]. intros Y. apply H in Y. discriminate. Qed.
Lemma good_number_iff : forall ds r, ds <> "" -> good_number ds r = true <-> (ds = "0" \/ forall u, ds <> String "0" u) /\ no_next (fun d => name_char d \/ d = "."%char) r.
Proof.
  intros ds r N. unfold good_number. rewrite andb_true_iff.
  assert (A : match ds with String "0" (String _ _) => false | _ => true end = true <-> (ds = "0" \/ forall u, ds <> String "0" u)).
  { destruct ds as [|c ds]; [congruence|]. destruct (Ascii.eqb_spec c "0") as [->|NE].
    - destruct ds; split; intros H; try reflexivity; [left; reflexivity|discriminate|destruct H as [H|H]; [discriminate|exfalso; eapply H; reflexivity]].
    - split; intros _; [right; intros u E; injection E as -> _; contradiction|]. destruct c as [[] [] [] [] [] [] [] []]; try reflexivity. contradiction. }
  rewrite A. destruct r as [|c r]; [cbn; tauto|]. cbn [no_next]. rewrite andb_true_iff, !negb_true_iff, Ascii.eqb_neq, (bool_no _ _ (is_name_iff c)). tauto.
Qed.
Lemma span_complete : forall f a b, all_chars (fun c => f c = true) a -> match b with String c _ => f c = false | EmptyString => True end -> span f (a ++ b) = (a, b).
Proof.
  induction a as [|c a IH]; intros b A B.
  - destruct b as [|c b]; [reflexivity|]. cbn. rewrite B. reflexivity.
  - destruct A as (C & A). cbn. rewrite C, (IH b A B). reflexivity.
Qed.
