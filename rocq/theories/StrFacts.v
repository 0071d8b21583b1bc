(* Lemmas about the string operations of PyStr.v. *)
From Coq Require Import List String NArith Bool Arith Lia.
From Verif Require Import PyBase Decoder Record SpecLayouts Spec.
Import ListNotations.
Open Scope list_scope.
Local Open Scope nat_scope.

Lemma str_eqb_eq : forall a b, str_eqb a b = true <-> a = b.
Proof.
  induction a as [|x a IH]; destruct b as [|y b]; simpl; split; intro H; try discriminate; auto.
  - apply andb_true_iff in H as [H1 H2]. apply N.eqb_eq in H1. apply IH in H2. congruence.
  - inversion H; subst. rewrite N.eqb_refl. simpl. apply IH. reflexivity.
Qed.
Lemma str_eqb_refl : forall a, str_eqb a a = true.
Proof. intro. apply str_eqb_eq. reflexivity. Qed.
Lemma str_eqb_neq : forall a b, str_eqb a b = false <-> a <> b.
Proof.
  intros. split; intro H.
  - intro E. apply str_eqb_eq in E. congruence.
  - destruct (str_eqb a b) eqn:E; auto. apply str_eqb_eq in E. contradiction.
Qed.
Lemma str_eqb_sym : forall a b, str_eqb a b = str_eqb b a.
Proof.
  intros. destruct (str_eqb a b) eqn:E.
  - apply str_eqb_eq in E. subst. symmetry. apply str_eqb_refl.
  - apply str_eqb_neq in E. symmetry. apply str_eqb_neq. auto.
Qed.
Lemma str_eq_dec : forall a b : str, {a = b} + {a <> b}.
Proof. intros. apply list_eq_dec. apply N.eq_dec. Qed.

(* ---- assoc ---- *)
Lemma assoc_in : forall A k (t : list (str * A)) v, assoc k t = Some v -> In (k, v) t.
Proof.
  induction t as [|[k' v'] t IH]; simpl; intros v H; [discriminate|].
  destruct (str_eqb k k') eqn:E.
  - apply str_eqb_eq in E. inversion H; subst. auto.
  - right. auto.
Qed.
Lemma assoc_none : forall A k (t : list (str * A)), assoc k t = None <-> ~ In k (map fst t).
Proof.
  induction t as [|[k' v'] t IH]; simpl; [tauto|].
  destruct (str_eqb k k') eqn:E.
  - apply str_eqb_eq in E. subst. split; [discriminate| tauto].
  - apply str_eqb_neq in E. rewrite IH. split; intros H; [|tauto]. intros [H1|H1]; [congruence|tauto].
Qed.
Lemma assoc_some_iff : forall A k (t : list (str * A)), (exists v, assoc k t = Some v) <-> In k (map fst t).
Proof.
  intros. destruct (assoc k t) eqn:E.
  - split; [|eauto]. intros _. apply assoc_in in E. apply (in_map fst) in E. exact E.
  - apply assoc_none in E. split; [intros [v H]; discriminate | tauto].
Qed.
Lemma mem_str_in : forall k l, mem_str k l = true <-> In k l.
Proof.
  intros. unfold mem_str. rewrite existsb_exists. split.
  - intros [x [H1 H2]]. apply str_eqb_eq in H2. subst. auto.
  - intros. exists k. split; auto. apply str_eqb_refl.
Qed.

(* ---- columns, index, slice ---- *)
Lemma column_index : forall t i, index t i = match column t (S i) with Some c => Ok [c] | None => Err IndexError end.
Proof. reflexivity. Qed.
Lemma index_columns : forall t i, i < List.length t -> index t i = Ok (columns t [S i]).
Proof.
  intros. unfold index, columns. simpl. destruct (nth_error t i) eqn:E; [reflexivity|].
  apply nth_error_None in E. lia.
Qed.
Lemma columns_app : forall t a b, columns t (a ++ b) = columns t a ++ columns t b.
Proof. intros. unfold columns. apply flat_map_app. Qed.
Lemma columns_single_len : forall t k, 1 <= k <= List.length t -> exists c, columns t [k] = [c] /\ column t k = Some c.
Proof.
  intros t k H. destruct k; [lia|]. unfold columns. simpl. destruct (nth_error t k) eqn:E.
  - exists n. auto.
  - apply nth_error_None in E. lia.
Qed.
Lemma columns_cons : forall t k ks, columns t (k :: ks) = columns t [k] ++ columns t ks.
Proof. intros. unfold columns. simpl. rewrite app_nil_r. reflexivity. Qed.
Lemma columns_length : forall t ks, Forall (fun k => 1 <= k <= List.length t) ks -> List.length (columns t ks) = List.length ks.
Proof.
  induction 1 as [|k ks H _ IH]; [reflexivity|].
  rewrite columns_cons, app_length, IH. destruct (columns_single_len t k H) as [c [E _]]. rewrite E. reflexivity.
Qed.
Lemma skipn_nth_cons : forall (t : str) a c, nth_error t a = Some c -> skipn a t = c :: skipn (S a) t.
Proof.
  induction t as [|x t IH]; destruct a; simpl; intros c H; try discriminate.
  - congruence.
  - rewrite (IH a c H). reflexivity.
Qed.
Lemma slice_columns : forall t n a, slice a (a + n) t = columns t (seq (S a) n).
Proof.
  intros t n. unfold slice. intros a. replace (a + n - a) with n by lia.
  revert a. induction n as [|n IH]; intro a; [reflexivity|].
  simpl seq. rewrite columns_cons. unfold columns at 1. simpl.
  destruct (nth_error t a) eqn:E; simpl.
  - rewrite (skipn_nth_cons _ _ _ E). cbn [firstn app]. f_equal. apply IH.
  - apply nth_error_None in E. rewrite skipn_all2 by lia. simpl.
    rewrite <- (IH (S a)), skipn_all2 by lia. destruct n; reflexivity.
Qed.
Lemma slice_columns' : forall t a b, a <= b -> slice a b t = columns t (seq (S a) (b - a)).
Proof. intros. rewrite <- slice_columns. f_equal. lia. Qed.
Lemma columns_prefix : forall t post ks, Forall (fun k => k <= List.length t) ks -> columns (t ++ post) ks = columns t ks.
Proof.
  induction 1 as [|k ks H _ IH]; [reflexivity|].
  rewrite columns_cons, IH, (columns_cons t). f_equal.
  unfold columns. simpl. destruct k; simpl; [reflexivity|]. rewrite nth_error_app1 by lia. reflexivity.
Qed.
Lemma column_prefix : forall t post k, k <= List.length t -> column (t ++ post) k = column t k.
Proof. intros. destruct k; simpl; [reflexivity|]. apply nth_error_app1. lia. Qed.

(* ---- strip ---- *)
Lemma drop_while_spec : forall p s, exists pre, s = pre ++ drop_while p s /\ Forall (fun c => p c = true) pre
  /\ (forall c, nth_error (drop_while p s) 0 = Some c -> p c = false).
Proof.
  induction s as [|x s IH]; simpl.
  - exists []. repeat split; auto. discriminate.
  - destruct (p x) eqn:E.
    + destruct IH as [pre [H1 [H2 H3]]]. exists (x :: pre). simpl. repeat split; auto. congruence.
    + exists []. repeat split; auto. simpl. congruence.
Qed.
Lemma drop_while_end_spec : forall p s, exists post, s = drop_while_end p s ++ post /\ Forall (fun c => p c = true) post
  /\ (forall c, nth_error (drop_while_end p s) (List.length (drop_while_end p s) - 1) = Some c -> p c = false).
Proof.
  intros. unfold drop_while_end. destruct (drop_while_spec p (rev s)) as [pre [H1 [H2 H3]]].
  exists (rev pre). split; [|split].
  - rewrite <- rev_app_distr, <- H1, rev_involutive. reflexivity.
  - apply Forall_rev. exact H2.
  - intros c Hc. destruct (drop_while p (rev s)) as [|x l]; [discriminate|]. apply H3.
    rewrite rev_length in Hc. simpl in *. rewrite nth_error_app2 in Hc; rewrite rev_length in *; [|lia].
    replace (List.length l - 0 - List.length l) with 0 in Hc by lia. exact Hc.
Qed.
Lemma drop_while_app_all : forall p pre s, Forall (fun c => p c = true) pre -> drop_while p (pre ++ s) = drop_while p s.
Proof. induction 1 as [|x pre H _ IH]; simpl; [auto|]. rewrite H. exact IH. Qed.
Lemma drop_while_head : forall p s, (forall c, nth_error s 0 = Some c -> p c = false) -> drop_while p s = s.
Proof. destruct s as [|x s]; simpl; intro H; [auto|]. rewrite (H x); auto. Qed.
Lemma drop_while_end_app_all : forall p s post, Forall (fun c => p c = true) post -> drop_while_end p (s ++ post) = drop_while_end p s.
Proof.
  intros. unfold drop_while_end. rewrite rev_app_distr, drop_while_app_all; auto. apply Forall_rev. auto.
Qed.
Lemma drop_while_end_last : forall p s, (forall c, nth_error s (List.length s - 1) = Some c -> p c = false) -> drop_while_end p s = s.
Proof.
  intros. unfold drop_while_end. rewrite drop_while_head, rev_involutive; auto.
  intros c Hc. apply H. destruct s as [|x s] using rev_ind; [discriminate|].
  rewrite rev_app_distr in Hc. simpl in Hc. rewrite app_length. simpl.
  rewrite nth_error_app2 by lia. replace (List.length s + 1 - 1 - List.length s) with 0 by lia. exact Hc.
Qed.

Lemma column1 : forall t, column t 1 = nth_error t 0.
Proof. reflexivity. Qed.
Lemma column_last : forall t, column t (List.length t) = nth_error t (List.length t - 1).
Proof. destruct t; simpl; [reflexivity|]. rewrite Nat.sub_0_r. reflexivity. Qed.

Lemma drop_while_end_first : forall p s c, nth_error (drop_while_end p s) 0 = Some c -> nth_error s 0 = Some c.
Proof.
  intros. destruct (drop_while_end_spec p s) as [post [E _]]. rewrite E.
  destruct (drop_while_end p s); [discriminate|]. exact H.
Qed.

Lemma strip_trimmed : forall line, trimmed line (strip line).
Proof.
  intros. unfold strip. set (l := drop_while space_char line).
  destruct (drop_while_spec space_char line) as [pre [H1 [H2 H3]]].
  destruct (drop_while_end_spec space_char l) as [post [H4 [H5 H6]]].
  split; [|split].
  - intros c. rewrite column1. intros Hc. apply drop_while_end_first in Hc. apply H3. exact Hc.
  - intros c. rewrite column_last. apply H6.
  - exists pre, post. unfold whitespace. repeat split; auto. rewrite <- H4. exact H1.
Qed.
Lemma trimmed_strip : forall line t, trimmed line t -> strip line = t.
Proof.
  intros line t [H1 [H2 [pre [post [H3 [H4 E]]]]]]. subst. unfold strip, whitespace in *.
  rewrite drop_while_app_all by auto.
  destruct t as [|x t].
  - simpl. assert (drop_while space_char post = []) as ->.
    { rewrite <- (app_nil_r post), drop_while_app_all; auto. }
    reflexivity.
  - rewrite drop_while_head by (intros c Hc; apply H1; rewrite column1; exact Hc).
    rewrite drop_while_end_app_all by auto. apply drop_while_end_last.
    intros c Hc. apply H2. rewrite column_last. exact Hc.
Qed.
Lemma trimmed_iff : forall line t, trimmed line t <-> strip line = t.
Proof. split; [apply trimmed_strip|]. intros <-. apply strip_trimmed. Qed.
Lemma strip_app_ws : forall s w, whitespace w -> strip (s ++ w) = strip s.
Proof.
  intros. apply trimmed_strip. destruct (strip_trimmed s) as [H1 [H2 [pre [post [H3 [H4 E]]]]]].
  split; [auto|split; [auto|]]. exists pre, (post ++ w). split; [auto|split].
  - unfold whitespace in *. apply Forall_app; auto.
  - rewrite E at 1. rewrite <- !app_assoc. reflexivity.
Qed.
Lemma strip_length : forall s, List.length (strip s) <= List.length s.
Proof.
  intros. destruct (strip_trimmed s) as [_ [_ [pre [post [_ [_ E]]]]]].
  rewrite E at 2. rewrite !app_length. lia.
Qed.
Lemma strip_incl : forall s c, In c (strip s) -> In c s.
Proof.
  intros. destruct (strip_trimmed s) as [_ [_ [pre [post [_ [_ E]]]]]].
  rewrite E. apply in_or_app. right. apply in_or_app. auto.
Qed.
Lemma strip_idem : forall s, strip (strip s) = strip s.
Proof.
  intros. apply trimmed_strip. destruct (strip_trimmed s) as [H1 [H2 _]].
  split; [auto|split; [auto|]]. exists [], []. rewrite app_nil_r. repeat split; constructor.
Qed.
Lemma strip_id : forall s, no_leading_space s -> no_trailing_space s -> strip s = s.
Proof.
  intros. apply trimmed_strip. split; [auto|split; [auto|]]. exists [], []. rewrite app_nil_r. repeat split; constructor.
Qed.
Lemma strip_nil_iff : forall s, strip s = [] <-> whitespace s.
Proof.
  intros. split; intro H.
  - destruct (strip_trimmed s) as [_ [_ [pre [post [H1 [H2 E]]]]]]. rewrite E, H. simpl.
    unfold whitespace in *. apply Forall_app; auto.
  - apply (strip_app_ws [] s) in H. exact H.
Qed.
Lemma blank_iff : forall s, blank s = true <-> whitespace s.
Proof. intros. unfold blank. rewrite str_eqb_eq. apply strip_nil_iff. Qed.

Lemma no_lead_split : forall line, no_leading_space line -> exists post, whitespace post /\ line = strip line ++ post.
Proof.
  intros line H. destruct (strip_trimmed line) as [_ [_ [pre [post [H1 [H2 E]]]]]].
  destruct pre as [|x pre].
  - exists post. auto.
  - exfalso. inversion H1; subst. rewrite (H x) in H4; [discriminate|]. rewrite E. reflexivity.
Qed.
Lemma no_lead_app : forall line w, no_leading_space line -> line <> [] -> no_leading_space (line ++ w).
Proof. intros line w H Hn c Hc. apply H. destruct line; [congruence|]. exact Hc. Qed.

(* ---- prefixb, contains ---- *)
Lemma prefixb_iff : forall p s, prefixb p s = true <-> exists t, s = p ++ t.
Proof.
  induction p as [|x p IH]; destruct s as [|y s]; simpl; split; intro H; auto; try discriminate.
  - exists []; auto.
  - exists (y :: s); auto.
  - destruct H as [t H]. discriminate.
  - apply andb_true_iff in H as [H1 H2]. apply N.eqb_eq in H1. apply IH in H2 as [t H2]. exists t. simpl. congruence.
  - destruct H as [t H]. inversion H; subst. rewrite N.eqb_refl. simpl. apply IH. eauto.
Qed.
Lemma contains_iff : forall s p, contains s p = true <-> exists a b, s = a ++ p ++ b.
Proof.
  induction s as [|x s IH]; intro p; simpl; rewrite orb_true_iff, prefixb_iff; split.
  - intros [[t H]|H]; [|discriminate]. exists [], t. exact H.
  - intros [a [b H]]. left. destruct a; [|discriminate]. exists b. exact H.
  - intros [[t H]|H]; [exists [], t; exact H|]. apply IH in H as [a [b H]]. exists (x :: a), b. simpl. congruence.
  - intros [a [b H]]. destruct a as [|y a].
    + left. exists b. exact H.
    + right. apply IH. inversion H; subst. eauto.
Qed.
Lemma endswith_iff : forall s p, endswith s p = true <-> exists a, s = a ++ p.
Proof.
  intros. unfold endswith. rewrite prefixb_iff. split; intros [t H].
  - exists (rev t). rewrite <- (rev_involutive s), H, rev_app_distr, rev_involutive. reflexivity.
  - exists (rev t). subst. apply rev_app_distr.
Qed.
Lemma all_nonempty_iff : forall p s, all_nonempty p s = true <-> s <> [] /\ Forall (fun c => p c = true) s.
Proof.
  intros. destruct s as [|x s]; simpl.
  - split; [discriminate|]. intros [H _]. congruence.
  - rewrite andb_true_iff, forallb_forall. split.
    + intros [H1 H2]. split; [discriminate|]. constructor; auto. apply Forall_forall. auto.
    + intros [_ H]. inversion H; subst. split; auto. apply Forall_forall. auto.
Qed.

#[global] Arguments columns : simpl never.
