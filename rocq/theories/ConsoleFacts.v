(* Lemmas: the console text of Console.v in the words of SpecConsole.v, and reading it back. *)
From Coq Require Import List String NArith Bool Arith Lia.
From Verif Require Import PyBase Record Console SpecConsole.
Import ListNotations.
Open Scope string_scope.
Open Scope list_scope.
Local Open Scope nat_scope.

Lemma split_visible : forall s, visible_text s -> split_lines s = [s].
Proof.
  induction s as [|c s IH]; intros H; [reflexivity|]. inversion H as [|c' s' V H']; subst. cbn [split_lines].
  destruct (N.eqb_spec c nl) as [->|]; [unfold visible, nl in V; lia|]. rewrite (IH H'). reflexivity.
Qed.
Lemma width_visible : forall s, visible_text s -> cell_width s = List.length s.
Proof. intros s H. unfold cell_width. rewrite split_visible by exact H. cbn. lia. Qed.
Lemma height_visible : forall s, visible_text s -> cell_height s = 1.
Proof. intros s H. unfold cell_height. rewrite split_visible by exact H. reflexivity. Qed.

Definition shown (r : table_row) : list (str * str * str) := broken (fst (fst r)) (snd (fst r)) (split_lines (cell_text (snd r))).
Definition visible_lines (s : str) : Prop := Forall (fun c => visible c \/ c = nl) s.
Definition all_visible (r : table_row) : Prop := visible_text (fst (fst r)) /\ visible_text (snd (fst r)) /\ visible_lines (cell_text (snd r)).
Lemma split_some : forall s, exists l ls, split_lines s = l :: ls.
Proof. induction s as [|c s (l & ls & E)]; [eexists; eexists; reflexivity|]. cbn [split_lines]. rewrite E. destruct (N.eqb c nl); eauto. Qed.
Lemma split_lines_visible : forall s, visible_lines s -> Forall visible_text (split_lines s).
Proof.
  induction s as [|c s IH]; intros H; [repeat constructor|]. inversion H as [|c' s' V H']; subst. cbn [split_lines]. specialize (IH H'). destruct (N.eqb_spec c nl) as [->|]; [constructor; [constructor|exact IH]|].
  destruct (split_lines s) as [|l ls]; [constructor; [constructor; [destruct V; [assumption|contradiction]|constructor]|constructor]|]. inversion IH; subst. constructor; [|assumption]. constructor; [|assumption]. destruct V; [assumption|contradiction].
Qed.
Lemma split_written : forall s, written (split_lines s) (s ++ [nl]) /\ Forall one_line_text (split_lines s).
Proof.
  unfold written. induction s as [|c s (W & F)]; [split; [reflexivity|repeat constructor]|]. cbn [split_lines]. cbn [app]. rewrite W. destruct (N.eqb_spec c nl) as [->|E].
  - split; [reflexivity|constructor; [constructor|exact F]].
  - destruct (split_some s) as (l & ls & S). rewrite S in *. split; [reflexivity|]. inversion F; subst. constructor; [constructor; assumption|assumption].
Qed.
Lemma split_lines_in : forall s, lines_in s (split_lines s).
Proof. intros s. destruct (split_written s). split; [destruct (split_some s) as (l & ls & ->); discriminate|auto]. Qed.

(* widths *)
Lemma widths_three : forall rows a b c, Forall all_visible rows ->
  exists x y z, fold_left widen (map cells rows) [a; b; c] = [x; y; z] /\
    (a <= x /\ Forall (fun r => List.length (fst (fst r)) <= x) rows /\ (x = a \/ Exists (fun r => List.length (fst (fst r)) = x) rows)) /\
    (b <= y /\ Forall (fun r => List.length (snd (fst r)) <= y) rows /\ (y = b \/ Exists (fun r => List.length (snd (fst r)) = y) rows)) /\
    (c <= z /\ Forall (fun r => cell_width (cell_text (snd r)) <= z) rows /\ (z = c \/ Exists (fun r => cell_width (cell_text (snd r)) = z) rows)).
Proof.
  induction rows as [|[[n v] d] rows IH]; intros a b c H.
  - exists a, b, c. cbn. repeat split; auto; constructor.
  - inversion H as [|r' rows' (V1 & V2 & V3) H']; subst. cbn [fst snd] in V1, V2, V3. cbn [map cells fold_left widen]. rewrite (width_visible n), (width_visible v) by assumption.
    destruct (IH (Nat.max a (List.length n)) (Nat.max b (List.length v)) (Nat.max c (cell_width (cell_text d))) H') as (x & y & z & E & (A1 & A2 & A3) & (B1 & B2 & B3) & (C1 & C2 & C3)).
    exists x, y, z. split; [exact E|].
    assert (K : forall (g : table_row -> nat) w p, Nat.max p (g (n, v, d)) <= w -> (w = Nat.max p (g (n, v, d)) \/ Exists (fun r => g r = w) rows) ->
      w = p \/ Exists (fun r => g r = w) ((n, v, d) :: rows)).
    { intros g w p L [E'|E']; [|right; apply Exists_cons_tl; exact E']. destruct (Nat.max_spec p (g (n, v, d))) as [(_ & M0)|(_ & M0)]; rewrite M0 in E'; [right; apply Exists_cons_hd; symmetry; exact E'|left; exact E']. }
    split; [|split]; (split; [lia|]; split; [constructor; [cbn [fst snd]; lia|assumption]|]).
    + apply (K (fun r => List.length (fst (fst r)))); assumption.
    + apply (K (fun r => List.length (snd (fst r)))); assumption.
    + apply (K (fun r => cell_width (cell_text (snd r)))); assumption.
Qed.
Lemma list_max_in : forall l, l <> [] -> In (list_max l) l.
Proof.
  induction l as [|x l IH]; intros H; [congruence|]. destruct l as [|y l]; [left; cbn; lia|]. change (list_max (x :: y :: l)) with (Nat.max x (list_max (y :: l))).
  destruct (Nat.max_spec x (list_max (y :: l))) as [(_ & ->)|(_ & ->)]; [right; apply IH; discriminate|left; reflexivity].
Qed.

Lemma justify_padded : forall w s, List.length s <= w -> padded w s (justify w s).
Proof. intros w s H. split; [|eexists; reflexivity]. unfold justify. rewrite app_length, repeat_length. lia. Qed.
Lemma row_line_text : forall x y z n v d, visible_text n -> visible_text v -> visible_text d -> List.length n <= x -> List.length v <= y -> List.length d <= z ->
  row_text x y z (n, v, d) (row_line [x; y; z] [n; v; d] 0).
Proof.
  intros x y z n v d V1 V2 V3 L1 L2 L3. exists (justify x n), (justify y v), (justify z d). cbn [fst snd].
  repeat (split; [apply justify_padded; assumption|]). unfold row_line. cbn [combine flat_map fst snd]. rewrite !split_visible by assumption. cbn [nth].
  cbn [lit list_ascii_of_string map app]. rewrite app_nil_r, <- !app_assoc. reflexivity.
Qed.
Lemma hrule_text : forall x y z, hrule [x; y; z] = rule_text x y z.
Proof.
  intros. unfold hrule, rule_text. cbn [flat_map]. rewrite app_nil_r, <- !app_assoc. replace (1 + x + 1) with (x + 2) by lia. replace (1 + y + 1) with (y + 2) by lia. replace (1 + z + 1) with (z + 2) by lia. reflexivity.
Qed.
Lemma flat_rows : forall (g : str * str * str -> str) (h : table_row -> nat) rows w,
  (forall r, Forall (fun t => List.length (g t) <= h r) (shown r)) -> (forall r, Exists (fun t => List.length (g t) = h r) (shown r)) ->
  List.length (g heading) <= w -> Forall (fun r => h r <= w) rows -> (w = List.length (g heading) \/ Exists (fun r => h r = w) rows) ->
  fits w (map g (heading :: flat_map shown rows)).
Proof.
  intros g h rows w G1 G2 A B C. cbn [map]. split.
  - constructor; [exact A|]. apply Forall_map. clear C. induction B as [|r rows L B IH]; [constructor|]. cbn [flat_map]. apply Forall_app. split; [|exact IH].
    eapply Forall_impl; [|apply G1]. cbv beta. intros t K. lia.
  - destruct C as [->|C]; [apply Exists_cons_hd; reflexivity|apply Exists_cons_tl; apply Exists_map]. apply Exists_exists in C. destruct C as (r & I & E). specialize (G2 r).
    apply Exists_exists in G2. destruct G2 as (t & J & E'). apply Exists_exists. exists t. split; [apply in_flat_map; eauto|congruence].
Qed.
Lemma join_written : forall ls, ls <> [] -> written ls (join_lines ls ++ [nl]).
Proof.
  unfold written. induction ls as [|l ls IH]; intros H; [congruence|]. destruct ls as [|l' ls]; [cbn; rewrite app_nil_r; reflexivity|].
  cbn [map List.concat] in *. rewrite <- IH by discriminate. change (join_lines (l :: l' :: ls)) with (l ++ nl :: join_lines (l' :: ls)). rewrite <- !app_assoc. reflexivity.
Qed.
Lemma first_width : forall r : table_row, Forall (fun t => List.length (fst (fst t)) <= List.length (fst (fst r))) (shown r) /\ Exists (fun t => List.length (fst (fst t)) = List.length (fst (fst r))) (shown r).
Proof.
  intros [[n v] d]. unfold shown. cbn [fst snd]. destruct (split_some (cell_text d)) as (l & ls & ->). cbn [broken]. split; [constructor; [reflexivity|]; apply Forall_map, Forall_forall; intros; cbn; lia|apply Exists_cons_hd; reflexivity].
Qed.
Lemma second_width : forall r : table_row, Forall (fun t => List.length (snd (fst t)) <= List.length (snd (fst r))) (shown r) /\ Exists (fun t => List.length (snd (fst t)) = List.length (snd (fst r))) (shown r).
Proof.
  intros [[n v] d]. unfold shown. cbn [fst snd]. destruct (split_some (cell_text d)) as (l & ls & ->). cbn [broken]. split; [constructor; [reflexivity|]; apply Forall_map, Forall_forall; intros; cbn; lia|apply Exists_cons_hd; reflexivity].
Qed.
Lemma broken_third : forall n v ls, map snd (broken n v ls) = ls.
Proof. intros n v [|l ls]; [reflexivity|]. cbn [broken map]. rewrite map_map, map_id. reflexivity. Qed.
Lemma third_width : forall r : table_row, Forall (fun t => List.length (snd t) <= cell_width (cell_text (snd r))) (shown r) /\ Exists (fun t => List.length (snd t) = cell_width (cell_text (snd r))) (shown r).
Proof.
  intros [[n v] d]. unfold shown, cell_width. cbn [fst snd]. pose proof (broken_third n v (split_lines (cell_text d))) as B. set (ts := broken _ _ _) in *. rewrite <- B. split.
  - apply (Forall_map (@snd (str * str) str) (fun c => List.length c <= _)). apply (Forall_map (@List.length N) (fun x => x <= _)). apply list_max_le. lia.
  - apply (Exists_map (@snd (str * str) str) (fun c => List.length c = _)). apply Exists_exists. pose proof (list_max_in (map (@List.length N) (map snd ts))) as K. rewrite in_map_iff in K. destruct K as (c & E & I).
    + intros X. apply map_eq_nil in X. rewrite B in X. destruct (split_some (cell_text d)) as (l & ls & S). rewrite S in X. discriminate.
    + eauto.
Qed.
Theorem table_spec : forall rows, Forall all_visible rows -> exists lines, table_text heading (flat_map shown rows) lines /\ written lines (get_string rows ++ [nl]).
Proof.
  intros rows H. destruct (widths_three rows 5 5 7 H) as (x & y & z & E & (A1 & A2 & A3) & (B1 & B2 & B3) & (C1 & C2 & C3)).
  assert (W : widths (map cells rows) = [x; y; z]) by exact E.
  assert (R : forall rs, Forall all_visible rs -> Forall (fun r => List.length (fst (fst r)) <= x) rs -> Forall (fun r => List.length (snd (fst r)) <= y) rs -> Forall (fun r => cell_width (cell_text (snd r)) <= z) rs ->
    Forall2 (row_text x y z) (flat_map shown rs) (flat_map (row_lines [x; y; z]) (map cells rs))).
  { induction rs as [|[[n v] d] rs IH]; intros V X Y Z; [constructor|]. inversion V as [|? ? (V1 & V2 & V3) V']; subst. inversion X; inversion Y; inversion Z; subst. cbn [fst snd] in *.
    cbn [map cells flat_map]. apply Forall2_app; [|apply IH; assumption]. unfold row_lines, shown. cbn [map fst snd]. rewrite (height_visible n), (height_visible v) by assumption. unfold cell_height.
    pose proof (split_lines_visible _ V3) as SV. destruct (split_some (cell_text d)) as (l & ls & EQ). unfold cell_width in *. rewrite EQ in *. inversion SV as [|? ? S1 S2]; subst. 
    replace (list_max [1; 1; List.length (l :: ls)]) with (S (List.length ls)) by (cbn; lia). cbn [seq map broken]. 
    match goal with K : list_max (map _ (l :: ls)) <= z |- _ => apply list_max_le in K; inversion K as [|? ? K1 K2]; subst end.
    assert (NV : split_lines n = [n]) by (apply split_visible; assumption). assert (VV : split_lines v = [v]) by (apply split_visible; assumption).
    constructor.
    - exists (justify x n), (justify y v), (justify z l). cbn [fst snd]. repeat (split; [apply justify_padded; assumption|]). unfold row_line. cbn [combine flat_map fst snd]. rewrite NV, VV, EQ. cbn [nth].
      cbn [lit list_ascii_of_string map app]. rewrite app_nil_r, <- !app_assoc. reflexivity.
    - rewrite <- seq_shift, map_map.
      assert (J : forall us k, Forall (fun u => List.length u <= z) us -> (forall i, nth i us [] = nth (S (k + i)) (split_lines (cell_text d)) []) ->
        Forall2 (row_text x y z) (map (fun l' => ([], [], l')) us) (map (fun y0 => row_line [x; y; z] [n; v; cell_text d] (S y0)) (seq k (List.length us)))).
      { clear -NV VV. induction us as [|u us IH]; intros k L Q; [constructor|]. inversion L; subst. cbn [map List.length seq]. constructor.
        - exists (justify x []), (justify y []), (justify z u). cbn [fst snd]. repeat (split; [apply justify_padded; cbn; solve [lia|assumption]|]). unfold row_line. cbn [combine flat_map fst snd]. rewrite NV, VV.
          replace (nth (S k) (split_lines (cell_text d)) []) with u by (rewrite <- (Nat.add_0_r k), <- Q; reflexivity). replace (nth (S k) [n] []) with (@nil N) by (destruct k; reflexivity). replace (nth (S k) [v] []) with (@nil N) by (destruct k; reflexivity).
          cbn [lit list_ascii_of_string map app]. rewrite app_nil_r, <- !app_assoc. reflexivity.
        - apply (IH (S k)); [assumption|]. intros i. specialize (Q (S i)). cbn [nth] in Q. rewrite Q. f_equal. lia. }
      apply J; [|intros i; rewrite EQ; reflexivity]. apply (Forall_map (@List.length N) (fun u => u <= z)). exact K2. }
  eexists. split.
  - exists x, y, z, (row_line [x; y; z] headers 0), (flat_map (row_lines [x; y; z]) (map cells rows)).
    split; [apply (flat_rows (fun r => fst (fst r)) (fun r => List.length (fst (fst r)))); try assumption; apply first_width|].
    split; [apply (flat_rows (fun r => snd (fst r)) (fun r => List.length (snd (fst r)))); try assumption; apply second_width|].
    split; [apply (flat_rows snd (fun r => cell_width (cell_text (snd r)))); try assumption; apply third_width|].
    assert (L : forall s, forallb (fun c => (32 <=? c)%N && (c <=? 126)%N) s = true -> visible_text s).
    { intros s K. apply Forall_forall. intros c I. rewrite forallb_forall in K. specialize (K c I). rewrite andb_true_iff, !N.leb_le in K. exact K. }
    split; [apply row_line_text; try (apply L; reflexivity); assumption|]. split; [apply R; assumption|reflexivity].
  - unfold get_string. cbv zeta. rewrite W. rewrite <- hrule_text. apply join_written. discriminate.
Qed.

(* ---- reading back ---- *)
Definition no_newline (l : str) : Prop := Forall (fun c => c <> nl) l.
Lemma written_once : forall ls ls' t, Forall no_newline ls -> Forall no_newline ls' -> written ls t -> written ls' t -> ls = ls'.
Proof.
  assert (K : forall l l' x y, no_newline l -> no_newline l' -> l ++ nl :: x = l' ++ nl :: y -> l = l' /\ x = y).
  { induction l as [|c l IH]; intros [|c' l'] x y A B H; cbn in H.
    - injection H as H. auto.
    - injection H as H1 H2. inversion B; subst. congruence.
    - injection H as H1 H2. inversion A; subst. congruence.
    - injection H as H1 H2. inversion A; inversion B; subst. destruct (IH l' x y) as (-> & ->); auto. }
  unfold written. induction ls as [|l ls IH]; intros [|l' ls'] t A B -> H; cbn [map List.concat] in H; [reflexivity|..].
  - destruct l'; discriminate.
  - destruct l; discriminate.
  - inversion A; inversion B; subst. rewrite <- !app_assoc in H. destruct (K l l' _ _ ltac:(assumption) ltac:(assumption) H) as (-> & E). f_equal. eapply IH; eauto.
Qed.
Lemma repeat_once : forall (d p : N) n m x y, d <> p -> repeat d n ++ p :: x = repeat d m ++ p :: y -> n = m /\ x = y.
Proof. intros d p n m x y D. revert m. induction n as [|n IH]; intros [|m] H; cbn in H; [injection H as H; auto|injection H as H1 H2; congruence|injection H as H1 H2; congruence|]. injection H as H. destruct (IH m H) as (-> & ->). auto. Qed.
Lemma rule_once : forall a b c a' b' c', rule_text a b c = rule_text a' b' c' -> a = a' /\ b = b' /\ c = c'.
Proof.
  intros a b c a' b' c' H. unfold rule_text in H. cbn [lit list_ascii_of_string map app] in H. injection H as H.
  apply repeat_once in H; [|discriminate]. destruct H as (E1 & H). apply repeat_once in H; [|discriminate]. destruct H as (E2 & H).
  change (repeat 45%N (c + 2) ++ plus :: [] = repeat 45%N (c' + 2) ++ plus :: []) in H. apply repeat_once in H; [|discriminate]. lia.
Qed.
Lemma app_same_length : forall (A : Type) (a a' b b' : list A), List.length a = List.length a' -> a ++ b = a' ++ b' -> a = a' /\ b = b'.
Proof. induction a as [|x a IH]; intros [|x' a'] b b' L H; try discriminate; [auto|]. cbn in H. injection H as -> H. destruct (IH a' b b' ltac:(cbn in L; lia) H) as (-> & ->). auto. Qed.
Lemma padded_same : forall w s s' t, padded w s t -> padded w s' t -> same_but_spaces s s'.
Proof.
  intros w s s' t (_ & n & E) (_ & m & E'). rewrite E in E'. clear E t. revert s' n m E'. induction s as [|c s IH]; intros s' n m H.
  - cbn in H. assert (K : exists k, s' = repeat 32%N k).
    { assert (R : Forall (eq 32%N) (s' ++ repeat 32%N m)) by (rewrite <- H; clear; induction n; constructor; auto). apply Forall_app in R. destruct R as (R & _). exists (List.length s').
      clear -R. induction R as [|x l E R IH]; [reflexivity|]. cbn. subst x. congruence. }
    destruct K as (k & ->). exists [], 0, k. auto.
  - destruct s' as [|c' s'].
    + assert (K : exists k, c :: s = repeat 32%N k).
      { assert (R : Forall (eq 32%N) ((c :: s) ++ repeat 32%N n)) by (rewrite H; clear; cbn; induction m; constructor; auto). apply Forall_app in R. destruct R as (R & _). exists (List.length (c :: s)).
        clear -R. induction R as [|x l E R IH]; [reflexivity|]. cbn. subst x. cbn in IH. congruence. }
      destruct K as (k & ->). exists [], k, 0. auto.
    + cbn in H. injection H as -> H. destruct (IH s' n m H) as (u & i & j & -> & ->). exists (c' :: u), i, j. auto.
Qed.
(* texts without spaces at the end *)
Definition no_space_after (s : str) : Prop := forall u, s <> u ++ [32%N].
Lemma same_no_space : forall s t, same_but_spaces s t -> no_space_after s -> no_space_after t -> s = t.
Proof.
  intros s t (u & n & m & -> & ->) A B.
  assert (R : forall k, repeat 32%N (S k) = repeat 32%N k ++ [32%N]) by (induction k; [reflexivity|cbn [repeat app] in *; rewrite <- IHk; reflexivity]).
  destruct n as [|n]; [|destruct (A (u ++ repeat 32%N n)); rewrite <- app_assoc, <- R; reflexivity]. destruct m as [|m]; [reflexivity|destruct (B (u ++ repeat 32%N m)); rewrite <- app_assoc, <- R; reflexivity].
Qed.
(* names that padding does not mix up: one of the package has a space at its end (definitions/CruisingTables.py:23) *)
Definition clear_name (s : str) : Prop := (no_space_after s /\ s <> lit "Cruise Level To") \/ s = lit "Cruise Level To" ++ [32%N].
Lemma same_trim : forall s t, same_but_spaces t (s ++ [32%N]) -> same_but_spaces t s.
Proof.
  assert (R : forall k, repeat 32%N (S k) = repeat 32%N k ++ [32%N]) by (induction k; [reflexivity|cbn [repeat app] in *; rewrite <- IHk; reflexivity]).
  intros s t (u & n & m & E & E'). destruct m as [|m].
  - rewrite app_nil_r in E'. subst u. rewrite <- app_assoc in E. exists s, (S n), 0. rewrite app_nil_r. auto.
  - rewrite R, app_assoc in E'. apply app_inj_tail in E'. destruct E' as (-> & _). exists u, n, m. auto.
Qed.
Lemma same_sym : forall s t, same_but_spaces s t -> same_but_spaces t s.
Proof. intros s t (u & n & m & A & B). exists u, m, n. auto. Qed.
Lemma same_clear : forall s t, same_but_spaces s t -> clear_name s -> clear_name t -> s = t.
Proof.
  assert (X : no_space_after (lit "Cruise Level To")).
  { intros u H. apply (f_equal (@rev N)) in H. rewrite rev_app_distr in H. discriminate. }
  intros s t H [(A & A')|A] [(B & B')|B]; subst.
  - apply same_no_space; assumption.
  - apply same_trim in H. destruct A'. apply same_no_space; assumption.
  - apply same_sym, same_trim in H. destruct B'. apply same_no_space; assumption.
  - reflexivity.
Qed.
Definition visible_row (r : str * str * str) : Prop := clear_name (fst (fst r)) /\ no_space_after (snd (fst r)).
Definition alike (r r' : str * str * str) : Prop := fst r = fst r' /\ same_but_spaces (snd r) (snd r').
Lemma row_once : forall x y z r r' l, visible_row r -> visible_row r' -> row_text x y z r l -> row_text x y z r' l -> alike r r'.
Proof.
  intros x y z r r' l (N1 & N2) (N1' & N2') (a & b & c & A & B & C & E) (a' & b' & c' & A' & B' & C' & E'). rewrite E in E'.
  cbn [lit list_ascii_of_string map app] in E'. injection E' as H.
  apply app_same_length in H; [|destruct A, A'; congruence]. destruct H as (-> & H). cbn in H. injection H as H.
  apply app_same_length in H; [|destruct B, B'; congruence]. destruct H as (-> & H). cbn in H. injection H as H.
  apply app_same_length in H; [|destruct C, C'; congruence]. destruct H as (-> & _).
  split; [|eapply padded_same; eauto]. destruct r as [[n v] d], r' as [[n' v'] d']. cbn [fst snd] in *. f_equal; [apply same_clear|apply same_no_space]; auto; eapply padded_same; eauto.
Qed.
Lemma row_bar : forall x y z r l, row_text x y z r l -> exists s, l = bar :: s.
Proof. intros x y z r l (a & b & c & _ & _ & _ & ->). eexists. reflexivity. Qed.
Lemma rule_plus : forall x y z, exists s, rule_text x y z = plus :: s.
Proof. intros. eexists. reflexivity. Qed.
Lemma body_once : forall (b b' : list str) r r' t t', Forall (fun l => exists s, l = bar :: s) b -> Forall (fun l => exists s, l = bar :: s) b' -> (exists s, r = plus :: s) -> (exists s, r' = plus :: s) ->
  b ++ r :: t = b' ++ r' :: t' -> b = b' /\ r = r' /\ t = t'.
Proof.
  induction b as [|l b IH]; intros [|l' b'] r r' t t' A B (p & P) (q & Q) H; cbn in H; injection H as H1 H2.
  - auto.
  - inversion B as [|? ? (s & S)]; subst. discriminate.
  - inversion A as [|? ? (s & S)]; subst. discriminate.
  - inversion A; inversion B; subst. destruct (IH b' (plus :: p) (plus :: q) t t') as (-> & E & ->); eauto.
Qed.
(* the lines of a table and what follows determine its rows *)
Theorem table_once : forall rows rows' ls ls' t t', Forall visible_row rows -> Forall visible_row rows' -> table_text heading rows ls -> table_text heading rows' ls' -> ls ++ t = ls' ++ t' ->
  Forall2 alike rows rows' /\ ls = ls' /\ t = t'.
Proof.
  intros rows rows' ls ls' t t' V V' (x & y & z & h & b & _ & _ & _ & Hh & R & ->) (x' & y' & z' & h' & b' & _ & _ & _ & Hh' & R' & ->) H.
  rewrite <- !app_assoc in H. cbn [app] in H.
  remember (rule_text x y z) as u eqn:U. remember (rule_text x' y' z') as u' eqn:U'. injection H as H1 H2 H3 H4. subst u u'. destruct (rule_once _ _ _ _ _ _ H1) as (-> & -> & ->).
  assert (B : forall rs b, Forall2 (row_text x' y' z') rs b -> Forall (fun l => exists s, l = bar :: s) b).
  { induction 1; constructor; auto. eapply row_bar; eauto. }
  apply body_once in H4; eauto using rule_plus. destruct H4 as (-> & _ & ->). subst h'. split; [|auto].
  clear -V V' R R'. revert rows V V' R. induction R' as [|r' l rows' b' S R' IH]; intros rows V V' R; inversion R; subst; [constructor|]. inversion V; inversion V'; subst. constructor; [eapply row_once; eauto|apply IH; auto].
Qed.
(* the same for any rows, with spaces at the end of any cell *)
Definition alike3 (r r' : str * str * str) : Prop := same_but_spaces (fst (fst r)) (fst (fst r')) /\ same_but_spaces (snd (fst r)) (snd (fst r')) /\ same_but_spaces (snd r) (snd r').
Lemma row_once3 : forall x y z r r' l, row_text x y z r l -> row_text x y z r' l -> alike3 r r'.
Proof.
  intros x y z r r' l (a & b & c & A & B & C & E) (a' & b' & c' & A' & B' & C' & E'). rewrite E in E'.
  cbn [lit list_ascii_of_string map app] in E'. injection E' as H.
  apply app_same_length in H; [|destruct A, A'; congruence]. destruct H as (-> & H). cbn in H. injection H as H.
  apply app_same_length in H; [|destruct B, B'; congruence]. destruct H as (-> & H). cbn in H. injection H as H.
  apply app_same_length in H; [|destruct C, C'; congruence]. destruct H as (-> & _).
  split; [|split]; eapply padded_same; eauto.
Qed.
Theorem table_once3 : forall rows rows' ls, table_text heading rows ls -> table_text heading rows' ls -> Forall2 alike3 rows rows'.
Proof.
  intros rows rows' ls (x & y & z & h & b & _ & _ & _ & Hh & R & ->) (x' & y' & z' & h' & b' & _ & _ & _ & Hh' & R' & H).
  cbn [app] in H. remember (rule_text x y z) as u eqn:U. remember (rule_text x' y' z') as u' eqn:U'. injection H as H1 H2 H3 H4. subst u u'. destruct (rule_once _ _ _ _ _ _ H1) as (-> & -> & ->).
  apply app_inj_tail in H4. destruct H4 as (-> & _). clear -R R'. revert rows R. induction R' as [|r' l rows' b' S R' IH]; intros rows R; inversion R; subst; [constructor|]. constructor; [eapply row_once3; eauto|apply IH; auto].
Qed.
Lemma table_lengths : forall head rows ls, table_text head rows ls -> exists w, Forall (fun l => List.length l = w) ls.
Proof.
  intros head rows ls (x & y & z & h & b & _ & _ & _ & Hh & R & ->). exists (x + y + z + 10).
  assert (K : List.length (rule_text x y z) = x + y + z + 10) by (unfold rule_text; rewrite !app_length, !repeat_length; cbn; lia).
  assert (T : forall r l, row_text x y z r l -> List.length l = x + y + z + 10) by (intros r l (a & b' & c & (A & _) & (B & _) & (C & _) & ->); rewrite !app_length; cbn; lia).
  constructor; [exact K|]. constructor; [eapply T; eauto|]. constructor; [exact K|]. apply Forall_app. split; [|constructor; [exact K|constructor]]. clear -R T. induction R; constructor; eauto.
Qed.
