(* Proofs for C29, C41, C42: names and columns of the layouts. *)
From Coq Require Import List String NArith ZArith Bool Arith Lia.
From Verif Require Import PyBase Decoder Layouts Json Record Api SpecLayouts Spec SpecJson SpecColumns StrFacts ReadFacts ReadProps ReadProps2 ReadProps3 JsonProps RecordProps.
Import ListNotations.
Open Scope string_scope.
Open Scope list_scope.
Local Open Scope nat_scope.

(* ---- decidable versions ---- *)
Definition has_col (k : nat) (c : cell) : bool := existsb (Nat.eqb k) (c_cols c).
Definition shown_b (cells : list cell) (k : nat) : bool := existsb (has_col k) cells.
Fixpoint twice_b (cells : list cell) (k : nat) : bool :=
  match cells with [] => false | c :: cs => (has_col k c && shown_b cs k) || twice_b cs k end.
Lemma existsb_nat : forall k l, existsb (Nat.eqb k) l = true <-> In k l.
Proof.
  intros k l. rewrite existsb_exists. split; [intros [x [I E]]; apply Nat.eqb_eq in E; subst; auto|]. intro. exists k. split; auto. apply Nat.eqb_refl.
Qed.
Lemma shown_b_iff : forall cells k, shown_b cells k = true <-> shown_in cells k.
Proof.
  intros. unfold shown_b, shown_in. rewrite existsb_exists. split; intros [c [I C]]; exists c; (split; [exact I|]); apply existsb_nat; exact C.
Qed.
Lemma twice_b_iff : forall cells k, twice_b cells k = true <-> shown_twice cells k.
Proof.
  induction cells as [|c cs IH]; intro k; cbn [twice_b].
  - split; [discriminate|]. intros [a [c1 [b [c2 [d [E _]]]]]]. destruct a; discriminate.
  - rewrite orb_true_iff, andb_true_iff, IH, shown_b_iff. unfold has_col. rewrite existsb_nat. split.
    + intros [[A [c2 [I B]]]|[a [c1 [b [c2 [d [-> X]]]]]]].
      * apply in_split in I as [b [d ->]]. exists [], c, b, c2, d. auto.
      * exists (c :: a), c1, b, c2, d. auto.
    + intros [[|c0 a] [c1 [b [c2 [d [E [A B]]]]]]]; cbn [app] in E; injection E as -> E.
      * left. split; auto. exists c2. split; auto. rewrite E. apply in_or_app. right. left. reflexivity.
      * right. exists a, c1, b, c2, d. auto.
Qed.
Definition within_b (rs : list (nat * nat)) (k : nat) : bool := existsb (fun r => (fst r <=? k) && (k <=? snd r)) rs.
Lemma within_b_iff : forall rs k, within_b rs k = true <-> within rs k.
Proof.
  intros. unfold within_b, within. rewrite existsb_exists. split.
  - intros [[a b] [I E]]. cbn [fst snd] in E. apply andb_true_iff in E as [A B]. apply Nat.leb_le in A, B. eauto.
  - intros [a [b [I [A B]]]]. exists (a, b). split; auto. cbn [fst snd]. apply andb_true_iff. split; apply Nat.leb_le; auto.
Qed.
(* every column of a list, counted up to 132 *)
Lemma cols_132 : forall (P : nat -> bool), forallb P (seq 1 132) = true -> forall k, 1 <= k <= 132 -> P k = true.
Proof. intros P H k K. rewrite forallb_forall in H. apply H. apply in_seq. lia. Qed.

(* ---- C41: hidden columns ---- *)
Definition hidden_ok (p : entry * list (nat * nat)) : bool :=
  forallb (fun k => Bool.eqb (shown_b (e_cells (fst p)) k) (negb (within_b (snd p) k))) (seq 1 132).
Lemma hidden_all : forallb hidden_ok (combine catalogue hidden_columns) = true.
Proof. vm_compute. reflexivity. Qed.
Lemma hidden_length : List.length hidden_columns = List.length catalogue.
Proof. reflexivity. Qed.
Lemma combine_nth_error : forall {A B} (l : list A) (m : list B) i a b, nth_error l i = Some a -> nth_error m i = Some b -> In (a, b) (combine l m).
Proof.
  intros A B l. induction l as [|x l IH]; intros [|y m] [|i] a b H K; cbn in *; try discriminate.
  - injection H as ->. injection K as ->. left. reflexivity.
  - right. eapply IH; eauto.
Qed.
Lemma c41_hidden : forall i e rs k, nth_error catalogue i = Some e -> nth_error hidden_columns i = Some rs -> 1 <= k <= 132 ->
  (shown_in (e_cells e) k <-> ~ within rs k).
Proof.
  intros i e rs k E R K. pose proof (combine_nth_error _ _ _ _ _ E R) as I. pose proof (proj1 (forallb_forall _ _) hidden_all _ I) as H.
  unfold hidden_ok in H. cbn [fst snd] in H. pose proof (cols_132 _ H k K) as X. cbn beta in X. apply Bool.eqb_prop in X.
  rewrite <- shown_b_iff, <- within_b_iff, X. destruct (within_b rs k); cbn; split; congruence || tauto.
Qed.
(* a column of a field is determined by the field *)
Lemma columns_nth : forall t ks i k, Forall (fun k => 1 <= k <= List.length t) ks -> nth_error ks i = Some k -> nth_error (columns t ks) i = column t k.
Proof.
  intros t ks i k F. revert i. induction F as [|k' ks K _ IH]; intros [|i] H; cbn [nth_error] in H; try discriminate.
  - injection H as ->. destruct (columns_single_len t k K) as [c [E C]].
    change (columns t (k :: ks)) with ((match column t k with Some c => [c] | None => [] end) ++ columns t ks). rewrite C. reflexivity.
  - destruct (columns_single_len t k' K) as [c [E C]].
    change (columns t (k' :: ks)) with ((match column t k' with Some c => [c] | None => [] end) ++ columns t ks). rewrite C. cbn [app nth_error]. apply IH. exact H.
Qed.
Lemma fields_determine_columns : forall cells t t' k, List.length t = 132 -> List.length t' = 132 -> cells_in cells = true ->
  map (field_of t) cells = map (field_of t') cells -> shown_in cells k -> column t k = column t' k.
Proof.
  intros cells t t' k L L' CI E [c [I K]]. unfold cells_in in CI. rewrite forallb_forall in CI. specialize (CI c I). apply cols_in_forall in CI.
  assert (V : columns t (c_cols c) = columns t' (c_cols c)).
  { clear - E I. induction cells as [|c0 cells IH]; [contradiction|]. cbn [map] in E. injection E as E0 E1. destruct I as [->|I]; [exact E0|auto]. }
  apply In_nth_error in K as [i K].
  rewrite <- (columns_nth t (c_cols c) i k), <- (columns_nth t' (c_cols c) i k); auto; [congruence| |]; (eapply Forall_impl; [|exact CI]; cbn beta; intros; lia).
Qed.
Lemma columns_agree : forall t t' ks, (forall k, In k ks -> column t k = column t' k) -> columns t ks = columns t' ks.
Proof.
  intros t t' ks H. unfold columns. induction ks as [|k ks IH]; [reflexivity|]. cbn [flat_map]. rewrite (H k (or_introl eq_refl)). rewrite IH; [reflexivity|].
  intros. apply H. right. auto.
Qed.
Lemma columns_determine_fields : forall cells t t', (forall k, shown_in cells k -> column t k = column t' k) ->
  map (field_of t) cells = map (field_of t') cells.
Proof.
  intros cells t t' H. apply map_ext_in. intros c I. unfold field_of. f_equal. apply columns_agree. intros k K. apply H. exists c. auto.
Qed.

(* ---- names ---- *)
Fixpoint nodup_b (l : list string) : bool := match l with [] => true | x :: l' => negb (existsb (String.eqb x) l') && nodup_b l' end.
Lemma nodup_b_iff : forall l, nodup_b l = true <-> NoDup l.
Proof.
  induction l as [|x l IH]; cbn [nodup_b]; [split; [constructor|reflexivity]|]. rewrite andb_true_iff, IH, negb_true_iff. split.
  - intros [A B]. constructor; auto. intro I. apply existsb_string in I. congruence.
  - intro H. inversion H as [|y m A B]; subst. split; auto. destruct (existsb (String.eqb x) l) eqn:E; [|reflexivity]. apply existsb_string in E. contradiction.
Qed.
Lemma nodup_names : forall cells t, NoDup (map c_name cells) -> NoDup (map f_name (map (field_of t) cells)).
Proof.
  intros cells t H. rewrite map_map. cbn [field_of f_name]. induction cells as [|c cells IH]; cbn [map] in *; [constructor|].
  inversion H as [|x l A B]; subst. constructor; auto. intro I. apply A. apply in_map_iff in I as [c' [E I]]. apply lit_inj in E. rewrite <- E. apply in_map. exact I.
Qed.
Definition opt_eqb {A} (eqb : A -> A -> bool) (a b : option A) : bool :=
  match a, b with Some x, Some y => eqb x y | None, None => true | _, _ => false end.
Definition has_key_b (e : entry) (key : layout_key) : bool :=
  existsb (String.eqb (fst (fst key))) (e_sections e) && opt_eqb Bool.eqb (e_primary e) (snd (fst key)) && opt_eqb String.eqb (e_app e) (snd key).
Lemma has_key_b_iff : forall e key, has_key_b e key = true <-> has_key e key.
Proof.
  intros e [[s p] a]. unfold has_key_b, has_key. cbn [fst snd]. rewrite !andb_true_iff, existsb_string. split.
  - intros [[A B] C]. split; auto. split.
    + destruct (e_primary e), p; try discriminate; auto. apply Bool.eqb_prop in B. congruence.
    + destruct (e_app e), a; try discriminate; auto. apply String.eqb_eq in C. congruence.
  - intros [A [B C]]. subst. split; [split; auto|].
    + destruct (e_primary e); cbn; auto. apply Bool.eqb_reflx.
    + destruct (e_app e); cbn; auto. apply String.eqb_refl.
Qed.
Definition names_ok (e : entry) : bool := Bool.eqb (nodup_b (map c_name (e_cells e))) (negb (existsb (has_key_b e) repeating)).
Lemma names_all : forallb names_ok catalogue = true.
Proof. vm_compute. reflexivity. Qed.
Lemma c29_names : forall e, In e catalogue -> (NoDup (map c_name (e_cells e)) <-> ~ exists key, In key repeating /\ has_key e key).
Proof.
  intros e I. pose proof (proj1 (forallb_forall _ _) names_all e I) as H. unfold names_ok in H. apply Bool.eqb_prop in H.
  rewrite <- nodup_b_iff, H, negb_true_iff. split.
  - intros E [key [K X]]. assert (existsb (has_key_b e) repeating = true) by (apply existsb_exists; exists key; split; auto; apply has_key_b_iff; auto). congruence.
  - intro N. destruct (existsb (has_key_b e) repeating) eqn:E; [|reflexivity]. apply existsb_exists in E as [key [K X]]. exfalso. apply N. exists key. split; auto. apply has_key_b_iff. auto.
Qed.
Definition repeating_used : bool := forallb (fun key => existsb (fun e => has_key_b e key) catalogue) repeating.
Lemma c29_used : forall key, In key repeating -> exists e, In e catalogue /\ has_key e key.
Proof.
  intros key K. assert (H : repeating_used = true) by (vm_compute; reflexivity). unfold repeating_used in H.
  pose proof (proj1 (forallb_forall _ _) H key K) as X. cbn beta in X. apply existsb_exists in X as [e [I E]]. exists e. split; auto. apply has_key_b_iff. exact E.
Qed.

(* ---- C42 ---- *)
Definition overlap_ok (e : entry) : bool :=
  match find (fun p => has_key_b e (fst p)) overlapping with
  | Some (_, ks) => forallb (fun k => Bool.eqb (twice_b (e_cells e) k) (existsb (Nat.eqb k) ks)) (seq 1 132)
  | None => forallb (fun k => negb (twice_b (e_cells e) k)) (seq 1 132)
  end.
Lemma overlap_all : forallb overlap_ok catalogue = true.
Proof. vm_compute. reflexivity. Qed.
Lemma shown_twice_range : forall cells k, cells_in cells = true -> shown_twice cells k -> 1 <= k <= 132.
Proof.
  intros cells k C [a [c1 [b [c2 [d [-> [A _]]]]]]]. unfold cells_in in C. rewrite forallb_forall in C.
  assert (I : In c1 (a ++ c1 :: b ++ c2 :: d)) by (apply in_or_app; right; left; reflexivity). specialize (C c1 I). apply cols_in_forall in C.
  rewrite Forall_forall in C. auto.
Qed.
Lemma c42 : forall e, In e catalogue ->
  (forall k, ~ shown_twice (e_cells e) k) \/
  exists key ks, In (key, ks) overlapping /\ has_key e key /\ (forall k, shown_twice (e_cells e) k <-> In k ks).
Proof.
  intros e I. pose proof (proj1 (forallb_forall _ _) overlap_all e I) as H. pose proof (proj1 (forallb_forall _ _) catalogue_in e I) as CI. cbn beta in CI.
  unfold overlap_ok in H. destruct (find _ overlapping) as [[key ks]|] eqn:F.
  - right. apply find_some in F as [A B]. cbn [fst] in B. exists key, ks. split; auto. split; [apply has_key_b_iff; exact B|]. intro k. split.
    + intro T. pose proof (shown_twice_range _ _ CI T) as R. pose proof (cols_132 _ H k R) as X. cbn beta in X. apply Bool.eqb_prop in X.
      apply twice_b_iff in T. rewrite T in X. apply existsb_nat. auto.
    + intro K. assert (R : 1 <= k <= 132).
      { assert (G : forallb (fun p => forallb (fun k => (1 <=? k) && (k <=? 132)) (snd p)) overlapping = true) by reflexivity.
        rewrite forallb_forall in G. specialize (G _ A). cbn [snd] in G. rewrite forallb_forall in G. specialize (G k K). apply andb_true_iff in G as [G1 G2].
        apply Nat.leb_le in G1, G2. lia. }
      pose proof (cols_132 _ H k R) as X. cbn beta in X. apply Bool.eqb_prop in X. apply twice_b_iff. rewrite X. apply existsb_nat. exact K.
  - left. intros k T. pose proof (shown_twice_range _ _ CI T) as R. pose proof (cols_132 _ H k R) as X. cbn beta in X. apply twice_b_iff in T. rewrite T in X. discriminate.
Qed.
Definition overlapping_used : bool := forallb (fun p => existsb (fun e => has_key_b e (fst p)) catalogue && match snd p with [] => false | _ => true end) overlapping.
Lemma c42_used : forall key ks, In (key, ks) overlapping -> ks <> [] /\ exists e, In e catalogue /\ has_key e key.
Proof.
  intros key ks K. assert (H : overlapping_used = true) by (vm_compute; reflexivity). unfold overlapping_used in H.
  pose proof (proj1 (forallb_forall _ _) H _ K) as X. cbn beta in X. cbn [fst snd] in X. apply andb_true_iff in X as [X Y]. split; [destruct ks; congruence|].
  apply existsb_exists in X as [e [I E]]. exists e. split; auto. apply has_key_b_iff. exact E.
Qed.

(* ---- records ---- *)
(* the entry of the catalogue a record was read by *)
Lemma read_entry : forall r line t o r', record_line line t -> read r line = (o, r', Ok true) ->
  exists e s, In e catalogue /\ In s (e_sections e) /\ ident r' = lit s /\ fields r' = map (field_of t) (e_cells e) /\
    (forall p, e_primary e = Some p -> p = primary r') /\
    (forall a cont app, e_app e = Some a -> type_info (ident r') cont app -> columns t app = lit a).
Proof.
  intros r line t o r' RL R. destruct (c06 _ _ _ _ _ RL R) as [cells [cont [app [LF [TI [E _]]]]]].
  destruct (layout_for_entry _ _ _ _ LF) as [e [I [M C]]]. destruct (layout_for_sections _ _ _ _ M) as [s [S1 S2]].
  exists e, s. split; auto. split; auto. split; auto. split; [congruence|]. unfold entry_matches in M. apply andb_true_iff in M as [M M3]. apply andb_true_iff in M as [M1 M2].
  split.
  - intros p P. rewrite P in M2. apply Bool.eqb_prop in M2. exact M2.
  - intros a cont' app' A TI'. rewrite A in M3. apply str_eqb_eq in M3.
    assert (SU : supported (ident r')) by (destruct (c03_success_t _ _ _ _ _ RL R); auto).
    apply type_info_iff in TI, TI'; auto. rewrite TI in TI'. injection TI' as -> ->. auto.
Qed.
Lemma read_sound : forall r line t o r', record_line line t -> scalar_text t -> read r line = (o, r', Ok true) -> sound_fields (fields r').
Proof.
  intros r line t o r' RL SC R. destruct (read_entry _ _ _ _ _ RL R) as [e [s [I [S [ID [E [P A]]]]]]].
  rewrite E. apply Forall_forall. intros f F. apply in_map_iff in F as [c [<- C]]. cbn [field_of f_name f_value]. split.
  - apply scalar_sound. assert (Q : forallb (fun e => forallb (fun c => forallb (fun x => (x <? 128)%N) (lit (c_name c))) (e_cells e)) catalogue = true) by (vm_compute; reflexivity).
    rewrite forallb_forall in Q. specialize (Q e I). cbn beta in Q. rewrite forallb_forall in Q. specialize (Q c C). apply Forall_forall. intros x X.
    rewrite forallb_forall in Q. specialize (Q x X). apply N.ltb_lt in Q. lia.
  - apply scalar_sound. apply columns_forall. exact SC.
Qed.
Lemma c29_complete : forall r line t o r', record_line line t -> scalar_text t -> read r line = (o, r', Ok true) ->
  (exists text, json r' false true = ([], Ok text) /\ read_json text = Some (map (fun f => (f_name f, f_value f)) (fields r'))) \/
  (exists s p a, In (s, p, a) repeating /\ ident r' = lit s /\ (forall b, p = Some b -> b = primary r')).
Proof.
  intros r line t o r' RL SC R. destruct (read_entry _ _ _ _ _ RL R) as [e [s [I [S [ID [E [P A]]]]]]].
  destruct (existsb (has_key_b e) repeating) eqn:K.
  - right. apply existsb_exists in K as [[[s' p] a] [K X]]. apply has_key_b_iff in X as [X1 [X2 X3]]. cbn [fst snd] in *.
    assert (G : e_sections e = [s']).
    { assert (Q : forallb (fun e => implb (existsb (has_key_b e) repeating) (match e_sections e with [_] => true | _ => false end)) catalogue = true) by (vm_compute; reflexivity).
      rewrite forallb_forall in Q. specialize (Q e I). assert (T : existsb (has_key_b e) repeating = true) by (apply existsb_exists; exists (s', p, a); split; auto; apply has_key_b_iff; split; auto).
      rewrite T in Q. cbn [implb] in Q. destruct (e_sections e) as [|x [|y l]]; try discriminate. destruct X1 as [->|[]]. reflexivity. }
    rewrite G in S. destruct S as [<-|[]]. exists s', p, a. split; auto. split; auto. intros b Hb. apply P. congruence.
  - left. assert (ND : NoDup (map c_name (e_cells e))).
    { apply c29_names; auto. intros [key [X Y]]. assert (existsb (has_key_b e) repeating = true) by (apply existsb_exists; exists key; split; auto; apply has_key_b_iff; auto). congruence. }
    unfold json. eexists. split; [reflexivity|].
    rewrite read_dumps.
    + rewrite json_dict_distinct; [reflexivity|]. rewrite E. apply nodup_names. exact ND.
    + apply sound_dict. eapply read_sound; eauto.
Qed.
(* the text of json() tells the fields *)
Lemma json_inj : forall r1 r2 single, sound_fields (fields r1) -> sound_fields (fields r2) ->
  NoDup (map f_name (fields r1)) -> map f_name (fields r1) = map f_name (fields r2) ->
  snd (json r1 false single) = snd (json r2 false single) ->
  map f_value (fields r1) = map f_value (fields r2).
Proof.
  intros r1 r2 single S1 S2 ND NE H. assert (ND2 : NoDup (map f_name (fields r2))) by congruence.
  assert (K : forall fs gs : list field, map f_name fs = map f_name gs -> NoDup (map f_name fs) ->
     (forall f, In f fs -> In (f_name f, f_value f) (map (fun f => (f_name f, f_value f)) gs)) -> map f_value fs = map f_value gs).
  { clear. intros fs gs. revert gs. induction fs as [|f fs IH]; intros [|g gs] E ND M; cbn [map] in *; try discriminate; [reflexivity|].
    injection E as E1 E2. inversion ND as [|x l A B]; subst. f_equal.
    - destruct (M f (or_introl eq_refl)) as [X|X]; [congruence|]. exfalso. apply A. rewrite E2. apply in_map_iff in X as [h [X Y]]. injection X as X _. rewrite <- X. apply in_map. exact Y.
    - apply IH; auto. intros h I. destruct (M h (or_intror I)) as [X|X]; [|exact X]. exfalso. apply A. injection X as X _. rewrite E1, X. apply in_map. exact I. }
  apply K; auto. intros f I.
  assert (P1 : In (f_name f, f_value f) (json_dict (fields r1))) by (rewrite json_dict_distinct by auto; apply in_map_iff; exists f; auto).
  rewrite <- json_dict_distinct by auto. unfold json in H. destruct single; cbn [bind ret snd] in H; apply (f_equal (fun x => match x with Ok y => y | Err _ => [] end)) in H; cbn beta iota in H.
  - assert (X : Some (json_dict (fields r1)) = Some (json_dict (fields r2))) by (pose proof (read_dumps _ (sound_dict _ S1)) as A; pose proof (read_dumps _ (sound_dict _ S2)) as B; rewrite H in A; congruence).
    injection X as X. congruence.
  - assert (X : Some (sort_kv (json_dict (fields r1))) = Some (sort_kv (json_dict (fields r2)))) by (pose proof (read_dumps_pretty _ (sound_dict _ S1)) as A; pose proof (read_dumps_pretty _ (sound_dict _ S2)) as B; rewrite H in A; congruence).
    injection X as X. apply (Permutation.Permutation_in _ (sort_perm _)). rewrite <- X. apply (Permutation.Permutation_in _ (Permutation.Permutation_sym (sort_perm _))). exact P1.
Qed.
Lemma fields_of_values : forall cells t t', map f_value (map (field_of t) cells) = map f_value (map (field_of t') cells) ->
  map (field_of t) cells = map (field_of t') cells.
Proof.
  intros cells t t' H. rewrite !map_map in H. apply map_ext_in. intros c I. unfold field_of. f_equal.
  induction cells as [|c0 cells IH]; [contradiction|]. cbn [map] in H. injection H as H0 H1. destruct I as [->|I]; [exact H0|auto].
Qed.
(* two records of one layout with the same JSON agree on all shown columns *)
Lemma c41_rebuild : forall r1 r2 line1 line2 t1 t2 o1 o2 r1' r2' e single,
  In e catalogue -> record_line line1 t1 -> record_line line2 t2 -> scalar_text t1 -> scalar_text t2 ->
  read r1 line1 = (o1, r1', Ok true) -> read r2 line2 = (o2, r2', Ok true) ->
  fields r1' = map (field_of t1) (e_cells e) -> fields r2' = map (field_of t2) (e_cells e) -> NoDup (map c_name (e_cells e)) ->
  snd (json r1' false single) = snd (json r2' false single) ->
  forall k, shown_in (e_cells e) k -> column t1 k = column t2 k.
Proof.
  intros r1 r2 line1 line2 t1 t2 o1 o2 r1' r2' e single IE L1 L2 S1 S2 R1 R2 F1 F2 ND J k K.
  pose proof (record_line_length _ _ L1). pose proof (record_line_length _ _ L2).
  assert (V : map f_value (fields r1') = map f_value (fields r2')).
  { apply (json_inj r1' r2' single); auto.
    - exact (read_sound _ _ _ _ _ L1 S1 R1).
    - exact (read_sound _ _ _ _ _ L2 S2 R2).
    - rewrite F1. apply nodup_names. exact ND.
    - rewrite F1, F2, !map_map. reflexivity. }
  rewrite F1, F2 in V. apply fields_of_values in V.
  eapply fields_determine_columns; eauto. exact (proj1 (forallb_forall _ _) catalogue_in e IE).
Qed.
