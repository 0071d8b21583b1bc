(* Records with the same names and values come from the same columns. *)
From Coq Require Import List String Ascii NArith Bool Arith Lia.
From Verif Require Import PyBase Decoder Layouts Json Record Api Console SpecLayouts Spec SpecJson SpecColumns SpecRecord SpecConsole SpecEdit SpecAlike StrFacts ReadFacts ReadProps ReadProps2 ReadProps3 JsonProps RecordProps ColumnProps FnNum EditProps ConsoleProps.
Import ListNotations.
Open Scope string_scope.
Open Scope list_scope.
Local Open Scope nat_scope.

Definition seqb (a b : list string) : bool := if list_eq_dec string_dec a b then true else false.
Definition neqb (a b : list (list nat)) : bool := if list_eq_dec (list_eq_dec Nat.eq_dec) a b then true else false.
Fixpoint feqb (a b : list fn) : bool := match a, b with [], [] => true | x :: a, y :: b => fn_eqb x y && feqb a b | _, _ => false end.
Lemma feqb_eq : forall a b, feqb a b = true -> a = b.
Proof. induction a as [|x a IH]; intros [|y b] H; try discriminate; [reflexivity|]. cbn in H. apply andb_true_iff in H as [A B]. apply fn_eqb_eq in A. rewrite A, (IH _ B). reflexivity. Qed.
Definition names (e : entry) : list string := map c_name (e_cells e).
Definition within_b (a b : list string) : bool := forallb (fun x => existsb (String.eqb x) b) a.
Definition proc_b (s s' : string) : bool := existsb (fun l => existsb (String.eqb s) l && existsb (String.eqb s') l) procedure_sections.
Definition same_b (e e' : entry) (s s' : string) : bool :=
  negb (match get 0 s, get 0 s' with Some a, Some b => Ascii.eqb a b | None, None => true | _, _ => false end) ||
  (seqb (names e) (names e') && neqb (map c_cols (e_cells e)) (map c_cols (e_cells e')) && feqb (map c_fn (e_cells e)) (map c_fn (e_cells e')) && (String.eqb s s' || proc_b s s')).
Definition tell_b (e e' : entry) : bool :=
  negb (within_b (names e) (names e') && within_b (names e') (names e)) || forallb (fun s => forallb (same_b e e' s) (e_sections e')) (e_sections e).
Definition tells (l : list entry) : bool := forallb (fun e => forallb (tell_b e) l) l.
Lemma tells_all : tells catalogue = true.
Proof. vm_compute. reflexivity. Qed.
Lemma within_b_incl : forall a b, incl a b -> within_b a b = true.
Proof. intros a b I. apply forallb_forall. intros x X. apply existsb_exists. exists x. split; [exact (I _ X)|apply String.eqb_refl]. Qed.
Lemma in_b : forall s l, existsb (String.eqb s) l = true -> In s l.
Proof. intros s l H. apply existsb_exists in H as (x & I & E). apply String.eqb_eq in E. subst. exact I. Qed.
Lemma cells_eq : forall x y, map c_name x = map c_name y -> map c_cols x = map c_cols y -> map c_fn x = map c_fn y -> x = y.
Proof.
  induction x as [|[n c f] x IH]; intros [|[n' c' f'] y] A B C; try discriminate; [reflexivity|]. cbn in A, B, C. injection A as -> A. injection B as -> B. injection C as -> C. rewrite (IH _ A B C). reflexivity.
Qed.
Lemma tells_pair : forall l, tells l = true -> forall e e' s s', In e l -> In e' l -> In s (e_sections e) -> In s' (e_sections e') ->
  incl (names e) (names e') -> incl (names e') (names e) -> get 0 s = get 0 s' -> e_cells e = e_cells e' /\ (s = s' \/ both_procedures (lit s) (lit s')).
Proof.
  intros l T e e' s s' E E' I I' N1 N2 G. unfold tells in T. rewrite forallb_forall in T. specialize (T e E). cbn beta in T. rewrite forallb_forall in T. specialize (T e' E'). unfold tell_b in T.
  rewrite (within_b_incl _ _ N1), (within_b_incl _ _ N2) in T. cbn [andb negb orb] in T. rewrite forallb_forall in T. specialize (T s I). cbn beta in T. rewrite forallb_forall in T. specialize (T s' I'). unfold same_b in T.
  rewrite G in T. apply orb_true_iff in T as [T|T].
  - exfalso. apply negb_true_iff in T. destruct (get 0 s'); [rewrite Ascii.eqb_refl in T|]; discriminate.
  - apply andb_true_iff in T as [T P]. apply andb_true_iff in T as [T F]. apply andb_true_iff in T as [A C]. apply feqb_eq in F. unfold seqb in A. destruct (list_eq_dec _ _ _) in A; [|discriminate]. unfold neqb in C. destruct (list_eq_dec _ _ _) in C; [|discriminate].
    split; [apply cells_eq; assumption|]. apply orb_true_iff in P as [P|P]; [left; apply String.eqb_eq; exact P|right]. unfold proc_b in P. apply existsb_exists in P as (l0 & L & P). apply andb_true_iff in P as [P1 P2]. apply in_b in P1, P2.
    exists l0, s, s'. auto.
Qed.

Lemma lit_first : forall s s', lit s <> [] -> hd_error (lit s) = hd_error (lit s') -> get 0 s = get 0 s'.
Proof.
  intros [|a s] [|b s'] N H; cbn in *; try discriminate; try reflexivity. injection H as H. f_equal. assert (X : N_of_ascii a = N_of_ascii b) by exact H. rewrite <- (ascii_N_embedding a), <- (ascii_N_embedding b), X. reflexivity.
Qed.
Lemma first_column : forall t k ks, List.length t = 132 -> 1 <= k <= 132 -> hd_error (columns t (k :: ks)) = column t k /\ column t k <> None.
Proof.
  intros t k ks L K. assert (X : column t k <> None) by (destruct k as [|k]; [lia|]; cbn [column]; apply nth_error_Some; lia).
  split; [|exact X]. rewrite columns_cons. unfold columns. cbn [flat_map]. destruct (column t k); [reflexivity|destruct (X eq_refl)].
Qed.
Lemma in_firstn : forall A n (l : list A) x, In x (firstn n l) -> In x l.
Proof. intros A n l x H. rewrite <- (firstn_skipn n l). apply in_or_app. left. exact H. Qed.
(* what a successful read gives *)
Lemma read_entry : forall r line t o r', record_line line t -> read r line = (o, r', Ok true) ->
  exists e s ks, In e catalogue /\ In s (e_sections e) /\ ident r' = lit s /\ layout_of t r' (e_cells e) /\ fields r' = map (field_of t) (e_cells e) /\
    In (Field (lit "Section Code") (columns t (5 :: ks)) F004) (fields r') /\ hd_error (lit s) = column t 5.
Proof.
  intros r line t o r' RL R. destruct (layout_read _ _ _ _ _ RL R) as (cells & LY & F). pose proof LY as (cont & app & T & LF). destruct (layout_for_entry _ _ _ _ LF) as (e & E & M & <-).
  unfold entry_matches in M. apply andb_true_iff in M as [M _]. apply andb_true_iff in M as [M _]. apply existsb_exists in M as (s & I & M). apply str_eqb_eq in M.
  destruct (c15 _ _ _ _ _ RL R) as (s0 & _ & _ & FI). exists e, s, (if shows_5_13 s0 then [13] else [6]). do 5 (split; [auto|]). split.
  - replace (5 :: (if shows_5_13 s0 then [13] else [6])) with (if shows_5_13 s0 then [5; 13] else [5; 6]) by (destruct (shows_5_13 s0); reflexivity). exact (in_firstn _ _ _ _ FI).
  - rewrite M. destruct (c03_success_t _ _ _ _ _ RL R) as (_ & [->|(-> & _)]); apply first_column; try lia; exact (record_line_length _ _ RL).
Qed.
Lemma lit_incl : forall a b, incl (map lit a) (map lit b) -> incl a b.
Proof. intros a b H x I. specialize (H (lit x) (in_map lit _ _ I)). apply in_map_iff in H as (y & E & J). apply lit_inj in E. subst. exact J. Qed.
Lemma field_names : forall t cells, map f_name (map (field_of t) cells) = map lit (map c_name cells).
Proof. intros. rewrite !map_map. reflexivity. Qed.
Lemma alike : forall r1 r2 line1 line2 t1 t2 o1 o2 r1' r2', record_line line1 t1 -> record_line line2 t2 -> read r1 line1 = (o1, r1', Ok true) -> read r2 line2 = (o2, r2', Ok true) ->
  incl (map f_name (fields r1')) (map f_name (fields r2')) -> incl (map f_name (fields r2')) (map f_name (fields r1')) ->
  column t1 5 = column t2 5 ->
  exists e, In e catalogue /\ layout_of t1 r1' (e_cells e) /\ layout_of t2 r2' (e_cells e) /\ fields r1' = map (field_of t1) (e_cells e) /\ fields r2' = map (field_of t2) (e_cells e) /\
    (ident r1' = ident r2' \/ both_procedures (ident r1') (ident r2')).
Proof.
  intros r1 r2 line1 line2 t1 t2 o1 o2 r1' r2' L1 L2 R1 R2 N1 N2 G.
  destruct (read_entry _ _ _ _ _ L1 R1) as (e & s & ks & E & I & ID & LY & F & FI & H). destruct (read_entry _ _ _ _ _ L2 R2) as (e' & s' & ks' & E' & I' & ID' & LY' & F' & FI' & H').
  pose proof (record_line_length _ _ L1) as X1. pose proof (record_line_length _ _ L2) as X2.
  destruct (first_column t1 5 ks X1) as (_ & A0); [lia|].
  rewrite F, F', !field_names in N1, N2. apply lit_incl in N1, N2.
  destruct (tells_pair catalogue tells_all e e' s s' E E' I I' N1 N2) as (C & P).
  { apply lit_first; [intros Z; rewrite Z in H; cbn [hd_error] in H; congruence|congruence]. }
  exists e. rewrite ID, ID'. split; [exact E|]. split; [exact LY|]. rewrite C. split; [exact LY'|]. rewrite <- C. split; [exact F|]. rewrite C. split; [exact F'|]. destruct P as [->|P]; auto.
Qed.
Lemma names_values_names : forall r, map fst (names_values r) = map f_name (fields r).
Proof. intros r. unfold names_values. rewrite map_map. reflexivity. Qed.
Lemma names_values_values : forall r, map snd (names_values r) = map f_value (fields r).
Proof. intros r. unfold names_values. rewrite map_map. reflexivity. Qed.
Definition code_pair (p : str * str) : bool := str_eqb (fst p) (lit "Section Code").
Definition code_b (e : entry) : bool := match find (fun c => String.eqb (c_name c) "Section Code") (e_cells e) with Some c => match c_cols c with 5 :: _ => true | _ => false end | None => false end.
Lemma code_all : forallb code_b catalogue = true.
Proof. vm_compute. reflexivity. Qed.
Lemma find_cell : forall t cells c, find (fun c => String.eqb (c_name c) "Section Code") cells = Some c -> find code_pair (map (fun f => (f_name f, f_value f)) (map (field_of t) cells)) = Some (lit "Section Code", columns t (c_cols c)).
Proof.
  intros t cells c. induction cells as [|d cells IH]; intros H; [discriminate|]. cbn [find map] in H |- *. unfold code_pair at 1. cbn [fst field_of f_name f_value]. destruct (String.eqb (c_name d) "Section Code") eqn:E.
  - injection H as ->. apply String.eqb_eq in E. rewrite E. rewrite str_eqb_refl. reflexivity.
  - destruct (str_eqb (lit (c_name d)) (lit "Section Code")) eqn:Q; [|exact (IH H)]. apply str_eqb_eq in Q. apply lit_inj in Q. rewrite Q in E. discriminate.
Qed.
Lemma read_code : forall r line t o r', record_line line t -> read r line = (o, r', Ok true) -> exists v, find code_pair (names_values r') = Some (lit "Section Code", v) /\ hd_error v = column t 5.
Proof.
  intros r line t o r' RL R. destruct (read_entry _ _ _ _ _ RL R) as (e & _ & _ & E & _ & _ & _ & F & _). pose proof code_all as O. rewrite forallb_forall in O. specialize (O e E). unfold code_b in O.
  destruct (find _ (e_cells e)) as [c|] eqn:FC; [|discriminate]. exists (columns t (c_cols c)). split; [unfold names_values; rewrite F; apply find_cell; exact FC|].
  destruct (c_cols c) as [|k ks]; [discriminate|]. assert (K : k = 5) by (do 6 (destruct k as [|k]; try discriminate); reflexivity). subst k. apply first_column; [exact (record_line_length _ _ RL)|lia].
Qed.
Theorem c76_fields : forall r1 r2 line1 line2 t1 t2 o1 o2 r1' r2', record_line line1 t1 -> record_line line2 t2 -> read r1 line1 = (o1, r1', Ok true) -> read r2 line2 = (o2, r2', Ok true) ->
  names_values r1' = names_values r2' ->
  exists cells, layout_of t1 r1' cells /\ layout_of t2 r2' cells /\ fields r1' = fields r2' /\ (forall k, shown_in cells k -> column t1 k = column t2 k) /\ (ident r1' = ident r2' \/ both_procedures (ident r1') (ident r2')).
Proof.
  intros r1 r2 line1 line2 t1 t2 o1 o2 r1' r2' L1 L2 R1 R2 NV.
  destruct (alike _ _ _ _ _ _ _ _ _ _ L1 L2 R1 R2) as (e & E & LY1 & LY2 & F1 & F2 & P).
  - rewrite <- !names_values_names, NV. apply incl_refl.
  - rewrite <- !names_values_names, NV. apply incl_refl.
  - destruct (read_code _ _ _ _ _ L1 R1) as (v & A & A'). destruct (read_code _ _ _ _ _ L2 R2) as (v' & B & B'). rewrite NV, B in A. congruence.
  - pose proof (f_equal (map snd) NV) as V. rewrite !names_values_values, F1, F2 in V. apply fields_of_values in V. exists (e_cells e). split; [exact LY1|]. split; [exact LY2|]. split; [congruence|]. split; [|exact P].
    intros k K. eapply fields_determine_columns; [exact (record_line_length _ _ L1)|exact (record_line_length _ _ L2)| |exact V|exact K]. exact (proj1 (forallb_forall _ _) catalogue_in e E).
Qed.
Theorem c76_json : forall r1 r2 line1 line2 t1 t2 o1 o2 r1' r2' single, record_line line1 t1 -> record_line line2 t2 -> scalar_text t1 -> scalar_text t2 ->
  read r1 line1 = (o1, r1', Ok true) -> read r2 line2 = (o2, r2', Ok true) -> NoDup (map f_name (fields r1')) -> NoDup (map f_name (fields r2')) ->
  snd (json r1' false single) = snd (json r2' false single) -> names_values r1' = names_values r2'.
Proof.
  intros r1 r2 line1 line2 t1 t2 o1 o2 r1' r2' single L1 L2 S1 S2 R1 R2 D1 D2 J.
  pose proof (read_sound _ _ _ _ _ L1 S1 R1) as SF1. pose proof (read_sound _ _ _ _ _ L2 S2 R2) as SF2.
  assert (X : Permutation.Permutation (names_values r1') (names_values r2')).
  { unfold json in J. destruct single; cbn [bind ret snd] in J; apply (f_equal (fun x => match x with Ok y => y | Err _ => [] end)) in J; cbn beta iota in J.
    - assert (X : Some (json_dict (fields r1')) = Some (json_dict (fields r2'))) by (pose proof (read_dumps _ (sound_dict _ SF1)) as A; pose proof (read_dumps _ (sound_dict _ SF2)) as B; rewrite J in A; congruence).
      injection X as X. rewrite (json_dict_distinct (fields r1')), (json_dict_distinct (fields r2')) in X by assumption. unfold names_values. rewrite X. apply Permutation.Permutation_refl.
    - assert (X : Some (sort_kv (json_dict (fields r1'))) = Some (sort_kv (json_dict (fields r2')))) by (pose proof (read_dumps_pretty _ (sound_dict _ SF1)) as A; pose proof (read_dumps_pretty _ (sound_dict _ SF2)) as B; rewrite J in A; congruence).
      injection X as X. pose proof (sort_perm (json_dict (fields r1'))) as P1. pose proof (sort_perm (json_dict (fields r2'))) as P2. rewrite X in P1. rewrite (json_dict_distinct (fields r1')) in P1 by assumption. rewrite (json_dict_distinct (fields r2')) in P1, P2 by assumption. unfold names_values.
      eapply Permutation.Permutation_trans; [apply Permutation.Permutation_sym; exact P1|exact P2]. }
  destruct (alike _ _ _ _ _ _ _ _ _ _ L1 L2 R1 R2) as (e & E & LY1 & LY2 & F1 & F2 & P).
  - rewrite <- !names_values_names. intros x I. eapply Permutation.Permutation_in; [apply Permutation.Permutation_map; exact X|exact I].
  - rewrite <- !names_values_names. intros x I. eapply Permutation.Permutation_in; [apply Permutation.Permutation_map; apply Permutation.Permutation_sym; exact X|exact I].
  - destruct (read_code _ _ _ _ _ L1 R1) as (v & A & A'). destruct (read_code _ _ _ _ _ L2 R2) as (v' & B & B'). apply find_some in A as [A _]. apply find_some in B as [B _]. apply (Permutation.Permutation_in _ X) in A.
    rewrite <- A', <- B'. f_equal. rewrite <- names_values_names in D2. revert D2 A B. generalize (names_values r2'). clear. induction l as [|[n w] l IH]; intros D A B; [contradiction|]. inversion D; subst.
    destruct A as [A|A]; destruct B as [B|B]; try congruence; [exfalso|exfalso|exact (IH H2 A B)]; apply H1; cbn [fst]; [injection A as -> ->|injection B as -> ->]; [exact (in_map fst _ _ B)|exact (in_map fst _ _ A)].
  - assert (N : map f_name (fields r1') = map f_name (fields r2')) by (rewrite F1, F2, !field_names; reflexivity).
    pose proof (json_inj r1' r2' single SF1 SF2 D1 N J) as V. unfold names_values. clear - N V. revert N V. generalize (fields r1') (fields r2'). induction l as [|x l IH]; intros [|y m] N V; try discriminate; [reflexivity|]. cbn in *. injection N as -> N. injection V as -> V. f_equal. exact (IH _ N V).
Qed.
Theorem c76_table : forall r1 r2 out1 out2 o1 o2 rows1 rows2, fields r1 = fields r2 -> ident r1 = ident r2 -> decode r1 out1 = (o1, Ok rows1) -> decode r2 out2 = (o2, Ok rows2) -> rows1 = rows2.
Proof.
  intros r1 r2 out1 out2 o1 o2 rows1 rows2 F I D1 D2. apply c31 in D1. apply c31 in D2. rewrite F in D1. eapply rows_same; [|exact D1|exact D2]. exact I.
Qed.
