(* Record.read against the catalogue of Spec.v. *)
From Coq Require Import List String NArith Bool Arith Lia.
From Verif Require Import PyBase Decoder Layouts Record SpecLayouts Spec StrFacts FnNum.
Import ListNotations.
Open Scope string_scope.
Open Scope list_scope.
Local Open Scope nat_scope.

(* ---- framing ---- *)
Lemma startswith1 : forall t c, startswith t [c] = true <-> columns t [1] = [c].
Proof.
  intros. unfold startswith, columns. destruct t as [|x t]; simpl; [split; discriminate|].
  rewrite andb_true_r, N.eqb_eq. split; congruence.
Qed.
Lemma last9_numeric : forall t, List.length t = 132 ->
  (isnumeric (slice_last 9 t) = true <-> forall k, 124 <= k <= 132 -> numeric_column t k).
Proof.
  intros t L. unfold isnumeric, slice_last. rewrite L. change (132 - 9) with 123.
  assert (Lk : List.length (skipn 123 t) = 9) by (rewrite skipn_length; lia).
  assert (Hn : forall i, nth_error (skipn 123 t) i = nth_error t (123 + i)).
  { intro i. rewrite <- (firstn_skipn 123 t) at 2. rewrite nth_error_app2; rewrite firstn_length; [|lia].
    f_equal. lia. }
  rewrite all_nonempty_iff. split.
  - intros [_ H] k Hk. unfold numeric_column. destruct k; [lia|]. simpl column.
    destruct (nth_error t k) eqn:E; [|apply nth_error_None in E; lia].
    exists n. split; auto. rewrite Forall_forall in H. apply H.
    apply nth_error_In with (n := k - 123). rewrite Hn. rewrite <- E. f_equal. lia.
  - intros H. split; [intro E; rewrite E in Lk; discriminate|].
    apply Forall_forall. intros x Hx. apply In_nth_error in Hx as [i Hi].
    assert (i < 9) by (rewrite <- Lk; apply nth_error_Some; congruence).
    destruct (H (S (123 + i))) as [c [H1 H2]]; [lia|]. change (column t (S (123 + i))) with (nth_error t (123 + i)) in H1. rewrite Hn in Hi. congruence.
Qed.
Lemma validate_framed : forall line, validate line = true <-> framed (strip line).
Proof.
  intros. unfold validate, framed. set (t := strip line).
  change (lit "S") with [83%N]. change (lit "T") with [84%N].
  destruct (startswith t [83%N] || startswith t [84%N]) eqn:E1; cbn [negb].
  - assert (columns t [1] = [83%N] \/ columns t [1] = [84%N]) as HS.
    { apply orb_true_iff in E1. rewrite !startswith1 in E1. exact E1. }
    destruct (Nat.eqb (List.length t) 132) eqn:E2; cbn [negb].
    + apply Nat.eqb_eq in E2. pose proof (last9_numeric t E2) as H9.
      destruct (isnumeric (slice_last 9 t)); cbn [negb].
      * split; [|auto]. intros _. split; [auto|split; [auto|]]. apply H9. reflexivity.
      * split; [discriminate|]. intros [_ [_ H]]. apply H9 in H. discriminate.
    + apply Nat.eqb_neq in E2. split; [discriminate|]. intros [H _]. contradiction.
  - split; [discriminate|]. intros [_ [H _]]. rewrite <- !startswith1 in H. apply orb_false_iff in E1 as [E1 E2].
    destruct H; congruence.
Qed.
Lemma framed_length : forall t, framed t -> List.length t = 132.
Proof. intros t [H _]. exact H. Qed.
Lemma validate_length : forall line, validate line = true -> 132 <= List.length line.
Proof.
  intros. apply validate_framed in H. apply framed_length in H. rewrite <- H. apply strip_length.
Qed.

(* ---- rows against cells ---- *)
Definition src_cols (s : src) : list nat :=
  match s with At i => [S i] | Sl a b => seq (S a) (b - a) | AtAt i j => [S i; S j] end.
Definition src_ok (s : src) : bool :=
  match s with At i => i <? 132 | Sl a b => (a <? b) && (b <=? 132) | AtAt i j => (i <? 132) && (j <? 132) end.
Fixpoint list_eqb {A} (eqb : A -> A -> bool) (l m : list A) : bool :=
  match l, m with
  | [], [] => true
  | x :: l', y :: m' => eqb x y && list_eqb eqb l' m'
  | _, _ => false
  end.
Lemma list_eqb_nat : forall l m, list_eqb Nat.eqb l m = true -> l = m.
Proof.
  induction l as [|x l IH]; destruct m as [|y m]; simpl; intro H; try discriminate; auto.
  apply andb_true_iff in H as [H1 H2]. apply Nat.eqb_eq in H1. apply IH in H2. congruence.
Qed.
Definition row_matches (w : row) (c : cell) : bool :=
  str_eqb (row_name w) (lit (c_name c)) && src_ok (row_src w) &&
  list_eqb Nat.eqb (src_cols (row_src w)) (c_cols c) && fn_eqb (row_fn w) (c_fn c).
Definition rows_match (rows : list row) (cells : list cell) : bool :=
  list_eqb (fun x y => x) [] [] && (* keep shape simple *)
  Nat.eqb (List.length rows) (List.length cells) &&
  forallb (fun wc => row_matches (fst wc) (snd wc)) (combine rows cells).
Lemma eval_src_columns : forall line s, 132 <= List.length line -> src_ok s = true ->
  eval_src line s = Ok (columns line (src_cols s)).
Proof.
  intros line s L H. destruct s as [i|a b|i j]; simpl in *.
  - apply Nat.ltb_lt in H. apply index_columns. lia.
  - apply andb_true_iff in H as [H1 H2]. apply Nat.ltb_lt in H1. apply Nat.leb_le in H2.
    rewrite slice_columns' by lia. reflexivity.
  - apply andb_true_iff in H as [H1 H2]. apply Nat.ltb_lt in H1, H2.
    rewrite !index_columns by lia. simpl bindR. rewrite (columns_cons line (S i) [S j]). reflexivity.
Qed.
Lemma build_cells : forall rows cells line, 132 <= List.length line -> rows_match rows cells = true ->
  build rows line = Ok (map (field_of line) cells).
Proof.
  unfold rows_match. simpl list_eqb. intros rows cells line L H. rewrite andb_true_l in H.
  apply andb_true_iff in H as [H1 H2]. apply Nat.eqb_eq in H1. revert cells H1 H2.
  induction rows as [|w rows IH]; destruct cells as [|c cells]; intros H1 H2; try discriminate; [reflexivity|].
  simpl in H2. apply andb_true_iff in H2 as [H2 H3]. unfold row_matches in H2.
  rewrite !andb_true_iff in H2. destruct H2 as [[[A B] C] D].
  apply str_eqb_eq in A. apply list_eqb_nat in C. apply fn_eqb_eq in D.
  simpl. rewrite (eval_src_columns _ _ L B). simpl. rewrite (IH cells); auto. simpl. unfold field_of.
  rewrite A, C, D. reflexivity.
Qed.

(* ---- layout_for, evaluated in two stages ---- *)
Definition entries_for (code : str) (prim : bool) : list entry :=
  filter (fun e => existsb (fun s => str_eqb (lit s) code) (e_sections e) &&
                   match e_primary e with None => true | Some b => Bool.eqb b prim end) catalogue.
Definition app_matches (app : str) (e : entry) : bool :=
  match e_app e with None => true | Some a => str_eqb (lit a) app end.
Lemma layout_for_entries : forall code prim app,
  layout_for code prim app = option_map e_cells (find (app_matches app) (entries_for code prim)).
Proof.
  intros. unfold layout_for, entries_for. f_equal. induction catalogue as [|e l IH]; [reflexivity|].
  simpl. unfold entry_matches. fold (app_matches app e).
  destruct (existsb (fun s => str_eqb (lit s) code) (e_sections e) &&
            match e_primary e with None => true | Some b => Bool.eqb b prim end); simpl.
  - destruct (app_matches app e); [reflexivity|exact IH].
  - exact IH.
Qed.

Ltac eval_entries :=
  match goal with
  | |- context [entries_for ?c ?p] =>
      let e := eval cbv [entries_for catalogue filter existsb str_eqb lit map list_ascii_of_string
        Ascii.N_of_ascii Ascii.N_of_digits N.add N.mul N.eqb Pos.eqb Pos.add Pos.mul Pos.succ andb orb Bool.eqb
        e_sections e_primary] in (entries_for c p) in
      change (entries_for c p) with e
  end.

Lemma index1 : forall line i, i < List.length line -> exists c, index line i = Ok [c] /\ columns line [S i] = [c].
Proof.
  intros. rewrite index_columns by auto. destruct (columns_single_len line (S i)) as [c [E _]]; [lia|].
  exists c. rewrite E. auto.
Qed.

Ltac rows_tac :=
  first [ apply build_cells; [assumption | vm_compute; reflexivity] | reflexivity ].
Ltac apps_tac :=
  repeat (match goal with
    | |- context [str_eqb ?a (lit ?s)] => rewrite (str_eqb_sym a (lit s)); destruct (str_eqb (lit s) a) eqn:?; cbn [option_map e_cells]
    end); rows_tac.

Lemma cls_read_catalogue : forall code d prim line, 132 <= List.length line -> In (code, d) records ->
  cls_read d line prim =
    match layout_for code prim (columns line (snd (type_columns code))) with
    | Some cells => Ok (map (field_of line) cells)
    | None => if raising code then Err ValueError else Ok []
    end.
Proof.
  intros code d prim line L Hin. rewrite layout_for_entries.
  unfold records in Hin. cbn [In] in Hin.
  repeat (destruct Hin as [Hin|Hin]; [inversion Hin; subst code d; clear Hin | ]); [.. | contradiction].
  all: match goal with |- context [type_columns ?c] => let v := eval vm_compute in (snd (type_columns c)) in change (snd (type_columns c)) with v end.
  all: match goal with |- context [raising ?c] => let v := eval vm_compute in (raising c) in change (raising c) with v end.
  all: destruct prim; eval_entries; cbn [find app_matches e_app option_map e_cells cls_read].
  all: unfold app_matches; cbn [e_app].
  all: match goal with |- ?f _ _ = _ => unfold f | |- ?f _ _ _ = _ => unfold f end.
  all: try match goal with |- context [index ?l ?i] => rewrite (index_columns l i) by (eapply Nat.lt_le_trans; [|eassumption]; apply Nat.ltb_lt; reflexivity); cbn [bindR] end.
  all: try (match goal with |- context [slice 15 17 ?l] => rewrite (slice_columns' l 15 17) by (apply Nat.leb_le; reflexivity); change (seq 16 (17 - 15)) with [16; 17] end).
  all: repeat match goal with
    | |- context [str_eqb (columns ?l ?k) (lit ?s)] =>
        rewrite (str_eqb_sym (columns l k) (lit s)); destruct (str_eqb (lit s) (columns l k)); cbn [option_map e_cells]
    end.
  all: first [ reflexivity | apply build_cells; [assumption | vm_compute; reflexivity] ].
Qed.

(* ---- sections ---- *)
Definition is_section (code : str) : bool := existsb (fun s => str_eqb (lit s) code) sections.
Lemma record_class_in : forall code d, record_class code = Some d -> In (code, d) records.
Proof. intros. apply assoc_in. exact H. Qed.
Lemma is_section_iff : forall code, is_section code = true <-> In code (map fst records).
Proof.
  intro code. unfold is_section. rewrite existsb_exists.
  assert (E : map fst records = map lit sections) by (vm_compute; reflexivity).
  rewrite E, in_map_iff. split.
  - intros [s [H1 H2]]. apply str_eqb_eq in H2. eauto.
  - intros [s [H1 H2]]. exists s. split; auto. apply str_eqb_eq. auto.
Qed.
Lemma is_section_class : forall code, is_section code = true -> exists d, record_class code = Some d.
Proof. intros. apply is_section_iff in H. apply assoc_some_iff in H. exact H. Qed.
Lemma not_section_class : forall code, is_section code = false -> record_class code = None.
Proof.
  intros. apply assoc_none. intro Hin. apply is_section_iff in Hin. congruence.
Qed.
Lemma supported_iff : forall code, supported code <-> is_section code = true.
Proof.
  intro. unfold supported, is_section. rewrite existsb_exists. split; intros [s [H1 H2]]; exists s; split; auto.
  - subst. apply str_eqb_refl.
  - apply str_eqb_eq in H2. auto.
Qed.

Definition cont_ok (x : str * cls) : bool :=
  match cls_cont_idx (snd x), fst (type_columns (fst x)) with
  | Some i, Some k => Nat.eqb k (S i) && (i <? 132)
      && match cls_app_idx (snd x) with Some j => (j <? 132)%nat | None => false end
      && match snd x with CEnrouteAirwaysRestriction => false | _ => true end
  | None, None => true
  | _, _ => false
  end.
Lemma cont_ok_all : forallb cont_ok records = true.
Proof. vm_compute. reflexivity. Qed.
Lemma cont_ok_in : forall code d, In (code, d) records -> cont_ok (code, d) = true.
Proof. intros. pose proof cont_ok_all as H1. rewrite forallb_forall in H1. apply H1. exact H. Qed.

Lemma primary_zero_one : forall i t c fs d, primary (Rec i t c fs (Some d)) = zero_or_one c.
Proof. reflexivity. Qed.

Lemma read_fields_expected : forall code d line r, 132 <= List.length line -> In (code, d) records ->
  definition r = Some d ->
  read_fields d line r = expected_fields code line r.
Proof.
  intros code d line r L Hin Hd. unfold read_fields, expected_fields.
  assert (primary r = zero_or_one (continuation r)) as -> by (unfold primary; rewrite Hd; reflexivity).
  rewrite (cls_read_catalogue code d _ line L Hin).
  destruct (layout_for code (zero_or_one (continuation r)) (columns line (snd (type_columns code)))) eqn:E.
  - destruct l as [|c l].
    + exfalso. unfold layout_for in E. destruct (find _ catalogue) eqn:F; [|discriminate].
      apply find_some in F as [F _].
      assert (H : forallb (fun e => negb (Nat.eqb (List.length (e_cells e)) 0)) catalogue = true) by (vm_compute; reflexivity).
      rewrite forallb_forall in H. apply H in F. injection E as E. rewrite E in F. discriminate.
    + reflexivity.
  - destruct (raising code); reflexivity.
Qed.

Lemma read_definition_expected : forall code d line r, 132 <= List.length line -> In (code, d) records ->
  List.length (raw r) = 132 -> definition r = Some d -> ident r = code ->
  read_definition d line r =
    match fst (type_columns code) with
    | None => expected_fields code line r
    | Some k =>
        let r' := set_continuation (columns (raw r) [k]) r in
        if isalnum (columns (raw r) [k]) then expected_fields code line r'
        else (bad_continuation d r', r', Ok false)
    end.
Proof.
  intros code d line r L Hin Hraw Hd Hi. unfold read_definition.
  pose proof (cont_ok_in _ _ Hin) as Hc. unfold cont_ok in Hc. cbn [fst snd] in Hc.
  destruct (cls_cont_idx d) as [ci|] eqn:Eci; destruct (fst (type_columns code)) as [k|]; try discriminate.
  - rewrite !andb_true_iff in Hc. destruct Hc as [[[H1 H2] H3] H4].
    apply Nat.eqb_eq in H1. apply Nat.ltb_lt in H2. subst k.
    rewrite index_columns by lia. cbv zeta.
    change (continuation (set_continuation (columns (raw r) [S ci]) r)) with (columns (raw r) [S ci]).
    destruct (isalnum (columns (raw r) [S ci])); cbn [negb]; [|reflexivity].
    set (r' := set_continuation _ r).
    assert (Hd' : definition r' = Some d) by exact Hd.
    destruct (cls_app_idx d) as [ai|] eqn:Eai; [|discriminate]. apply Nat.ltb_lt in H3.
    assert (Ha : exists a, cls_application_type d (raw r') = Ok a).
    { unfold cls_application_type. destruct d; try discriminate; rewrite Eai; change (raw r') with (raw r);
        rewrite index_columns by lia; eauto. }
    destruct Ha as [a Ha]. rewrite Ha. rewrite andb_false_r.
    rewrite (read_fields_expected code) by auto. destruct (negb (primary r')); reflexivity.
  - apply read_fields_expected; auto.
Qed.

Lemma read_expected : forall r line, validate line = true -> read r line = expected_read r line (strip line).
Proof.
  intros r line V. unfold read. rewrite V. cbn [negb]. cbv zeta.
  pose proof (validate_length _ V) as L.
  assert (Ht : List.length (strip line) = 132) by (apply framed_length, validate_framed; exact V).
  rewrite (index_columns line 4), (index_columns line 12) by lia. cbn [bindR].
  rewrite (slice_columns' line 4 6) by lia. change (seq 5 (6 - 4)) with [5; 6].
  replace (columns line [5] ++ columns line [13]) with (columns line [5; 13]) by (rewrite (columns_cons line 5 [13]); reflexivity).
  unfold expected_read, section_of. fold (is_section (columns line [5; 6])). fold (is_section (columns line [5; 13])).
  destruct (is_section (columns line [5; 6])) eqn:E1.
  - destruct (is_section_class _ E1) as [d Hd]. rewrite Hd.
    rewrite (read_definition_expected (columns line [5; 6]) d) by (auto using record_class_in).
    destruct (fst (type_columns (columns line [5; 6]))); [|reflexivity].
    reflexivity.
  - rewrite (not_section_class _ E1). destruct (is_section (columns line [5; 13])) eqn:E2.
    + destruct (is_section_class _ E2) as [d Hd]. rewrite Hd.
      rewrite (read_definition_expected (columns line [5; 13]) d) by (auto using record_class_in).
      destruct (fst (type_columns (columns line [5; 13]))); reflexivity.
    + rewrite (not_section_class _ E2). reflexivity.
Qed.

Lemma read_not_framed : forall r line, ~ framed (strip line) -> read r line = ([], r, Ok false).
Proof.
  intros. unfold read. destruct (validate line) eqn:V; [|reflexivity].
  apply validate_framed in V. contradiction.
Qed.
