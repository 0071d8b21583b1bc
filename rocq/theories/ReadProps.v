(* Consequences of read_expected: properties C01-C15. *)
From Coq Require Import List String NArith Bool Arith Lia.
From Verif Require Import PyBase Decoder Layouts Record Api SpecLayouts Spec StrFacts FnNum ReadFacts.
Import ListNotations.
Open Scope string_scope.
Open Scope list_scope.
Local Open Scope nat_scope.

(* ---- the catalogue's columns all lie in 1..132 ---- *)
Definition cols_in (ks : list nat) : bool := forallb (fun k => (1 <=? k) && (k <=? 132)) ks.
Definition cells_in (cs : list cell) : bool := forallb (fun c => cols_in (c_cols c)) cs.
Lemma catalogue_in : forallb (fun e => cells_in (e_cells e)) catalogue = true.
Proof. vm_compute. reflexivity. Qed.
Lemma cont_columns_in : forallb (fun e => cols_in (snd e) && match snd (fst e) with Some k => cols_in [k] | None => true end) cont_columns = true.
Proof. vm_compute. reflexivity. Qed.
Lemma cols_in_forall : forall ks, cols_in ks = true -> Forall (fun k => 1 <= k <= 132) ks.
Proof.
  intros ks H. unfold cols_in in H. rewrite forallb_forall in H. apply Forall_forall. intros k Hk.
  apply H in Hk. apply andb_true_iff in Hk as [H1 H2]. apply Nat.leb_le in H1, H2. lia.
Qed.
Lemma layout_for_entry : forall code prim app cells, layout_for code prim app = Some cells ->
  exists e, In e catalogue /\ entry_matches code prim app e = true /\ e_cells e = cells.
Proof.
  intros. unfold layout_for in H. destruct (find _ catalogue) eqn:E; [|discriminate].
  apply find_some in E as [E1 E2]. injection H as H. eauto.
Qed.
Lemma layout_for_forall : forall (P : entry -> bool) code prim app cells,
  forallb P catalogue = true -> layout_for code prim app = Some cells ->
  exists e, P e = true /\ entry_matches code prim app e = true /\ e_cells e = cells.
Proof.
  intros P code prim app cells H1 H2. apply layout_for_entry in H2 as [e [H3 [H4 H5]]].
  rewrite forallb_forall in H1. eauto.
Qed.
Lemma layout_for_cells : forall (P : list cell -> bool) code prim app cells,
  forallb (fun e => P (e_cells e)) catalogue = true -> layout_for code prim app = Some cells -> P cells = true.
Proof.
  intros P code prim app cells H1 H2. destruct (layout_for_forall (fun e => P (e_cells e)) _ _ _ _ H1 H2) as [e [H3 [_ H5]]].
  congruence.
Qed.
Lemma type_columns_in : forall code, cols_in (snd (type_columns code)) = true /\
  forall k, fst (type_columns code) = Some k -> 1 <= k <= 132.
Proof.
  intro code. unfold type_columns. destruct (find _ cont_columns) as [[[s c] a]|] eqn:E.
  - apply find_some in E as [E _]. pose proof cont_columns_in as H. rewrite forallb_forall in H. apply H in E.
    cbn [fst snd] in *. apply andb_true_iff in E as [E1 E2]. split; auto. intros k ->.
    apply cols_in_forall in E2. inversion E2; auto.
  - split; [reflexivity|]. discriminate.
Qed.

(* ---- a suffix is invisible ---- *)
Lemma columns_app_132 : forall t post ks, List.length t = 132 -> cols_in ks = true -> columns (t ++ post) ks = columns t ks.
Proof.
  intros. apply columns_prefix. apply cols_in_forall in H0. eapply Forall_impl; [|exact H0]. simpl. intros. lia.
Qed.
Lemma fields_app : forall t post cells, List.length t = 132 -> cells_in cells = true ->
  map (field_of (t ++ post)) cells = map (field_of t) cells.
Proof.
  intros t post cells L H. apply map_ext_in. intros c Hc. unfold field_of. f_equal.
  apply columns_app_132; auto. unfold cells_in in H. rewrite forallb_forall in H. auto.
Qed.
Lemma expected_fields_app : forall code t post r, List.length t = 132 ->
  expected_fields code (t ++ post) r = expected_fields code t r.
Proof.
  intros. unfold expected_fields. rewrite columns_app_132 by (auto; apply type_columns_in).
  destruct (layout_for _ _ _) eqn:E; [|reflexivity].
  rewrite fields_app; auto. apply (layout_for_cells _ _ _ _ _ catalogue_in E).
Qed.
Lemma section_of_app : forall t post, List.length t = 132 -> section_of (t ++ post) = section_of t.
Proof. intros. unfold section_of. rewrite !columns_app_132; auto. Qed.
Lemma expected_read_app : forall r t post, List.length t = 132 ->
  expected_read r (t ++ post) t = expected_read r t t.
Proof.
  intros. unfold expected_read. rewrite section_of_app by auto. destruct (section_of t); [|reflexivity].
  destruct (fst (type_columns s)); rewrite expected_fields_app by auto; reflexivity.
Qed.

Lemma record_line_strip : forall line t, record_line line t -> strip line = t.
Proof.
  intros line t [H1 [H2 [H3 [post [H4 E]]]]]. apply trimmed_strip. split; [auto|split; [auto|]].
  exists [], post. repeat split; auto. constructor.
Qed.
Lemma record_line_validate : forall line t, record_line line t -> validate line = true.
Proof.
  intros line t H. apply validate_framed. rewrite (record_line_strip _ _ H). apply H.
Qed.
Lemma record_line_length : forall line t, record_line line t -> List.length t = 132.
Proof. intros line t [H _]. apply framed_length. exact H. Qed.
Lemma read_record_line : forall r line t, record_line line t -> read r line = expected_read r t t.
Proof.
  intros r line t H. rewrite read_expected by (eapply record_line_validate; eauto).
  rewrite (record_line_strip _ _ H). pose proof (record_line_length _ _ H) as L.
  destruct H as [_ [_ [_ [post [_ E]]]]]. rewrite E. apply expected_read_app. exact L.
Qed.
(* every framed line without leading whitespace is a record_line *)
Lemma no_lead_record_line : forall line, no_leading_space line -> framed (strip line) -> record_line line (strip line).
Proof.
  intros line H F. destruct (strip_trimmed line) as [H1 [H2 _]]. destruct (no_lead_split line H) as [post [H3 H4]].
  split; [auto|split; [auto|split; [auto|]]]. eauto.
Qed.

(* C01 *)
Lemma c01_read : forall r line t, trimmed line t -> ~ framed t -> read r line = ([], r, Ok false).
Proof. intros. apply read_not_framed. rewrite (trimmed_strip _ _ H). exact H0. Qed.
Lemma c01_parse : forall line t output, trimmed line t -> ~ framed t -> parse line output = ([], Ok false).
Proof. intros. unfold parse. rewrite (c01_read new_record line t); auto. Qed.

(* C04 *)
Lemma c04_read : forall r line w, no_leading_space line -> whitespace w -> read r (line ++ w) = read r line.
Proof.
  intros r line w H Hw. destruct (validate line) eqn:V.
  - apply validate_framed in V. pose proof (no_lead_record_line _ H V) as HR.
    rewrite (read_record_line r line _ HR). apply read_record_line.
    destruct HR as [A [B [C [post [D E]]]]]. split; [auto|split; [auto|split; [auto|]]].
    exists (post ++ w). split; [apply Forall_app; auto|]. rewrite E at 1. rewrite app_assoc. reflexivity.
  - rewrite !read_not_framed; auto.
    + intro F. apply validate_framed in F. congruence.
    + rewrite strip_app_ws by auto. intro F. apply validate_framed in F. congruence.
Qed.
Lemma c04_parse : forall line w output, no_leading_space line -> whitespace w -> parse (line ++ w) output = parse line output.
Proof. intros. unfold parse. rewrite c04_read by auto. reflexivity. Qed.

(* ---- inversion of expected_read ---- *)
Lemma section_of_is : forall line code, section_of line = Some code <-> section_is line code.
Proof.
  intros. unfold section_of, section_is. fold (is_section (columns line [5; 6])). fold (is_section (columns line [5; 13])).
  rewrite !supported_iff. destruct (is_section (columns line [5; 6])) eqn:E1; [|destruct (is_section (columns line [5; 13])) eqn:E2].
  - split; [intro H; injection H as <-; auto|]. intros [_ [H|[_ H]]]; congruence.
  - split; [intro H; injection H as <-; auto|]. intros [H1 [H|[H _]]]; congruence.
  - split; [discriminate|]. intros [H1 [H|[H _]]]; congruence.
Qed.
Lemma section_of_none : forall line, section_of line = None <-> no_section line.
Proof.
  intros. unfold section_of, no_section. fold (is_section (columns line [5; 6])). fold (is_section (columns line [5; 13])).
  rewrite !supported_iff. destruct (is_section (columns line [5; 6])) eqn:E1; [|destruct (is_section (columns line [5; 13])) eqn:E2];
  split; try discriminate; intuition congruence.
Qed.
Lemma section_is_unique : forall t a b, section_is t a -> section_is t b -> a = b.
Proof. intros t a b H1 H2. apply section_of_is in H1, H2. congruence. Qed.
Lemma section_is_class : forall t code, section_is t code -> exists d, record_class code = Some d /\ In (code, d) records.
Proof.
  intros t code [H _]. apply supported_iff in H. apply is_section_class in H as [d H]. exists d. split; auto.
  apply record_class_in. exact H.
Qed.
(* type_columns as a relation *)
Lemma type_info_iff : forall code cont app, supported code -> (type_info code cont app <-> type_columns code = (cont, app)).
Proof.
  intros code cont app [s [Hs ->]].
  assert (A : forallb (fun s => match find (fun e => String.eqb (fst (fst e)) s) cont_columns with
                         | Some (s', c, a) => true | None => false end) sections = true) by (vm_compute; reflexivity).
  assert (B : forallb (fun e => let s := fst (fst e) in
      match type_columns (lit s) with (c, a) =>
        match c, snd (fst e) with Some x, Some y => Nat.eqb x y | None, None => true | _, _ => false end
        && list_eqb Nat.eqb a (snd e) end) cont_columns = true) by (vm_compute; reflexivity).
  rewrite forallb_forall in A, B. split.
  - intros [s' [H1 H2]]. rewrite H2. apply B in H1. cbn [fst snd] in H1.
    destruct (type_columns (lit s')) as [c a]. apply andb_true_iff in H1 as [H1 H3]. apply list_eqb_nat in H3. subst a.
    f_equal. destruct c, cont; try discriminate; auto. apply Nat.eqb_eq in H1. congruence.
  - intro H. unfold type_columns in H. destruct (find _ cont_columns) as [[[s' c] a]|] eqn:E.
    + apply find_some in E as [E1 E2]. cbn [fst] in E2. apply str_eqb_eq in E2. injection H as <- <-. exists s'. auto.
    + exfalso. specialize (A s Hs). destruct (find (fun e => String.eqb (fst (fst e)) s) cont_columns) as [p|] eqn:F; [|discriminate].
      apply find_some in F as [F1 F2]. apply String.eqb_eq in F2. pose proof (find_none _ _ E p F1) as G. cbv beta in G.
      rewrite F2 in G. rewrite str_eqb_refl in G. discriminate.
Qed.

(* what a successful read looks like, for any line *)
Lemma expected_fields_true : forall code line r o r', expected_fields code line r = (o, r', Ok true) ->
  exists cells, layout_for code (zero_or_one (continuation r)) (columns line (snd (type_columns code))) = Some cells
    /\ o = [] /\ r' = set_fields (map (field_of line) cells) r.
Proof.
  intros code line r o r' H. unfold expected_fields in H. destruct (layout_for _ _ _) as [cells|].
  - injection H as <- <-. eauto.
  - destruct (raising code); discriminate.
Qed.
Record read_true (r : rec) (line t : str) (o : list event) (r' : rec) : Prop := {
  rt_validate : validate line = true;
  rt_trim : strip line = t;
  rt_silent : o = [];
  rt_section : section_of line = Some (ident r');
  rt_raw : raw r' = t;
  rt_cont : continuation r' = match fst (type_columns (ident r')) with Some k => columns t [k] | None => continuation r end;
  rt_alnum : fst (type_columns (ident r')) <> None -> isalnum (continuation r') = true;
  rt_class : definition r' = record_class (ident r');
  rt_layout : exists cells, layout_for (ident r') (zero_or_one (continuation r')) (columns line (snd (type_columns (ident r')))) = Some cells
              /\ fields r' = map (field_of line) cells
}.
Lemma read_true_inv : forall r line o r', read r line = (o, r', Ok true) -> read_true r line (strip line) o r'.
Proof.
  intros r line o r' H. destruct (validate line) eqn:V.
  2:{ unfold read in H. rewrite V in H. discriminate. }
  rewrite read_expected in H by auto. unfold expected_read in H.
  destruct (section_of line) as [code|] eqn:S; [|discriminate].
  destruct (fst (type_columns code)) as [k|] eqn:K.
  - cbv zeta in H. destruct (isalnum (columns (strip line) [k])) eqn:A.
    + apply expected_fields_true in H as [cells [H1 [H2 H3]]]. subst r'. cbn [set_fields ident raw continuation fields definition] in *.
      constructor; cbn [set_fields ident raw continuation fields definition]; rewrite ?K; eauto; try congruence.
    + destruct (record_class code); discriminate.
  - apply expected_fields_true in H as [cells [H1 [H2 H3]]]. subst r'. cbn [set_fields ident raw continuation fields definition] in *.
      constructor; cbn [set_fields ident raw continuation fields definition]; rewrite ?K; eauto; try congruence.
Qed.
