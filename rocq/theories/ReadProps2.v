(* Properties C02-C15, continued. *)
From Coq Require Import List String NArith Bool Arith Lia.
From Verif Require Import PyBase Decoder Layouts Record Api SpecLayouts Spec StrFacts FnNum ReadFacts ReadProps.
Import ListNotations.
Open Scope string_scope.
Open Scope list_scope.
Local Open Scope nat_scope.

Ltac each_section H :=
  unfold sections in H; cbn [In] in H;
  repeat (destruct H as [H|H]; [subst | ]); [.. | contradiction].

(* ---- layouts exist exactly for the supported application types ---- *)
Definition supports_b (s : string) (app : str) : bool :=
  match find (fun e => String.eqb (fst e) s) continuation_apps with
  | Some (_, Some names) => existsb (fun a => str_eqb (lit a) app) names
  | Some (_, None) => true
  | None => false
  end.
Lemma continuation_apps_keys : NoDup (map fst continuation_apps).
Proof.
  assert (H : forall l : list string, (fix go l := match l with [] => true | x :: l' => negb (existsb (String.eqb x) l') && go l' end) l = true -> NoDup l).
  { induction l as [|x l IH]; intro H; constructor.
    - apply andb_true_iff in H as [H _]. intro Hin. apply negb_true_iff in H.
      assert (existsb (String.eqb x) l = true) by (apply existsb_exists; exists x; split; auto; apply String.eqb_refl). congruence.
    - apply IH. apply andb_true_iff in H. apply H. }
  apply H. vm_compute. reflexivity.
Qed.
Lemma nodup_find : forall (l : list (string * option (list string))) s x, NoDup (map fst l) -> In (s, x) l ->
  find (fun e => String.eqb (fst e) s) l = Some (s, x).
Proof.
  induction l as [|[s' y] l IH]; simpl; intros s x H1 H2; [contradiction|].
  inversion H1; subst. destruct H2 as [H2|H2].
  - injection H2 as -> ->. rewrite String.eqb_refl. reflexivity.
  - destruct (String.eqb s' s) eqn:E.
    + apply String.eqb_eq in E. subst. exfalso. apply H3. apply (in_map fst) in H2. exact H2.
    + auto.
Qed.
Lemma supports_iff : forall s app, supports s app <-> supports_b s app = true.
Proof.
  intros. unfold supports, supports_b. split.
  - intros [l [H1 H2]]. rewrite (nodup_find _ _ _ continuation_apps_keys H1).
    destruct l as [names|]; [|reflexivity]. destruct H2 as [a [H2 ->]]. apply existsb_exists. exists a. split; auto. apply str_eqb_refl.
  - destruct (find _ continuation_apps) as [[s' l]|] eqn:E; [|discriminate]. apply find_some in E as [E1 E2].
    cbn [fst] in E2. apply String.eqb_eq in E2. subst s'. intro H. exists l. split; auto. destruct l as [names|]; [|auto].
    apply existsb_exists in H as [a [H1 H2]]. apply str_eqb_eq in H2. eauto.
Qed.
Definition some_b {A} (o : option A) : bool := match o with Some _ => true | None => false end.
Lemma layout_cont_supported : forall s app, In s sections -> some_b (layout_for (lit s) false app) = supports_b s app.
Proof.
  intros s app H. rewrite layout_for_entries. each_section H.
  all: eval_entries; cbn [find app_matches e_app].
  all: match goal with |- context [supports_b ?s _] => let v := eval vm_compute in (find (fun e => String.eqb (fst e) s) continuation_apps) in
         unfold supports_b; change (find (fun e => String.eqb (fst e) s) continuation_apps) with v end; cbn [existsb].
  all: unfold app_matches; cbn [e_app].
  all: repeat match goal with |- context [str_eqb (lit ?a) ?x] => destruct (str_eqb (lit a) x); cbn [option_map some_b orb] end; reflexivity.
Qed.
Lemma layout_primary_always : forall s app k, In s sections -> fst (type_columns (lit s)) = Some k ->
  some_b (layout_for (lit s) true app) = true.
Proof.
  intros s app k H. rewrite layout_for_entries. each_section H.
  all: match goal with |- context [type_columns ?c] => let v := eval vm_compute in (fst (type_columns c)) in change (fst (type_columns c)) with v end.
  all: intro; try discriminate; eval_entries; reflexivity.
Qed.

Lemma isalnum_single : forall c, isalnum [c] = alnum_char c.
Proof. intro. unfold isalnum. simpl. apply andb_true_r. Qed.
Lemma alnum_column_iff : forall t k, 1 <= k <= List.length t -> (alnum_column t k <-> isalnum (columns t [k]) = true).
Proof.
  intros t k H. destruct (columns_single_len t k H) as [c [H1 H2]]. rewrite H1, isalnum_single. unfold alnum_column. rewrite H2.
  split; [intros [x [H3 H4]]; congruence | eauto].
Qed.

(* C02 *)
Lemma c02 : forall line t, record_line line t ->
  (returned (read new_record line) = Ok true <->
   exists s cont app, section_is t (lit s) /\ In (s, cont, app) cont_columns /\
     (forall k, cont = Some k -> alnum_column t k) /\
     ((exists k, cont = Some k /\ zero_or_one (columns t [k]) = true) \/ supports s (columns t app))).
Proof.
  intros line t H. rewrite (read_record_line _ _ _ H). pose proof (record_line_length _ _ H) as L.
  unfold expected_read. destruct (section_of t) as [code|] eqn:S.
  2:{ split; [discriminate|]. intros [s [cont [app [H1 _]]]]. apply section_of_is in H1. congruence. }
  pose proof (proj1 (section_of_is _ _) S) as SI. pose proof (proj1 SI) as Sup. destruct Sup as [s [Hs ->]].
  assert (Sup : supported (lit s)) by (exists s; auto).
  destruct (type_columns (lit s)) as [cont app] eqn:TC. cbn [fst].
  assert (TI : type_info (lit s) cont app) by (apply type_info_iff; auto).
  assert (inj : forall s1 s2, In s1 sections -> In s2 sections -> lit s1 = lit s2 -> s1 = s2).
  { assert (C : forallb (fun a => forallb (fun b => implb (str_eqb (lit a) (lit b)) (String.eqb a b)) sections) sections = true) by (vm_compute; reflexivity).
    intros s1 s2 H1 H2 E. rewrite forallb_forall in C. specialize (C s1 H1). rewrite forallb_forall in C. specialize (C s2 H2).
    rewrite E, str_eqb_refl in C. apply String.eqb_eq. exact C. }
  assert (keys : forall x, In x cont_columns -> In (fst (fst x)) sections).
  { assert (C : forallb (fun x => existsb (String.eqb (fst (fst x))) sections) cont_columns = true) by (vm_compute; reflexivity).
    intros x Hx. rewrite forallb_forall in C. apply C in Hx. apply existsb_exists in Hx as [y [H1 H2]]. apply String.eqb_eq in H2. congruence. }
  assert (R : (exists s0 cont0 app0, section_is t (lit s0) /\ In (s0, cont0, app0) cont_columns /\
     (forall k, cont0 = Some k -> alnum_column t k) /\
     ((exists k, cont0 = Some k /\ zero_or_one (columns t [k]) = true) \/ supports s0 (columns t app0))) <->
     ((forall k, cont = Some k -> alnum_column t k) /\
     ((exists k, cont = Some k /\ zero_or_one (columns t [k]) = true) \/ supports s (columns t app)))).
  { split.
    - intros [s0 [cont0 [app0 [H1 [H2 H3]]]]].
      assert (E : lit s0 = lit s) by (eapply section_is_unique; eauto).
      assert (E' : s0 = s) by (apply inj; auto; apply (keys _ H2)). subst s0.
      assert (T0 : type_info (lit s) cont0 app0) by (exists s; auto).
      apply type_info_iff in T0; [|exact Sup]. rewrite TC in T0. injection T0 as <- <-. exact H3.
    - intro H3. destruct TI as [s' [H1 H2]]. assert (s' = s) by (symmetry; apply inj; auto; apply (keys _ H1)). subst s'.
      exists s, cont, app. auto. }
  rewrite R. clear R.
  assert (EF : forall r, returned (expected_fields (lit s) t r) = Ok true <->
                some_b (layout_for (lit s) (zero_or_one (continuation r)) (columns t app)) = true).
  { intro r. unfold expected_fields. rewrite TC. cbn [snd]. destruct (layout_for _ _ _); simpl; [tauto|].
    split; [|discriminate]. destruct (raising (lit s)); discriminate. }
  destruct cont as [k|].
  - assert (Hk : 1 <= k <= 132). { pose proof (proj2 (type_columns_in (lit s))) as Hc. rewrite TC in Hc. apply Hc. reflexivity. }
    cbv zeta. destruct (isalnum (columns t [k])) eqn:A.
    + rewrite EF. cbn [continuation].
      assert (AC : forall k0, Some k = Some k0 -> alnum_column t k0).
      { intros k0 E. injection E as <-. apply alnum_column_iff; [lia|auto]. }
      destruct (zero_or_one (columns t [k])) eqn:Z.
      * rewrite (layout_primary_always s _ k); auto; [|rewrite TC; reflexivity].
        split; auto. intros _. split; auto. left. eauto.
      * rewrite layout_cont_supported by auto. rewrite <- supports_iff. split.
        -- intro. split; auto.
        -- intros [_ [[k0 [E1 E2]]|E]]; [|exact E]. injection E1 as <-. congruence.
    + split.
      * destruct (record_class (lit s)); discriminate.
      * intros [H1 _]. specialize (H1 k eq_refl). apply alnum_column_iff in H1; [congruence|lia].
  - rewrite EF. cbn [continuation]. change (zero_or_one (continuation new_record)) with false.
    rewrite layout_cont_supported by auto. rewrite <- supports_iff. split.
    + intro. split; [discriminate|auto].
    + intros [_ [[k [E _]]|E]]; [discriminate|exact E].
Qed.

(* C03 *)
Lemma c03_success : forall r line o r', read r line = (o, r', Ok true) -> section_is line (ident r').
Proof. intros. apply read_true_inv in H. apply section_of_is. apply H. Qed.
Lemma c03_success_t : forall r line t o r', record_line line t -> read r line = (o, r', Ok true) -> section_is t (ident r').
Proof.
  intros r line t o r' HR H. apply read_true_inv in H. apply section_of_is. rewrite <- (rt_section _ _ _ _ _ H).
  pose proof (record_line_length _ _ HR) as L. destruct HR as [_ [_ [_ [post [_ ->]]]]]. symmetry. apply section_of_app. exact L.
Qed.
Lemma c03_unknown : forall r line t, record_line line t -> no_section t -> read r line = ([], set_raw t r, Ok false).
Proof.
  intros. rewrite (read_record_line _ _ _ H). unfold expected_read. apply section_of_none in H0. rewrite H0. reflexivity.
Qed.

(* C06 *)
Definition cells_shape (cs : list cell) : bool := forallb (fun c =>
  negb (Nat.eqb (List.length (c_cols c)) 0) && cols_in (c_cols c) &&
  (list_eqb Nat.eqb (c_cols c) [5; 13] || list_eqb Nat.eqb (c_cols c) (seq (hd 0 (c_cols c)) (List.length (c_cols c))))) cs.
Lemma cells_shape_all : forallb (fun e => cells_shape (e_cells e)) catalogue = true.
Proof. vm_compute. reflexivity. Qed.
Lemma c06 : forall r line t o r', record_line line t -> read r line = (o, r', Ok true) ->
  exists cells cont app,
    layout_for (ident r') (primary r') (columns t app) = Some cells /\ type_info (ident r') cont app /\
    fields r' = map (field_of t) cells /\
    Forall (fun f => exists ks, f_value f = columns t ks /\ List.length (f_value f) = List.length ks /\ ks <> [] /\
                     (ks = [5; 13] \/ exists a n, ks = seq a n /\ 1 <= a /\ a + n <= 133)) (fields r').
Proof.
  intros r line t o r' HR H. pose proof (c03_success_t _ _ _ _ _ HR H) as SI.
  apply read_true_inv in H. destruct (rt_layout _ _ _ _ _ H) as [cells [H1 H2]].
  pose proof (record_line_length _ _ HR) as L.
  assert (HC : columns line (snd (type_columns (ident r'))) = columns t (snd (type_columns (ident r')))).
  { destruct HR as [_ [_ [_ [post [_ ->]]]]]. apply columns_app_132; auto. apply type_columns_in. }
  rewrite HC in H1.
  assert (HF : fields r' = map (field_of t) cells).
  { rewrite H2. destruct HR as [_ [_ [_ [post [_ ->]]]]]. apply fields_app; auto. apply (layout_for_cells _ _ _ _ _ catalogue_in H1). }
  exists cells, (fst (type_columns (ident r'))), (snd (type_columns (ident r'))).
  assert (HP : primary r' = zero_or_one (continuation r')).
  { unfold primary. rewrite (rt_class _ _ _ _ _ H). apply section_is_class in SI as [d [SI _]]. rewrite SI. reflexivity. }
  rewrite HP. split; [exact H1|]. split.
  { apply type_info_iff; [apply SI|]. destruct (type_columns (ident r')); reflexivity. }
  split; [exact HF|]. rewrite HF. apply Forall_forall. intros f Hf. apply in_map_iff in Hf as [c [<- Hc]].
  exists (c_cols c). split; [reflexivity|].
  apply (layout_for_cells _ _ _ _ _ cells_shape_all) in H1. unfold cells_shape in H1. rewrite forallb_forall in H1. specialize (H1 c Hc). cbv beta in H1.
  rewrite !andb_true_iff, orb_true_iff in H1. destruct H1 as [[K1 K2] K3].
  apply cols_in_forall in K2. split; [|split].
  - cbn [f_value field_of]. apply columns_length. rewrite L. exact K2.
  - intro E. rewrite E in K1. discriminate.
  - destruct K3 as [K3|K3]; apply list_eqb_nat in K3; [auto|]. right.
    exists (hd 0 (c_cols c)), (List.length (c_cols c)). split; [exact K3|].
    destruct (c_cols c) as [|a l] eqn:EC; [discriminate|]. cbn [hd List.length] in *.
    split; [inversion K2; lia|]. rewrite Forall_forall in K2.
    assert (In (a + List.length l) (a :: l)). { rewrite K3. apply in_seq. lia. }
    apply K2 in H0. lia.
Qed.

(* C07 *)
Definition standard_ends (cs : list cell) : bool :=
  match cs, rev cs with
  | c1 :: _, c2 :: c3 :: _ =>
      String.eqb (c_name c1) "Record Type" && list_eqb Nat.eqb (c_cols c1) [1] && fn_eqb (c_fn c1) F002 &&
      String.eqb (c_name c2) "Cycle Date" && list_eqb Nat.eqb (c_cols c2) [129; 130; 131; 132] && fn_eqb (c_fn c2) F032 &&
      String.eqb (c_name c3) "File Record No" && list_eqb Nat.eqb (c_cols c3) [124; 125; 126; 127; 128] && fn_eqb (c_fn c3) F031 &&
      (9 <=? List.length cs)
  | _, _ => false
  end.
Lemma standard_ends_all : forallb (fun e => standard_ends (e_cells e)) catalogue = true.
Proof. vm_compute. reflexivity. Qed.
Lemma standard_ends_shape : forall cs t, standard_ends cs = true -> exists mid, 6 <= List.length mid /\
  map (field_of t) cs = [Field (lit "Record Type") (columns t [1]) F002] ++ mid ++
    [Field (lit "File Record No") (columns t [124; 125; 126; 127; 128]) F031;
     Field (lit "Cycle Date") (columns t [129; 130; 131; 132]) F032].
Proof.
  intros cs t H. unfold standard_ends in H. destruct cs as [|c1 cs]; [discriminate|].
  destruct (rev (c1 :: cs)) as [|c2 [|c3 l]] eqn:E; try discriminate.
  rewrite !andb_true_iff in H. destruct H as [[[[[[[[[A1 A2] A3] B1] B2] B3] C1] C2] C3] D].
  apply String.eqb_eq in A1, B1, C1. apply list_eqb_nat in A2, B2, C2. apply fn_eqb_eq in A3, B3, C3.
  apply Nat.leb_le in D.
  assert (E' : c1 :: cs = rev l ++ [c3; c2]).
  { rewrite <- (rev_involutive (c1 :: cs)), E. simpl. rewrite <- app_assoc. reflexivity. }
  destruct (rev l) as [|c1' l'] eqn:El.
  { rewrite E' in D. simpl in D. lia. }
  injection E' as -> ->. exists (map (field_of t) l'). split.
  - cbn [List.length] in D. rewrite app_length in D. simpl in D. rewrite map_length. lia.
  - cbn [map]. rewrite map_app. simpl. unfold field_of. rewrite A1, A2, A3, B1, B2, B3, C1, C2, C3. reflexivity.
Qed.
Lemma c07_line : forall r line o r', read r line = (o, r', Ok true) -> exists mid, 6 <= List.length mid /\
  fields r' = [Field (lit "Record Type") (columns line [1]) F002] ++ mid ++
    [Field (lit "File Record No") (columns line [124; 125; 126; 127; 128]) F031;
     Field (lit "Cycle Date") (columns line [129; 130; 131; 132]) F032].
Proof.
  intros r line o r' H. apply read_true_inv in H. destruct (rt_layout _ _ _ _ _ H) as [cells [H1 H2]].
  rewrite H2. apply standard_ends_shape. apply (layout_for_cells _ _ _ _ _ standard_ends_all H1).
Qed.
Lemma c07 : forall r line t o r', record_line line t -> read r line = (o, r', Ok true) -> exists mid, 6 <= List.length mid /\
  fields r' = [Field (lit "Record Type") (columns t [1]) F002] ++ mid ++
    [Field (lit "File Record No") (columns t [124; 125; 126; 127; 128]) F031;
     Field (lit "Cycle Date") (columns t [129; 130; 131; 132]) F032].
Proof.
  intros r line t o r' HR H. pose proof (record_line_length _ _ HR) as L.
  destruct (c07_line _ _ _ _ H) as [mid [H1 H2]]. exists mid. split; auto. rewrite H2.
  destruct HR as [_ [_ [_ [post [_ ->]]]]]. rewrite !columns_app_132 by (auto; reflexivity). reflexivity.
Qed.

(* C08, C09 for read *)
Lemma read_raises_value_error : forall r line e, returned (read r line) = Err e -> e = ValueError.
Proof.
  intros r line e H. destruct (validate line) eqn:V.
  2:{ unfold read in H. rewrite V in H. discriminate. }
  rewrite read_expected in H by auto. unfold expected_read in H.
  destruct (section_of line) as [code|]; [|discriminate].
  assert (EF : forall r0, returned (expected_fields code line r0) = Err e -> e = ValueError).
  { intros r0 H0. unfold expected_fields in H0. destruct (layout_for _ _ _); [discriminate|].
    destruct (raising code); [|discriminate]. injection H0 as <-. reflexivity. }
  destruct (fst (type_columns code)); [|eauto]. cbv zeta in H. destruct (isalnum _); [eauto|].
  destruct (record_class code); discriminate.
Qed.
Lemma c09 : forall line t, record_line line t ->
  ((exists e, returned (read new_record line) = Err e) <->
   exists s cont app, In s ["ER"; "EU"; "EV"; "HV"; "PP"] /\ section_is t (lit s) /\ type_info (lit s) cont app /\
     (forall k, cont = Some k -> alnum_column t k /\ zero_or_one (columns t [k]) = false) /\
     ~ supports s (columns t app)).
Proof.
  intros line t H. rewrite (read_record_line _ _ _ H). pose proof (record_line_length _ _ H) as L.
  unfold expected_read. destruct (section_of t) as [code|] eqn:S.
  2:{ split; [intros [e He]; discriminate|]. intros [s [cont [app [_ [H1 _]]]]]. apply section_of_is in H1. congruence. }
  pose proof (proj1 (section_of_is _ _) S) as SI. pose proof (proj1 SI) as Sup. destruct Sup as [s [Hs ->]].
  assert (Sup : supported (lit s)) by (exists s; auto).
  destruct (type_columns (lit s)) as [cont app] eqn:TC. cbn [fst].
  assert (inj : forall s1 s2, In s1 sections -> In s2 sections -> lit s1 = lit s2 -> s1 = s2).
  { assert (C : forallb (fun a => forallb (fun b => implb (str_eqb (lit a) (lit b)) (String.eqb a b)) sections) sections = true) by (vm_compute; reflexivity).
    intros s1 s2 H1 H2 E. rewrite forallb_forall in C. specialize (C s1 H1). rewrite forallb_forall in C. specialize (C s2 H2).
    rewrite E, str_eqb_refl in C. apply String.eqb_eq. exact C. }
  assert (RS : raising (lit s) = true <-> In s ["ER"; "EU"; "EV"; "HV"; "PP"]).
  { unfold raising. rewrite existsb_exists. split.
    - intros [x [H1 H2]]. apply str_eqb_eq in H2. assert (x = s); [|subst; exact H1]. apply inj; auto.
      clear - H1. cbn [In] in H1. repeat (destruct H1 as [<-|H1]; [cbn; tauto|]). contradiction.
    - intro. exists s. split; auto. apply str_eqb_refl. }
  assert (R : (exists s0 cont0 app0, In s0 ["ER"; "EU"; "EV"; "HV"; "PP"] /\ section_is t (lit s0) /\ type_info (lit s0) cont0 app0 /\
     (forall k, cont0 = Some k -> alnum_column t k /\ zero_or_one (columns t [k]) = false) /\ ~ supports s0 (columns t app0)) <->
     (In s ["ER"; "EU"; "EV"; "HV"; "PP"] /\ (forall k, cont = Some k -> alnum_column t k /\ zero_or_one (columns t [k]) = false) /\ ~ supports s (columns t app))).
  { split.
    - intros [s0 [cont0 [app0 [H0 [H1 [H2 H3]]]]]].
      assert (E : lit s0 = lit s) by (eapply section_is_unique; eauto).
      assert (E' : s0 = s).
      { apply inj; auto. clear - H0. cbn [In] in H0. repeat (destruct H0 as [<-|H0]; [cbn; tauto|]). contradiction. }
      subst s0. apply type_info_iff in H2; [|exact Sup]. rewrite TC in H2. injection H2 as <- <-. auto.
    - intros [H0 H3]. exists s, cont, app. split; auto. split; auto. split; auto. apply type_info_iff; auto. }
  rewrite R. clear R.
  assert (EF : forall r, (exists e, returned (expected_fields (lit s) t r) = Err e) <->
                some_b (layout_for (lit s) (zero_or_one (continuation r)) (columns t app)) = false /\ raising (lit s) = true).
  { intro r. unfold expected_fields. rewrite TC. cbn [snd]. destruct (layout_for _ _ _); simpl.
    - split; [intros [e E]; discriminate|]. intros [E _]; discriminate.
    - destruct (raising (lit s)); simpl; split; intro E; auto; try (eexists; reflexivity).
      + destruct E as [e E]; discriminate.
      + destruct E; discriminate. }
  destruct cont as [k|].
  - assert (Hk : 1 <= k <= 132). { pose proof (proj2 (type_columns_in (lit s))) as Hc. rewrite TC in Hc. apply Hc. reflexivity. }
    cbv zeta. destruct (isalnum (columns t [k])) eqn:A.
    + rewrite EF. cbn [continuation]. destruct (zero_or_one (columns t [k])) eqn:Z.
      * rewrite (layout_primary_always s _ k); auto; [|rewrite TC; reflexivity].
        split; [intros [E _]; discriminate|]. intros [_ [E _]]. destruct (E k eq_refl). congruence.
      * rewrite layout_cont_supported by auto. rewrite supports_iff, RS. split.
        -- intros [E1 E2]. split; auto. split; [|congruence]. intros k0 E. injection E as <-. split; auto. apply alnum_column_iff; [lia|auto].
        -- intros [E1 [_ E2]]. split; auto. destruct (supports_b s (columns t app)); congruence.
    + split.
      * intros [e E]. destruct (record_class (lit s)); discriminate.
      * intros [_ [E _]]. destruct (E k eq_refl) as [E1 _]. apply alnum_column_iff in E1; [congruence|lia].
  - rewrite EF. cbn [continuation]. change (zero_or_one (continuation new_record)) with false.
    rewrite layout_cont_supported by auto. rewrite supports_iff, RS. split.
    + intros [E1 E2]. split; auto. split; [discriminate|congruence].
    + intros [E1 [_ E2]]. split; auto. destruct (supports_b s (columns t app)); congruence.
Qed.
