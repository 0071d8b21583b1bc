(* Properties C05, C10-C15, C45. *)
From Coq Require Import List String NArith Bool Arith Lia.
From Verif Require Import PyBase Decoder Layouts Record Api SpecLayouts Spec StrFacts FnNum ReadFacts ReadProps ReadProps2.
Import ListNotations.
Open Scope string_scope.
Open Scope list_scope.
Local Open Scope nat_scope.

Lemma record_line_self : forall t, validate t = true -> strip t = t -> record_line t t.
Proof.
  intros t H E. apply validate_framed in H. destruct (strip_trimmed t) as [H1 [H2 _]]. rewrite E in *.
  split; [auto|split; [auto|split; [auto|]]]. exists []. split; [constructor|]. symmetry. apply app_nil_r.
Qed.

(* membership of a field, for the examples *)
Definition field_eqb (a b : field) : bool :=
  str_eqb (f_name a) (f_name b) && str_eqb (f_value a) (f_value b) && fn_eqb (f_fn a) (f_fn b).
Lemma has_field : forall f fs, existsb (field_eqb f) fs = true -> In f fs.
Proof.
  intros f fs H. apply existsb_exists in H as [g [H1 H2]]. unfold field_eqb in H2. rewrite !andb_true_iff in H2.
  destruct H2 as [[H2 H3] H4]. apply str_eqb_eq in H2, H3. apply fn_eqb_eq in H4. destruct f, g. cbn in *. congruence.
Qed.

(* ---- C05 ---- *)
Lemma c05_read : forall r line t, trimmed line t -> framed t -> read r line = expected_read r line t.
Proof.
  intros r line t H F. rewrite <- (trimmed_strip _ _ H). apply read_expected. apply validate_framed.
  rewrite (trimmed_strip _ _ H). exact F.
Qed.
Lemma f002_space : forall c v, space_char c = true -> run_fn F002 [c] v = raise ValueError.
Proof.
  intros c v H. cbn [run_fn]. unfold field_002.
  destruct (str_eqb [c] (lit "S")) eqn:E1.
  - apply str_eqb_eq in E1. injection E1 as ->. vm_compute in H. discriminate.
  - destruct (str_eqb [c] (lit "T")) eqn:E2.
    + apply str_eqb_eq in E2. injection E2 as ->. vm_compute in H. discriminate.
    + reflexivity.
Qed.
Lemma c05_parse : forall c line output, space_char c = true -> snd (parse (c :: line) output) <> Ok true.
Proof.
  intros c line output Hc H. unfold parse in H.
  destruct (read new_record (c :: line)) as [[o r] [[|]|e]] eqn:R; cbn [snd] in H; try discriminate.
  apply c07_line in R as [mid [_ F]]. unfold decode in H. rewrite F in H. cbn [app decode_rows f_fn f_value] in H.
  change (columns (c :: line) [1]) with [c] in H. rewrite f002_space in H by auto. cbn in H. discriminate.
Qed.

(* ---- C10 ---- *)
Lemma layout_for_sections : forall code prim app e, entry_matches code prim app e = true ->
  exists s, In s (e_sections e) /\ code = lit s.
Proof.
  intros. unfold entry_matches in H. apply andb_true_iff in H as [H _]. apply andb_true_iff in H as [H _].
  apply existsb_exists in H as [s [H1 H2]]. apply str_eqb_eq in H2. eauto.
Qed.
(* entries of sections with a continuation column fix primary or not; primary ones look at nothing else *)
Definition dispatch_shape (e : entry) : bool :=
  forallb (fun s => match fst (type_columns (lit s)) with
                    | None => true
                    | Some _ => match e_primary e with
                                | Some true => match e_app e with None => true | Some _ => false end
                                | Some false => true
                                | None => false
                                end
                    end) (e_sections e).
Lemma dispatch_shape_all : forallb dispatch_shape catalogue = true.
Proof. vm_compute. reflexivity. Qed.
Lemma section_is_app132 : forall t post code, List.length t = 132 -> (section_is (t ++ post) code <-> section_is t code).
Proof. intros. rewrite <- !section_of_is, section_of_app by auto. tauto. Qed.

Lemma primary_read : forall r line o r', read r line = (o, r', Ok true) -> primary r' = zero_or_one (continuation r').
Proof.
  intros r line o r' H. pose proof (c03_success _ _ _ _ H) as SI. apply read_true_inv in H.
  unfold primary. rewrite (rt_class _ _ _ _ _ H). apply section_is_class in SI as [d [SI _]]. rewrite SI. reflexivity.
Qed.
Lemma read_cont_column : forall r line t o r' k app, record_line line t -> read r line = (o, r', Ok true) ->
  type_info (ident r') (Some k) app -> continuation r' = columns t [k].
Proof.
  intros r line t o r' k app HR H TI. pose proof (c03_success _ _ _ _ H) as SI. apply read_true_inv in H.
  rewrite (rt_cont _ _ _ _ _ H). apply type_info_iff in TI; [|apply SI]. rewrite TI. cbn [fst].
  rewrite (record_line_strip _ _ HR). reflexivity.
Qed.
Lemma c10 : forall r line t o r' k app, record_line line t -> read r line = (o, r', Ok true) ->
  type_info (ident r') (Some k) app ->
  exists e, In e catalogue /\ (exists s, In s (e_sections e) /\ ident r' = lit s) /\
    fields r' = map (field_of t) (e_cells e) /\
    e_primary e = Some (zero_or_one (columns t [k])) /\
    (forall a, e_app e = Some a -> columns t app = lit a).
Proof.
  intros r line t o r' k app HR H TI. destruct (c06 _ _ _ _ _ HR H) as [cells [cont' [app' [H1 [H2 [H3 _]]]]]].
  pose proof (c03_success _ _ _ _ H) as SI.
  pose proof (primary_read _ _ _ _ H) as HP. pose proof (read_cont_column _ _ _ _ _ _ _ HR H TI) as HC.
  pose proof TI as TI'. apply type_info_iff in TI; [|apply SI]. apply type_info_iff in H2; [|apply SI].
  rewrite TI in H2. injection H2 as <- <-.
  apply layout_for_entry in H1 as [e [E1 [E2 E3]]]. exists e. split; [exact E1|].
  pose proof (layout_for_sections _ _ _ _ E2) as [s [S1 S2]]. split; [eauto|]. subst cells. split; [exact H3|].
  pose proof dispatch_shape_all as D. rewrite forallb_forall in D. specialize (D e E1).
  unfold dispatch_shape in D. rewrite forallb_forall in D. specialize (D s S1). rewrite <- S2, TI in D. cbn [fst] in D.
  unfold entry_matches in E2. apply andb_true_iff in E2 as [E2 E4]. apply andb_true_iff in E2 as [_ E5].
  rewrite HP, HC in E5. split.
  - destruct (e_primary e) as [b|]; [|discriminate]. apply eqb_prop in E5. subst b. reflexivity.
  - intros a Ha. rewrite Ha in E4. apply str_eqb_eq in E4. symmetry. exact E4.
Qed.
Lemma c10_same : forall r1 r2 line1 line2 t1 t2 o1 o2 r1' r2' k app,
  record_line line1 t1 -> record_line line2 t2 ->
  read r1 line1 = (o1, r1', Ok true) -> read r2 line2 = (o2, r2', Ok true) ->
  ident r1' = ident r2' -> type_info (ident r1') (Some k) app ->
  zero_or_one (columns t1 [k]) = zero_or_one (columns t2 [k]) ->
  (zero_or_one (columns t1 [k]) = true \/ columns t1 app = columns t2 app) ->
  exists cells, fields r1' = map (field_of t1) cells /\ fields r2' = map (field_of t2) cells.
Proof.
  intros r1 r2 line1 line2 t1 t2 o1 o2 r1' r2' k app L1 L2 R1 R2 I T Z A.
  pose proof (c03_success _ _ _ _ R1) as SI.
  destruct (c06 _ _ _ _ _ L1 R1) as [c1 [ct1 [a1 [H1 [H2 [H3 _]]]]]].
  destruct (c06 _ _ _ _ _ L2 R2) as [c2 [ct2 [a2 [G1 [G2 [G3 _]]]]]].
  rewrite (primary_read _ _ _ _ R1), (read_cont_column _ _ _ _ _ _ _ L1 R1 T) in H1.
  assert (T2 := T). rewrite I in T2. rewrite (primary_read _ _ _ _ R2), (read_cont_column _ _ _ _ _ _ _ L2 R2 T2) in G1.
  rewrite <- I in G1, G2. apply type_info_iff in T, H2, G2; try apply SI.
  rewrite T in H2, G2. injection H2 as <- <-. injection G2 as <- <-.
  exists c1. split; [exact H3|]. rewrite G3. f_equal.
  destruct A as [A|A]; [|congruence].
  rewrite <- Z, A in G1. rewrite A in H1.
  destruct (proj1 SI) as [s [Hs Es]]. rewrite Es in *.
  assert (P : forall a b c1 c2, layout_for (lit s) true a = Some c1 -> layout_for (lit s) true b = Some c2 -> c1 = c2).
  { clear - Hs T. intros a b c1 c2 E1 E2.
    assert (F : forall x y l, forallb dispatch_shape l = true -> fst (type_columns (lit s)) = Some k ->
       find (entry_matches (lit s) true x) l = find (entry_matches (lit s) true y) l).
    { intros x y. induction l as [|e l IH]; intros F K; [reflexivity|]. cbn [forallb] in F. apply andb_true_iff in F as [F1 F2].
      cbn [find]. rewrite IH by auto.
      assert (entry_matches (lit s) true x e = entry_matches (lit s) true y e) as ->; [|reflexivity].
      unfold entry_matches. destruct (existsb _ (e_sections e)) eqn:X; [|reflexivity].
      apply existsb_exists in X as [s' [X1 X2]]. apply str_eqb_eq in X2. unfold dispatch_shape in F1. rewrite forallb_forall in F1.
      specialize (F1 s' X1). rewrite X2, K in F1. cbn [andb]. destruct (e_primary e) as [[|]|]; cbn [Bool.eqb andb]; try discriminate.
      - destruct (e_app e); [discriminate|]. reflexivity.
      - reflexivity. }
    unfold layout_for in *. rewrite (F a b catalogue dispatch_shape_all) in E1 by (rewrite T; reflexivity). congruence. }
  symmetry. eapply P; eauto.
Qed.

(* ---- C11 ---- *)
Lemma c11_new : primary new_record = false /\ hasCont new_record = false.
Proof. split; reflexivity. Qed.
Lemma c11_implies : forall r, hasCont r = true -> primary r = true.
Proof. intros r H. unfold hasCont in H. destruct (primary r); auto. Qed.
Lemma c11 : forall r line t o r' k app, record_line line t -> read r line = (o, r', Ok true) ->
  type_info (ident r') (Some k) app ->
  (primary r' = true <-> columns t [k] = lit "0" \/ columns t [k] = lit "1") /\
  (hasCont r' = true <-> columns t [k] = lit "1").
Proof.
  intros r line t o r' k app HR H T. unfold hasCont.
  rewrite (primary_read _ _ _ _ H), (read_cont_column _ _ _ _ _ _ _ HR H T).
  unfold zero_or_one. rewrite orb_true_iff, !str_eqb_eq. split; [tauto|].
  destruct (str_eqb (columns t [k]) (lit "0")) eqn:E0; destruct (str_eqb (columns t [k]) (lit "1")) eqn:E1; cbn [orb negb];
  rewrite <- str_eqb_eq, E1; intuition congruence.
Qed.

(* ---- C12 ---- *)
Definition no_cont_sections : list string := ["AS"; "EU"; "R "; "RA"; "TC"].
Lemma no_cont : forall s, In s no_cont_sections -> fst (type_columns (lit s)) = None.
Proof. intros s H. cbn [no_cont_sections In] in H. repeat (destruct H as [<-|H]; [reflexivity|]). contradiction. Qed.
Lemma no_cont_iff : forall code app, supported code -> (type_info code None app -> exists s, In s no_cont_sections /\ code = lit s).
Proof.
  intros code app Hs [s [H1 H2]]. exists s. split; [|exact H2].
  assert (C : forallb (fun x => match snd (fst x) with None => existsb (String.eqb (fst (fst x))) no_cont_sections | Some _ => true end) cont_columns = true) by (vm_compute; reflexivity).
  rewrite forallb_forall in C. apply C in H1. cbn [fst snd] in H1. apply existsb_exists in H1 as [y [H3 H4]].
  apply String.eqb_eq in H4. congruence.
Qed.
Lemma c12_not_primary : forall line o r s, read new_record line = (o, r, Ok true) -> In s no_cont_sections -> ident r = lit s ->
  primary r = false /\ hasCont r = false.
Proof.
  intros line o r s H Hs Hi. pose proof (primary_read _ _ _ _ H) as HP. apply read_true_inv in H.
  assert (C : continuation r = []).
  { rewrite (rt_cont _ _ _ _ _ H), Hi, no_cont by auto. reflexivity. }
  rewrite C in HP. cbn in HP. split; [exact HP|]. unfold hasCont. rewrite HP. reflexivity.
Qed.
Lemma c12_always : forall r line t s, record_line line t -> In s ["AS"; "R "; "RA"; "TC"] -> section_is t (lit s) ->
  returned (read r line) = Ok true.
Proof.
  intros r line t s HR Hs SI. rewrite (read_record_line _ _ _ HR). apply section_of_is in SI. unfold expected_read. rewrite SI.
  cbn [In] in Hs. repeat (destruct Hs as [<-|Hs]; [
   match goal with |- context [fst (type_columns ?c)] => change (fst (type_columns c)) with (@None nat) end;
   unfold expected_fields; rewrite layout_for_entries;
   destruct (zero_or_one _); eval_entries; reflexivity|]). contradiction.
Qed.
Lemma c12_eu : forall line t, record_line line t -> section_is t (lit "EU") ->
  (forall a, In a ["AE"; "TC"; "NR"] -> columns t [16; 17] = lit a ->
    exists r e, read new_record line = ([], r, Ok true) /\ In e catalogue /\ In "EU" (e_sections e) /\ e_primary e = Some false /\
       e_app e = Some a /\ fields r = map (field_of t) (e_cells e)) /\
  ((forall a, In a ["AE"; "TC"; "NR"] -> columns t [16; 17] <> lit a) ->
     returned (read new_record line) = Err ValueError).
Proof.
  intros line t HR SI. rewrite (read_record_line _ _ _ HR). apply section_of_is in SI. unfold expected_read. rewrite SI.
  change (fst (type_columns (lit "EU"))) with (@None nat). cbv iota. unfold expected_fields.
  change (snd (type_columns (lit "EU"))) with [16; 17]. cbn [continuation new_record].
  change (zero_or_one []) with false. split.
  - intros a Ha E. rewrite E. cbn [In] in Ha. destruct Ha as [<-|[<-|[<-|[]]]].
    + change (layout_for (lit "EU") false (lit "AE")) with (Some cat_EU_31). cbv iota. eexists. exists (Entry ["EU"] (Some false) (Some "AE") cat_EU_31).
      split; [reflexivity|]. split; [unfold catalogue; cbn [In]; tauto|]. split; [left; reflexivity|]. repeat split; reflexivity.
    + change (layout_for (lit "EU") false (lit "TC")) with (Some cat_EU_32). cbv iota. eexists. exists (Entry ["EU"] (Some false) (Some "TC") cat_EU_32).
      split; [reflexivity|]. split; [unfold catalogue; cbn [In]; tauto|]. split; [left; reflexivity|]. repeat split; reflexivity.
    + change (layout_for (lit "EU") false (lit "NR")) with (Some cat_EU_33). cbv iota. eexists. exists (Entry ["EU"] (Some false) (Some "NR") cat_EU_33).
      split; [reflexivity|]. split; [unfold catalogue; cbn [In]; tauto|]. split; [left; reflexivity|]. repeat split; reflexivity.
  - intros H. pose proof (layout_cont_supported "EU" (columns t [16; 17])) as L.
    assert (B : supports_b "EU" (columns t [16; 17]) = false).
    { destruct (supports_b "EU" (columns t [16; 17])) eqn:B; [|reflexivity]. exfalso. apply supports_iff in B as [l [B1 B2]].
      assert (l = Some ["AE"; "TC"; "NR"]).
      { pose proof (nodup_find _ _ _ continuation_apps_keys B1) as F.
        assert (G : find (fun e => String.eqb (fst e) "EU") continuation_apps = Some ("EU", Some ["AE"; "TC"; "NR"])) by (vm_compute; reflexivity).
        congruence. }
      subst l. destruct B2 as [a [B2 B3]]. exact (H a B2 B3). }
    rewrite B in L. destruct (layout_for (lit "EU") false (columns t [16; 17])).
    + cbn [some_b] in L. assert (true = false); [|discriminate]. apply L. vm_compute. tauto.
    + reflexivity.
Qed.

(* ---- C13 ---- *)
Lemma c13 : forall r1 r2 line t code k app, record_line line t -> section_is t code -> type_info code (Some k) app ->
  printed (read r1 line) = printed (read r2 line) /\
  returned (read r1 line) = returned (read r2 line) /\
  ident (after (read r1 line)) = ident (after (read r2 line)) /\
  raw (after (read r1 line)) = raw (after (read r2 line)) /\
  continuation (after (read r1 line)) = continuation (after (read r2 line)) /\
  (returned (read r1 line) = Ok true -> after (read r1 line) = after (read r2 line)).
Proof.
  intros r1 r2 line t code k app HR SI TI. rewrite !(read_record_line _ _ _ HR).
  apply type_info_iff in TI; [|apply SI]. apply section_of_is in SI.
  unfold expected_read. rewrite SI, TI. cbn [fst]. cbv zeta. destruct (isalnum (columns t [k])).
  - unfold expected_fields. cbn [continuation]. destruct (layout_for _ _ _); [|destruct (raising code)]; cbn; repeat split; auto; discriminate.
  - unfold printed, returned, after. destruct (record_class code); cbn; repeat split; auto; discriminate.
Qed.
(* without a continuation column the fields of the four one-layout types still depend on the line only *)
Lemma c13_one_layout : forall r1 r2 line t s, record_line line t -> In s ["AS"; "R "; "RA"; "TC"] -> section_is t (lit s) ->
  printed (read r1 line) = printed (read r2 line) /\
  returned (read r1 line) = returned (read r2 line) /\
  ident (after (read r1 line)) = ident (after (read r2 line)) /\
  raw (after (read r1 line)) = raw (after (read r2 line)) /\
  fields (after (read r1 line)) = fields (after (read r2 line)).
Proof.
  intros r1 r2 line t s HR Hs SI. rewrite !(read_record_line _ _ _ HR). apply section_of_is in SI. unfold expected_read. rewrite SI.
  cbn [In] in Hs. repeat (destruct Hs as [<-|Hs]; [
   match goal with |- context [fst (type_columns ?c)] => change (fst (type_columns c)) with (@None nat) end;
   unfold expected_fields; rewrite !layout_for_entries;
   destruct (zero_or_one (continuation (Rec _ _ (continuation r1) _ _))); destruct (zero_or_one (continuation (Rec _ _ (continuation r2) _ _)));
   eval_entries; repeat split|]). contradiction.
Qed.

(* ---- C14 ---- *)
Lemma c14 : forall r line t, trimmed line t -> framed t ->
  raw (after (read r line)) = t /\
  (returned (read r line) <> Ok true ->
     fields (after (read r line)) = fields r \/
     (fields (after (read r line)) = [] /\ returned (read r line) = Ok false /\ printed (read r line) = [])) /\
  (forall e, returned (read r line) = Err e -> fields (after (read r line)) = fields r).
Proof.
  intros r line t HT F. rewrite (c05_read _ _ _ HT F). unfold expected_read.
  destruct (section_of line) as [code|]; [|cbn; repeat split; auto].
  assert (EF : forall r0, let o := expected_fields code line r0 in
     raw (after o) = raw r0 /\ (returned o <> Ok true -> fields (after o) = fields r0 \/
     (fields (after o) = [] /\ returned o = Ok false /\ printed o = [])) /\ (forall e, returned o = Err e -> fields (after o) = fields r0)).
  { intros r0. unfold expected_fields. destruct (layout_for _ _ _); [|destruct (raising code)]; cbn; repeat split; auto; try discriminate; congruence. }
  destruct (fst (type_columns code)) as [k|].
  - cbv zeta. destruct (isalnum (columns t [k])).
    + apply (EF (Rec code t (columns t [k]) (fields r) (record_class code))).
    + destruct (record_class code); cbn; repeat split; auto.
  - apply (EF (Rec code t (continuation r) (fields r) (record_class code))).
Qed.

(* ---- C15 ---- *)
Definition section_cell_ok (e : entry) : bool :=
  forallb (fun s => existsb (fun c => String.eqb (c_name c) "Section Code" && fn_eqb (c_fn c) F004 &&
     list_eqb Nat.eqb (c_cols c) (if shows_5_13 s then [5; 13] else [5; 6])) (firstn 3 (e_cells e))) (e_sections e).
Lemma section_cell_all : forallb section_cell_ok catalogue = true.
Proof. vm_compute. reflexivity. Qed.
Lemma c15 : forall r line t o r', record_line line t -> read r line = (o, r', Ok true) ->
  exists s, In s sections /\ ident r' = lit s /\
    In (Field (lit "Section Code") (columns t (if shows_5_13 s then [5; 13] else [5; 6])) F004) (firstn 3 (fields r')).
Proof.
  intros r line t o r' HR H. destruct (c06 _ _ _ _ _ HR H) as [cells [cont [app [H1 [_ [H3 _]]]]]].
  apply layout_for_entry in H1 as [e [E1 [E2 E3]]]. subst cells. apply layout_for_sections in E2 as [s [S1 S2]].
  exists s.
  assert (C : forallb (fun e => forallb (fun s => existsb (String.eqb s) sections) (e_sections e)) catalogue = true) by (vm_compute; reflexivity).
  rewrite forallb_forall in C. pose proof (C e E1) as Hs. rewrite forallb_forall in Hs. specialize (Hs s S1).
  apply existsb_exists in Hs as [s' [Hs Es]]. apply String.eqb_eq in Es. subst s'. clear C.
  split; [exact Hs|]. split; [exact S2|].
  pose proof section_cell_all as C. rewrite forallb_forall in C. specialize (C e E1). unfold section_cell_ok in C.
  rewrite forallb_forall in C. specialize (C s S1). apply existsb_exists in C as [c [C1 C2]].
  rewrite !andb_true_iff in C2. destruct C2 as [[C2 C3] C4]. apply String.eqb_eq in C2. apply fn_eqb_eq in C3. apply list_eqb_nat in C4.
  rewrite H3, firstn_map. apply in_map_iff. exists c. split; [|exact C1].
  unfold field_of. rewrite C2, C3, C4. reflexivity.
Qed.

(* ---- C45 ---- *)
Definition cont_cell_ok (e : entry) : bool :=
  forallb (fun s => match fst (type_columns (lit s)) with
    | None => true
    | Some k => existsb (String.eqb s) ["PT"] ||
                (existsb (String.eqb s) ["HK"; "PK"] && match e_primary e with Some false => true | _ => false end) ||
                forallb (fun c => negb (String.eqb (c_name c) "Continuation Record No") || list_eqb Nat.eqb (c_cols c) [k]) (e_cells e)
    end) (e_sections e).
Lemma cont_cell_all : forallb cont_cell_ok catalogue = true.
Proof. vm_compute. reflexivity. Qed.
Definition app_cell_ok (e : entry) : bool :=
  forallb (fun s => existsb (String.eqb s) ["EP"; "EU"] ||
                forallb (fun c => negb (String.eqb (c_name c) "Application Type") || list_eqb Nat.eqb (c_cols c) (snd (type_columns (lit s)))) (e_cells e))
    (e_sections e).
Lemma app_cell_all : forallb app_cell_ok catalogue = true.
Proof. vm_compute. reflexivity. Qed.
Lemma lit_inj : forall a b, lit a = lit b -> a = b.
Proof.
  unfold lit. induction a as [|x a IH]; destruct b as [|y b]; cbn [list_ascii_of_string map]; intro H; try discriminate; auto.
  injection H as H1 H2. f_equal; auto. rewrite <- (Ascii.ascii_N_embedding x), <- (Ascii.ascii_N_embedding y), H1. reflexivity.
Qed.
Lemma existsb_string : forall s l, existsb (String.eqb s) l = true <-> In s l.
Proof.
  intros. rewrite existsb_exists. split; [intros [x [H1 H2]]; apply String.eqb_eq in H2; congruence|].
  intro. exists s. split; auto. apply String.eqb_refl.
Qed.
Lemma c45 : forall r line t o r' k app f, record_line line t -> read r line = (o, r', Ok true) ->
  type_info (ident r') (Some k) app ->
  ident r' <> lit "PT" -> (ident r' = lit "HK" \/ ident r' = lit "PK" -> primary r' = true) ->
  In f (fields r') -> f_name f = lit "Continuation Record No" ->
  f_value f = columns t [k] /\ f_value f = continuation r'.
Proof.
  intros r line t o r' k app f HR H TI N1 N2 Hf Hn. pose proof (read_cont_column _ _ _ _ _ _ _ HR H TI) as HC.
  pose proof (c03_success _ _ _ _ H) as SI. pose proof (primary_read _ _ _ _ H) as HP.
  destruct (c10 _ _ _ _ _ _ _ HR H TI) as [e [E1 [[s [S1 S2]] [E3 [E4 E5]]]]].
  rewrite HC. apply type_info_iff in TI; [|apply SI].
  pose proof cont_cell_all as C. rewrite forallb_forall in C. specialize (C e E1). unfold cont_cell_ok in C. rewrite forallb_forall in C.
  specialize (C s S1). rewrite <- S2, TI in C. cbn [fst] in C. rewrite !orb_true_iff, andb_true_iff in C.
  assert (C' : forallb (fun c => negb (String.eqb (c_name c) "Continuation Record No") || list_eqb Nat.eqb (c_cols c) [k]) (e_cells e) = true).
  { destruct C as [[C|[C1 C2]]|C]; [| |exact C].
    - apply existsb_string in C. destruct C as [<-|[]]. contradiction.
    - exfalso. apply existsb_string in C1. rewrite HP, HC in N2.
      assert (zero_or_one (columns t [k]) = true).
      { apply N2. rewrite S2. destruct C1 as [<-|[<-|[]]]; auto. }
      rewrite E4, H0 in C2. discriminate. }
  rewrite E3 in Hf. apply in_map_iff in Hf as [c [<- Hc]]. rewrite forallb_forall in C'. specialize (C' c Hc).
  cbn [field_of f_name f_value] in *. apply lit_inj in Hn. rewrite Hn, String.eqb_refl in C'. cbn [negb orb] in C'. apply list_eqb_nat in C'. rewrite C'. auto.
Qed.
Lemma c45_app : forall r line t o r' cont app f, record_line line t -> read r line = (o, r', Ok true) ->
  type_info (ident r') cont app -> ident r' <> lit "EP" -> ident r' <> lit "EU" ->
  In f (fields r') -> f_name f = lit "Application Type" -> f_value f = columns t app.
Proof.
  intros r line t o r' cont app f HR H TI N1 N2 Hf Hn.
  pose proof (c03_success _ _ _ _ H) as SI.
  destruct (c06 _ _ _ _ _ HR H) as [cells [cont' [app' [H1 [H2 [H3 _]]]]]].
  apply layout_for_entry in H1 as [e [E1 [E2 E3]]]. subst cells. apply layout_for_sections in E2 as [s [S1 S2]].
  apply type_info_iff in TI; [|apply SI].
  pose proof app_cell_all as C. rewrite forallb_forall in C. specialize (C e E1). unfold app_cell_ok in C. rewrite forallb_forall in C.
  specialize (C s S1). rewrite <- S2, TI in C. cbn [snd] in C. rewrite orb_true_iff in C. destruct C as [C|C].
  - exfalso. apply existsb_string in C. destruct C as [<-|[<-|[]]]; contradiction.
  - rewrite H3 in Hf. apply in_map_iff in Hf as [c [<- Hc]]. rewrite forallb_forall in C. specialize (C c Hc).
    cbn [field_of f_name f_value] in *. apply lit_inj in Hn. rewrite Hn, String.eqb_refl in C. cbn [negb orb] in C.
    apply list_eqb_nat in C. rewrite C. reflexivity.
Qed.
