(* Names, columns, decoders and widths of the fields of a record: C64-C67. *)
From Coq Require Import List String Ascii NArith ZArith Bool Arith Lia Sorted.
From Verif Require Import PyBase Decoder FnNum Layouts Record Api SpecLayouts Spec SpecRecord SpecColumns SpecNames SpecFields StrFacts ReadFacts ReadProps ReadProps3 RecordProps ColumnProps.
Import ListNotations.
Open Scope string_scope.
Open Scope list_scope.
Local Open Scope nat_scope.

Lemma named_cell : forall t e f, In f (map (field_of t) (e_cells e)) -> exists c, In c (e_cells e) /\ f = field_of t c.
Proof. intros t e f I. apply in_map_iff in I as [c [<- C]]. exists c. auto. Qed.
Lemma forallb2 : forall {A} (p : A -> A -> bool) l, forallb (fun x => forallb (p x) l) l = true -> forall x y, In x l -> In y l -> p x y = true.
Proof. intros A p l H x y X Y. rewrite forallb_forall in H. specialize (H x X). cbn beta in H. rewrite forallb_forall in H. exact (H y Y). Qed.

(* ---- C64 ---- *)
Definition pair_in (s n : string) : bool := existsb (fun p => String.eqb s (fst p) && String.eqb n (snd p)) moving.
Lemma pair_in_iff : forall s n, pair_in s n = true <-> In (s, n) moving.
Proof.
  intros s n. unfold pair_in. rewrite existsb_exists. split.
  - intros [[a b] [I E]]. cbn [fst snd] in E. apply andb_true_iff in E as [E1 E2]. apply String.eqb_eq in E1, E2. subst. exact I.
  - intro I. exists (s, n). split; auto. cbn [fst snd]. rewrite !String.eqb_refl. reflexivity.
Qed.
Definition cells_agree (s : string) (c1 c2 : cell) : bool :=
  if String.eqb (c_name c1) (c_name c2) then (if list_eq_dec Nat.eq_dec (c_cols c1) (c_cols c2) then true else pair_in s (c_name c1)) else true.
Definition columns_agree (e1 e2 : entry) : bool :=
  forallb (fun s => if existsb (String.eqb s) (e_sections e2) then forallb (fun c1 => forallb (cells_agree s c1) (e_cells e2)) (e_cells e1) else true) (e_sections e1).
Lemma columns_agree_all : forallb (fun e1 => forallb (columns_agree e1) catalogue) catalogue = true.
Proof. vm_compute. reflexivity. Qed.
Lemma c64 : forall r1 r2 line1 line2 t1 t2 o1 o2 r1' r2' s name f1 f2,
  record_line line1 t1 -> record_line line2 t2 -> read r1 line1 = (o1, r1', Ok true) -> read r2 line2 = (o2, r2', Ok true) ->
  ident r1' = lit s -> ident r2' = lit s -> In f1 (fields r1') -> In f2 (fields r2') -> f_name f1 = lit name -> f_name f2 = lit name ->
  ~ In (s, name) moving -> exists ks, ks <> [] /\ f_value f1 = columns t1 ks /\ f_value f2 = columns t2 ks.
Proof.
  intros r1 r2 line1 line2 t1 t2 o1 o2 r1' r2' s name f1 f2 RL1 RL2 R1 R2 S1 S2 I1 I2 N1 N2 X.
  destruct (read_entry _ _ _ _ _ RL1 R1) as [e1 [s1 [E1 [A1 [D1 [F1 _]]]]]]. destruct (read_entry _ _ _ _ _ RL2 R2) as [e2 [s2 [E2 [A2 [D2 [F2 _]]]]]].
  rewrite S1 in D1. rewrite S2 in D2. apply lit_inj in D1, D2. subst s1 s2. rewrite F1 in I1. rewrite F2 in I2.
  destruct (named_cell _ _ _ I1) as [c1 [C1 ->]]. destruct (named_cell _ _ _ I2) as [c2 [C2 ->]]. cbn [field_of f_name f_value] in *. apply lit_inj in N1, N2.
  pose proof (forallb2 _ _ columns_agree_all e1 e2 E1 E2) as H. unfold columns_agree in H. rewrite forallb_forall in H. specialize (H s A1). cbn beta in H.
  assert (K : existsb (String.eqb s) (e_sections e2) = true) by (apply existsb_exists; exists s; split; [exact A2|apply String.eqb_refl]). rewrite K in H.
  rewrite forallb_forall in H. specialize (H c1 C1). cbn beta in H. rewrite forallb_forall in H. specialize (H c2 C2). unfold cells_agree in H.
  rewrite N1, N2, String.eqb_refl in H. destruct (list_eq_dec Nat.eq_dec (c_cols c1) (c_cols c2)) as [Q|Q]; [|apply pair_in_iff in H; contradiction].
  exists (c_cols c1). split; [|split; [reflexivity|rewrite Q; reflexivity]].
  assert (G : forallb (fun e => forallb (fun c => match c_cols c with [] => false | _ => true end) (e_cells e)) catalogue = true) by (vm_compute; reflexivity).
  rewrite forallb_forall in G. specialize (G e1 E1). cbn beta in G. rewrite forallb_forall in G. specialize (G c1 C1). cbn beta in G. intro Z. rewrite Z in G. discriminate.
Qed.
Definition cells_of (l : list entry) (s name : string) : list cell :=
  filter (fun c => String.eqb (c_name c) name) (flat_map e_cells (filter (fun e => existsb (String.eqb s) (e_sections e)) l)).
Definition moved (l : list entry) (p : string * string) : bool :=
  let cs := cells_of l (fst p) (snd p) in existsb (fun c1 => existsb (fun c2 => negb (if list_eq_dec Nat.eq_dec (c_cols c1) (c_cols c2) then true else false)) cs) cs.
Lemma cells_of_in : forall l s name c, In c (cells_of l s name) -> exists e, In e l /\ In s (e_sections e) /\ In c (e_cells e) /\ c_name c = name.
Proof.
  intros l s name c I. unfold cells_of in I. apply filter_In in I as [I E]. apply in_flat_map in I as [e [A B]]. apply filter_In in A as [A D].
  apply existsb_string in D. apply String.eqb_eq in E. exists e. auto.
Qed.
Lemma moved_cells : forall l s name, moved l (s, name) = true -> exists e1 e2 c1 c2, In e1 l /\ In e2 l /\ In s (e_sections e1) /\ In s (e_sections e2) /\
  In c1 (e_cells e1) /\ In c2 (e_cells e2) /\ c_name c1 = name /\ c_name c2 = name /\ c_cols c1 <> c_cols c2.
Proof.
  intros l s name H. unfold moved in H. cbn [fst snd] in H. cbv zeta in H.
  apply existsb_exists in H as [c1 [C1 H]]. apply existsb_exists in H as [c2 [C2 H]]. destruct (cells_of_in _ _ _ _ C1) as [e1 [A1 [B1 [D1 N1]]]]. destruct (cells_of_in _ _ _ _ C2) as [e2 [A2 [B2 [D2 N2]]]].
  exists e1, e2, c1, c2. repeat split; auto. intro Q. destruct (list_eq_dec Nat.eq_dec (c_cols c1) (c_cols c2)); [discriminate|contradiction].
Qed.
Lemma moved_all : forallb (moved catalogue) moving = true.
Proof. vm_compute. reflexivity. Qed.
Lemma c64_moving : forall s name, In (s, name) moving -> exists e1 e2 c1 c2, In e1 catalogue /\ In e2 catalogue /\ In s (e_sections e1) /\ In s (e_sections e2) /\
  In c1 (e_cells e1) /\ In c2 (e_cells e2) /\ c_name c1 = name /\ c_name c2 = name /\ c_cols c1 <> c_cols c2.
Proof. intros s name I. apply moved_cells. exact (proj1 (forallb_forall _ _) moved_all _ I). Qed.

(* ---- C65 ---- *)
(* the decoder a name stands for, where there is one *)
Definition glossary : list (string * fn) := flat_map (fun e => map (fun c => (base_name (c_name c), c_fn c)) (e_cells e)) catalogue.
Definition meaning (b : string) : option fn := option_map snd (find (fun p => String.eqb (fst p) b) glossary).
Definition meant (c : cell) : bool :=
  let b := base_name (c_name c) in existsb (String.eqb b) (map fst ambiguous) || match meaning b with Some f => fn_eqb f (c_fn c) | None => false end.
Lemma meant_all : forallb (fun e => forallb meant (e_cells e)) catalogue = true.
Proof. vm_compute. reflexivity. Qed.
Lemma c65 : forall r1 r2 line1 line2 t1 t2 o1 o2 r1' r2' n1 n2 f1 f2,
  record_line line1 t1 -> record_line line2 t2 -> read r1 line1 = (o1, r1', Ok true) -> read r2 line2 = (o2, r2', Ok true) ->
  In f1 (fields r1') -> In f2 (fields r2') -> f_name f1 = lit n1 -> f_name f2 = lit n2 -> base_name n1 = base_name n2 ->
  ~ In (base_name n1) (map fst ambiguous) -> f_fn f1 = f_fn f2.
Proof.
  intros r1 r2 line1 line2 t1 t2 o1 o2 r1' r2' n1 n2 f1 f2 RL1 RL2 R1 R2 I1 I2 N1 N2 B X.
  destruct (read_entry _ _ _ _ _ RL1 R1) as [e1 [s1 [E1 [A1 [D1 [F1 _]]]]]]. destruct (read_entry _ _ _ _ _ RL2 R2) as [e2 [s2 [E2 [A2 [D2 [F2 _]]]]]].
  rewrite F1 in I1. rewrite F2 in I2. destruct (named_cell _ _ _ I1) as [c1 [C1 ->]]. destruct (named_cell _ _ _ I2) as [c2 [C2 ->]].
  cbn [field_of f_name f_fn] in *. apply lit_inj in N1, N2. subst n1 n2.
  assert (G : forall e c, In e catalogue -> In c (e_cells e) -> ~ In (base_name (c_name c)) (map fst ambiguous) -> meaning (base_name (c_name c)) = Some (c_fn c)).
  { intros e c E C Y. pose proof (proj1 (forallb_forall _ _) meant_all e E) as H. cbn beta in H. rewrite forallb_forall in H. specialize (H c C). unfold meant in H.
    apply orb_true_iff in H as [H|H]; [apply existsb_string in H; contradiction|]. destruct (meaning _) as [g|]; [|discriminate]. apply fn_eqb_eq in H. congruence. }
  pose proof (G e1 c1 E1 C1 X) as H1. rewrite B in X. pose proof (G e2 c2 E2 C2 X) as H2. rewrite <- B in H2. congruence.
Qed.
Lemma c65_ambiguous : forall b fs, In (b, fs) ambiguous -> 2 <= List.length fs /\ NoDup fs /\
  forall f, In f fs <-> exists e c, In e catalogue /\ In c (e_cells e) /\ base_name (c_name c) = b /\ c_fn c = f.
Proof.
  assert (H : forallb (fun p => (2 <=? List.length (snd p)) && nodup_b (map (fun f => String (Ascii.ascii_of_nat (N.to_nat (fn_num f) / 256)) (String (Ascii.ascii_of_nat (N.to_nat (fn_num f) mod 256)) EmptyString)) (snd p)) &&
    forallb (fun f => existsb (fun q => String.eqb (fst q) (fst p) && fn_eqb (snd q) f) glossary) (snd p) &&
    forallb (fun q => implb (String.eqb (fst q) (fst p)) (existsb (fn_eqb (snd q)) (snd p))) glossary) ambiguous = true) by (vm_compute; reflexivity).
  intros b fs I. rewrite forallb_forall in H. specialize (H _ I). cbn [fst snd] in H. apply andb_true_iff in H as [H H4]. apply andb_true_iff in H as [H H3]. apply andb_true_iff in H as [H1 H2].
  split; [apply Nat.leb_le; exact H1|]. split.
  - apply nodup_b_iff in H2. exact (NoDup_map_inv _ _ H2).
  - intro f. split.
    + intro F. rewrite forallb_forall in H3. specialize (H3 f F). apply existsb_exists in H3 as [[n g] [G E]]. cbn [fst snd] in E. apply andb_true_iff in E as [E1 E2]. apply String.eqb_eq in E1. apply fn_eqb_eq in E2. subst.
      unfold glossary in G. apply in_flat_map in G as [e [E C]]. apply in_map_iff in C as [c [Q C]]. injection Q as Q1 Q2. exists e, c. auto.
    + intros [e [c [E [C [B F]]]]]. rewrite forallb_forall in H4. assert (G : In (b, f) glossary) by (unfold glossary; apply in_flat_map; exists e; split; auto; apply in_map_iff; exists c; split; auto; congruence).
      specialize (H4 _ G). cbn [fst snd] in H4. rewrite String.eqb_refl in H4. cbn [implb] in H4. apply existsb_exists in H4 as [g [G1 G2]]. apply fn_eqb_eq in G2. congruence.
Qed.

(* ---- C66 ---- *)
Definition width_ok (s : string) (c : cell) : bool :=
  match find (fun p => fn_eqb (fst p) (c_fn c)) widths with
  | Some (_, w) => Nat.eqb (List.length (c_cols c)) w || existsb (fun q => match q with (s', n, f, k) => String.eqb s s' && String.eqb (c_name c) n && fn_eqb f (c_fn c) && Nat.eqb k (List.length (c_cols c)) end) odd_widths
  | None => true
  end.
Lemma width_all : forallb (fun e => forallb (fun s => forallb (width_ok s) (e_cells e)) (e_sections e)) catalogue = true.
Proof. vm_compute. reflexivity. Qed.
Lemma c66 : forall r line t o r' f s name w, record_line line t -> read r line = (o, r', Ok true) -> ident r' = lit s -> In f (fields r') -> f_name f = lit name ->
  In (f_fn f, w) widths -> List.length (f_value f) = w \/ exists k, In (s, name, f_fn f, k) odd_widths /\ List.length (f_value f) = k.
Proof.
  intros r line t o r' f s name w RL R S I Nm W.
  destruct (read_entry _ _ _ _ _ RL R) as [e [s1 [E [A [D [F _]]]]]]. rewrite S in D. apply lit_inj in D. subst s1. rewrite F in I. destruct (named_cell _ _ _ I) as [c [C ->]].
  cbn [field_of f_name f_fn f_value] in *. apply lit_inj in Nm. subst name.
  pose proof (proj1 (forallb_forall _ _) width_all e E) as H. cbn beta in H. rewrite forallb_forall in H. specialize (H s A). cbn beta in H. rewrite forallb_forall in H. specialize (H c C). unfold width_ok in H.
  assert (L : List.length (columns t (c_cols c)) = List.length (c_cols c)).
  { apply columns_length. rewrite (framed_length t (proj1 RL)). apply cols_in_forall. pose proof (proj1 (forallb_forall _ _) catalogue_in e E) as CI. cbn beta in CI. unfold cells_in in CI. rewrite forallb_forall in CI. exact (CI c C). }
  destruct (find _ widths) as [[g w']|] eqn:FD.
  - apply find_some in FD as [G1 G2]. cbn [fst] in G2. apply fn_eqb_eq in G2. subst g.
    assert (w' = w). { assert (U : forallb (fun p => forallb (fun q => implb (fn_eqb (fst p) (fst q)) (Nat.eqb (snd p) (snd q))) widths) widths = true) by (vm_compute; reflexivity).
      pose proof (forallb2 _ _ U _ _ G1 W) as U1. cbn [fst snd] in U1. assert (Q : fn_eqb (c_fn c) (c_fn c) = true) by (apply fn_eqb_eq; reflexivity). rewrite Q in U1. cbn [implb] in U1. apply Nat.eqb_eq. exact U1. }
    subst w'. apply orb_true_iff in H as [H|H]; [left; apply Nat.eqb_eq in H; lia|right]. apply existsb_exists in H as [[[[s' n'] f'] k] [K Q]].
    apply andb_true_iff in Q as [Q Q4]. apply andb_true_iff in Q as [Q Q3]. apply andb_true_iff in Q as [Q1 Q2]. apply String.eqb_eq in Q1, Q2. apply fn_eqb_eq in Q3. apply Nat.eqb_eq in Q4. subst. eexists. split; [exact K|exact L].
  - exfalso. pose proof (find_none _ _ FD _ W) as Q. cbn [fst] in Q. assert (Q' : fn_eqb (c_fn c) (c_fn c) = true) by (apply fn_eqb_eq; reflexivity). congruence.
Qed.
Lemma c66_odd : forall s name f k, In (s, name, f, k) odd_widths -> exists e c w, In e catalogue /\ In s (e_sections e) /\ In c (e_cells e) /\ c_name c = name /\ c_fn c = f /\
  List.length (c_cols c) = k /\ In (f, w) widths /\ w <> k.
Proof.
  assert (H : forallb (fun q => match q with (s, n, f, k) => existsb (fun e => existsb (String.eqb s) (e_sections e) && existsb (fun c => String.eqb (c_name c) n && fn_eqb (c_fn c) f && Nat.eqb (List.length (c_cols c)) k) (e_cells e)) catalogue &&
    existsb (fun p => fn_eqb (fst p) f && negb (Nat.eqb (snd p) k)) widths end) odd_widths = true) by (vm_compute; reflexivity).
  intros s name f k I. rewrite forallb_forall in H. specialize (H _ I). cbn beta iota in H. apply andb_true_iff in H as [H1 H2]. apply existsb_exists in H1 as [e [E H1]]. apply andb_true_iff in H1 as [S C].
  apply existsb_string in S. apply existsb_exists in C as [c [C Q]]. apply andb_true_iff in Q as [Q Q3]. apply andb_true_iff in Q as [Q1 Q2]. apply String.eqb_eq in Q1. apply fn_eqb_eq in Q2. apply Nat.eqb_eq in Q3.
  apply existsb_exists in H2 as [[g w] [G X]]. cbn [fst snd] in X. apply andb_true_iff in X as [X1 X2]. apply fn_eqb_eq in X1. subst g. apply negb_true_iff, Nat.eqb_neq in X2. exists e, c, w. repeat split; auto.
Qed.

(* ---- C67 ---- *)
Fixpoint ascending_b (l : list nat) : bool := match l with a :: ((b :: _) as l') => (a <=? b) && ascending_b l' | _ => true end.
Lemma ascending_b_iff : forall l, ascending_b l = true <-> ascending l.
Proof.
  induction l as [|a [|b l] IH]; cbn [ascending_b ascending]; [tauto|tauto|]. rewrite andb_true_iff, Nat.leb_le. cbn [ascending_b ascending] in IH. rewrite IH. tauto.
Qed.
Lemma order_all : forallb (fun e => Bool.eqb (ascending_b (map (fun c => first_column (c_cols c)) (e_cells e))) (negb (existsb (has_key_b e) unordered))) catalogue = true.
Proof. vm_compute. reflexivity. Qed.
Lemma c67 : forall r line t o r', record_line line t -> read r line = (o, r', Ok true) ->
  exists e kss, In e catalogue /\ In (ident r') (map lit (e_sections e)) /\ map f_value (fields r') = map (columns t) kss /\ map c_cols (e_cells e) = kss /\
    (ascending (map first_column kss) <-> ~ exists key, In key unordered /\ has_key e key).
Proof.
  intros r line t o r' RL R. destruct (read_entry _ _ _ _ _ RL R) as [e [s [E [A [D [F _]]]]]]. exists e, (map c_cols (e_cells e)). split; auto. split; [rewrite D; apply in_map; exact A|].
  split; [rewrite F, !map_map; reflexivity|]. split; [reflexivity|]. rewrite map_map. pose proof (proj1 (forallb_forall _ _) order_all e E) as H. cbn beta in H. apply Bool.eqb_prop in H.
  rewrite <- ascending_b_iff, H, negb_true_iff. split.
  - intros X [key [K Y]]. assert (Z : existsb (has_key_b e) unordered = true) by (apply existsb_exists; exists key; split; auto; apply has_key_b_iff; exact Y). congruence.
  - intro X. destruct (existsb _ unordered) eqn:Z; [|reflexivity]. exfalso. apply X. apply existsb_exists in Z as [key [K Y]]. exists key. split; auto. apply has_key_b_iff. exact Y.
Qed.
