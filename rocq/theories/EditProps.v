(* Editing one field of a record changes that field only. *)
From Coq Require Import List String NArith Bool Arith Lia.
From Verif Require Import PyBase Decoder Layouts Record Api SpecLayouts Spec SpecRecord SpecColumns SpecEdit StrFacts ReadFacts ReadProps ReadProps2 ReadProps3 RecordProps ColumnProps FnNum.
Import ListNotations.
Open Scope list_scope.
Local Open Scope nat_scope.

Lemma changed_columns : forall ks t t' js, changed_in ks t t' -> (forall k, In k js -> ~ In k ks) -> columns t' js = columns t js.
Proof. intros ks t t' js (_ & C) D. apply columns_agree. intros k K. apply C. apply D. exact K. Qed.
Lemma changed_key : forall ks t t' code js, changed_in ks t t' -> keeps_keys t code ks -> (forall k, In k js -> key_column t code k) -> columns t' js = columns t js.
Proof. intros ks t t' code js C K J. eapply changed_columns; [exact C|]. intros k I I'. exact (K k I' (J k I)). Qed.
Lemma changed_line : forall ks t t' code, record_line t t -> changed_in ks t t' -> keeps_keys t code ks -> record_line t' t'.
Proof.
  intros ks t t' code ((L & S & N) & A & B & _) C K. pose proof C as (CL & CC).
  assert (Q : forall k, In k ([1; 5; 6] ++ seq 124 9) -> column t' k = column t k) by (intros k I; apply CC; intros I'; apply (K k I'); left; exact I).
  assert (L' : List.length t' = 132) by congruence.
  split; [split; [exact L'|split]|split; [|split]].
  - rewrite (changed_key ks t t' code [1] C K) by (intros k [<-|[]]; left; cbn; tauto). exact S.
  - intros k R. destruct (N k R) as (c & E & NU). exists c. split; [|exact NU]. rewrite Q; [exact E|]. apply in_or_app. right. apply in_seq. lia.
  - intros c E. apply A. rewrite <- (Q 1); [exact E|cbn; tauto].
  - intros c E. apply B. rewrite L, <- L', <- (Q (List.length t')); [exact E|]. rewrite L'. apply in_or_app. right. apply in_seq. lia.
  - exists []. split; [constructor|]. rewrite app_nil_r. reflexivity.
Qed.
Lemma changed_section : forall ks t t' code, changed_in ks t t' -> keeps_keys t code ks -> section_of t = Some code -> section_of t' = Some code.
Proof.
  intros ks t t' code C K S. assert (E : columns t' [5; 6] = columns t [5; 6]) by (eapply changed_key; [exact C|exact K|]; intros k [<-|[<-|[]]]; left; cbn; tauto).
  unfold section_of in *. rewrite E. destruct (existsb (fun s => str_eqb (lit s) (columns t [5; 6])) sections) eqn:X; [exact S|].
  destruct (existsb (fun s => str_eqb (lit s) (columns t [5; 13])) sections) eqn:Y; [|discriminate]. injection S as S.
  assert (NE : columns t [5; 6] <> code) by (intros Z; rewrite Z, <- S in X; congruence).
  rewrite (changed_key ks t t' code [5; 13] C K), Y by (intros k [<-|[<-|[]]]; [left; cbn; tauto|right; left; auto]). rewrite S. reflexivity.
Qed.
Lemma changed_read : forall r line t o r' ks t', record_line line t -> read r line = (o, r', Ok true) -> changed_in ks t t' -> keeps_keys t (ident r') ks ->
  exists e, In e catalogue /\ fields r' = map (field_of t) (e_cells e) /\ record_line t' t' /\
    read r t' = (o, Rec (ident r') t' (continuation r') (map (field_of t') (e_cells e)) (definition r'), Ok true).
Proof.
  intros r line t o r' ks t' RL R C K.
  assert (RT : record_line t t) by (destruct RL as (F & A & B & _); split; [exact F|split; [exact A|split; [exact B|]]]; exists []; split; [constructor|rewrite app_nil_r; reflexivity]).
  pose proof (changed_line _ _ _ _ RT C K) as RT'. rewrite (read_record_line _ _ _ RL) in R. rewrite (read_record_line _ _ _ RT'). unfold expected_read in R |- *.
  destruct (section_of t) as [code|] eqn:S; [|discriminate].
  assert (SU : supported code).
  { unfold section_of in S. destruct (existsb (fun s => str_eqb (lit s) (columns t [5; 6])) sections) eqn:X.
    - injection S as <-. apply existsb_exists in X as (s & I & E). apply str_eqb_eq in E. exists s. auto.
    - destruct (existsb (fun s => str_eqb (lit s) (columns t [5; 13])) sections) eqn:Y; [|discriminate]. injection S as <-. apply existsb_exists in Y as (s & I & E). apply str_eqb_eq in E. exists s. auto. }
  assert (X : forall r0 o0 r1, ident r0 = code -> raw r0 = t -> expected_fields code t r0 = (o0, r1, Ok true) -> ident r1 = ident r' -> exists e, In e catalogue /\ fields r1 = map (field_of t) (e_cells e) /\
     columns t' (snd (type_columns code)) = columns t (snd (type_columns code)) /\
     expected_fields code t' (set_raw t' r0) = (o0, Rec code t' (continuation r1) (map (field_of t') (e_cells e)) (definition r1), Ok true)).
  { intros r0 o0 r1 I0 W0 H ID. unfold expected_fields in H |- *.
    destruct (layout_for code (zero_or_one (continuation r0)) (columns t (snd (type_columns code)))) as [cells|] eqn:LF; [|destruct (raising code); discriminate]. injection H as <- <-. cbn [set_fields ident] in ID.
    destruct (layout_for_entry _ _ _ _ LF) as (e & E & M & CE). exists e. split; [exact E|]. split; [cbn; rewrite CE; reflexivity|].
    assert (AP : columns t' (snd (type_columns code)) = columns t (snd (type_columns code))).
    { eapply changed_key; [exact C|exact K|]. intros k I. right. right. exists (fst (type_columns code)), (snd (type_columns code)). split; [|right; exact I].
      rewrite <- ID, I0. apply type_info_iff; [exact SU|]. destruct (type_columns code); reflexivity. }
    split; [exact AP|]. rewrite AP. cbn [set_raw continuation]. rewrite LF. rewrite <- CE. destruct r0; cbn in *. subst. reflexivity. }
  assert (IDR : ident r' = code).
  { destruct (fst (type_columns code)) as [k|]; [destruct (isalnum (columns t [k])); [|discriminate]|]; unfold expected_fields in R; destruct (layout_for code _ _) in R; try (destruct (raising code); discriminate); injection R as _ <-; reflexivity. }
  rewrite IDR in *. rewrite (changed_section _ _ _ _ C K S).
  destruct (fst (type_columns code)) as [k|] eqn:TC.
  - assert (CK : columns t' [k] = columns t [k]).
    { eapply changed_key; [exact C|exact K|]. intros j [<-|[]]. right. right. exists (Some k), (snd (type_columns code)). split; [|left; reflexivity]. apply type_info_iff; [exact SU|]. rewrite <- TC. destruct (type_columns code); reflexivity. }
    rewrite CK. destruct (isalnum (columns t [k])) eqn:AN; [|discriminate]. destruct (((fun A B => X _ _ _ A B R IDR) : _ -> _ -> _) eq_refl eq_refl) as (e & E & F & _ & H). exists e. split; [exact E|]. split; [exact F|]. split; [exact RT'|]. exact H.
  - destruct (((fun A B => X _ _ _ A B R IDR) : _ -> _ -> _) eq_refl eq_refl) as (e & E & F & _ & H). exists e. split; [exact E|]. split; [exact F|]. split; [exact RT'|]. exact H.
Qed.

(* other characters in given columns *)
Fixpoint put (i : nat) (c : N) (t : str) : str :=
  match t, i with [], _ => [] | _ :: t', 0 => c :: t' | x :: t', S i' => x :: put i' c t' end.
Fixpoint overwrite (t : str) (ks : list nat) (v : str) : str :=
  match ks, v with k :: ks', c :: v' => put (pred k) c (overwrite t ks' v') | _, _ => t end.
Lemma put_length : forall t i c, List.length (put i c t) = List.length t.
Proof. induction t as [|x t IH]; intros [|i] c; try reflexivity. cbn. rewrite IH. reflexivity. Qed.
Lemma put_same : forall t i c, i < List.length t -> nth_error (put i c t) i = Some c.
Proof. induction t as [|x t IH]; intros [|i] c L; cbn in *; try lia; [reflexivity|]. apply IH. lia. Qed.
Lemma put_other : forall t i j c, i <> j -> nth_error (put i c t) j = nth_error t j.
Proof. induction t as [|x t IH]; intros [|i] [|j] c L; cbn; try reflexivity; try lia. apply IH. lia. Qed.
Lemma overwrite_length : forall ks t v, List.length (overwrite t ks v) = List.length t.
Proof. induction ks as [|k ks IH]; intros t [|c v]; try reflexivity. cbn. rewrite put_length. apply IH. Qed.
Lemma overwrite_other : forall ks t v k, Forall (fun k => 1 <= k) ks -> ~ In k ks -> column (overwrite t ks v) k = column t k.
Proof.
  induction ks as [|j ks IH]; intros t [|c v] k P N; try reflexivity. inversion P; subst. cbn [overwrite]. rewrite <- (IH t v k) by (try assumption; intros X; apply N; right; exact X).
  destruct k as [|k]; [reflexivity|]. cbn [column]. apply put_other. intros E. apply N. left. lia.
Qed.
Lemma overwrite_in : forall ks t v, Forall (fun k => 1 <= k <= List.length t) ks -> NoDup ks -> List.length v = List.length ks -> columns (overwrite t ks v) ks = v.
Proof.
  induction ks as [|k ks IH]; intros t [|c v] P D L; try discriminate; [reflexivity|]. inversion P; subst. inversion D; subst. cbn [List.length] in L. cbn [overwrite].
  assert (E : columns (put (pred k) c (overwrite t ks v)) ks = v).
  { rewrite <- (IH t v) at 2 by (try assumption; lia). apply columns_agree. intros j J. destruct j as [|j]; [reflexivity|]. cbn [column]. apply put_other. intros X. assert (Z : k = S j) by lia. rewrite Z in *. contradiction. }
  rewrite columns_cons, E. destruct k as [|k]; [lia|]. unfold columns. cbn [flat_map column pred]. rewrite put_same by (rewrite overwrite_length; lia). reflexivity.
Qed.
Fixpoint nodup_nat (l : list nat) : bool := match l with [] => true | a :: l' => negb (existsb (Nat.eqb a) l') && nodup_nat l' end.
Lemma nodup_nat_sound : forall l, nodup_nat l = true -> NoDup l.
Proof.
  induction l as [|a l IH]; intros H; [constructor|]. cbn in H. apply andb_true_iff in H as [A B]. constructor; [|exact (IH B)]. intros I. apply negb_true_iff in A.
  assert (X : existsb (Nat.eqb a) l = true) by (apply existsb_exists; exists a; split; [exact I|apply Nat.eqb_refl]). congruence.
Qed.
Definition fine_cell (c : cell) : bool := forallb (fun k => (1 <=? k) && (k <=? 132)) (c_cols c) && nodup_nat (c_cols c).
Lemma fine_all : forallb (fun e => forallb fine_cell (e_cells e)) catalogue = true.
Proof. vm_compute. reflexivity. Qed.
Lemma fine_cols : forall e c, In e catalogue -> In c (e_cells e) -> Forall (fun k => 1 <= k <= 132) (c_cols c) /\ NoDup (c_cols c).
Proof.
  intros e c E I. pose proof fine_all as F. rewrite forallb_forall in F. specialize (F e E). cbn beta in F. rewrite forallb_forall in F. specialize (F c I). apply andb_true_iff in F as [A B]. split; [|apply nodup_nat_sound; exact B].
  rewrite forallb_forall in A. apply Forall_forall. intros k K. specialize (A k K). apply andb_true_iff in A as [A1 A2]. apply Nat.leb_le in A1, A2. lia.
Qed.

Lemma layout_unique : forall t t' r r' x y, ident r' = ident r -> primary r' = primary r -> (forall cont app, type_info (ident r) cont app -> columns t' app = columns t app) ->
  layout_of t r x -> layout_of t' r' y -> supported (ident r) -> x = y.
Proof.
  intros t t' r r' x y I P C (c1 & a1 & T1 & L1) (c2 & a2 & T2 & L2) SU. rewrite I in T2, L2. rewrite P in L2. pose proof (proj1 (type_info_iff _ _ _ SU) T1) as E1. pose proof (proj1 (type_info_iff _ _ _ SU) T2) as E2. rewrite E1 in E2. injection E2 as <- <-. rewrite (C _ _ T2) in L2. congruence.
Qed.
Lemma layout_read : forall r line t o r', record_line line t -> read r line = (o, r', Ok true) -> exists cells, layout_of t r' cells /\ fields r' = map (field_of t) cells.
Proof. intros r line t o r' RL R. destruct (c06 _ _ _ _ _ RL R) as (cells & cont & app & L & T & F & _). exists cells. split; [exists cont, app; auto|exact F]. Qed.
Theorem c72_changed : forall r line t o r' cells ks t', record_line line t -> read r line = (o, r', Ok true) -> layout_of t r' cells -> changed_in ks t t' -> keeps_keys t (ident r') ks ->
  fields r' = map (field_of t) cells /\ exists r'', read r t' = (o, r'', Ok true) /\ ident r'' = ident r' /\ raw r'' = t' /\ continuation r'' = continuation r' /\ layout_of t' r'' cells /\ fields r'' = map (field_of t') cells.
Proof.
  intros r line t o r' cells ks t' RL R LY C K. destruct (layout_read _ _ _ _ _ RL R) as (cells' & LY' & F).
  destruct (c03_success_t _ _ _ _ _ RL R) as (SU & _).
  assert (cells' = cells) by (eapply (layout_unique t t r' r'); eauto). subst cells'. split; [exact F|].
  destruct (changed_read _ _ _ _ _ _ _ RL R C K) as (e & E & F2 & RL' & R'). eexists. split; [exact R'|]. repeat (split; [reflexivity|]).
  destruct (layout_read _ _ _ _ _ RL' R') as (cells2 & LY2 & F3). assert (X : cells = cells2).
  { eapply (layout_unique t t' r'); [| | |exact LY|exact LY2|exact SU]; [reflexivity|reflexivity|]. intros cont app T. eapply changed_key; [exact C|exact K|]. intros k I. right. right. exists cont, app. auto. }
  subst cells2. split; [exact LY2|exact F3].
Qed.
Lemma layout_fine : forall t r cells c, layout_of t r cells -> In c cells -> Forall (fun k => 1 <= k <= 132) (c_cols c) /\ NoDup (c_cols c).
Proof. intros t r cells c (cont & app & _ & L) I. destruct (layout_for_entry _ _ _ _ L) as (e & E & _ & <-). eapply fine_cols; eassumption. Qed.
Theorem c72_edit : forall r line t o r' a c b v, record_line line t -> read r line = (o, r', Ok true) -> layout_of t r' (a ++ c :: b) ->
  (forall k, In k (c_cols c) -> ~ shown_twice (a ++ c :: b) k) -> keeps_keys t (ident r') (c_cols c) -> List.length v = List.length (c_cols c) ->
  exists t' r'', changed_in (c_cols c) t t' /\ columns t' (c_cols c) = v /\ read r t' = (o, r'', Ok true) /\ ident r'' = ident r' /\ continuation r'' = continuation r' /\ raw r'' = t' /\
    fields r' = map (field_of t) a ++ Field (lit (c_name c)) (columns t (c_cols c)) (c_fn c) :: map (field_of t) b /\
    fields r'' = map (field_of t) a ++ Field (lit (c_name c)) v (c_fn c) :: map (field_of t) b.
Proof.
  intros r line t o r' a c b v RL R LY O K L. destruct (layout_fine _ _ _ c LY) as (P & D); [apply in_or_app; right; left; reflexivity|]. pose proof (record_line_length _ _ RL) as L132.
  assert (C : changed_in (c_cols c) t (overwrite t (c_cols c) v)).
  { split; [apply overwrite_length|]. intros k N. apply overwrite_other; [|exact N]. eapply Forall_impl; [|exact P]. cbv beta. intros; lia. }
  destruct (c72_changed _ _ _ _ _ _ _ _ RL R LY C K) as (F & r'' & R' & I & W & CN & _ & F').
  exists (overwrite t (c_cols c) v), r''. assert (V : columns (overwrite t (c_cols c) v) (c_cols c) = v) by (apply overwrite_in; [rewrite L132; exact P|exact D|exact L]).
  repeat (split; [assumption|]). split; [rewrite F, map_app; reflexivity|]. rewrite F', map_app. cbn [map].
  assert (X : forall l, (forall d, In d l -> exists a' b', (a ++ c :: b = a' ++ d :: b' /\ (In c a' \/ In c b'))) -> map (field_of (overwrite t (c_cols c) v)) l = map (field_of t) l).
  { intros l H. apply map_ext_in. intros d I'. unfold field_of. f_equal. eapply changed_columns; [exact C|]. intros k K1 K2. destruct (H d I') as (a' & b' & E & [H'|H']).
    - apply (O k K2). apply in_split in H' as (x & y & ->). exists x, c, y, d, b'. split; [rewrite E, <- app_assoc; reflexivity|auto].
    - apply (O k K2). apply in_split in H' as (x & y & ->). exists a', d, x, c, y. auto. }
  rewrite (X a), (X b).
  - unfold field_of at 2. rewrite V. reflexivity.
  - intros d I'. apply in_split in I' as (x & y & ->). exists (a ++ c :: x), y. split; [rewrite <- app_assoc; reflexivity|left; apply in_or_app; right; left; reflexivity].
  - intros d I'. apply in_split in I' as (x & y & ->). exists x, (y ++ c :: b). split; [rewrite <- app_assoc; reflexivity|right; apply in_or_app; right; left; reflexivity].
Qed.
(* and one row of the table *)
Lemma row_same : forall v v' f row row', rv_ident v = rv_ident v' -> row_for v f row -> row_for v' f row' -> row = row'.
Proof.
  intros v v' f row row' E (o & d & H & ->) (o' & d' & H' & ->). f_equal.
  assert (K : run_fn (f_fn f) (f_value f) v = run_fn (f_fn f) (f_value f) v' \/ (snd (run_fn (f_fn f) (f_value f) v) = Err SystemExit /\ snd (run_fn (f_fn f) (f_value f) v') = Err SystemExit)).
  { destruct (fn_eqb (f_fn f) F034) eqn:X; [apply fn_eqb_eq in X; rewrite X; apply run_fn_034; exact E|]. left. apply run_fn_view; auto. intro Y. apply fn_eqb_eq in Y. congruence. }
  destruct K as [K|(K & _)]; [rewrite H, H' in K; congruence|rewrite H in K; discriminate].
Qed.
Lemma rows_same : forall v v' fs rows rows', rv_ident v = rv_ident v' -> Forall2 (row_for v) fs rows -> Forall2 (row_for v') fs rows' -> rows = rows'.
Proof.
  intros v v' fs rows rows' E H. revert rows'. induction H as [|f row fs rows A H IH]; intros rows' K; inversion K; subst; [reflexivity|]. f_equal; [eapply row_same; eassumption|apply IH; assumption].
Qed.
Theorem c72_table : forall r1 r2 a f1 f2 b out1 out2 o1 o2 rows1 rows2, ident r1 = ident r2 -> fields r1 = a ++ f1 :: b -> fields r2 = a ++ f2 :: b ->
  decode r1 out1 = (o1, Ok rows1) -> decode r2 out2 = (o2, Ok rows2) ->
  exists x y w1 w2, rows1 = x ++ w1 :: y /\ rows2 = x ++ w2 :: y /\ List.length x = List.length a.
Proof.
  intros r1 r2 a f1 f2 b out1 out2 o1 o2 rows1 rows2 I F1 F2 D1 D2. apply c31 in D1. apply c31 in D2. rewrite F1 in D1. rewrite F2 in D2.
  apply Forall2_app_inv_l in D1 as (x1 & y1 & A1 & B1 & ->). apply Forall2_app_inv_l in D2 as (x2 & y2 & A2 & B2 & ->). inversion B1; subst. inversion B2; subst.
  assert (E : rv_ident (view r1) = rv_ident (view r2)) by exact I.
  exists x1. do 3 eexists. split; [reflexivity|]. split; [rewrite (rows_same _ _ _ _ _ E A1 A2); f_equal; f_equal; symmetry; eapply rows_same; [exact E|eassumption|eassumption]|].
  clear - A1. induction A1; cbn; congruence.
Qed.
