(* Writing records. *)
From Coq Require Import List String NArith Bool Arith Lia.
From Verif Require Import PyBase Decoder Layouts Record Api SpecLayouts Spec SpecRecord SpecColumns SpecEdit SpecWrite StrFacts ReadFacts ReadProps ReadProps2 ReadProps3 RecordProps ColumnProps EditProps.
Import ListNotations.
Open Scope string_scope.
Open Scope list_scope.
Local Open Scope nat_scope.

(* the character that a field has for column k *)
Fixpoint place (k : nat) (ks : list nat) (v : str) : option N :=
  match ks, v with j :: ks', c :: v' => if Nat.eqb k j then Some c else place k ks' v' | _, _ => None end.
Fixpoint pick (k : nat) (cvs : list (cell * str)) : option N :=
  match cvs with [] => None | (c, v) :: cvs' => match place k (c_cols c) v with Some x => Some x | None => pick k cvs' end end.
Lemma place_some : forall k ks v x, place k ks v = Some x -> exists p, nth_error ks p = Some k /\ nth_error v p = Some x.
Proof.
  intros k. induction ks as [|j ks IH]; intros [|c v] x H; try discriminate H. cbn in H. destruct (Nat.eqb_spec k j) as [->|N]; [injection H as ->; exists 0; auto|].
  destruct (IH _ _ H) as (p & P). exists (S p). exact P.
Qed.
Lemma place_none : forall k ks v, List.length v = List.length ks -> place k ks v = None -> ~ In k ks.
Proof.
  intros k. induction ks as [|j ks IH]; intros [|c v] L H; try discriminate L; [intros []|]. cbn in H, L. destruct (Nat.eqb_spec k j) as [->|N]; [discriminate H|]. intros [E|E]; [congruence|]. apply (IH v); auto.
Qed.
Lemma pick_some : forall cvs k x, pick k cvs = Some x -> exists c v p, In (c, v) cvs /\ nth_error (c_cols c) p = Some k /\ nth_error v p = Some x.
Proof.
  induction cvs as [|[c v] cvs IH]; intros k x H; [discriminate H|]. cbn in H. destruct (place k (c_cols c) v) as [y|] eqn:P.
  - injection H as ->. destruct (place_some _ _ _ _ P) as (p & A & B). exists c, v, p. repeat split; auto. left. reflexivity.
  - destruct (IH _ _ H) as (c' & v' & p & A & B). exists c', v', p. split; [right; exact A|exact B].
Qed.
Lemma pick_none : forall cvs k, Forall (fun cv => List.length (snd cv) = List.length (c_cols (fst cv))) cvs -> pick k cvs = None -> forall c v, In (c, v) cvs -> ~ In k (c_cols c).
Proof.
  induction cvs as [|[c v] cvs IH]; intros k F H c' v' I; [destruct I|]. cbn in H. inversion F as [|? ? L F']; subst. cbn [fst snd] in L. destruct (place k (c_cols c) v) as [y|] eqn:P; [discriminate H|].
  destruct I as [E|I]; [injection E as <- <-; eapply place_none; eassumption|]. eapply IH; eassumption.
Qed.
Definition write (t : str) (cvs : list (cell * str)) : str := map (fun k => match pick k cvs with Some x => x | None => nth (pred k) t 0%N end) (seq 1 (List.length t)).
Lemma write_length : forall t cvs, List.length (write t cvs) = List.length t.
Proof. intros. unfold write. rewrite map_length, seq_length. reflexivity. Qed.
Lemma write_column : forall t cvs k, 1 <= k <= List.length t -> column (write t cvs) k = match pick k cvs with Some x => Some x | None => column t k end.
Proof.
  intros t cvs [|k] L; [lia|]. cbn [column]. unfold write. rewrite nth_error_map.
  assert (E : nth_error (seq 1 (List.length t)) k = Some (S k)).
  { rewrite (nth_error_nth' _ 0) by (rewrite seq_length; lia). rewrite seq_nth by lia. reflexivity. }
  rewrite E. cbn [option_map pred]. destruct (pick (S k) cvs); [reflexivity|]. symmetry. apply nth_error_nth'. lia.
Qed.
Lemma columns_nth : forall ks t v, List.length v = List.length ks -> (forall p k, nth_error ks p = Some k -> nth_error v p = column t k) -> columns t ks = v.
Proof.
  induction ks as [|k ks IH]; intros t [|c v] L H; try discriminate L; [reflexivity|]. pose proof (H 0 k eq_refl) as E. cbn in E. rewrite columns_cons. unfold columns at 1. cbn [flat_map]. rewrite <- E. cbn [List.app]. f_equal.
  apply IH; [cbn in L; lia|]. intros p k' P. exact (H (S p) k' P).
Qed.
Lemma forall2_combine : forall A B (P : A -> B -> Prop) l m, Forall2 P l m -> Forall (fun ab => P (fst ab) (snd ab)) (combine l m) /\ map fst (combine l m) = l.
Proof. intros A B P l m H. induction H as [|a b l m K _ [I1 I2]]; [split; constructor|]. cbn. split; [constructor; assumption|f_equal; exact I2]. Qed.
Lemma write_values : forall t cells vs, List.length t = 132 -> (forall c, In c cells -> Forall (fun k => 1 <= k <= 132) (c_cols c)) -> fills cells vs ->
  map (field_of (write t (combine cells vs))) cells = fields_with cells vs.
Proof.
  intros t cells vs L B (F & A). destruct (forall2_combine _ _ _ _ _ F) as (FC & MF). unfold fields_with. rewrite <- MF at 2. rewrite map_map. apply map_ext_in. intros [c v] I. cbn [fst snd].
  unfold field_of. f_equal. pose proof (proj1 (Forall_forall _ _) FC _ I) as LV. cbn [fst snd] in LV. apply columns_nth; [exact LV|].
  intros p k P. assert (IC : In c cells) by (rewrite <- MF; apply in_map_iff; exists (c, v); auto).
  pose proof (proj1 (Forall_forall _ _) (B c IC) k (nth_error_In _ _ P)) as R. cbn beta in R. rewrite write_column by (rewrite L; exact R).
  destruct (pick k (combine cells vs)) as [x|] eqn:K.
  - destruct (pick_some _ _ _ K) as (c' & v' & q & I' & P' & Q). rewrite <- Q. eapply A; eassumption.
  - destruct (pick_none _ _ FC K _ _ I). apply nth_error_In in P. exact P.
Qed.
Theorem c79_values : forall r line t o r' cells vs, record_line line t -> read r line = (o, r', Ok true) -> layout_of t r' cells -> fills cells vs -> same_keys t (ident r') cells vs ->
  exists t' r'', read r t' = (o, r'', Ok true) /\ record_line t' t' /\ ident r'' = ident r' /\ continuation r'' = continuation r' /\ raw r'' = t' /\ layout_of t' r'' cells /\ fields r'' = fields_with cells vs /\
    forall k, ~ shown_in cells k -> column t' k = column t k.
Proof.
  intros r line t o r' cells vs RL R LY F K. pose proof (record_line_length _ _ RL) as L132.
  assert (B : forall c, In c cells -> Forall (fun k => 1 <= k <= 132) (c_cols c)) by (intros c I; exact (proj1 (layout_fine _ _ _ c LY I))).
  set (t' := write t (combine cells vs)).
  assert (OUT : forall k, ~ 1 <= k <= 132 -> column t' k = column t k).
  { intros [|k] N; [reflexivity|]. cbn [column]. rewrite !(proj2 (nth_error_None _ _)); [reflexivity|lia|unfold t'; rewrite write_length; lia]. }
  assert (C : forall k, key_column t (ident r') k \/ ~ shown_in cells k -> column t' k = column t k).
  { intros k H. destruct (Nat.le_gt_cases 1 k) as [G1|G1]; [|apply OUT; lia]. destruct (Nat.le_gt_cases k 132) as [G2|G2]; [|apply OUT; lia].
    unfold t'. rewrite write_column by lia. destruct (pick k (combine cells vs)) as [x|] eqn:P; [|reflexivity]. destruct (pick_some _ _ _ P) as (c & v & p & I & P1 & P2). destruct H as [H|H].
    - rewrite <- P2. eapply K; eassumption.
    - destruct H. exists c. split; [apply in_combine_l in I; exact I|apply nth_error_In in P1; exact P1]. }
  set (ks := filter (fun k => negb (match column t' k, column t k with Some a, Some b => N.eqb a b | _, _ => false end)) (seq 1 132)).
  assert (CI : changed_in ks t t').
  { split; [unfold t'; apply write_length|]. intros k N. destruct (Nat.le_gt_cases 1 k) as [G1|G1]; [|apply OUT; lia]. destruct (Nat.le_gt_cases k 132) as [G2|G2]; [|apply OUT; lia].
    destruct (match column t' k, column t k with Some a, Some b => N.eqb a b | _, _ => false end) eqn:E.
    - destruct (column t' k), (column t k); try discriminate E. apply N.eqb_eq in E. congruence.
    - destruct N. apply filter_In. split; [apply in_seq; lia|rewrite E; reflexivity]. }
  assert (KK : keeps_keys t (ident r') ks).
  { intros k I H. apply filter_In in I as [I E]. apply in_seq in I. rewrite C in E by (left; exact H). destruct k as [|k]; [lia|]. cbn [column] in E. destruct (nth_error t k) as [x|] eqn:X; [|apply nth_error_None in X; lia]. rewrite N.eqb_refl in E. discriminate E. }
  destruct (c72_changed _ _ _ _ _ _ _ _ RL R LY CI KK) as (_ & r'' & R' & I & W & CN & LY' & F').
  exists t', r''. split; [exact R'|]. split; [|split; [exact I|split; [exact CN|split; [exact W|split; [exact LY'|split; [|auto]]]]]].
  - destruct (changed_read _ _ _ _ _ _ _ RL R CI KK) as (e & _ & _ & X & _). exact X.
  - rewrite F'. apply write_values; assumption.
Qed.
(* one line for each choice of values *)
Lemma nth_error_ext_str : forall t1 t2 : str, (forall k, nth_error t1 k = nth_error t2 k) -> t1 = t2.
Proof.
  induction t1 as [|a t1 IH]; intros [|b t2] H; try reflexivity; try (discriminate (H 0)). pose proof (H 0) as E. injection E as ->. f_equal. apply IH. intro k. exact (H (S k)).
Qed.
Theorem c79_once : forall t1 t2 cells, List.length t1 = 132 -> List.length t2 = 132 -> map (field_of t1) cells = map (field_of t2) cells -> (forall c, In c cells -> Forall (fun k => 1 <= k <= 132) (c_cols c)) ->
  (forall k, ~ shown_in cells k -> column t1 k = column t2 k) -> t1 = t2.
Proof.
  intros t1 t2 cells L1 L2 F B H. assert (E : forall k, column t1 k = column t2 k).
  { intro k. destruct (in_dec Nat.eq_dec k (flat_map c_cols cells)) as [I|N].
    - apply in_flat_map in I as (c & I & K). assert (FC : field_of t1 c = field_of t2 c) by (clear - F I; induction cells as [|d cells IH]; [destruct I|]; cbn [map] in F; injection F as F1 F2; destruct I as [<-|I]; [unfold field_of; congruence|apply IH; assumption]).
      injection FC as FC. specialize (B c I). clear - FC K B L1 L2. revert FC. induction B as [|j ks J B IH]; [destruct K|]. intro FC. rewrite (columns_cons t1), (columns_cons t2) in FC.
      destruct j as [|j]; [lia|]. unfold columns in FC at 1 3. cbn [flat_map column] in FC. destruct (nth_error t1 j) as [x|] eqn:X; [|apply nth_error_None in X; lia]. destruct (nth_error t2 j) as [y|] eqn:Y; [|apply nth_error_None in Y; lia].
      cbn [List.app] in FC. injection FC as -> FC. destruct K as [<-|K]; [cbn [column]; congruence|]. apply IH; assumption.
    - apply H. intros (c & I & K). apply N. apply in_flat_map. exists c. auto. }
  apply nth_error_ext_str. intro k. exact (E (S k)).
Qed.

(* a line for each entry of the catalogue *)
Fixpoint put (t : str) (kvs : list (nat * N)) : str := match kvs with [] => t | (k, v) :: m => put (firstn (pred k) t ++ v :: skipn k t) m end.
Definition sample_line (e : entry) : str :=
  let code := lit (hd "" (e_sections e)) in
  put (lit "S" ++ repeat 32%N 122 ++ lit "000000000") (combine [5; 6] code ++
    match fst (type_columns code) with Some k => [(k, match e_primary e with Some false => 50%N | _ => 48%N end)] | None => [] end ++
    match e_app e with Some a => combine (snd (type_columns code)) (lit a) | None => [] end).
Fixpoint find_index {A} (f : A -> bool) (l : list A) : option nat := match l with [] => None | x :: m => if f x then Some 0 else option_map S (find_index f m) end.
Lemma find_index_find : forall A (f : A -> bool) l i, find_index f l = Some i -> find f l = nth_error l i.
Proof.
  induction l as [|x l IH]; intros i H; [discriminate H|]. cbn in *. destruct (f x); [injection H as <-; reflexivity|]. destruct (find_index f l) as [j|] eqn:J; [|discriminate H]. injection H as <-. cbn. apply IH. reflexivity.
Qed.
Definition reads_as (r0 : rec) (i : nat) (e : entry) : bool :=
  let t := sample_line e in
  match read r0 t with
  | ([], r, Ok true) => validate t && str_eqb (strip t) t && existsb (fun s => str_eqb (lit s) (ident r)) sections &&
      match find_index (entry_matches (ident r) (primary r) (columns t (snd (type_columns (ident r))))) catalogue with Some j => Nat.eqb j i | None => false end
  | _ => false
  end.
Lemma reads_as_sound : forall r0 i e, nth_error catalogue i = Some e -> reads_as r0 i e = true -> exists r, read r0 (sample_line e) = ([], r, Ok true) /\ record_line (sample_line e) (sample_line e) /\ layout_of (sample_line e) r (e_cells e).
Proof.
  intros r0 i e E H. unfold reads_as in H. set (t := sample_line e) in *. destruct (read r0 t) as [[[|v o] r] [[|]|x]]; try discriminate H.
  apply andb_true_iff in H as [H F]. apply andb_true_iff in H as [H S']. apply andb_true_iff in H as [V T]. apply str_eqb_eq in T. exists r. split; [reflexivity|].
  apply existsb_exists in S' as (s & I & Q). apply str_eqb_eq in Q. split.
  - apply validate_framed in V. destruct (strip_trimmed t) as (A & B & _). rewrite T in *. split; [exact V|]. split; [exact A|]. split; [exact B|]. exists []. split; [constructor|rewrite app_nil_r; reflexivity].
  - exists (fst (type_columns (ident r))), (snd (type_columns (ident r))). split; [apply type_info_iff; [exists s; auto|destruct (type_columns (ident r)); reflexivity]|].
    unfold layout_for. destruct (find_index _ catalogue) as [j|] eqn:J; [|discriminate F]. apply Nat.eqb_eq in F as ->. rewrite (find_index_find _ _ _ _ J), E. reflexivity.
Qed.
Definition forall_index (p : nat -> entry -> bool) : bool := forallb (fun ie => p (fst ie) (snd ie)) (combine (seq 0 (List.length catalogue)) catalogue).
Lemma combine_seq : forall A (l : list A) n i x, nth_error l i = Some x -> In (n + i, x) (combine (seq n (List.length l)) l).
Proof.
  induction l as [|y l IH]; intros n [|i] x H; try discriminate H; cbn in *; [injection H as ->; left; f_equal; lia|]. right. replace (n + S i) with (S n + i) by lia. apply IH. exact H.
Qed.
Lemma forall_index_sound : forall p i e, forall_index p = true -> nth_error catalogue i = Some e -> p i e = true.
Proof. intros p i e H E. unfold forall_index in H. rewrite forallb_forall in H. exact (H _ (combine_seq _ _ 0 _ _ E)). Qed.
Definition restriction_primary (e : entry) : bool := existsb (String.eqb "EU") (e_sections e) && match e_primary e with Some true => true | _ => false end.
Theorem c79_fresh : forall e, In e catalogue -> restriction_primary e = false -> exists t r, read new_record t = ([], r, Ok true) /\ record_line t t /\ layout_of t r (e_cells e).
Proof.
  intros e I R. apply In_nth_error in I as (i & E). exists (sample_line e). apply (reads_as_sound _ i); [exact E|].
  assert (A : forall_index (fun i e => restriction_primary e || reads_as new_record i e) = true) by (vm_compute; reflexivity).
  pose proof (forall_index_sound _ _ _ A E) as B. cbn beta in B. rewrite R in B. exact B.
Qed.
Definition first_line : str := sample_line (hd (Entry [] None None []) (filter (fun e => existsb (String.eqb "PA") (e_sections e)) catalogue)).
Definition first_record : rec := snd (fst (read new_record first_line)).
Theorem c79_after : forall e, In e catalogue -> restriction_primary e = true -> exists t0 r0 t r, record_line t0 t0 /\ read new_record t0 = ([], r0, Ok true) /\ read r0 t = ([], r, Ok true) /\ record_line t t /\ layout_of t r (e_cells e).
Proof.
  intros e I R. apply In_nth_error in I as (i & E).
  assert (A : forall_index (fun i e => negb (restriction_primary e) || reads_as first_record i e) = true) by (vm_compute; reflexivity).
  pose proof (forall_index_sound _ _ _ A E) as B. cbn beta in B. rewrite R in B. destruct (reads_as_sound _ _ _ E B) as (r & X).
  exists first_line, first_record, (sample_line e), r. split; [|split; [vm_compute; reflexivity|exact X]].
  assert (V : validate first_line = true) by (vm_compute; reflexivity). assert (T : strip first_line = first_line) by (vm_compute; reflexivity).
  apply validate_framed in V. destruct (strip_trimmed first_line) as (C & D & _). rewrite T in *. split; [exact V|]. split; [exact C|]. split; [exact D|]. exists []. split; [constructor|rewrite app_nil_r; reflexivity].
Qed.
Definition cell_key (c : cell) : string * list nat := (c_name c, c_cols c).
Definition keys_eqb (a b : list (string * list nat)) : bool := if list_eq_dec (fun x y => match string_dec (fst x) (fst y), list_eq_dec Nat.eq_dec (snd x) (snd y) with
  | left p, left q => left (match x, y return fst x = fst y -> snd x = snd y -> x = y with (x1, x2), (y1, y2) => fun p q => f_equal2 pair p q end p q)
  | right n, _ => right (fun E => n (f_equal fst E)) | _, right n => right (fun E => n (f_equal snd E)) end) a b then true else false.
Lemma keys_eqb_refl : forall a, keys_eqb a a = true.
Proof. intro a. unfold keys_eqb. destruct (list_eq_dec _ a a); [reflexivity|congruence]. Qed.
Lemma restriction_cells : forall e e', In e catalogue -> In e' catalogue -> restriction_primary e = true -> e_cells e' = e_cells e -> restriction_primary e' = true /\ e_sections e' = ["EU"].
Proof.
  assert (A : forallb (fun e => forallb (fun e' => negb (restriction_primary e) || negb (keys_eqb (map cell_key (e_cells e')) (map cell_key (e_cells e))) ||
    (restriction_primary e' && match e_sections e' with [s] => String.eqb s "EU" | _ => false end)) catalogue) catalogue = true) by (vm_compute; reflexivity).
  intros e e' I I' R C. rewrite forallb_forall in A. specialize (A e I). cbn beta in A. rewrite forallb_forall in A. specialize (A e' I'). cbn beta in A. rewrite R, C, keys_eqb_refl in A. cbn [negb orb] in A.
  apply andb_true_iff in A as [A B]. split; [exact A|]. destruct (e_sections e') as [|s [|s' m]]; try discriminate B. apply String.eqb_eq in B as ->. reflexivity.
Qed.
Theorem c79_never : forall e line t o r, In e catalogue -> restriction_primary e = true -> record_line line t -> read new_record line = (o, r, Ok true) -> ~ layout_of t r (e_cells e).
Proof.
  intros e line t o r I R RL RD (cont & app & _ & L). destruct (layout_for_entry _ _ _ _ L) as (e' & I' & MM & C). destruct (restriction_cells _ _ I I' R C) as (R' & SE).
  unfold entry_matches in MM. apply andb_true_iff in MM as [MM _]. apply andb_true_iff in MM as [M1 M2]. rewrite SE in M1. cbn [existsb] in M1. rewrite orb_false_r in M1. apply str_eqb_eq in M1.
  assert (P : primary r = false) by (eapply c12_not_primary; [exact RD| |symmetry; exact M1]; cbn; auto).
  unfold restriction_primary in R'. apply andb_true_iff in R' as [_ R']. destruct (e_primary e') as [[|]|]; try discriminate R'. rewrite P in M2. discriminate M2.
Qed.
(* the values on a line *)
Lemma columns_at : forall ks t p k, Forall (fun k => 1 <= k <= List.length t) ks -> nth_error ks p = Some k -> nth_error (columns t ks) p = column t k.
Proof.
  induction ks as [|j ks IH]; intros t [|p] k F P; try discriminate P; inversion F as [|? ? J F']; subst; destruct j as [|j]; try lia; rewrite columns_cons; unfold columns at 1; cbn [flat_map column];
    (destruct (nth_error t j) as [x|] eqn:X; [|apply nth_error_None in X; lia]); cbn [List.app nth_error].
  - injection P as <-. cbn [column]. symmetry. exact X.
  - apply IH; assumption.
Qed.
Lemma columns_size : forall ks t, Forall (fun k => 1 <= k <= List.length t) ks -> List.length (columns t ks) = List.length ks.
Proof.
  intros ks t F. induction F as [|[|j] ks J F IH]; [reflexivity|lia|]. rewrite columns_cons, app_length, IH. unfold columns. cbn [flat_map column]. destruct (nth_error t j) as [x|] eqn:X; [|apply nth_error_None in X; lia]. reflexivity.
Qed.
Lemma in_combine_map : forall A B (f : A -> B) l x y, In (x, y) (combine l (map f l)) -> In x l /\ y = f x.
Proof. induction l as [|a l IH]; intros x y I; [destruct I|]. destruct I as [E|I]; [injection E as <- <-; split; [left|]; reflexivity|]. destruct (IH _ _ I) as (A1 & A2). split; [right; exact A1|exact A2]. Qed.
Theorem c79_line : forall t cells, (forall c, In c cells -> Forall (fun k => 1 <= k <= List.length t) (c_cols c)) -> fills cells (map (fun c => columns t (c_cols c)) cells).
Proof.
  intros t cells B. split.
  - clear - B. induction cells as [|c cells IH]; [constructor|]. cbn [map]. constructor; [apply columns_size, B; left; reflexivity|apply IH; intros d I; apply B; right; exact I].
  - intros c v c' v' p q k I I' P Q. destruct (in_combine_map _ _ _ _ _ _ I) as (J & ->). destruct (in_combine_map _ _ _ _ _ _ I') as (J' & ->).
    rewrite (columns_at _ _ _ _ (B c J) P), (columns_at _ _ _ _ (B c' J') Q). reflexivity.
Qed.
