(* Files in other encodings than UTF-8: what open(file) makes of them where the locale has a code page of single bytes. *)
From Coq Require Import List NArith ZArith Bool Arith Lia.
From Verif Require Import PyBase PyStr Decoder Layouts Record Api Utf8 SpecLayouts Spec SpecApi SpecUtf8 StrFacts ReadProps ApiProps Utf8Props.
Import ListNotations.
Open Scope list_scope.
Local Open Scope nat_scope.

(* a code page: the character of each byte, if it has one; errors='strict' (UnicodeDecodeError is a ValueError) *)
Definition page := N -> option N.
Fixpoint decode_page (pg : page) (bs : list N) : result str :=
  match bs with
  | [] => Ok []
  | b :: r => match pg b with Some c => bindR (decode_page pg r) (fun t => Ok (c :: t)) | None => Err ValueError end
  end.
Definition mount_page (pg : page) (d : disk) : world := World (fun p => bindR (contents d p) (decode_page pg)) (entries d).
Definition latin1 : page := fun b => if (b <? 256)%N then Some b else None.
(* Windows; Python's cp1252 leaves five bytes undefined *)
Definition cp1252_high : list N := [8364; 0; 8218; 402; 8222; 8230; 8224; 8225; 710; 8240; 352; 8249; 338; 0; 381; 0; 0; 8216; 8217; 8220; 8221; 8226; 8211; 8212; 732; 8482; 353; 8250; 339; 0; 382; 376]%N.
Definition cp1252 : page := fun b =>
  if (128 <=? b)%N && (b <? 160)%N then match nth_error cp1252_high (N.to_nat (b - 128)) with Some 0%N | None => None | Some c => Some c end
  else if (b <? 256)%N then Some b else None.
Definition ascii : page := fun b => if (b <? 128)%N then Some b else None.

(* what the theorems presume of a code page: ASCII is in it, at the bytes of ASCII only *)
Definition extends_ascii (pg : page) : Prop := (forall b, (b < 128)%N -> pg b = Some b) /\ (forall b c, (128 <= b)%N -> pg b = Some c -> (128 <= c)%N).
(* and the bytes with which UTF-8 begins a character are neither spaces nor numbers in it *)
Definition western (pg : page) : Prop := extends_ascii pg /\ forall b c, (194 <= b <= 244)%N -> pg b = Some c -> space_char c = false /\ numeric_char c = false.
Definition is_ascii (t : str) : Prop := Forall (fun c => (c < 128)%N) t.
Definition asciib (t : str) : bool := forallb (fun c => (c <? 128)%N) t.
Lemma asciib_iff : forall t, asciib t = true <-> is_ascii t.
Proof. intro t. unfold asciib, is_ascii. rewrite forallb_forall, Forall_forall. split; intros H c I; specialize (H c I); apply N.ltb_lt; exact H. Qed.

Lemma one_ascii : forall c, (c < 128)%N -> is_ascii [c].
Proof. intros c L. constructor; [exact L|constructor]. Qed.

Lemma bytes_below : forall (P : N -> bool) n, forallb (fun k => P (N.of_nat k)) (seq 0 n) = true -> forall b, (b < N.of_nat n)%N -> P b = true.
Proof. intros P n H b L. rewrite forallb_forall in H. rewrite <- (N2Nat.id b). apply H. apply in_seq. lia. Qed.
Definition fits (pg : page) (b : N) : bool :=
  if (b <? 128)%N then match pg b with Some c => (c =? b)%N | None => false end
  else match pg b with Some c => (128 <=? c)%N && (negb ((194 <=? b)%N && (b <=? 244)%N) || negb (space_char c) && negb (numeric_char c)) | None => true end.
Lemma fits_western : forall pg, (forall b, (256 <= b)%N -> pg b = None) -> forallb (fun k => fits pg (N.of_nat k)) (seq 0 256) = true -> western pg.
Proof.
  intros pg O H. assert (F : forall b, (b < 256)%N -> fits pg b = true) by (apply (bytes_below _ 256 H)).
  assert (G : forall b c, pg b = Some c -> (b < 256)%N) by (intros b c E; destruct (N.ltb_spec b 256) as [L|L]; [exact L|rewrite (O b L) in E; discriminate E]).
  split; [split|].
  - intros b L. specialize (F b ltac:(lia)). unfold fits in F. rewrite (proj2 (N.ltb_lt _ _) L) in F. destruct (pg b) as [c|]; [|discriminate F]. apply N.eqb_eq in F. subst c. reflexivity.
  - intros b c L E. specialize (F b (G _ _ E)). unfold fits in F. rewrite (proj2 (N.ltb_ge _ _) L), E in F. apply andb_true_iff in F as [F _]. apply N.leb_le. exact F.
  - intros b c L E. specialize (F b (G _ _ E)). unfold fits in F. rewrite (proj2 (N.ltb_ge _ _) (ltac:(lia) : (128 <= b)%N)), E in F. apply andb_true_iff in F as [_ F].
    rewrite (proj2 (N.leb_le _ _) (proj1 L)), (proj2 (N.leb_le _ _) (proj2 L)) in F. cbn [andb negb orb] in F. apply andb_true_iff in F as [F1 F2]. split; apply negb_true_iff; assumption.
Qed.
Lemma latin1_western : western latin1.
Proof. apply fits_western; [intros b L; unfold latin1; rewrite (proj2 (N.ltb_ge _ _) L); reflexivity|vm_compute; reflexivity]. Qed.
Lemma cp1252_western : western cp1252.
Proof.
  apply fits_western; [|vm_compute; reflexivity]. intros b L. unfold cp1252. rewrite (proj2 (N.ltb_ge b 160)), andb_false_r, (proj2 (N.ltb_ge _ _) L) by lia. reflexivity.
Qed.
Lemma ascii_western : western ascii.
Proof. apply fits_western; [intros b L; unfold ascii; rewrite (proj2 (N.ltb_ge b 128)) by lia; reflexivity|vm_compute; reflexivity]. Qed.

Lemma decode_page_iff : forall pg bs u, decode_page pg bs = Ok u <-> Forall2 (fun b c => pg b = Some c) bs u.
Proof.
  intros pg. induction bs as [|b bs IH]; intro u; cbn [decode_page].
  - split; [intro H; injection H as <-; constructor|intro H; inversion H; reflexivity].
  - destruct (pg b) as [c|] eqn:E; [|split; [discriminate|intro H; inversion H; congruence]]. split.
    + intro H. destruct (decode_page pg bs) as [t|]; [|discriminate H]. injection H as <-. constructor; [exact E|apply IH; reflexivity].
    + intro H. inversion H as [|? c' ? t P Q]; subst. rewrite E in P. injection P as <-. rewrite (proj2 (IH t) Q). reflexivity.
Qed.
Lemma decode_page_ascii : forall pg bs, extends_ascii pg -> is_ascii bs -> decode_page pg bs = Ok bs.
Proof. intros pg bs [E _] A. apply decode_page_iff. induction A as [|b bs L A IH]; constructor; [apply E; exact L|exact IH]. Qed.
Lemma ascii_open : forall pg d p bs, extends_ascii pg -> contents d p = Ok bs -> is_ascii bs -> open_text (mount_page pg d) p = open_text (mount d) p.
Proof. intros pg d p bs E C A. rewrite (mount_open d p bs bs C (utf8_ascii _ A)). cbn [mount_page open_text]. rewrite C. cbn [bindR]. apply decode_page_ascii; assumption. Qed.
Lemma err_open : forall pg d p e, contents d p = Err e -> open_text (mount_page pg d) p = open_text (mount d) p.
Proof. intros pg d p e C. cbn [mount_page mount open_text]. rewrite C. reflexivity. Qed.
Lemma file_open : forall w w' p, open_text w p = open_text w' p -> (forall o, read_file w p o = read_file w' p o) /\ (forall fl, search w p fl = search w' p fl).
Proof. intros w w' p E. split; intros; [unfold read_file|unfold search]; rewrite E; reflexivity. Qed.
Lemma for_each_ext : forall A (f g : A -> M unit) l, (forall a, In a l -> f a = g a) -> for_each f l = for_each g l.
Proof. intros A f g l. induction l as [|a l IH]; intro H; [reflexivity|]. cbn [for_each]. rewrite (H a (or_introl eq_refl)), IH; [reflexivity|]. intros b I. apply H. right. exact I. Qed.

Lemma Forall2_length : forall A B (R : A -> B -> Prop) l m, Forall2 R l m -> List.length l = List.length m.
Proof. intros A B R l m H. induction H; cbn; congruence. Qed.

(* ---- a text in UTF-8 seen through a code page ---- *)
Section Seen.
Variable pg : page.
Hypothesis W : western pg.
Definition seen (t u : str) : Prop := exists bs, utf8 t bs /\ Forall2 (fun b c => pg b = Some c) bs u.
Lemma seen_nil : forall u, seen [] u -> u = [].
Proof. intros u (bs & (ps & F & ->) & P). inversion F; subst. cbn in P. inversion P. reflexivity. Qed.
Lemma seen_cons : forall c t u, seen (c :: t) u -> exists p uc ut, encoding c p /\ Forall2 (fun b c => pg b = Some c) p uc /\ u = uc ++ ut /\ seen t ut.
Proof.
  intros c t u (bs & (ps & F & ->) & P). inversion F as [|? p ? ps' E F']; subst. cbn [List.concat] in P. apply Forall2_app_inv_l in P as (uc & ut & P1 & P2 & ->).
  exists p, uc, ut. split; [exact E|]. split; [exact P1|]. split; [reflexivity|]. exists (List.concat ps'). split; [exists ps'; split; [exact F'|reflexivity]|exact P2].
Qed.
Lemma seen_app : forall a b u, seen (a ++ b) u -> exists ua ub, u = ua ++ ub /\ seen a ua /\ seen b ub.
Proof.
  induction a as [|c a IH]; intros b u H.
  - exists [], u. split; [reflexivity|]. split; [exists []; split; [exact utf8_nil|constructor]|exact H].
  - cbn [List.app] in H. destruct (seen_cons _ _ _ H) as (p & uc & ut & E & P & -> & K). destruct (IH b ut K) as (ua & ub & -> & (bs & U & Q) & B). exists (uc ++ ua), ub. split; [apply app_assoc|]. split; [|exact B].
    exists (p ++ bs). split; [apply utf8_cons; assumption|apply Forall2_app; assumption].
Qed.
Lemma ascii_encoding : forall c p, encoding c p -> (c < 128)%N -> p = [c].
Proof. intros c p E L. inversion E; subst; try lia. reflexivity. Qed.
Lemma high_encoding : forall c p, encoding c p -> (128 <= c)%N -> exists x q, p = x :: q /\ (194 <= x <= 244)%N /\ 1 <= List.length q <= 3 /\ Forall (fun b => (128 <= b)%N) q.
Proof.
  assert (D : forall a b c : N, (0 < b)%N -> (a * b <= c)%N -> (a <= c / b)%N) by (intros a b c P L; apply N.div_le_lower_bound; [lia|rewrite N.mul_comm; exact L]).
  assert (U : forall a b c : N, (c < a * b)%N -> (c / b < a)%N) by (intros a b c L; apply N.div_lt_upper_bound; [lia|rewrite N.mul_comm; exact L]).
  intros c p E L. inversion E as [c0 B|c0 B|c0 B S|c0 B]; subst; [lia| | |]; eexists _, _; (split; [reflexivity|]).
  - pose proof (D 2 64 c ltac:(lia) ltac:(lia))%N. pose proof (U 32 64 c ltac:(lia))%N. split; [lia|]. split; [cbn; lia|]. repeat constructor; lia.
  - pose proof (U 16 4096 c ltac:(lia))%N. split; [lia|]. split; [cbn; lia|]. repeat constructor; lia.
  - pose proof (U 5 262144 c ltac:(lia))%N. split; [lia|]. split; [cbn; lia|]. repeat constructor; lia.
Qed.
Lemma seen_ascii : forall a u, is_ascii a -> seen a u -> u = a.
Proof.
  intros a u A. revert u. induction A as [|c a L A IH]; intros u H; [exact (seen_nil _ H)|]. destruct (seen_cons _ _ _ H) as (p & uc & ut & E & P & -> & K). rewrite (ascii_encoding _ _ E L) in P. inversion P as [|? d ? v Q R]; subst. inversion R; subst.
  destruct W as [[WA _] _]. rewrite (WA c L) in Q. injection Q as <-. rewrite (IH _ K). reflexivity.
Qed.
Lemma seen_high : forall c t u, (128 <= c)%N -> seen (c :: t) u -> exists x q ut, u = x :: q ++ ut /\ (128 <= x)%N /\ space_char x = false /\ numeric_char x = false /\ 1 <= List.length q <= 3 /\ Forall (fun b => (128 <= b)%N) q /\ seen t ut.
Proof.
  intros c t u L H. destruct (seen_cons _ _ _ H) as (p & uc & ut & E & P & -> & K). destruct (high_encoding _ _ E L) as (x & q & -> & B & Q & G). inversion P as [|? y ? v X Y]; subst. destruct W as [[_ WH] WL]. destruct (WL _ _ B X) as [S N].
  exists y, v, ut. split; [reflexivity|]. split; [apply (WH x); [lia|exact X]|]. split; [exact S|]. split; [exact N|]. split; [rewrite <- (Forall2_length _ _ _ _ _ Y); exact Q|]. split; [|exact K].
  clear - Y G WH. induction Y as [|a b q v E Y IH]; [constructor|]. inversion G; subst. constructor; [apply (WH a); assumption|apply IH; assumption].
Qed.
Lemma seen_length : forall t u, seen t u -> List.length t <= List.length u /\ (~ is_ascii t -> List.length t < List.length u).
Proof.
  induction t as [|c t IH]; intros u H; [split; [cbn; lia|intro N; destruct N; constructor]|]. destruct (N.ltb_spec c 128) as [L|L].
  - destruct (seen_cons _ _ _ H) as (p & uc & ut & E & P & -> & K). rewrite (ascii_encoding _ _ E L) in P. rewrite app_length, <- (Forall2_length _ _ _ _ _ P). destruct (IH _ K) as [I1 I2]. cbn [List.length]. split; [lia|]. intro N. assert (N' : ~ is_ascii t) by (intro A; apply N; constructor; assumption). specialize (I2 N'). lia.
  - destruct (seen_high _ _ _ L H) as (x & q & ut & -> & _ & _ & _ & Q & _ & K). destruct (IH _ K) as [I1 _]. cbn [List.length]. rewrite app_length. split; [lia|]. intros _. lia.
Qed.
Lemma last_high : forall t : str, is_ascii t \/ exists a c w, t = a ++ c :: w /\ (128 <= c)%N /\ is_ascii w.
Proof.
  induction t as [|c t IH]; [left; constructor|]. destruct IH as [A|(a & d & w & -> & H & A)]; [|right; exists (c :: a), d, w; repeat split; assumption].
  destruct (N.ltb_spec c 128) as [L|L]; [left; constructor; assumption|right; exists [], c, t; repeat split; assumption].
Qed.
Lemma first_high : forall t : str, is_ascii t \/ exists a c w, t = a ++ c :: w /\ (128 <= c)%N /\ is_ascii a.
Proof.
  induction t as [|c t IH]; [left; constructor|]. destruct (N.ltb_spec c 128) as [L|L]; [|right; exists [], c, t; repeat split; [exact L|constructor]].
  destruct IH as [A|(a & d & w & -> & H & A)]; [left; constructor; assumption|right; exists (c :: a), d, w; repeat split; [exact H|constructor; assumption]].
Qed.
Lemma first_solid : forall (a p r r' : str) x y, whitespace a -> whitespace p -> space_char x = false -> space_char y = false -> a ++ x :: r = p ++ y :: r' -> x = y.
Proof.
  induction a as [|c a IH]; intros [|d p] r r' x y A P X Y E; cbn in E.
  - injection E as -> _. reflexivity.
  - injection E as -> _. inversion P; congruence.
  - injection E as -> _. inversion A; congruence.
  - injection E as -> E. inversion A; inversion P; subst. eapply IH; eassumption.
Qed.
Lemma framed_first : forall t, framed t -> exists h x, t = h :: x /\ (h < 128)%N.
Proof.
  intros t (L & S & _). destruct t as [|h x]; [discriminate L|]. exists h, x. split; [reflexivity|]. cbn in S. destruct S as [S|S]; injection S as ->; reflexivity.
Qed.
(* a record with a character outside ASCII, as UTF-8, is no record in the code page *)
Lemma not_framed : forall t u x y, seen t u -> ~ is_ascii t -> trimmed t x -> framed x -> trimmed u y -> ~ framed y.
Proof.
  intros t u x y H NA (T1 & T2 & pre & post & Wp & Wq & ->) FX TY FY. pose proof TY as (Y1 & Y2 & pre' & post' & Wp' & Wq' & EY).
  destruct (framed_first _ FX) as (h & x1 & EX & Lh). destruct (framed_first _ FY) as (h' & y1 & EY1 & Lh').
  destruct (first_high pre) as [AP|(a & c & b & -> & Hc & Aa)].
  2:{ rewrite <- app_assoc in H. destruct (seen_app _ _ _ H) as (ua & ub & -> & SA & SB). rewrite (seen_ascii _ _ Aa SA) in EY. cbn [List.app] in SB. destruct (seen_high _ _ _ Hc SB) as (z & q & ut & -> & Hz & Sz & _).
      apply Forall_app in Wp as [Wa _]. rewrite EY1 in EY. cbn [List.app] in EY. assert (Sh : space_char h' = false) by (apply Y1; rewrite EY1; reflexivity). pose proof (first_solid a pre' _ _ z h' Wa Wp' Sz Sh EY). lia. }
  assert (QR : forall a c w, pre ++ x ++ post = a ++ c :: w -> (128 <= c)%N -> is_ascii w -> whitespace w -> False).
  { intros a c w E Hc Aw Ww. rewrite E in H. destruct (seen_app _ _ _ H) as (ua & ub & -> & _ & SB). destruct (seen_high _ _ _ Hc SB) as (z & q & ut & -> & Hz & Sz & Nz & Lq & _ & SW). rewrite (seen_ascii _ _ Aw SW) in EY. clear SB SW H.
    destruct FY as (LY & _ & NY). pose (i := List.length ua).
    assert (Ni : nth_error (ua ++ z :: q ++ w) i = Some z) by (unfold i; rewrite nth_error_app2, Nat.sub_diag by lia; reflexivity).
    assert (Nl : exists l, nth_error y 131 = Some l /\ space_char l = false).
    { destruct (nth_error y 131) as [l|] eqn:Q; [exists l; split; [reflexivity|]; apply Y2; rewrite LY; exact Q|apply nth_error_None in Q; lia]. }
    destruct Nl as (l & Nl & Sl).
    assert (Li : ~ i < List.length pre').
    { intro L. rewrite EY, nth_error_app1 in Ni by exact L. apply nth_error_In in Ni. unfold whitespace in Wp'. rewrite Forall_forall in Wp'. specialize (Wp' _ Ni). cbv beta in Wp'. congruence. }
    assert (Ui : i < List.length pre' + 132).
    { destruct (Nat.lt_ge_cases i (List.length pre' + 132)) as [L|L]; [exact L|]. rewrite EY, nth_error_app2, nth_error_app2 in Ni by lia. apply nth_error_In in Ni. unfold whitespace in Wq'. rewrite Forall_forall in Wq'. specialize (Wq' _ Ni). cbv beta in Wq'. congruence. }
    assert (Nl' : nth_error (ua ++ z :: q ++ w) (List.length pre' + 131) = Some l) by (rewrite EY, nth_error_app2, nth_error_app1 by lia; rewrite <- Nl; f_equal; lia).
    assert (Di : List.length pre' + 131 <= i + 3).
    { destruct (Nat.le_gt_cases (List.length pre' + 131) (i + 3)) as [L|L]; [exact L|]. unfold i in L. rewrite nth_error_app2 in Nl' by lia. destruct (List.length pre' + 131 - List.length ua) as [|k] eqn:K; [lia|]. cbn [nth_error] in Nl'. rewrite nth_error_app2 in Nl' by lia.
      apply nth_error_In in Nl'. unfold whitespace in Ww. rewrite Forall_forall in Ww. specialize (Ww _ Nl'). cbv beta in Ww. congruence. }
    rewrite EY, nth_error_app2, nth_error_app1 in Ni by lia. destruct (NY (S (i - List.length pre')) ltac:(lia)) as (n & Cn & Nn). cbn [column] in Cn. rewrite Ni in Cn. injection Cn as <-. congruence. }
  destruct (last_high post) as [AQ|(a & c & w & -> & Hc & Aw)].
  2:{ apply (QR (pre ++ x ++ a) c w); [rewrite <- !app_assoc; reflexivity|exact Hc|exact Aw|]. apply Forall_app in Wq as [_ Wq]. inversion Wq; assumption. }
  destruct (exists_last (ltac:(rewrite EX; discriminate) : x <> [])) as (x0 & c & EL). destruct (N.ltb_spec c 128) as [Lc|Lc]; [|apply (QR (pre ++ x0) c post); [rewrite EL, <- !app_assoc; reflexivity|exact Lc|exact AQ|exact Wq]].
  destruct (seen_app _ _ _ H) as (up & u1 & -> & SP & S1). destruct (seen_app _ _ _ S1) as (ux & uq & -> & SX & SQ). rewrite (seen_ascii _ _ AP SP), (seen_ascii _ _ AQ SQ) in *. clear H S1 SP SQ.
  assert (NX : ~ is_ascii x) by (intro A; apply NA; unfold is_ascii; rewrite !Forall_app; repeat split; assumption). pose proof (proj2 (seen_length _ _ SX) NX) as LX.
  assert (TX : trimmed (pre ++ ux ++ post) ux).
  { split; [|split; [|exists pre, post; repeat split; assumption]].
    - rewrite EX in SX. change (h :: x1) with ([h] ++ x1) in SX. destruct (seen_app _ _ _ SX) as (uh & ur & -> & SH & _). rewrite (seen_ascii [h] uh (one_ascii _ Lh) SH). intros k Q. cbn in Q. injection Q as <-. apply T1. rewrite EX. reflexivity.
    - rewrite EL in SX. destruct (seen_app _ _ _ SX) as (u0 & uc & -> & _ & SC). rewrite (seen_ascii [c] uc (one_ascii _ Lc) SC). intros k Q. rewrite app_length in Q. cbn [List.length] in Q. rewrite Nat.add_1_r in Q. cbn [column] in Q. rewrite nth_error_app2, Nat.sub_diag in Q by lia. cbn in Q. injection Q as <-.
      apply T2. rewrite EL, app_length. cbn [List.length]. rewrite Nat.add_1_r. cbn [column]. rewrite nth_error_app2, Nat.sub_diag by lia. reflexivity. }
  apply trimmed_unique in TX. apply trimmed_unique in TY. destruct FX as [FX _]. destruct FY as [FY _]. rewrite TY, <- TX in FY. lia.
Qed.
(* the lines of a file stay apart in the code page *)
Lemma seen_low : forall t u c, seen t u -> (c < 128)%N -> In c u -> In c t.
Proof.
  induction t as [|d t IH]; intros u c H L I; [rewrite (seen_nil _ H) in I; destruct I|]. destruct (N.ltb_spec d 128) as [Ld|Ld].
  - change (d :: t) with ([d] ++ t) in H. destruct (seen_app _ _ _ H) as (ud & ut & -> & S1 & S2). rewrite (seen_ascii [d] ud (one_ascii _ Ld) S1) in I. destruct I as [->|I]; [left; reflexivity|right; exact (IH _ _ S2 L I)].
  - destruct (seen_high _ _ _ Ld H) as (x & q & ut & -> & Hx & _ & _ & _ & G & K). destruct I as [->|I]; [lia|]. apply in_app_or in I as [I|I]; [rewrite Forall_forall in G; specialize (G _ I); cbv beta in G; lia|right; exact (IH _ _ K L I)].
Qed.
Lemma seen_one_line : forall l u, one_line l -> seen l u -> one_line u.
Proof.
  intros l u O H. unfold one_line in *. rewrite Forall_forall in *. intros c I. split; intros ->; [apply (proj1 (O 10%N (seen_low l u 10%N H eq_refl I))); reflexivity|apply (proj2 (O 13%N (seen_low l u 13%N H eq_refl I))); reflexivity].
Qed.
Lemma seen_lines : forall t ls, lines_of t ls -> forall u, seen t u -> exists us, lines_of u us /\ Forall2 seen ls us.
Proof.
  intros t ls L. induction L as [|l O N|l e rest ls O E C L IH]; intros u H.
  - rewrite (seen_nil _ H). exists []. split; constructor.
  - exists [u]. split; [|constructor; [exact H|constructor]]. constructor; [eapply seen_one_line; eassumption|]. intros ->. pose proof (proj1 (seen_length _ _ H)) as K. destruct l; [congruence|cbn in K; lia].
  - destruct (seen_app _ _ _ H) as (ul & u1 & -> & S1 & H1). destruct (seen_app _ _ _ H1) as (ue & ur & -> & S2 & S3).
    assert (Ae : is_ascii e) by (cbn in E; destruct E as [<-|[<-|[<-|[]]]]; repeat constructor). rewrite (seen_ascii _ _ Ae S2). destruct (IH _ S3) as (us & K & F). exists (ul :: us). split; [|constructor; assumption].
    constructor; [eapply seen_one_line; eassumption|exact E| |exact K]. intros Q z ->. destruct rest as [|r0 rest]; [pose proof (seen_nil _ S3); discriminate|].
    destruct (N.ltb_spec r0 128) as [Lr|Lr].
    + change (r0 :: rest) with ([r0] ++ rest) in S3. destruct (seen_app _ _ _ S3) as (u0 & u2 & E0 & S0 & _). rewrite (seen_ascii [r0] u0 (one_ascii _ Lr) S0) in E0. injection E0 as <- _. exact (C Q rest eq_refl).
    + destruct (seen_high _ _ _ Lr S3) as (z0 & q & ut & E0 & Hz & _). injection E0 as <- _. lia.
Qed.
End Seen.
