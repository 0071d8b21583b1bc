(* C87: files that were cut short, and files that were put together. *)
From Coq Require Import List String NArith Bool Arith Lia.
From Verif Require Import PyBase Decoder Layouts Record Api Spec SpecApi StrFacts ReadFacts ReadProps ApiProps Samples Properties5 Properties27.
Import ListNotations.
Open Scope string_scope.
Open Scope list_scope.
Local Open Scope nat_scope.

(* ================= C87 ================= *)
(* a line of at most 132 characters, not counting white space at its end *)
Definition not_longer (l : str) : Prop := exists b v, l = b ++ v /\ whitespace v /\ List.length b <= 132.
Definition cut_of (t1 t : str) : Prop := exists t2, t = t1 ++ t2.

Lemma one_line_app : forall a b, one_line (a ++ b) -> one_line a.
Proof. intros a b H. apply Forall_app in H. apply H. Qed.
Lemma app_split : forall (a b c d : str), a ++ b = c ++ d -> (exists x, c = a ++ x /\ b = x ++ d) \/ (exists x, x <> [] /\ a = c ++ x /\ d = x ++ b).
Proof.
  intro a. induction a as [|y a IH]; intros b [|z c] d H.
  - left. exists []. auto.
  - left. exists (z :: c). auto.
  - right. exists (y :: a). split; [discriminate|]. split; [reflexivity|symmetry; exact H].
  - injection H as -> H. destruct (IH _ _ _ H) as [(x & -> & ->)|(x & N & -> & ->)]; [left|right]; exists x; auto.
Qed.
(* the lines of the beginning of a text: lines of the text, and at the end perhaps the beginning of the next *)
Lemma cut_part : forall l t1 t2 post, one_line l -> l = t1 ++ t2 -> exists pre, lines_of t1 pre /\
  ((exists q, l :: post = pre ++ q) \/ exists pre' p s q, pre = pre' ++ [p] /\ l :: post = pre' ++ (p ++ s) :: q).
Proof.
  intros l t1 t2 post O E. destruct t1 as [|c t1].
  - exists []. split; [constructor|]. left. exists (l :: post). reflexivity.
  - exists [c :: t1]. split; [apply lines_last; [rewrite E in O; apply one_line_app in O; exact O|discriminate]|].
    right. exists [], (c :: t1), t2, post. split; [reflexivity|]. rewrite <- E. reflexivity.
Qed.
Lemma cut_lines : forall t ls, lines_of t ls -> forall t1 t2, t = t1 ++ t2 -> exists pre, lines_of t1 pre /\
  ((exists q, ls = pre ++ q) \/ exists pre' p s q, pre = pre' ++ [p] /\ ls = pre' ++ (p ++ s) :: q).
Proof.
  intros t ls H. induction H as [|l O N|l e rest ls O I C H IH]; intros t1 t2 E.
  - symmetry in E. apply app_eq_nil in E as [-> ->]. exists []. split; [constructor|]. left. exists []. reflexivity.
  - apply (cut_part l t1 t2 []); assumption.
  - destruct (app_split _ _ _ _ E) as [(x & -> & E')|(x & _ & E' & _)]; [|apply (cut_part l t1 x ls); assumption].
    destruct (app_split _ _ _ _ E') as [(y & -> & ->)|(y & N & E2 & _)].
    + destruct (IH y t2 eq_refl) as (pre & L & D). exists (l :: pre). split.
      * apply lines_more; try assumption. intros Q z Z. rewrite Z in C. apply (C Q (z ++ t2)). reflexivity.
      * destruct D as [(q & ->)|(pre' & p & s & q & -> & ->)]; [left; exists q; reflexivity|right; exists (l :: pre'), p, s, q; auto].
    + destruct x as [|c x]; [rewrite List.app_nil_r; apply (cut_part l l [] ls); [exact O|symmetry; apply List.app_nil_r]|].
      assert (X : c :: x = [13%N]).
      { destruct I as [<-|[<-|[<-|[]]]]; destruct x as [|d x]; cbn in E2; try (injection E2 as <- E2; try (destruct x); destruct y; try discriminate; try congruence; reflexivity). }
      rewrite X. exists [l]. split; [|left; exists ls; reflexivity].
      change (l ++ [13%N]) with (l ++ [13%N] ++ []). apply lines_more; [exact O|cbn; auto|intros _ z; discriminate|constructor].
Qed.
(* the beginning of a line is either too short or the line itself without white space at its end *)
Lemma whitespace_app : forall a b, whitespace (a ++ b) -> whitespace a /\ whitespace b.
Proof. intros a b H. apply Forall_app in H. exact H. Qed.
Lemma cut_line : forall p s, not_longer (p ++ s) -> List.length p < 132 \/ exists b v v', whitespace v /\ whitespace v' /\ p = b ++ v /\ p ++ s = b ++ v'.
Proof.
  intros p s (b & v & E & W & L). destruct (Nat.lt_ge_cases (List.length p) 132) as [X|X]; [left; exact X|right].
  destruct (app_split _ _ _ _ E) as [(x & -> & ->)|(x & N & -> & ->)].
  - rewrite List.app_length in L. assert (x = []) by (destruct x; [reflexivity|cbn in L; lia]). subst x. exists p, [], v. rewrite !List.app_nil_r. split; [constructor|auto].
  - apply whitespace_app in W as W'. destruct W'. exists b, x, (x ++ s). rewrite List.app_assoc. auto.
Qed.
Lemma short_read : forall p, List.length p < 132 -> read new_record p = ([], new_record, Ok false).
Proof.
  intros p L. apply (c01_read new_record p (strip p)); [apply strip_trimmed|]. intro F. apply framed_length in F. pose proof (strip_length p). lia.
Qed.
Lemma short_parse : forall p output, List.length p < 132 -> parse p output = ([], Ok false).
Proof. intros p output L. unfold parse. rewrite short_read by exact L. reflexivity. Qed.

Lemma search_short : forall fl p ls n, List.length p < 132 -> search_lines fl n (ls ++ [p]) = search_lines fl n ls.
Proof.
  intros fl p ls n S. revert n. induction ls as [|l ls IH]; intro n; cbn [app search_lines]; [rewrite short_read by exact S; reflexivity|].
  destruct (read new_record l) as [[o r] [x|e]]; [|reflexivity]. rewrite !IH. reflexivity.
Qed.

(* what read_file and search do with a file that was cut is what they do with some first lines of the whole file *)
Lemma cut_whole : forall t t1 ls, lines_of t ls -> cut_of t1 t -> Forall not_longer ls -> exists k q ks, ls = k ++ q /\ lines_of t1 ks /\
  (forall output, for_each (parse_line output) ks = for_each (parse_line output) k) /\ (forall fl n, search_lines fl n ks = search_lines fl n k).
Proof.
  intros t t1 ls L [t2 E] F. destruct (cut_lines t ls L t1 t2 E) as (pre & L1 & [(q & ->)|(pre' & p & s & q & -> & ->)]); [exists pre, q, pre; auto|].
  apply Forall_app in F as [_ F]. inversion F as [|x y NL _]; subst. destruct (cut_line p s NL) as [S|(b & v & v' & W & W' & -> & E')].
  - exists pre', ((p ++ s) :: q), (pre' ++ [p]). split; [reflexivity|]. split; [exact L1|]. split.
    + intro output. rewrite for_each_app. cbn [for_each]. unfold parse_line at 2. rewrite short_parse by exact S. cbn [bind ret]. destruct (for_each (parse_line output) pre') as [o [[]|e]]; [|reflexivity]. cbn. rewrite List.app_nil_r. reflexivity.
    + intros fl n. apply search_short. exact S.
  - exists (pre' ++ [(b ++ v) ++ s]), q, (pre' ++ [b ++ v]). split; [rewrite <- (List.app_assoc pre'); reflexivity|]. split; [exact L1|]. split.
    + intro output. rewrite !for_each_app, E'. cbn [for_each]. unfold parse_line at 2 4. rewrite !parse_trailing by assumption. reflexivity.
    + intros fl n. rewrite E'. transitivity (search_lines fl n (pre' ++ [b])); [|symmetry]; (apply search_trailing; apply Forall2_app; [clear; induction pre' as [|l pre' IH]; constructor; [exists []; rewrite List.app_nil_r; split; [constructor|reflexivity]|exact IH]|constructor; [|constructor]; eauto]).
Qed.
Theorem C87_cut : forall w w' p t t1 ls output, open_text w p = Ok t -> open_text w' p = Ok t1 -> cut_of t1 t -> lines_of t ls -> Forall not_longer ls ->
  (snd (read_file w' p output) = Ok tt -> exists more, output_of (read_file w p output) = output_of (read_file w' p output) ++ more) /\
  (forall e, snd (read_file w' p output) = Err e -> read_file w p output = read_file w' p output).
Proof.
  intros w w' p t t1 ls output O O' C L F. destruct (cut_whole t t1 ls L C F) as (k & q & ks & -> & L1 & R & _).
  rewrite (read_file_lines _ _ _ _ _ O L), (read_file_lines _ _ _ _ _ O' L1), R, for_each_app. destruct (for_each (parse_line output) k) as [o [[]|e]]; cbn [bind snd fst output_of].
  - split; [|discriminate]. intros _. destruct (for_each (parse_line output) q) as [o' r]. exists o'. reflexivity.
  - split; [discriminate|reflexivity].
Qed.
Print Assumptions C87_cut.

(* search in a file that was cut: the first of the records, and a smaller number of them *)
Lemma search_reads : forall fl ls, Forall reads ls -> exists o c, forall n rest, search_lines fl n (ls ++ rest) = ((o, Ok tt) ;;; search_lines fl (n + c) rest).
Proof.
  intros fl ls R. destruct (reports fl ls R) as (g & F & _). eexists _, _. intros n rest. apply (search_steps fl ls (map g ls) n rest). apply Forall_map2, F.
Qed.
Theorem C87_cut_search : forall w w' p t t1 ls fl, open_text w p = Ok t -> open_text w' p = Ok t1 -> cut_of t1 t -> lines_of t ls -> Forall not_longer ls ->
  snd (search w p fl) = Ok tt -> exists o more m n ev ev', search w' p fl = (o ++ [ev], Ok tt) /\ search w p fl = (o ++ more ++ [ev'], Ok tt) /\ summary fl m ev /\ summary fl n ev' /\ m <= n.
Proof.
  intros w w' p t t1 ls fl O O' C L F H. destruct (cut_whole t t1 ls L C F) as (k & q & ks & -> & L1 & _ & R).
  rewrite (search_unfold _ _ _ _ _ O L) in *. rewrite (search_unfold _ _ _ _ _ O' L1), R.
  assert (A : Forall reads (k ++ q)) by (destruct (search_lines fl 0 (k ++ q)) as [o [c|e]] eqn:E; [exact (search_inv _ _ _ _ _ E)|discriminate H]).
  apply Forall_app in A as [A B]. destruct (search_reads fl k A) as (o & m & K), (search_reads fl q B) as (o2 & n & Q).
  pose proof (K 0 []) as K0. pose proof (Q (0 + m) []) as Q0. rewrite List.app_nil_r in K0, Q0. rewrite K0, (K 0 q), Q0. cbn [search_lines bind ret emit]. rewrite !List.app_nil_r.
  exists o, o2, (0 + m), (0 + m + n), (found (0 + m) fl), (found (0 + m + n) fl). rewrite <- List.app_assoc. repeat split; try apply found_summary. lia.
Qed.
Print Assumptions C87_cut_search.

(* with longer lines the cut can make a record of what was none *)
Definition l_long : str := l_sea ++ lit "0".
Theorem C87_longer_refuted : ~ (forall w w' p t t1 output, open_text w p = Ok t -> open_text w' p = Ok t1 -> cut_of t1 t -> snd (read_file w' p output) = Ok tt ->
  exists more, output_of (read_file w p output) = output_of (read_file w' p output) ++ more).
Proof.
  intro H. destruct (H (disk l_long) (disk l_sea) (lit "d/f") l_long l_sea true eq_refl eq_refl (ex_intro _ (lit "0") eq_refl) ltac:(vm_compute; reflexivity)) as [more E].
  apply (f_equal (@List.length event)) in E. rewrite List.app_length in E. vm_compute in E. discriminate E.
Qed.
Print Assumptions C87_longer_refuted.

(* Two files one after the other, the first without a newline at its end: the last line of the first and the first line of the second are one line. *)
Definition complete (t : str) : Prop := t = [] \/ exists b c, t = b ++ [c] /\ (c = 10%N \/ c = 13%N).
Lemma complete_more : forall l e rest, In e line_ends -> complete (l ++ e ++ rest) -> complete rest.
Proof.
  intros l e rest I [H|(b & c & H & D)].
  - apply app_eq_nil in H as [_ H]. apply app_eq_nil in H as [_ ->]. left. reflexivity.
  - destruct rest as [|x rest]; [left; reflexivity|right]. destruct (exists_last (l := x :: rest)) as (b' & c' & E); [discriminate|]. rewrite E in *. exists b', c'. split; [reflexivity|].
    rewrite !List.app_assoc in H. apply app_inj_tail in H as [_ ->]. exact D.
Qed.
Lemma seam_lines : forall x y t2 lb, one_line x -> lines_of t2 (y :: lb) -> lines_of (x ++ t2) ((x ++ y) :: lb).
Proof.
  intros x y t2 lb O H. inversion H as [|l O' N E1 E2|l e rest ls O' I C H' E1 E2]; subst.
  - apply lines_last; [apply Forall_app; auto|]. destruct x; [exact N|discriminate].
  - rewrite List.app_assoc. apply lines_more; try assumption. apply Forall_app; auto.
Qed.
Lemma join_lines : forall a la, lines_of a la -> complete a -> forall t2 l lb, lines_of t2 (l :: lb) -> (forall z, t2 <> 10%N :: z) -> lines_of (a ++ t2) (la ++ l :: lb).
Proof.
  intros a la H. induction H as [|l O N|l e rest ls O I C H IH]; intros K t2 y lb L B.
  - exact L.
  - exfalso. destruct K as [K|(b & c & -> & D)]; [contradiction|]. apply Forall_app in O as [_ O]. inversion O as [|? ? [A B'] _]; subst. destruct D; contradiction.
  - apply complete_more in K; [|exact I]. cbn [app]. rewrite <- !List.app_assoc. apply lines_more; [exact O|exact I| |apply IH; assumption].
    intros -> z Z. destruct rest as [|r rest]; [exact (B z Z)|]. injection Z as -> Z. exact (C eq_refl rest eq_refl).
Qed.
Theorem C87_seam : forall w p a la x t2 y lb output, open_text w p = Ok (a ++ x ++ t2) -> lines_of a la -> complete a -> one_line x -> x <> [] -> lines_of t2 (y :: lb) ->
  Forall (fun l => succeeds (parse l output)) (la ++ (x ++ y) :: lb) ->
  read_file w p output = (List.concat (map (fun l => output_of (parse l output)) (la ++ (x ++ y) :: lb)), Ok tt).
Proof.
  intros w p a la x t2 y lb output O L K OX N L2 S. apply (C37_line_by_line w p output (a ++ x ++ t2)); [exact O| |exact S].
  apply join_lines; [exact L|exact K|apply seam_lines; assumption|]. intros z Z. destruct x as [|c x]; [contradiction|]. injection Z as -> _. inversion OX as [|? ? [A _] _]. contradiction.
Qed.
Print Assumptions C87_seam.
Lemma last_space : forall b c, no_trailing_space (b ++ [c]) <-> space_char c = false.
Proof.
  intros b c. unfold no_trailing_space, column. rewrite List.app_length. cbn [List.length]. rewrite Nat.add_1_r, nth_error_app2, Nat.sub_diag by lia. cbn [nth_error].
  split; [intro H; apply H; reflexivity|]. intros H d E. injection E as <-. exact H.
Qed.
(* if both were records, neither is shown, and nothing is said *)
Lemma two_records : forall x y tx ty output, record_line x tx -> record_line y ty -> parse (x ++ y) output = ([], Ok false).
Proof.
  intros x y tx ty output (FX & LX & _ & px & _ & ->) (FY & _ & TY & py & W & ->).
  apply framed_length in FX as NX. apply framed_length in FY as NY. apply (c01_parse _ (strip ((tx ++ px) ++ ty ++ py))); [apply strip_trimmed|].
  rewrite List.app_assoc, strip_app_ws by exact W. rewrite strip_id.
  - intro F. apply framed_length in F. rewrite !List.app_length in F. lia.
  - destruct tx as [|c tx]; [discriminate NX|]. exact LX.
  - destruct (exists_last (l := ty)) as (b & c & E); [intros ->; discriminate NY|]. subst ty. rewrite List.app_assoc. apply last_space, (last_space b), TY.
Qed.
Theorem C87_both_lost : forall w p a la x tx t2 y ty lb output, open_text w p = Ok (a ++ x ++ t2) -> lines_of a la -> complete a -> one_line x -> record_line x tx ->
  lines_of t2 (y :: lb) -> record_line y ty -> Forall (fun l => succeeds (parse l output)) (la ++ lb) ->
  read_file w p output = (List.concat (map (fun l => output_of (parse l output)) (la ++ lb)), Ok tt).
Proof.
  intros w p a la x tx t2 y ty lb output O L K OX RX L2 RY S. pose proof (two_records x y tx ty output RX RY) as T. apply Forall_app in S as [SA SB].
  rewrite (C87_seam w p a la x t2 y lb output); try assumption.
  - rewrite !map_app, !concat_app. cbn [map List.concat]. rewrite T. reflexivity.
  - destruct RX as (FX & _ & _ & px & _ & ->). intro N. apply app_eq_nil in N as [-> _]. apply framed_length in FX. discriminate FX.
  - apply Forall_app. split; [exact SA|]. constructor; [eexists _, _; exact T|exact SB].
Qed.
Print Assumptions C87_both_lost.
Theorem C87_join_refuted : ~ (forall w w1 w2 p t1 t2 output, open_text w p = Ok (t1 ++ t2) -> open_text w1 p = Ok t1 -> open_text w2 p = Ok t2 ->
  snd (read_file w1 p output) = Ok tt -> output_of (read_file w p output) = output_of (read_file w1 p output) ++ output_of (read_file w2 p output)).
Proof.
  intro H. specialize (H (disk (l_sea ++ l_acv)) (disk l_sea) (disk l_acv) (lit "d/f") l_sea l_acv true eq_refl eq_refl eq_refl ltac:(vm_compute; reflexivity)).
  apply (f_equal (@List.length event)) in H. vm_compute in H. discriminate H.
Qed.
Print Assumptions C87_join_refuted.
Example C87_ex :
  (* a file of two records cut within the second *)
  cut_of (l_sea ++ [10%N] ++ firstn 131 l_acv) (l_sea ++ [10%N] ++ l_acv) /\ Forall not_longer [l_sea; l_acv ++ lit "  "] /\
  read_file (disk (l_sea ++ [10%N] ++ firstn 131 l_acv)) (lit "d/f") true = (output_of (parse l_sea true), Ok tt) /\ List.length (output_of (parse l_sea true)) = 1 /\
  search (disk (l_sea ++ [10%N] ++ firstn 131 l_acv)) (lit "d/f") (FStr (lit "A")) = ([EvPrint l_sea; EvColored (lit "green") (lit "Found 1 records that contain A")], Ok tt) /\
  (* a record and another, with a newline between them and without *)
  List.length (output_of (read_file (disk (l_sea ++ [10%N] ++ l_acv)) (lit "d/f") true)) = 2 /\
  read_file (disk (l_sea ++ l_acv)) (lit "d/f") true = ([], Ok tt) /\
  (* two files of two records each *)
  read_file (disk (l_sea ++ [10%N] ++ l_acv ++ l_acv ++ [10%N] ++ l_sea)) (lit "d/f") true = (output_of (parse l_sea true) ++ output_of (parse l_sea true), Ok tt).
Proof.
  split; [exists (skipn 131 l_acv); vm_compute; reflexivity|]. split; [constructor; [|constructor; [|constructor]]|].
  - exists l_sea, []. split; [symmetry; apply List.app_nil_r|]. split; [constructor|apply Nat.leb_le; vm_compute; reflexivity].
  - exists l_acv, (lit "  "). split; [reflexivity|]. split; [repeat constructor|apply Nat.leb_le; vm_compute; reflexivity].
  - repeat match goal with |- _ /\ _ => split end; vm_compute; reflexivity.
Qed.
