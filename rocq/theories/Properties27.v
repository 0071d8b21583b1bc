(* C85: the order of the lines of a file and of the files of a folder. *)
From Coq Require Import List String NArith Bool Arith Lia Permutation.
From Verif Require Import PyBase Decoder Layouts Record Api Spec SpecApi StrFacts ReadProps ApiProps Samples Properties5.
Import ListNotations.
Open Scope string_scope.
Open Scope list_scope.
Local Open Scope nat_scope.

(* ================= C85 ================= *)
Lemma for_each_inv : forall {A} (body : A -> M unit) l, snd (for_each body l) = Ok tt -> Forall (fun x => succeeds (body x)) l.
Proof.
  intros A body l. induction l as [|x l IH]; intro H; [constructor|]. cbn [for_each] in H. destruct (body x) as [o [u|e]] eqn:E; cbn [bind] in H; [|discriminate H].
  constructor; [exists o, u; exact E|]. apply IH. destruct (for_each body l) as [o' r]. exact H.
Qed.
Lemma Permutation_concat : forall {A} (l m : list (list A)), Permutation l m -> Permutation (List.concat l) (List.concat m).
Proof.
  intros A l m H. induction H as [|x l m _ IH|x y l|l m k _ IH1 _ IH2]; cbn [List.concat]; [constructor|apply Permutation_app_head; exact IH| |eapply Permutation_trans; eassumption].
  rewrite !List.app_assoc. apply Permutation_app_tail, Permutation_app_comm.
Qed.
Lemma for_each_perm : forall {A} (body : A -> M unit) l l', Permutation l l' -> snd (for_each body l) = Ok tt ->
  snd (for_each body l') = Ok tt /\ Permutation (fst (for_each body l)) (fst (for_each body l')).
Proof.
  intros A body l l' P H. apply for_each_inv in H. assert (H' : Forall (fun x => succeeds (body x)) l') by (eapply Permutation_Forall; eassumption).
  rewrite (for_each_ok body l H), (for_each_ok body l' H'). split; [reflexivity|]. cbn [fst]. apply Permutation_concat, Permutation_map, P.
Qed.
Lemma unit_cases : forall (r : result unit), r = Ok tt \/ exists e, r = Err e.
Proof. intros [[]|e]; [left; reflexivity|right; exists e; reflexivity]. Qed.

(* the lines of a file in another order: the same output in another order, if nothing is raised; otherwise something is raised in either order *)
Theorem C85_lines : forall w w' p p' t t' ls ls' output, open_text w p = Ok t -> lines_of t ls -> open_text w' p' = Ok t' -> lines_of t' ls' -> Permutation ls ls' ->
  (snd (read_file w p output) = Ok tt -> snd (read_file w' p' output) = Ok tt /\ Permutation (output_of (read_file w p output)) (output_of (read_file w' p' output))) /\
  (forall e, snd (read_file w p output) = Err e -> exists e', snd (read_file w' p' output) = Err e').
Proof.
  intros w w' p p' t t' ls ls' output O L O' L' P. rewrite (read_file_lines _ _ _ _ _ O L), (read_file_lines _ _ _ _ _ O' L'). split; [apply for_each_perm; exact P|].
  intros e E. destruct (unit_cases (snd (for_each (parse_line output) ls'))) as [X|X]; [|exact X]. apply Permutation_sym in P. apply (for_each_perm _ _ _ P) in X as [X _]. congruence.
Qed.
Print Assumptions C85_lines.

(* the entries of a folder in another order, which os.scandir leaves open *)
Theorem C85_folder : forall w w' p ns ns', (forall f, open_text w' f = open_text w f) -> scandir w p = Ok ns -> scandir w' p = Ok ns' -> Permutation ns ns' ->
  (snd (read_folder w p) = Ok tt -> snd (read_folder w' p) = Ok tt /\ Permutation (output_of (read_folder w p)) (output_of (read_folder w' p))) /\
  (forall e, snd (read_folder w p) = Err e -> exists e', snd (read_folder w' p) = Err e').
Proof.
  intros w w' p ns ns' S D D' P.
  assert (E : forall v ms, (forall f, open_text v f = open_text w f) -> scandir v p = Ok ms -> read_folder v p = for_each (fun n => read_file w (path_join p n) true) ms).
  { intros v ms Sv Dv. unfold read_folder. rewrite Dv. cbn [lift bind]. assert (X : for_each (fun n => read_file v (path_join p n) true) ms = for_each (fun n => read_file w (path_join p n) true) ms).
    { clear Dv. induction ms as [|m ms IH]; [reflexivity|]. cbn [for_each]. rewrite IH. unfold read_file at 1 3. rewrite Sv. reflexivity. }
    rewrite X. destruct (for_each (fun n => read_file w (path_join p n) true) ms) as [o r]. reflexivity. }
  rewrite (E w ns (fun f => eq_refl) D), (E w' ns' S D'). split; [apply for_each_perm; exact P|].
  intros e X. match goal with |- exists e', snd ?b = _ => destruct (unit_cases (snd b)) as [Y|Y] end; [|exact Y]. apply Permutation_sym in P. apply (for_each_perm _ _ _ P) in Y as [Y _]. congruence.
Qed.
Print Assumptions C85_folder.

(* search: the same records in another order, and the same last line *)
Lemma search_inv : forall fl ls n o c, search_lines fl n ls = (o, Ok c) -> Forall reads ls.
Proof.
  intros fl ls. induction ls as [|l ls IH]; intros n o c H; [constructor|]. cbn [search_lines] in H. destruct (read new_record l) as [[ol r] [b|e]] eqn:R; [|discriminate H].
  constructor; [exists b; unfold returned; rewrite R; reflexivity|]. cbn [bind] in H.
  destruct (negb b); [|destruct (negb (passes fl (raw r)))].
  - destruct (search_lines fl n ls) as [o1 [c1|e1]] eqn:E; [exact (IH _ _ _ E)|discriminate H].
  - destruct (search_lines fl n ls) as [o1 [c1|e1]] eqn:E; [exact (IH _ _ _ E)|discriminate H].
  - unfold say, emit in H. cbn [bind] in H. destruct (search_lines fl (n + 1) ls) as [o1 [c1|e1]] eqn:E; [exact (IH _ _ _ E)|discriminate H].
Qed.
Lemma reports : forall fl ls, Forall reads ls -> exists f, Forall (fun l => report fl l (fst (f l)) (snd (f l))) ls /\ forall l, f l = match returned (read new_record l) with
    | Ok true => if passes fl (strip l) then ([EvPrint (strip l)], 1) else ([], 0) | _ => (printed (read new_record l), 0) end.
Proof.
  intros fl ls H. eexists. split; [|intro l; reflexivity]. eapply Forall_impl; [|exact H]. intros l [[|] R]; cbv beta; rewrite R; cbn [fst snd]; [|apply rep_none; exact R].
  destruct (passes fl (strip l)) eqn:P; [apply (rep_found fl l (strip l)); [exact R|apply strip_trimmed|apply passes_iff; exact P]|]. apply (rep_other fl l (strip l)); [exact R|apply strip_trimmed|]. rewrite <- passes_iff, P. discriminate.
Qed.
Lemma Forall_map2 : forall {A B} (R : A -> B -> Prop) f l, Forall (fun x => R x (f x)) l -> Forall2 R l (map f l).
Proof. intros A B R f l H. induction H; constructor; assumption. Qed.
Lemma sum_perm : forall l m, Permutation l m -> list_sum l = list_sum m.
Proof. intros l m H. induction H as [|x l m _ IH|x y l|l m k _ IH1 _ IH2]; [reflexivity|change (x + list_sum l = x + list_sum m); lia|change (y + (x + list_sum l) = x + (y + list_sum l)); lia|congruence]. Qed.
Theorem C85_search : forall w w' p p' t t' ls ls' fl, open_text w p = Ok t -> lines_of t ls -> open_text w' p' = Ok t' -> lines_of t' ls' -> Permutation ls ls' ->
  snd (search w p fl) = Ok tt -> exists o o' ev, search w p fl = (o ++ [ev], Ok tt) /\ search w' p' fl = (o' ++ [ev], Ok tt) /\ Permutation o o'.
Proof.
  intros w w' p p' t t' ls ls' fl O L O' L' P H. assert (R : Forall reads ls).
  { rewrite (search_unfold _ _ _ _ _ O L) in H. destruct (search_lines fl 0 ls) as [o [c|e]] eqn:E; [exact (search_inv _ _ _ _ _ E)|discriminate H]. }
  assert (R' : Forall reads ls') by (eapply Permutation_Forall; eassumption).
  assert (G : forall v q s ks, open_text v q = Ok s -> lines_of s ks -> Forall reads ks ->
    let f := fun l => match returned (read new_record l) with Ok true => if passes fl (strip l) then ([EvPrint (strip l)], 1) else ([], 0) | _ => (printed (read new_record l), 0) end in
    search v q fl = (List.concat (map (fun l => fst (f l)) ks) ++ [found (list_sum (map (fun l => snd (f l)) ks)) fl], Ok tt)).
  { intros v q s ks Ov Lk Rk f. destruct (reports fl ks Rk) as (g & F & G). rewrite (search_unfold v q fl s ks Ov Lk), <- (List.app_nil_r ks), (search_steps fl ks (map g ks) 0 []) by (apply Forall_map2; exact F).
    rewrite List.app_nil_r, !map_map, !(map_ext (fun l => fst (g l)) (fun l => fst (f l))), !(map_ext (fun l => snd (g l)) (fun l => snd (f l))) by (intro l; rewrite G; reflexivity).
    cbn [search_lines bind ret emit]. rewrite List.app_nil_r. reflexivity. }
  cbv zeta in G. rewrite (G _ _ _ _ O L R), (G _ _ _ _ O' L' R'). eexists _, _, _. split; [reflexivity|]. split; [|apply Permutation_concat, Permutation_map, P].
  f_equal. f_equal. f_equal. f_equal. apply sum_perm. apply Permutation_sym, Permutation_map, P.
Qed.
Print Assumptions C85_search.

(* which records are shown before an exception does depend on the order: a folder within the folder *)
Definition within (ns : list str) : world := World (fun f => if str_eqb f (lit "d/a") then Ok l_sea else if str_eqb f (lit "d/b") then Ok l_acv else Err OSError) (fun _ => Ok ns).
Theorem C85_shown_refuted : ~ (forall w w' p ns ns', (forall f, open_text w' f = open_text w f) -> scandir w p = Ok ns -> scandir w' p = Ok ns' -> Permutation ns ns' ->
  Permutation (output_of (read_folder w p)) (output_of (read_folder w' p))).
Proof.
  intro H. specialize (H (within [lit "a"; lit "sub"; lit "b"]) (within [lit "sub"; lit "a"; lit "b"]) (lit "d") _ _ (fun f => eq_refl) eq_refl eq_refl (perm_swap _ _ _)).
  apply Permutation_length in H. vm_compute in H. discriminate H.
Qed.
Print Assumptions C85_shown_refuted.
Example C85_ex : snd (read_folder (within [lit "a"; lit "b"]) (lit "d")) = Ok tt /\ read_folder (within [lit "b"; lit "a"]) (lit "d") = (output_of (parse l_acv true) ++ output_of (parse l_sea true), Ok tt) /\
  read_folder (within [lit "a"; lit "b"]) (lit "d") <> read_folder (within [lit "b"; lit "a"]) (lit "d") /\
  read_folder (within [lit "a"; lit "sub"; lit "b"]) (lit "d") = (output_of (parse l_sea true), Err OSError) /\
  search (disk (l_sea ++ [10%N] ++ l_acv)) (lit "d/f") (FStr (lit "A")) = ([EvPrint l_sea; EvPrint l_acv; EvColored (lit "green") (lit "Found 2 records that contain A")], Ok tt) /\
  search (disk (l_acv ++ [10%N] ++ l_sea)) (lit "d/f") (FStr (lit "A")) = ([EvPrint l_acv; EvPrint l_sea; EvColored (lit "green") (lit "Found 2 records that contain A")], Ok tt).
Proof. repeat match goal with |- _ /\ _ => split end; try (vm_compute; reflexivity). intro H. apply (f_equal (fun x => hd_error (fst x))) in H. vm_compute in H. discriminate H. Qed.
