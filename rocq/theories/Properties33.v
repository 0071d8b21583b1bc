(* C91: read_file and search about the same file. *)
From Coq Require Import List String NArith Bool Arith Lia.
From Verif Require Import PyBase Decoder Layouts Record Api Spec SpecRecord SpecApi StrFacts ReadProps RecordProps ApiProps Samples Properties5 Properties27.
Import ListNotations.
Open Scope string_scope.
Open Scope list_scope.
Local Open Scope nat_scope.

(* ================= C91 ================= *)
Definition accepted (line : str) : bool := match returned (read new_record line) with Ok true => true | _ => false end.
(* a filter that every text passes *)
Definition idle (fl : filters) : Prop := forall t, matches fl t.
Lemma parse_reads : forall l output, succeeds (parse l output) -> reads l /\ List.length (output_of (parse l true)) = List.length (output_of (parse l false)) + (if accepted l then 1 else 0) /\ succeeds (parse l false) /\ succeeds (parse l true).
Proof.
  intros l output S. destruct (c32_parse l) as (o & res & table & F & T & A & B). unfold accepted, reads, succeeds in *. rewrite T, F in *. unfold output_of. cbn [fst].
  assert (R : exists b, res = Ok b) by (destruct S as (o' & x & S); destruct output; [rewrite T in S|rewrite F in S]; injection S as _ ->; eauto). destruct R as [b ->].
  assert (Q : returned (read new_record l) = Ok b).
  { unfold parse in F. unfold returned. destruct (read new_record l) as [[o1 r] [[|]|e]]; cbn [snd].
    - destruct (decode r false) as [o2 [d|e]]; injection F as _ E; congruence.
    - injection F as _ E. congruence.
    - discriminate F. }
  split; [exists b; exact Q|]. rewrite Q. split; [|split; eauto]. rewrite List.app_length. destruct b; [destruct (A eq_refl) as (rows & -> & _); reflexivity|rewrite B by discriminate; reflexivity].
Qed.
Lemma sum_app : forall ls, Forall (fun l => exists output, succeeds (parse l output)) ls ->
  List.length (List.concat (map (fun l => output_of (parse l true)) ls)) = List.length (List.concat (map (fun l => output_of (parse l false)) ls)) + List.length (filter accepted ls).
Proof.
  intros ls F. induction F as [|l ls [output S] _ IH]; [reflexivity|]. cbn [map List.concat filter]. rewrite !List.app_length, IH. destruct (parse_reads l output S) as (_ & E & _). rewrite E. destruct (accepted l); cbn [List.length]; lia.
Qed.
(* If read_file ends, search with an idle filter ends too; the number it gives is the number of tables that read_file prints, which is the number of lines that are records. *)
Theorem C91_count : forall w p t ls fl, open_text w p = Ok t -> lines_of t ls -> idle fl -> snd (read_file w p true) = Ok tt ->
  let n := List.length (filter accepted ls) in
  List.length (output_of (read_file w p true)) = List.length (output_of (read_file w p false)) + n /\ snd (read_file w p false) = Ok tt /\
  exists o ev, search w p fl = (o ++ [ev], Ok tt) /\ summary fl n ev /\ forall l, In l ls -> accepted l = true -> In (EvPrint (strip l)) o.
Proof.
  intros w p t ls fl O L I H n. rewrite (read_file_lines _ _ _ _ _ O L) in H. apply for_each_inv in H.
  assert (S : Forall (fun l => succeeds (parse l true)) ls).
  { eapply Forall_impl; [|exact H]. intros l (o & x & E). unfold parse_line in E. destruct (parse l true) as [o1 [b|e]] eqn:P; [|discriminate E]. exists o1, b. reflexivity. }
  assert (SF : Forall (fun l => succeeds (parse l false)) ls) by (eapply Forall_impl; [|exact S]; intros l X; apply (parse_reads l true X)).
  rewrite (c37_ok _ _ true _ _ O L S), (c37_ok _ _ false _ _ O L SF). split; [|split; [reflexivity|]].
  - apply sum_app. eapply Forall_impl; [|exact S]. intros l X. exists true. exact X.
  - assert (R : Forall reads ls) by (eapply Forall_impl; [|exact S]; intros l X; apply (parse_reads l true X)).
    destruct (reports fl ls R) as (g & F & G). destruct (c35_ok w p fl t ls (map g ls) O L (Forall_map2 _ g ls F)) as (ev & E & Q).
    assert (P : forall x, passes fl x = true) by (intro x; apply passes_iff; apply I).
    exists (List.concat (map fst (map g ls))), ev. split; [exact Q|]. split.
    + replace n with (list_sum (map snd (map g ls))); [exact E|]. subst n. clear - G P. induction ls as [|l ls IH]; [reflexivity|]. cbn [map filter].
      change (list_sum (snd (g l) :: map snd (map g ls))) with (snd (g l) + list_sum (map snd (map g ls))). rewrite IH, G. unfold accepted at 2.
      destruct (returned (read new_record l)) as [[|]|e]; [rewrite P|..]; reflexivity.
    + intros l Il A. apply in_concat. exists (fst (g l)). split; [apply in_map, in_map; exact Il|]. rewrite G. unfold accepted in A. destruct (returned (read new_record l)) as [[|]|e]; try discriminate A. rewrite P. left. reflexivity.
Qed.
Print Assumptions C91_count.
(* the empty text and the empty list are idle, and so is whatever is neither a text nor a list *)
Theorem C91_idle : idle (FStr []) /\ idle (FList []) /\ (forall x, idle (FOther x)) /\ forall s, idle (FStr s) -> s = [].
Proof.
  split; [intro t; exists [], t; reflexivity|]. split; [intro t; constructor|]. split; [intros x t; exact I|]. intros s H. destruct (H []) as (a & b & E). symmetry in E. apply app_eq_nil in E as [_ E]. apply app_eq_nil in E. apply E.
Qed.
Print Assumptions C91_idle.
(* search ends with files that read_file does not get through *)
Theorem C91_converse_refuted : ~ (forall w p fl, snd (search w p fl) = Ok tt -> snd (read_file w p true) = Ok tt).
Proof. intro H. specialize (H (disk t_freq) (lit "d/f") (FStr []) ltac:(vm_compute; reflexivity)). vm_compute in H. discriminate H. Qed.
Print Assumptions C91_converse_refuted.
Example C91_ex : let t := l_sea ++ [10%N] ++ lit "HDR" ++ [13%N; 10%N] ++ l_acv in snd (read_file (disk t) (lit "d/f") true) = Ok tt /\ List.length (output_of (read_file (disk t) (lit "d/f") true)) = 2 /\
  search (disk t) (lit "d/f") (FStr []) = ([EvPrint l_sea; EvPrint l_acv; EvColored (lit "green") (lit "Found 2 records that contain ")], Ok tt) /\ map accepted [l_sea; lit "HDR"; l_acv] = [true; false; true].
Proof. vm_compute. repeat split. Qed.
