(* C82: what an object answers depends on what it has read, and on nothing else. *)
From Coq Require Import List String NArith ZArith Bool Arith Lia.
From Verif Require Import PyBase Record Api Utf8 PySyntax PyEval Source SrcFacts SrcSession SrcApi2 Samples Properties11 PyHeap HeapInv HeapWorld Properties19.
Import ListNotations.
Open Scope string_scope.
Open Scope list_scope.
Local Open Scope nat_scope.

(* ================= C82: an answer depends on what was read ================= *)
(* which object a name stands for, objects being counted as they are made, and which lines were given to read of which object *)
Fixpoint history (who : string -> option nat) (made : nat) (given : list (nat * str)) (l : list action) : (string -> option nat) * list (nat * str) :=
  match l with
  | [] => (who, given)
  | Make x :: l' => history (fun y => if String.eqb y x then Some made else who y) (S made) given l'
  | Let x z :: l' => history (fun y => if String.eqb y x then who z else who y) made given l'
  | On x (QRead line) :: l' => history who made (given ++ match who x with Some i => [(i, line)] | None => [] end) l'
  | _ :: l' => history who made given l'
  end.
Definition lines_of (i : nat) (given : list (nat * str)) : list str := map snd (filter (fun p => Nat.eqb (fst p) i) given).
(* the lines that the object named x has been given to read, by whatever name *)
Definition lines_read (l : list action) (x : string) : list str :=
  let '(who, given) := history (fun _ => None) 0 [] l in match who x with Some i => lines_of i given | None => [] end.
(* a program that does nothing but read these lines into one object *)
Definition alone (lines : list str) : list action := Make "r" :: map (fun line => On "r" (QRead line)) lines.

Definition filled (lines : list str) : rec := fold_left (fun r line => snd (fst (read r line))) lines new_record.
Record stands (who : string -> option nat) (made : nat) (given : list (nat * str)) (env : names) (rs : list rec) : Prop := {
  st_names : forall y, get y env = who y;
  st_made : List.length rs = made;
  st_recs : forall i r, nth_error rs i = Some r -> r = filled (lines_of i given);
  st_given : forall i line, In (i, line) given -> i < made
}.
Lemma lines_none : forall i given, (forall j line, In (j, line) given -> j < i) -> lines_of i given = [].
Proof.
  intros i given H. unfold lines_of. induction given as [|[j line] g IH]; [reflexivity|]. cbn [filter fst]. destruct (Nat.eqb_spec j i) as [->|N]; [specialize (H i line (or_introl eq_refl)); lia|].
  apply IH. intros k ln I. exact (H k ln (or_intror I)).
Qed.
Lemma lines_app : forall i a b, lines_of i (a ++ b) = lines_of i a ++ lines_of i b.
Proof. intros i a b. unfold lines_of. rewrite filter_app, map_app. reflexivity. Qed.
Lemma replace_same : forall A (l : list A) i a, i < List.length l -> nth_error (replace i a l) i = Some a.
Proof. intros A. induction l as [|b l IH]; intros [|i] a L; cbn in *; try lia; [reflexivity|]. apply IH. lia. Qed.
Lemma replace_length : forall A (l : list A) i a, List.length (replace i a l) = List.length l.
Proof. intros A. induction l as [|b l IH]; intros [|i] a; cbn; try reflexivity. rewrite IH. reflexivity. Qed.
Lemma replace_id : forall A (l : list A) i a, nth_error l i = Some a -> replace i a l = l.
Proof. intros A. induction l as [|b l IH]; intros [|i] a H; cbn in *; try discriminate; [injection H as ->; reflexivity|]. rewrite IH by exact H. reflexivity. Qed.
(* only read changes an object *)
Lemma asks_only : forall files r q, is_method q = true -> (forall line, q <> QRead line) -> snd (fst (reply files r q)) = r.
Proof. intros files r q H K. destruct q; try reflexivity; try discriminate H. destruct (K line eq_refl). Qed.
Lemma stands_ask : forall who made given env rs i r r', stands who made given env rs -> nth_error rs i = Some r -> r' = r -> stands who made given env (replace i r' rs).
Proof. intros who made given env rs i r r' S E ->. rewrite (replace_id _ _ _ _ E). exact S. Qed.
Lemma stands_step : forall files l who made given env rs o vs o', stands who made given env rs -> acts files env rs o l = Some (vs, o') -> 
  exists made' env' rs', (let '(who', given') := history who made given l in stands who' made' given' env' rs') /\
    forall l2, acts files env rs o (l ++ l2) = match acts files env' rs' o' l2 with Some (ws, o2) => Some (vs ++ ws, o2) | None => None end.
Proof.
  intros files l. induction l as [|a l IH]; intros who made given env rs o vs o' S H.
  - injection H as <- <-. exists made, env, rs. split; [exact S|]. intro l2. cbn [List.app]. destruct (acts files env rs o l2) as [[ws o2]|]; reflexivity.
  - cbn [acts] in H. destruct (act files env rs a) as [[[[p env1] rs1] v]|] eqn:A; [|discriminate H]. destruct (acts files env1 rs1 (o ++ p) l) as [[vs1 o1]|] eqn:E; [|discriminate H]. injection H as <- <-.
    assert (X : exists who1 made1 given1, history who made given (a :: l) = history who1 made1 given1 l /\ stands who1 made1 given1 env1 rs1).
    { destruct S as [SN SM SR SG]. destruct a as [x|x z|q|x q]; cbn [act] in A.
      - injection A as <- <- <- <-. eexists _, _, _. split; [reflexivity|]. constructor.
        + intro y. destruct (String.eqb_spec y x) as [->|N]; [rewrite get_set_same, SM; reflexivity|rewrite get_set_other by exact N; apply SN].
        + rewrite app_length, SM. cbn. lia.
        + intros i r G. destruct (Nat.lt_ge_cases i (List.length rs)) as [L|L]; [rewrite nth_error_app1 in G by exact L; exact (SR i r G)|]. rewrite nth_error_app2 in G by exact L. destruct (i - List.length rs) as [|k] eqn:D; [|destruct k; discriminate G].
          injection G as <-. rewrite lines_none; [reflexivity|]. intros j line I. specialize (SG j line I). lia.
        + intros i line I. specialize (SG i line I). lia.
      - destruct (get z env) as [j|] eqn:Gz; [|discriminate A]. injection A as <- <- <- <-. eexists _, _, _. split; [reflexivity|]. constructor; [|exact SM|exact SR|exact SG].
        intro y. destruct (String.eqb_spec y x) as [->|N]; [rewrite get_set_same, <- SN, Gz; reflexivity|rewrite get_set_other by exact N; apply SN].
      - destruct (is_call q); [|discriminate A]. destruct (reply files new_record q) as [[? ?] ?]. injection A as <- <- <- <-. eexists _, _, _. split; [reflexivity|]. constructor; assumption.
      - destruct (is_method q) eqn:Q; [|discriminate A]. destruct (get x env) as [j|] eqn:Gx; [|discriminate A]. destruct (nth_error rs j) as [r|] eqn:Nj; [|discriminate A].
        assert (B : (exists line, q = QRead line) \/ forall line, q <> QRead line) by (destruct q; first [left; eexists; reflexivity|right; discriminate]).
        destruct B as [[line ->]|B].
        + cbn [reply] in A. destruct (read r line) as [[o2 r2] w] eqn:R. injection A as <- <- <- <-. assert (Lj : j < List.length rs) by (apply nth_error_Some; congruence).
          eexists _, _, _. split; [reflexivity|]. rewrite <- (SN x), Gx. constructor.
          * exact SN.
          * rewrite replace_length. exact SM.
          * intros i r' G. rewrite lines_app. destruct (Nat.eq_dec j i) as [->|N].
            -- rewrite replace_same in G by exact Lj. injection G as <-. unfold filled. unfold lines_of at 2. cbn [filter fst map snd]. rewrite Nat.eqb_refl. cbn [map snd]. rewrite fold_left_app. fold (filled (lines_of i given)). rewrite <- (SR i r Nj). cbn [fold_left]. rewrite R. reflexivity.
            -- rewrite replace_other in G by exact N. unfold lines_of at 2. cbn [filter fst]. destruct (Nat.eqb_spec j i); [contradiction|]. cbn [map]. rewrite app_nil_r. exact (SR i r' G).
          * intros i ln I. apply in_app_or in I. destruct I as [I|[I|[]]]; [exact (SG i ln I)|]. injection I as <- <-. lia.
        + pose proof (asks_only files r q Q B) as K. destruct (reply files r q) as [[o2 r2] w]. cbn [fst snd] in K. subst r2. injection A as <- <- <- <-. rewrite (replace_id _ _ _ _ Nj).
          exists who, made, given. split; [|constructor; assumption]. destruct q; try reflexivity. destruct (B line eq_refl). }
    destruct X as (who1 & made1 & given1 & X & S1). rewrite X. destruct (IH who1 made1 given1 env1 rs1 (o ++ p) vs1 o1 S1 E) as (made' & env' & rs' & K & F). exists made', env', rs'. split; [exact K|].
    intro l2. cbn [List.app acts]. rewrite A, F. destruct (acts files env' rs' o1 l2) as [[ws o2]|]; reflexivity.
Qed.
Lemma stands_start : stands (fun _ => None) 0 [] [] [].
Proof. constructor; [reflexivity|reflexivity|intros [|i] r H; discriminate H|intros i line []]. Qed.
Lemma alone_acts : forall files lines r o l2, exists vs o1, acts files [("r", 0)] [r] o (map (fun line => On "r" (QRead line)) lines) = Some (vs, o1) /\
  acts files [("r", 0)] [r] o (map (fun line => On "r" (QRead line)) lines ++ l2) =
    match acts files [("r", 0)] [fold_left (fun r line => snd (fst (read r line))) lines r] o1 l2 with Some (ws, o2) => Some (vs ++ ws, o2) | None => None end.
Proof.
  intros files lines. induction lines as [|line lines IH]; intros r o l2.
  - exists [], o. split; [reflexivity|]. cbn [map List.app fold_left]. destruct (acts files _ _ o l2) as [[ws o2]|]; reflexivity.
  - cbn [map List.app acts act is_method is_call negb get String.eqb Ascii.eqb Bool.eqb nth_error reply fold_left]. destruct (read r line) as [[p r1] w]. cbn [replace fst snd].
    destruct (IH r1 (o ++ p) l2) as (vs & o1 & E & F). exists (map_result VBool w :: vs), o1. rewrite E, F. split; [reflexivity|]. destruct (acts files _ _ o1 l2) as [[ws o2]|]; reflexivity.
Qed.
Lemma prefix_acts : forall files l a env rs o vs o', acts files env rs o (l ++ [a]) = Some (vs, o') -> exists vs0 o0, acts files env rs o l = Some (vs0, o0).
Proof.
  intros files l a. induction l as [|b l IH]; intros env rs o vs o' H; [eexists _, _; reflexivity|]. cbn [List.app acts] in *. destruct (act files env rs b) as [[[[p env1] rs1] v]|]; [|discriminate H].
  destruct (acts files env1 rs1 (o ++ p) (l ++ [a])) as [[vs1 o1]|] eqn:E; [|discriminate H]. destruct (IH _ _ _ _ _ E) as (vs0 & o0 & ->). eexists _, _; reflexivity.
Qed.
(* The last action of a session, a call of a method of x: it returns or raises, and prints, what it would in a program that reads the lines x has read into a
   new object and does nothing else, on a computer with any other files. *)
Theorem C82_answer : forall files files' n l x q vs o, heap_session files (7 + n) (l ++ [On x q]) = Some (vs, o) ->
  exists vs0 o0 v p vs1 o1, heap_session files (7 + n) l = Some (vs0, o0) /\ vs = vs0 ++ [v] /\ o = o0 ++ p /\
    heap_session files' (7 + n) (alone (lines_read l x)) = Some (vs1, o1) /\ heap_session files' (7 + n) (alone (lines_read l x) ++ [On "r" q]) = Some (vs1 ++ [v], o1 ++ p).
Proof.
  intros files files' n l x q vs o. rewrite !C77_session. intro H. destruct (prefix_acts _ _ _ _ _ _ _ _ H) as (vs0 & o0 & H0).
  destruct (stands_step files l _ _ _ _ _ _ _ _ stands_start H0) as (made & env & rs & S & F). rewrite F in H. unfold lines_read. destruct (history (fun _ => None) 0 [] l) as [who given] eqn:HI.
  cbn [acts act] in H. destruct (is_method q) eqn:Q; [|discriminate H]. destruct (get x env) as [i|] eqn:G; [|discriminate H]. destruct (nth_error rs i) as [r|] eqn:E; [|discriminate H].
  rewrite <- (st_names _ _ _ _ _ S x), G. rewrite (st_recs _ _ _ _ _ S i r E) in H. set (lines := lines_of i given) in *.
  assert (RI : forall r, reply files r q = reply files' r q) by (intro r0; destruct q; try reflexivity; discriminate Q).
  rewrite RI in H. destruct (alone_acts files' lines new_record [] [On "r" q]) as (vs1 & o1 & A1 & A2). fold (filled lines) in A2.
  unfold alone. cbn [acts act List.app set List.length List.app]. rewrite A1, A2. cbn [acts act]. rewrite Q. cbn [get String.eqb Ascii.eqb Bool.eqb nth_error].
  destruct (reply files' (filled lines) q) as [[p r2] v]. injection H as <- <-. exists vs0, o0, v, p, (Ok VNone :: vs1), o1. repeat split; try reflexivity. exact H0.
Qed.
Print Assumptions C82_answer.
(* The same for a function of the package: nothing that was done before matters. *)
Theorem C82_call : forall files n l q vs o, heap_session files (7 + n) (l ++ [Call q]) = Some (vs, o) ->
  exists vs0 o0 v p, heap_session files (7 + n) l = Some (vs0, o0) /\ vs = vs0 ++ [v] /\ o = o0 ++ p /\ heap_session files (7 + n) [Call q] = Some ([v], p).
Proof.
  intros files n l q vs o. rewrite !C77_session. intro H. destruct (prefix_acts _ _ _ _ _ _ _ _ H) as (vs0 & o0 & H0). destruct (stands_step files l _ _ _ _ _ _ _ _ stands_start H0) as (made & env & rs & _ & F). rewrite F in H.
  cbn [acts act] in *. destruct (is_call q); [|discriminate H]. destruct (reply files new_record q) as [[p r] v]. injection H as <- <-. exists vs0, o0, v, p. repeat split; try reflexivity. exact H0.
Qed.
Print Assumptions C82_call.
(* So two objects that have read the same lines, in whatever programs, answer alike. *)
Theorem C82_alike : forall files files' n l l' x y q vs o vs' o', lines_read l x = lines_read l' y ->
  heap_session files (7 + n) (l ++ [On x q]) = Some (vs, o) -> heap_session files' (7 + n) (l' ++ [On y q]) = Some (vs', o') ->
  exists vs0 o0 vs0' o0' v p, heap_session files (7 + n) l = Some (vs0, o0) /\ heap_session files' (7 + n) l' = Some (vs0', o0') /\ vs = vs0 ++ [v] /\ vs' = vs0' ++ [v] /\ o = o0 ++ p /\ o' = o0' ++ p.
Proof.
  intros files files' n l l' x y q vs o vs' o' L H H'. destruct (C82_answer files files n l x q vs o H) as (vs0 & o0 & v & p & vs1 & o1 & A1 & A2 & A3 & A4 & A5).
  destruct (C82_answer files' files n l' y q vs' o' H') as (vs0' & o0' & v' & p' & vs1' & o1' & B1 & B2 & B3 & B4 & B5). rewrite L in A4, A5. rewrite A4 in B4. injection B4 as <- <-. rewrite A5 in B5. injection B5 as E1 E2.
  apply app_inv_head in E1, E2. injection E1 as <-. subst p'. exists vs0, o0, vs0', o0', v, p. repeat split; assumption.
Qed.
Print Assumptions C82_alike.
Definition busy : list action := [Make "a"; Let "b" "a"; Make "c"; On "b" (QRead l_sea); On "c" (QRead l_airway_x); On "a" QPrimary; Call (QReadFile (lit "a") None); Make "b"; On "b" (QRead (lit "x")); On "a" (QDecode (Some false)); Let "c" "a"].
Example C82_ex : lines_read busy "c" = [l_sea] /\ lines_read busy "b" = [lit "x"] /\
  exists vs o1 o2, heap_session one_file 7 (busy ++ [On "c" QPrimary]) = Some (vs ++ [Ok (VBool true)], o1) /\ heap_session one_file 7 (busy ++ [On "b" QPrimary]) = Some (vs ++ [Ok (VBool false)], o2).
Proof.
  split; [vm_compute; reflexivity|]. split; [vm_compute; reflexivity|].
  destruct (heap_session one_file 7 busy) as [[vs o]|] eqn:E; [|vm_compute in E; discriminate E].
  exists vs, o, o. vm_compute in E. injection E as <- <-. split; vm_compute; reflexivity.
Qed.
