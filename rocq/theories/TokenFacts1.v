(* Indentation: the stack of PyLex.v and the blocks of SpecTokens.v. *)
From Coq Require Import List String Ascii ZArith Bool Arith Lia.
From Verif Require Import PyLex SpecLex SpecTokens.
Import ListNotations.
Local Open Scope string_scope.
Local Open Scope list_scope.

Definition dedents (ind : list nat) : list token := map (fun _ => TDedent) ind.
Fixpoint lay (ind : list nat) (ls : list (nat * list token)) : option (list token) :=
  match ls with
  | [] => Some (dedents (tl ind))
  | (k, l) :: ls' =>
    match indentation k ind with
    | Some (us, ind') => match lay ind' ls' with Some ts => Some (us ++ l ++ TNewline :: ts) | None => None end
    | None => None
    end
  end.
Lemma block_head : forall k k' l ls ts, block k ((k', l) :: ls) ts -> k <= k'.
Proof. intros k k' l ls ts H. inversion H; subst; lia. Qed.
Lemma lay_sound : forall n i ind ls ts, List.length ls <= n -> lay (i :: ind) ls = Some ts ->
  exists inner rest t1 t2, ls = inner ++ rest /\ block i inner t1 /\ ts = t1 ++ t2 /\
    ((rest = [] /\ t2 = dedents ind) \/ (exists k l r j jnd t3, rest = (k, l) :: r /\ k < i /\ ind = j :: jnd /\ k <= j /\ t2 = TDedent :: t3 /\ lay ind rest = Some t3)).
Proof.
  induction n as [|n IH]; intros i ind ls ts L H; destruct ls as [|[k l] ls]; cbn [List.length] in L; try lia.
  - exists [], [], [], ts. cbn in H. injection H as <-. repeat split; [constructor|auto].
  - exists [], [], [], ts. cbn in H. injection H as <-. repeat split; [constructor|auto].
  - cbn [lay indentation] in H. destruct (Nat.ltb_spec i k) as [IK|IK].
    + destruct (lay (k :: i :: ind) ls) as [us|] eqn:E; [|discriminate]. injection H as <-. destruct (IH k (i :: ind) ls us ltac:(lia) E) as (inner & rest & t1 & t2 & -> & B & -> & C).
      rewrite app_length in L. destruct C as [(-> & ->)|(k2 & l2 & r & j & jnd & t3 & -> & K2 & J & KJ & -> & E2)].
      * exists ((k, l) :: inner ++ []), [], (TIndent :: (l ++ TNewline :: t1) ++ TDedent :: []), (dedents ind). split; [rewrite !app_nil_r; reflexivity|].
        split; [constructor; [exact IK|constructor; exact B|left; reflexivity|constructor]|]. split; [cbn [app dedents map]; rewrite <- !app_assoc; reflexivity|auto].
      * injection J as <- <-. destruct (IH i ind ((k2, l2) :: r) t3 ltac:(cbn [List.length] in *; lia) E2) as (inner2 & rest2 & t4 & t5 & E3 & B2 & -> & C2).
        exists ((k, l) :: inner ++ inner2), rest2, (TIndent :: (l ++ TNewline :: t1) ++ TDedent :: t4), t5. split; [rewrite E3; cbn; rewrite <- app_assoc; reflexivity|].
        split; [|split; [|exact C2]].
        -- constructor; [exact IK|constructor; exact B| |exact B2]. destruct inner2 as [|[k3 l3] inner2]; [left; reflexivity|right]. injection E3 as -> -> _. pose proof (block_head _ _ _ _ _ B2). replace k3 with i by lia. eauto.
        -- cbn [app]. repeat (rewrite <- !app_assoc; cbn [app]). reflexivity.
    + destruct (Nat.eqb_spec k i) as [->|NE].
      * cbn [dedent] in H. rewrite Nat.eqb_refl in H. destruct (lay (i :: ind) ls) as [us|] eqn:E; [|discriminate]. injection H as <-. destruct (IH i ind ls us ltac:(lia) E) as (inner & rest & t1 & t2 & -> & B & -> & C).
        exists ((i, l) :: inner), rest, (l ++ TNewline :: t1), t2. split; [reflexivity|]. split; [constructor; exact B|]. split; [cbn [app]; rewrite <- app_assoc; reflexivity|exact C].
      * exists [], ((k, l) :: ls), [], ts. split; [reflexivity|]. split; [constructor|]. split; [reflexivity|]. right. cbn [dedent] in H. rewrite (proj2 (Nat.eqb_neq k i) NE) in H. rewrite (proj2 (Nat.ltb_lt k i)) in H by lia.
        destruct (dedent k ind) as [[us ind']|] eqn:D; [|discriminate]. destruct ind as [|j jnd]; [discriminate|].
        assert (KJ : k <= j). { cbn [dedent] in D. destruct (Nat.eqb_spec k j); [lia|]. destruct (Nat.ltb_spec k j); [lia|discriminate]. }
        destruct (lay ind' ls) as [vs|] eqn:E; [|discriminate]. injection H as <-. exists k, l, ls, j, jnd, (us ++ l ++ TNewline :: vs). repeat split; [lia|exact KJ|].
        cbn [lay indentation]. rewrite (proj2 (Nat.ltb_ge j k)) by lia. rewrite D, E. reflexivity.
Qed.
Definition starts_at_most (i : nat) (ls : list (nat * list token)) : Prop := match ls with [] => True | (k, _) :: _ => k <= i end.
Lemma lay_line : forall i ind l ls, lay (i :: ind) ((i, l) :: ls) = match lay (i :: ind) ls with Some ts => Some (l ++ TNewline :: ts) | None => None end.
Proof. intros. cbn [lay indentation]. rewrite (proj2 (Nat.ltb_ge i i)) by lia. cbn [dedent]. rewrite Nat.eqb_refl. reflexivity. Qed.
Lemma lay_in : forall i ind k l ls, i < k -> lay (i :: ind) ((k, l) :: ls) = match lay (k :: i :: ind) ((k, l) :: ls) with Some ts => Some (TIndent :: ts) | None => None end.
Proof. intros i ind k l ls H. rewrite lay_line. cbn [lay indentation]. rewrite (proj2 (Nat.ltb_lt i k)) by lia. destruct (lay (k :: i :: ind) ls); reflexivity. Qed.
Lemma lay_out : forall i ind k ls, i < k -> starts_at_most i ls -> lay (k :: i :: ind) ls = match lay (i :: ind) ls with Some ts => Some (TDedent :: ts) | None => None end.
Proof.
  intros i ind k [|[j l] ls] H S; [reflexivity|]. cbn [starts_at_most] in S. cbn [lay indentation]. rewrite (proj2 (Nat.ltb_ge k j)) by lia. rewrite (proj2 (Nat.ltb_ge i j)) by lia.
  change (dedent j (k :: i :: ind)) with (if Nat.eqb j k then Some ([], k :: i :: ind) else if Nat.ltb j k then match dedent j (i :: ind) with Some (ts, r) => Some (TDedent :: ts, r) | None => None end else None).
  rewrite (proj2 (Nat.eqb_neq j k)) by lia. rewrite (proj2 (Nat.ltb_lt j k)) by lia. destruct (dedent j (i :: ind)) as [[us ind']|]; [|reflexivity]. destruct (lay ind' ls); reflexivity.
Qed.
Lemma lay_complete : forall i inner t1, block i inner t1 -> forall ind rest t2, starts_at_most i rest -> lay (i :: ind) rest = Some t2 -> lay (i :: ind) (inner ++ rest) = Some (t1 ++ t2).
Proof.
  induction 1 as [k|k l ls ts B IH|k k' l inner ls ts us K B IH A B2 IH2]; intros ind rest t2 S H.
  - exact H.
  - cbn [app]. rewrite lay_line, (IH _ _ _ S H). rewrite <- app_assoc. reflexivity.
  - cbn [app]. rewrite lay_in by exact K. rewrite <- app_assoc. specialize (IH2 ind rest t2 S H).
    assert (SS : starts_at_most k (ls ++ rest)) by (destruct A as [->|(l' & ls' & ->)]; [exact S|cbn; lia]).
    assert (SK : starts_at_most k' (ls ++ rest)) by (destruct (ls ++ rest) as [|[j x] y]; cbn in *; lia).
    rewrite app_comm_cons. rewrite (IH (k :: ind) (ls ++ rest) (TDedent :: us ++ t2) SK); [rewrite <- app_assoc; reflexivity|]. rewrite lay_out by assumption. rewrite IH2. reflexivity.
Qed.
Theorem lay_block : forall ls ts, lay [0] ls = Some ts <-> block 0 ls ts.
Proof.
  intros ls ts. split; intros H.
  - destruct (lay_sound _ _ _ _ _ (le_n _) H) as (inner & rest & t1 & t2 & -> & B & -> & [(-> & ->)|(k & l & r & j & jnd & t3 & _ & K & _)]); [|lia]. rewrite !app_nil_r. exact B.
  - rewrite <- (app_nil_r ls), <- (app_nil_r ts). apply lay_complete; [exact H|exact I|reflexivity].
Qed.
