(* C71: the tokens of a text. *)
From Coq Require Import List String Ascii ZArith Bool Arith Lia.
From Verif Require Import PySyntax PyLex PyGrammar PyParse PyParseSound PyParseComplete PyText SrcText Source SpecLex SpecTokens LexFacts TokenFacts4 Properties13.
Import ListNotations.
Local Open Scope string_scope.
Local Open Scope list_scope.

(* the lexer finds the tokens of a text whenever it has any (SpecTokens.v) *)
Theorem C71_tokens : forall text ts, tokens text = Some ts <-> tokens_of text ts.
Proof. exact tokens_iff. Qed.
Print Assumptions C71_tokens.
Theorem C71_unique : forall text ts us, tokens_of text ts -> tokens_of text us -> ts = us.
Proof. intros text ts us H K. apply tokens_iff in H. apply tokens_iff in K. congruence. Qed.
Print Assumptions C71_unique.
(* what stands for a module, without the lexer *)
Theorem C71_modules : forall pkg text m, module_text pkg text m <-> exists ts b, tokens_of text ts /\ gr_stmts pkg ts b /\ m = without_doc b.
Proof. intros pkg text m. unfold module_text. split; intros (ts & b & T & G); exists ts, b; (split; [apply tokens_iff; exact T|exact G]). Qed.
Print Assumptions C71_modules.
Theorem C71_files : Forall2 (fun f m => fst (fst f) = fst m /\ exists ts b, tokens_of (join (snd f)) ts /\ gr_stmts (snd (fst f)) ts b /\ snd m = without_doc b) files source.
Proof. pose proof C68_trees as H. induction H as [|f m fs ms (A & B) H IH]; constructor; [|exact IH]. split; [exact A|]. apply C71_modules. exact B. Qed.
Print Assumptions C71_files.
(* every block that is opened is closed, none before it is opened, and line ends stand between statements only *)
Fixpoint open_blocks (n : nat) (ts : list token) : option nat :=
  match ts with
  | [] => Some n
  | TIndent :: ts' => open_blocks (S n) ts'
  | TDedent :: ts' => match n with 0 => None | S n' => open_blocks n' ts' end
  | _ :: ts' => open_blocks n ts'
  end.
Lemma open_app : forall a b n, open_blocks n (a ++ b) = match open_blocks n a with Some m => open_blocks m b | None => None end.
Proof. induction a as [|t a IH]; intros b n; [reflexivity|]. destruct t; cbn [app open_blocks]; try apply IH. destruct n; [reflexivity|apply IH]. Qed.
Lemma open_line : forall d w ts, logical d w ts -> forall n, open_blocks n ts = Some n.
Proof. induction 1; intros n; auto. match goal with H : token_text _ _ _ |- _ => destruct H end; cbn [open_blocks]; auto. Qed.
Lemma open_block : forall k ls ts, block k ls ts -> Forall (fun l => forall n, open_blocks n (snd l) = Some n) ls -> forall n, open_blocks n ts = Some n.
Proof.
  induction 1 as [k|k l ls ts B IH|k k' l inner ls ts us K B IH A B2 IH2]; intros F n; [reflexivity| |].
  - inversion F; subst. rewrite open_app. cbn [snd] in *. match goal with X : forall n, open_blocks n l = _ |- _ => rewrite X end. cbn [open_blocks]. apply IH. assumption.
  - change ((k', l) :: inner ++ ls) with (((k', l) :: inner) ++ ls) in F. apply Forall_app in F. destruct F as (F1 & F2). cbn [open_blocks]. rewrite open_app, (IH F1). cbn [open_blocks]. apply IH2. exact F2.
Qed.
Theorem C71_blocks : forall text ts, tokens_of text ts -> open_blocks 0 ts = Some 0.
Proof.
  intros text ts (ls & L & B). assert (F : Forall (fun l => forall n, open_blocks n (snd l) = Some n) ls).
  { clear B. induction L as [k c C|k c s ls C L IH|k w us s ls NE F W L IH|k w us NE F W].
    - apply Forall_nil.
    - exact IH.
    - apply Forall_cons; [exact (open_line _ _ _ W)|exact IH].
    - apply Forall_cons; [exact (open_line _ _ _ W)|apply Forall_nil]. }
  exact (open_block _ _ _ B F 0).
Qed.
Print Assumptions C71_blocks.

Definition ex_text : string := join ["if x>=10:"; ""; "  # note"; "    f(x,"; "'it''s', f""{y!r}"")"; "y"].
Example C71_ex_refused : forall ts, ~ tokens_of ex_text ts.     (* no ! but in != *)
Proof. intros ts H. apply tokens_iff in H. vm_compute in H. discriminate. Qed.
Example C71_ex : tokens_of (join ["if x>=10:"; ""; "  # note"; "    f(x,"; "'it''s', f""{y[0]}-"") # note"; "    g()"; "y"])
  [TName "if"; TName "x"; TOp ">="; TInt 10; TOp ":"; TNewline;
   TIndent; TName "f"; TOp "("; TName "x"; TOp ","; TStr "it"; TStr "s"; TOp ","; TFStr [FExpr [TName "y"; TOp "["; TInt 0; TOp "]"]; FText "-"]; TOp ")"; TNewline;
   TName "g"; TOp "("; TOp ")"; TNewline; TDedent;
   TName "y"; TNewline].
Proof. apply tokens_iff. vm_compute. reflexivity. Qed.
(* the same by hand for a line and a block *)
Example C71_ex_by_hand : tokens_of (join ["x:"; " >="; ""]) [TName "x"; TOp ":"; TNewline; TIndent; TOp ">="; TNewline; TDedent].
Proof.
  assert (X : token_text (TName "x") "x" ":") by (constructor; [left; vm_compute; split; discriminate|exact I|cbn; intros [[[H|[H|H]]|H]|[H|H]]; vm_compute in H; try discriminate; destruct H as (H1 & H2); try (apply H1; reflexivity); apply H2; reflexivity]).
  assert (C : token_text (TOp ":") ":" "").
  { constructor; [vm_compute; tauto|]. intros o' I (r & E). destruct o' as [|a [|b o']]; cbn in *; [lia|lia|]. discriminate E. }
  assert (G : token_text (TOp ">=") ">=" "").
  { constructor; [vm_compute; tauto|]. intros o' I (r & E). destruct o' as [|a [|b [|c o']]]; cbn in *; try lia. discriminate E. }
  exists [(0, [TName "x"; TOp ":"]); (1, [TOp ">="])]. split.
  - apply (lines_line 0 "x:" [TName "x"; TOp ":"] " >=
" [(1, [TOp ">="])]); [discriminate|cbn; intros [H|[H|H]]; discriminate|apply (logical_token 0 0 _ "x" ":" _ X eq_refl); apply (logical_token 0 0 _ ":" "" _ C eq_refl); constructor|].
    apply (lines_line 1 ">=" [TOp ">="] "" []); [discriminate|cbn; intros [H|[H|H]]; discriminate|apply (logical_token 0 0 _ ">=" "" _ G eq_refl); constructor|apply (lines_end 0 ""); left; reflexivity].
  - apply (block_line 0 [TName "x"; TOp ":"] _ [TIndent; TOp ">="; TNewline; TDedent]). apply (block_inner 0 1 [TOp ">="] [] [] [TOp ">="; TNewline] []); [lia|apply (block_line 1 [TOp ">="] [] []); constructor|left; reflexivity|constructor].
Qed.
(* Texts without tokens: a bracket that is not closed, one that was not opened, a line that stands in no open block, an empty f-string, an escape
   that is not described, a tab. *)
Example C71_ex_none : forall text, In text [["f(x"]; ["f)"]; ["a:"; "   b"; "  c"]; ["f''"]; ["'\t'"]; [String "009" "x"]; ["3x"]; ["007"]; ["x = u'a'"]] -> forall ts, ~ tokens_of (join text) ts.
Proof.
  intros text H ts T. apply tokens_iff in T. revert T. cbn [In] in H. repeat (destruct H as [<-|H]; [vm_compute; discriminate|]). destruct H.
Qed.
