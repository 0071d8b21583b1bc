(* C68: the text of the package, character by character, is what the trees of Src*.v say. *)
From Coq Require Import List String Ascii ZArith Bool Arith Lia.
From Verif Require Import PySyntax PyLex PyGrammar PyParse PyParseSound PyParseComplete PyText SrcText Source SpecLex LexFacts.
Import ListNotations.
Local Open Scope string_scope.
Local Open Scope list_scope.

(* a file of PyText.v (name of the module, package, lines) stands for a tree *)
Definition reads_as (f : string * string * list string) (m : string * pymodule) : Prop :=
  fst (fst f) = fst m /\ module_text (snd (fst f)) (join (snd f)) (snd m).
Theorem C68_trees : Forall2 reads_as files source.
Proof.
  assert (A : forall fs ms, map (fun f : string * string * list string => (fst (fst f), parse_python (snd (fst f)) (join (snd f)))) fs = map (fun m => (fst m, Some (snd m))) ms -> Forall2 reads_as fs ms).
  { induction fs as [|f fs IH]; intros [|m ms] H; try discriminate; [constructor|]. cbn [map] in H. injection H as H1 H2 H3. constructor; [|apply IH; exact H3].
    split; [exact H1|apply parse_sound; exact H2]. }
  apply A. exact texts_trees.
Qed.
Print Assumptions C68_trees.
(* and for no other: what is proved of source is proved of the text *)
Theorem C68_only : forall program, Forall2 reads_as files program -> program = source.
Proof.
  assert (A : forall fs ms ms', Forall2 reads_as fs ms -> Forall2 reads_as fs ms' -> ms' = ms).
  { intros fs ms ms' H. revert ms'. induction H as [|f m fs ms (H1 & H2) H IH]; intros ms' K; inversion K as [|f' m' fs' ms'' (K1 & K2) K' E]; subst; [reflexivity|].
    rewrite (IH _ K'). f_equal. destruct m as [x m], m' as [x' m']. cbn [fst snd] in *. rewrite (module_unique _ _ _ _ H2 K2). congruence. }
  intros program H. exact (A _ _ _ C68_trees H).
Qed.
Print Assumptions C68_only.
(* the grammar is unambiguous, and the parser finds a tree whenever there is one *)
Theorem C68_unambiguous : forall pkg text m1 m2, module_text pkg text m1 -> module_text pkg text m2 -> m1 = m2.
Proof. exact module_unique. Qed.
Print Assumptions C68_unambiguous.
Theorem C68_expressions : forall ts e1 e2, gr Test ts e1 -> gr Test ts e2 -> e1 = e2.
Proof. exact (gr_unique Test). Qed.
Print Assumptions C68_expressions.

(* comments, blank lines, brackets over lines, an f-string, how tightly operators bind, documentation and annotations *)
Example C68_ex : module_text "pkg" (join [
    "# a comment";
    "from .a import b";
    "def f(x: str, y=-1) -> list:";
    "  """"""documentation";
    "  """"""";
    "";
    "  z = [x,   # first";
    "       'it\'s', ]";
    "      # a comment further in";
    "  if not x == 'a' and y or z:";
    "    return f'{x[1:]} of {y}'";
    "  elif y: ";
    "    z += g(x, y + 1 * 2 - 3, k=True)";
    "  return z if y is None else ()"])
  [SFrom "pkg.a" "b" "b";
   SDef "f" [("x", None); ("y", Some (ENeg (EInt 1)))]
     [SAssign (EName "z") (EList [EName "x"; EStr "it's"]);
      SIf (EOr (EAnd (ENot (ECmp CmpEq (EName "x") (EStr "a"))) (EName "y")) (EName "z"))
        [SReturn (Some (EFString [ESlice (EName "x") (Some (EInt 1)) None; EStr " of "; EName "y"]))]
        [SIf (EName "y")
          [SAug (EName "z") OpAdd (ECall (EName "g") [EName "x"; EBin OpSub (EBin OpAdd (EName "y") (EBin OpMul (EInt 1) (EInt 2))) (EInt 3)] [("k", EBool true)])] []];
      SReturn (Some (EIfExp (ECmp CmpIs (EName "y") ENone) (EName "z") (ETuple [])))]].
Proof. apply parse_sound. vm_compute. reflexivity. Qed.
(* Texts that are no module at all: a line further out than the block but in no open one, a bracket left open, a chained comparison,
   a number with a zero in front, a keyword as an expression, a string that does not end, a value given to a call, an argument after a named one. *)
Example C68_ex_refused : forall text, In text [["if x:"; "    y()"; "  z()"]; ["f(x"]; ["a == b == c"]; ["x = 01"]; ["return return"]; ["x = 'a"]; ["f() = 1"]; ["f(k=1, 2)"]] ->
  forall m, ~ module_text "pkg" (join text) m.
Proof.
  assert (A : forall text ts, tokens text = Some ts -> (forall k, match p_stmts "pkg" (60 + k) ts with Some (_, []) => False | _ => True end) -> forall m, ~ module_text "pkg" text m).
  { intros text ts T K m (ts' & b & T' & G & _). rewrite T in T'. injection T' as <-. destruct (proj1 (proj2 (proj2 (stmts_complete "pkg"))) _ _ G) as (n0 & C).
    specialize (K n0). specialize (C (60 + n0) [] ltac:(lia) ltac:(exact Logic.I)). rewrite app_nil_r in C. rewrite C in K. exact K. }
  intros text H m. cbn [In] in H.
  repeat (destruct H as [<-|H]; [first [solve [intros (ts & b & T & _); vm_compute in T; discriminate]
    | eapply A; [vm_compute; reflexivity|]; intros k; vm_compute; exact Logic.I]|]). destruct H.
Qed.

(* The tokens are the text, from its first character to its last: nothing is passed over but spaces, line ends and comments,
   and every token is spelled as it stands in the text (SpecLex.v). *)
Theorem C68_spelling : forall text ts, tokens text = Some ts -> laid_out text (filter seen ts).
Proof. exact tokens_spec. Qed.
Print Assumptions C68_spelling.
Theorem C68_files : forall f, In f files -> exists ts, tokens (join (snd f)) = Some ts /\ laid_out (join (snd f)) (filter seen ts).
Proof.
  intros f H. assert (K : exists m, module_text (snd (fst f)) (join (snd f)) m).
  { pose proof C68_trees as T. induction T as [|f' m fs ms (_ & R) T IH]; [destruct H|]. destruct H as [<-|H]; [eexists; exact R|apply IH; exact H]. }
  destruct K as (m & ts & b & T & _). exists ts. split; [exact T|apply tokens_spec; exact T].
Qed.
Print Assumptions C68_files.
Example C68_spelling_ex : exists ts, tokens (join ["x = f'{a[1]}: it''s' # note"; "y"]) = Some ts /\ filter seen ts =
  [TName "x"; TOp "="; TFStr [FExpr [TName "a"; TOp "["; TInt 1; TOp "]"]; FText ": it"]; TStr "s"; TName "y"].
Proof. eexists. split; [vm_compute; reflexivity|reflexivity]. Qed.
