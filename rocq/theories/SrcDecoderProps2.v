(* The decoder functions of the source, one by one: those that need a word. *)
From Coq Require Import List String NArith ZArith Bool Lia.
From Verif Require Import PyBase PyRepr StrFacts DecoderTables Decoder Layouts Json Record Api Utf8 PySyntax PyEval Source SrcFacts.
Import ListNotations.
Open Scope string_scope.
Open Scope list_scope.
Local Open Scope nat_scope.

Lemma decodes_012 : decodes "field_012" field_012.
Proof.
  start_decoder. repeat step; try finish_decoder. subst m. unfold field_012, ret. destruct (List.length (strip v)) as [|[|[|[|[|?]]]]]; try discriminate; answer leg L.
Qed.
Lemma index_inv : forall s i r, index s i = r -> match nth_error s i with Some c => r = Ok [c] | None => r = Err IndexError end.
Proof. intros s i r <-. unfold index. destruct (nth_error s i); reflexivity. Qed.
Ltac indices v :=
  repeat match goal with
  | H : index v ?i = _ |- _ =>
      apply index_inv in H; destruct (nth_error v i) eqn:?; try discriminate H; first [injection H as H; match type of H with ?x = _ => subst x end | clear H]
  end.
Lemma decodes_065 : decodes "field_065" field_065.
Proof. start_decoder. repeat step; indices v; try finish_decoder. Qed.

(* string.ascii_uppercase.index *)
Lemma find_upper : forall x, uppercase_index [x] = match find_sub uppercase [x] 0 with Some z => ret z | None => raise ValueError end.
Proof.
  intro x. unfold uppercase_index, uppercase.
  repeat match goal with
  | |- context [find_sub (lit ?s) _ ?z] => idtac
  end.
  assert (F : forall c s i, find_sub (c :: s) [x] i = if N.eqb x c then Some i else find_sub s [x] (i + 1)).
  { intros c s i. cbn [find_sub prefixb]. rewrite andb_true_r. reflexivity. }
  change (lit "ABCDEFGHIJKLMNOPQRSTUVWXYZ") with (map N.of_nat (seq 65 26)). cbn [map seq].
  rewrite !F. cbn [find_sub prefixb].
  repeat match goal with |- context [N.eqb x ?c] => destruct (N.eqb_spec x c) as [->|]; [reflexivity|] end.
  destruct (65 <=? x)%N eqn:A; [|reflexivity]. destruct (x <=? 90)%N eqn:B; [|reflexivity]. exfalso. apply N.leb_le in A, B.
  clear F. cbn in *. lia.
Qed.
Lemma field_178_eq : forall v r, field_178 v r =
  match nth_error v 0 with
  | None => raise IndexError
  | Some c =>
      if isalpha [c] && isnumeric (slice_from 1 v) then
        match find_sub uppercase [c] 0 with
        | None => raise ValueError
        | Some z =>
            let x := (z - 12)%Z in
            ret (DStr ((if Z.leb 0 x then lit "GMT +" ++ str_of_Z x else lit "GMT -" ++ str_of_Z x) ++ lit ":" ++ slice_from 1 v))
        end
      else ret (DStr (lit "Unsupported Value: " ++ quoted v))
  end.
Proof.
  intros v r. unfold field_178, index, lift, bind. destruct (nth_error v 0) as [c|]; [|reflexivity].
  destruct (isalpha [c] && isnumeric (slice_from 1 v)); [|reflexivity]. rewrite find_upper. destruct (find_sub uppercase [c] 0); reflexivity.
Qed.
Lemma decodes_178 : decodes "field_178" field_178.
Proof.
  start_decoder. rewrite field_178_eq in Heqm. repeat step; indices v; try finish_decoder.
Qed.

(* the four match statements of field_017 *)
Definition write_cases (tbl : list (string * string)) : list (pattern * list stmt) :=
  map (fun kv => (PValue (EStr (fst kv)), [SExpr (ECall (EAttr (EName "s") "write") [EStr (snd kv)] [])])) tbl.
Definition writes_of (cs : list (pattern * list stmt)) : list (string * string) :=
  flat_map (fun c => match c with (PValue (EStr k), [SExpr (ECall _ [EStr t] _)]) => [(k, t)] | _ => [] end) cs.
Definition lit_table (tbl : list (string * string)) : list (str * str) := map (fun kv => (lit (fst kv), lit (snd kv))) tbl.
Definition writing (v : str) (R : value) (t : str) : locals := [("value", (KRef, VStr v)); ("record", (KRef, R)); ("s", (KOwn, VIO t))].
Lemma match_writes : forall files r z tbl v R t o g kx kr kc k, Z.geb z 0 = true ->
  exec source files r "arinc424.decoder" false (SMatch (EItem (EName "value") (EInt z)) (write_cases tbl))
    (St (writing v R t) o g) kx kr kc k =
  match index v (Z.to_nat z) with
  | Ok c => k (St (writing v R (t ++ desc_part (lit_table tbl) c)) o g)
  | Err e => kx (Exc e (Some (lit "string index out of range"))) (St (writing v R t) o g)
  end.
Proof.
  intros files r z tbl v R t o g kx kr kc k Hz. unfold writing.
  cbn [exec eval]. lazy beta iota delta [or_stuck name_value get loc option_map fst snd String.eqb Ascii.eqb Bool.eqb get_item].
  rewrite Hz. destruct (index v (Z.to_nat z)) as [c|e]; [|reflexivity].
  induction tbl as [|[a b] tbl IH].
  - cbn. rewrite List.app_nil_r. reflexivity.
  - unfold write_cases at 1. cbn [map fst snd]. cbn [const or_stuck py_eq].
    unfold desc_part at 1. cbn [lit_table map fst snd assoc]. 
    destruct (str_eqb c (lit a)); [reflexivity|].
    exact IH.
Qed.
Ltac writes :=
  lazymatch goal with
  | |- context [src_block _ _ _ _ (SMatch (EItem (EName "value") (EInt ?z)) ?cs :: _) _ _ _ _ _] =>
      let t := eval lazy in (writes_of cs) in
      let i := eval lazy in (Z.to_nat z) in
      rewrite src_block_cons; change cs with (write_cases t); rewrite match_writes by reflexivity;
      change (Z.to_nat z) with i
  end.
Lemma decodes_017 : decodes "field_017" field_017.
Proof.
  start_decoder. step. rewrite src_block_cons. run_in. rewrite Heqm. clear m Heqm. unfold field_017, lift, bind, ret.
  match goal with
  | |- context [St [("value", (KRef, VStr v)); ("record", (KRef, ?R)); ("s", (KOwn, VIO ?t))] ?o ?g] =>
      change [("value", (KRef, VStr v)); ("record", (KRef, R)); ("s", (KOwn, VIO t))] with (writing v R [])
  end.
  writes. destruct (index v 0) as [c0|e]; [|answer leg L].
  writes. destruct (index v 1) as [c1|e]; [|answer leg L].
  writes. destruct (index v 2) as [c2|e]; [|answer leg L].
  writes. destruct (index v 3) as [c3|e]; [|answer leg L].
  unfold writing. rewrite src_block_cons. lazy -[lit lit_table answers leg_ok List.app strip desc_part tbl_017_0 tbl_017_1 tbl_017_2 tbl_017_3].
  rewrite <- !List.app_assoc. answer leg L.
Qed.
(* a leg type that is not in the table is added to it, as defaultdict does *)
Lemma leg_ok_add : forall leg key, leg_ok leg -> assoc key leg = None -> leg_ok ((key, VStr (lit "<UNKNOWN>")) :: leg).
Proof.
  intros leg key L E x. cbn [assoc]. destruct (str_eqb x key) eqn:H; [|apply L].
  apply str_eqb_eq in H. subst x. specialize (L key). rewrite E in L. unfold lookup. rewrite L. reflexivity.
Qed.
Lemma decodes_021 : decodes "field_021" field_021.
Proof.
  start_decoder. repeat step; try finish_decoder.
  - specialize (L (strip v)) as K. rewrite Heqo0 in K. subst m. unfold field_021, ret. rewrite Heqb, Heqb0. subst v0. cbn [negb]. answer leg L.
  - specialize (leg_ok_add leg (strip v) L Heqo0) as K. specialize (L (strip v)). rewrite Heqo0 in L.
    subst m. unfold field_021, ret, lookup. rewrite Heqb, Heqb0, L. cbn [negb].
    match type of K with leg_ok ?leg' => answer leg' K end.
Qed.
