(* C62: the functions of __init__.py, in the text of the package. *)
From Coq Require Import List String NArith ZArith Bool.
From Verif Require Import PyBase PyRepr StrFacts Utf8Props SpecLayouts Spec ReadProps2 ReadProps3 SpecRecord RecordProps DecoderTables Decoder Layouts Json Record Api Utf8 PySyntax PyEval Source SrcFacts SrcStart SrcCheck SrcClasses SrcRead SrcMethods SrcSession SrcApi SrcApi2 Samples.
Import ListNotations.
Open Scope string_scope.
Open Scope list_scope.
Local Open Scope nat_scope.

(* ================= C62: __init__.py ================= *)
(* import arinc424; arinc424.name(arguments) *)
Definition program (files : disk) (depth : nat) (name : string) (args : list value) : ans :=
  import_all source files depth source (St [] [] []) (fun s => call source files depth (VFun "arinc424" name) args s Raised Done).
(* the program ends as m says: everything printed, and the value or the kind of exception *)
Definition ends {A} (toval : A -> value) (m : M A) (a : ans) : Prop :=
  match m with
  | (o, Ok y) => exists s, a = Done (toval y) s /\ out s = o
  | (o, Err e) => exists x s, a = Raised x s /\ e_kind x = e /\ out s = o
  end.
Lemma api_program : forall A depth name args (toval : A -> value) model files n, api depth name args toval model -> Nat.leb 2 depth = true ->
  ends toval (model files) (program files (depth + n) name args).
Proof.
  intros A [|[|depth]] name args toval model files n H D; [discriminate D|discriminate D|].
  unfold program. cbn [Nat.add]. rewrite import_source.
  destruct (H files n [] [] leg0 Raised Done leg0_ok) as (leg & L & E). unfold ends. destruct (model files) as [o [y|e]].
  - exists (St [] o (globs leg recs)). split; [exact E|reflexivity].
  - destruct E as (x & X & E). exists x, (St [] o (globs leg recs)). split; [exact E|]. split; [exact X|reflexivity].
Qed.
Ltac by_api H := match goal with |- ends _ _ (program ?files (_ + ?n) _ _) => exact (api_program _ _ _ _ _ _ files n H eq_refl) end.
Theorem C62_parse : forall files n line b,
  ends VBool (parse line b) (program files (5 + n) "parse" [VStr line; VBool b]) /\
  ends VBool (parse line true) (program files (5 + n) "parse" [VStr line]).
Proof. intros files n line b. split; [by_api (source_parse line b)|by_api (source_parse_default line)]. Qed.
Print Assumptions C62_parse.
Theorem C62_search : forall files n path fl,
  ends (fun _ => VNone) (search (mount files) path fl) (program files (5 + n) "search" [VStr path; filters_val fl]).
Proof. intros files n path fl. by_api (source_search path fl). Qed.
Print Assumptions C62_search.
Theorem C62_read_file : forall files n path b,
  ends (fun _ => VNone) (read_file (mount files) path b) (program files (6 + n) "read_file" [VStr path; VBool b]) /\
  ends (fun _ => VNone) (read_file (mount files) path true) (program files (6 + n) "read_file" [VStr path]).
Proof. intros files n path b. split; [by_api (source_read_file path b)|by_api (source_read_file_default path)]. Qed.
Print Assumptions C62_read_file.
Theorem C62_read_folder : forall files n path,
  ends (fun _ => VNone) (read_folder (mount files) path) (program files (7 + n) "read_folder" [VStr path]).
Proof. intros files n path. by_api (source_read_folder path). Qed.
Print Assumptions C62_read_folder.
Example C62_ex :
  match program one_file 5 "search" [VStr (lit "a"); VList [VStr (lit "SEATTLE")]] with
  | Done VNone s => out s = [EvPrint l_sea; EvColored (lit "green") (lit "Found 1 records that contain ['SEATTLE']")]
  | _ => False
  end /\
  match program one_file 5 "search" [VStr (lit "b"); VList [VStr (lit "SEATTLE")]] with
  | Raised x s => e_kind x = OSError /\ out s = []
  | _ => False
  end.
Proof. vm_compute. repeat split; reflexivity. Qed.
Example C62_ex_folder :
  match program one_file 7 "read_folder" [VStr (lit "d")] with
  | Raised x s => e_kind x = OSError    (* the entry is opened as d/a *)
  | _ => False
  end /\
  match program one_file 6 "read_file" [VStr (lit "a")] with
  | Done VNone s => List.length (out s) = 2
  | _ => False
  end.
Proof. vm_compute. repeat split; reflexivity. Qed.
