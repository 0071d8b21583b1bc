(* Callers with several Record objects and several names for them: in the model, and in the interpreter with a heap. *)
From Coq Require Import List String NArith ZArith Bool Lia.
From Verif Require Import PyBase PyRepr StrFacts Utf8Props SpecLayouts Spec ReadProps2 ReadProps3 SpecRecord RecordProps DecoderTables Decoder Layouts Json Record Api Utf8 PySyntax PyEval Source SrcFacts SrcStart SrcCheck SrcClasses SrcRead SrcMethods SrcSession SrcApi SrcApi2 Samples.
From Verif Require Import PyHeap HeapRep HeapCheck HeapInv HeapSim HeapCalls HeapMethods HeapEval HeapExec HeapRun Properties11.
Import ListNotations.
Open Scope string_scope.
Open Scope list_scope.
Local Open Scope nat_scope.

(* what a caller does: x = Record(); x = y; a call of a function of the package; a call of a method of x *)
Inductive action :=
| Make (x : string)
| Let (x y : string)
| Call (q : request)
| On (x : string) (q : request).

(* ---- as the model says: the records there are, and which of them each name stands for ---- *)
Definition names := list (string * nat).
Fixpoint replace {A} (i : nat) (a : A) (l : list A) : list A :=
  match l, i with [], _ => [] | _ :: l', 0 => a :: l' | b :: l', S i' => b :: replace i' a l' end.
Definition is_call (q : request) : bool := match q with QParse _ _ | QSearch _ _ | QReadFile _ _ | QReadFolder _ => true | _ => false end.
Definition is_method (q : request) : bool := match q with QRecord => false | _ => negb (is_call q) end.
Definition act (files : disk) (env : names) (rs : list rec) (a : action) : option (list event * names * list rec * result value) :=
  match a with
  | Make x => Some ([], set x (List.length rs) env, rs ++ [new_record], Ok VNone)
  | Let x y => match get y env with Some i => Some ([], set x i env, rs, Ok VNone) | None => None end
  | Call q => if is_call q then let '(o, _, v) := reply files new_record q in Some (o, env, rs, v) else None
  | On x q =>
      if is_method q then
        match get x env with
        | Some i => match nth_error rs i with
                    | Some r => let '(o, r', v) := reply files r q in Some (o, env, replace i r' rs, v)
                    | None => None
                    end
        | None => None
        end
      else None
  end.
Fixpoint acts (files : disk) (env : names) (rs : list rec) (o : list event) (l : list action) : option (list (result value) * list event) :=
  match l with
  | [] => Some ([], o)
  | a :: l' => match act files env rs a with
               | None => None
               | Some (o', env', rs', v) => match acts files env' rs' (o ++ o') l' with Some (vs, o'') => Some (v :: vs, o'') | None => None end
               end
  end.

(* ---- the same done with the text of the package; a name of the caller holds a reference ---- *)
Definition hfilters (fl : filters) : hval := match fl with FStr s => HStr s | FList l => HList (map HStr l) | FOther t => HOther t end.
Definition hoptional (b : option bool) : list hval := match b with Some x => [HBool x] | None => [] end.
Definition call_of (q : request) : option (string * list hval) :=
  match q with
  | QParse line b => Some ("parse", HStr line :: hoptional b)
  | QSearch path fl => Some ("search", [HStr path; hfilters fl])
  | QReadFile path b => Some ("read_file", HStr path :: hoptional b)
  | QReadFolder path => Some ("read_folder", [HStr path])
  | _ => None
  end.
Definition method_of (q : request) : option (string * list (string * hval)) :=
  let flag b := match b with Some x => [("output", HBool x)] | None => [] end in
  match q with
  | QRead line => Some ("read", [("line", HStr line)])
  | QValidate line => Some ("validate", [("line", HStr line)])
  | QPrimary => Some ("primary", [])
  | QHasCont => Some ("hasCont", [])
  | QDecode b => Some ("decode", flag b)
  | QJson b => Some ("json", flag b)
  | QJsonLines b l => Some ("json", [("output", HBool b); ("single_line", HBool l)])
  | _ => None
  end.
(* the expression r.a(arguments), evaluated where r and the arguments are variables *)
Definition heap_method (files : disk) (depth : nat) (w : hval) (a : string) (vars : list (string * hval)) (s : hst) : hres hval :=
  finally (heval source files (hrun source files depth) "caller" ("r" :: map fst vars) (ECall (EAttr (EName "r") a) (map EName (map fst vars)) [])
             (HSt (("r", w) :: vars) (hout s) (hglob s) (heap s)))
          (fun s' => HSt (hloc s) (hout s') (hglob s') (heap s')).
Definition heap_act (files : disk) (depth : nat) (s : hst) (a : action) : hres hval :=
  match a with
  | Make x => hbind (hcall_value source files (hrun source files depth) (HClass "arinc424.record" "Record") [] [] s) (fun w s => HOk HNone (hbind_local x w s))
  | Let x y => match get y (hloc s) with Some w => HOk HNone (hbind_local x w s) | None => HStuck y end
  | Call q => match call_of q with Some (f, args) => hcall_value source files (hrun source files depth) (HFun "arinc424" f) args [] s | None => HStuck "call" end
  | On x q =>
      match get x (hloc s), method_of q with
      | Some w, Some (a, vars) => heap_method files depth w a vars s
      | _, _ => HStuck x
      end
  end.
Definition plain (w : hval) : option value :=
  match w with HNone => Some VNone | HBool b => Some (VBool b) | HStr s => Some (VStr s) | HTableText rows => Some (VTableText rows) | _ => None end.
Fixpoint heap_acts (files : disk) (depth : nat) (s : hst) (l : list action) : option (list (result value) * list event) :=
  match l with
  | [] => Some ([], hout s)
  | a :: l' =>
      match heap_act files depth s a with
      | HStuck _ => None
      | HOk w s' => match plain w, heap_acts files depth s' l' with Some v, Some (vs, o) => Some (Ok v :: vs, o) | _, _ => None end
      | HRaise e s' => match heap_acts files depth s' l' with Some (vs, o) => Some (Err (e_kind e) :: vs, o) | None => None end
      end
  end.
(* import arinc424; then the actions *)
Definition heap_session (files : disk) (depth : nat) (l : list action) : option (list (result value) * list event) :=
  match himport_all source files depth source (HSt [] [] [] []) with
  | HOk _ s => heap_acts files depth s l
  | _ => None
  end.

(* ---- import ---- *)
Definition hs0 : hst := Eval vm_compute in
  match himport_all source (Disk (fun _ => Err OSError) (fun _ => Err OSError)) 2 source (HSt [] [] [] []) with HOk _ s => s | _ => HSt [] [] [] [] end.
Definition hg0 : list (string * string * hval) := [("arinc424.decoder", "LegTypeDesc", HRef 0); ("arinc424.record", "records", HRef 1)].
Lemma heap_import : forall files n, himport_all source files (S (S n)) source (HSt [] [] [] []) = HOk tt hs0.
Proof. intros files n. vm_compute. reflexivity. Qed.
Lemma G0 : forall a, G hg0 a <-> a < 2.
Proof.
  intro a. split.
  - intros (m & x & H). unfold hg0 in H. cbn in H. destruct ((m =? "arinc424.decoder")%string && (x =? "LegTypeDesc")%string); [injection H as <-; lia|].
    destruct ((m =? "arinc424.record")%string && (x =? "records")%string); [injection H as <-; lia|discriminate H].
  - intro L. destruct a as [|[|a]]; [exists "arinc424.decoder", "LegTypeDesc"|exists "arinc424.record", "records"|lia]; reflexivity.
Qed.
Lemma base0 : base source hg0 (G hg0) (St [] [] (globs leg0 recs)) hs0.
Proof.
  constructor.
  - reflexivity.
  - reflexivity.
  - intros m x. unfold globs, hg0. cbn [glob get_glob hget_glob]. 
    destruct ((m =? "arinc424.decoder")%string && (x =? "LegTypeDesc")%string) eqn:E1; [|destruct ((m =? "arinc424.record")%string && (x =? "records")%string) eqn:E2; [|reflexivity]].
    + apply andb_true_iff in E1. destruct E1 as [E1 E2]. apply String.eqb_eq in E1, E2. subst m x. eexists 0, _. split; [reflexivity|]. split; [reflexivity|]. split; [reflexivity|]. split; [|split; [|split]].
      * split; [split; reflexivity|]. vm_compute leg0. repeat (apply Forall2_cons; [split; reflexivity|]). apply Forall2_nil.
      * apply has_in. vm_compute. reflexivity.
      * apply has_in. vm_compute. reflexivity.
      * exists "arinc424.decoder", "def_val". eexists. split; [reflexivity|]. split; [vm_compute; reflexivity|reflexivity].
    + apply andb_true_iff in E2. destruct E2 as [E2 E3]. apply String.eqb_eq in E2, E3. subst m x. eexists 1, _. split; [reflexivity|]. split; [reflexivity|]. split; [reflexivity|]. split; [|split; [|split]].
      * split; [split; reflexivity|]. unfold recs_items. vm_compute rev. repeat (constructor; [split; [reflexivity|]; cbn [snd rep nth_error heap hs0]; (split; [rewrite G0; lia|]; repeat split)|]). constructor.
      * apply has_in. vm_compute. reflexivity.
      * apply has_in. vm_compute. reflexivity.
      * exists "arinc424.record", "def_val". eexists. split; [reflexivity|]. split; [vm_compute; reflexivity|reflexivity].
  - intros m x m' x' a. unfold hg0. cbn. intros H1 H2.
    destruct ((m =? "arinc424.decoder")%string && (x =? "LegTypeDesc")%string) eqn:E1; [|destruct ((m =? "arinc424.record")%string && (x =? "records")%string) eqn:E2; [|discriminate H1]];
    (destruct ((m' =? "arinc424.decoder")%string && (x' =? "LegTypeDesc")%string) eqn:E3; [|destruct ((m' =? "arinc424.record")%string && (x' =? "records")%string) eqn:E4; [|discriminate H2]]);
    try congruence; repeat match goal with E : (_ && _)%bool = true |- _ => apply andb_true_iff in E; destruct E as [?E ?E] end;
    repeat match goal with E : (_ =? _)%string = true |- _ => apply String.eqb_eq in E end; congruence.
  - intros a H. apply G0 in H. change (List.length (heap hs0)) with 44. lia.
  - auto.
Qed.
(* ---- the state between actions ---- *)
Definition here (hs : hst) (X : nat -> Prop) (a : nat) (r : rec) : Prop :=
  X a /\ ~ G hg0 a /\ exists o, at_ hs a = Some o /\ obj_rep (heap hs) X (rec_val r) o.
Record stand (X : nat -> Prop) (env : names) (rs : list rec) (o : list event) (leg : list (str * value)) (ads : list nat) (hs : hst) : Prop := {
  w_leg : leg_ok leg;
  w_base : base source hg0 X (St [] o (globs leg recs)) hs;
  w_nodup : NoDup ads;
  w_here : Forall2 (here hs X) ads rs;
  w_env : forall x, match get x env with Some i => exists a, nth_error ads i = Some a /\ get x (hloc hs) = Some (HRef a) | None => get x (hloc hs) = None end }.
Lemma here_move : forall hs (X : nat -> Prop) hs' (P X' : nat -> Prop) a r, frame P hs hs' -> (forall a, P a -> X a) -> ext X X' (List.length (heap hs)) -> ~ P a -> here hs X a r -> here hs' X' a r.
Proof.
  intros hs X hs' P X' a r F PX E N (H1 & H2 & o & H3 & H4). split; [exact (proj1 E a H1)|]. split; [exact H2|]. exists o. split.
  - rewrite (proj2 F); [exact H3|exact (at_lt _ _ _ H3)|exact N].
  - eapply obj_move; [|exact H4]. eapply frame_agree; [exact F|exact PX|exact (proj2 E)].
Qed.
Lemma heres_move : forall hs (X : nat -> Prop) hs' (P X' : nat -> Prop) ads rs, frame P hs hs' -> (forall a, P a -> X a) -> ext X X' (List.length (heap hs)) -> (forall a, In a ads -> ~ P a) -> Forall2 (here hs X) ads rs -> Forall2 (here hs' X') ads rs.
Proof.
  intros hs X hs' P X' ads rs F PX E N H. induction H as [|a r ads rs H H' IH]; constructor.
  - eapply here_move; try eassumption. apply N. left. reflexivity.
  - apply IH. intros b Hb. apply N. right. exact Hb.
Qed.
Lemma heres_in : forall hs X ads rs a, Forall2 (here hs X) ads rs -> In a ads -> X a /\ ~ G hg0 a /\ a < List.length (heap hs).
Proof.
  intros hs X ads rs a H. induction H as [|b r ads rs (H1 & H2 & o & H3 & H4) H' IH]; [contradiction|]. intros [->|Hi]; [|exact (IH Hi)]. split; [exact H1|]. split; [exact H2|exact (at_lt _ _ _ H3)].
Qed.
Lemma heres_length : forall hs X ads rs, Forall2 (here hs X) ads rs -> List.length ads = List.length rs.
Proof. intros hs X ads rs H. induction H; [reflexivity|]. cbn. congruence. Qed.
Lemma heres_nth : forall hs X ads rs i a, Forall2 (here hs X) ads rs -> nth_error ads i = Some a -> exists r, nth_error rs i = Some r /\ here hs X a r.
Proof.
  intros hs X ads rs i a H. revert i. induction H as [|b r ads rs H H' IH]; intros [|i] E; try discriminate E; cbn in *.
  - injection E as ->. exists r. split; [reflexivity|exact H].
  - exact (IH i E).
Qed.
(* one of them has changed *)
Lemma heres_put : forall hs (X : nat -> Prop) hs' (P : nat -> Prop) ads rs i a r, frame P hs hs' -> (forall b, P b -> X b) -> (forall b, P b -> G hg0 b \/ b = a) -> NoDup ads -> Forall2 (here hs X) ads rs -> nth_error ads i = Some a ->
  here hs' X a r -> Forall2 (here hs' X) ads (replace i r rs).
Proof.
  intros hs X hs' P ads rs i a r F PX PG ND H. revert i. induction H as [|b q ads rs H H' IH]; intros [|i] E HH; try discriminate E; cbn in *; inversion ND as [|? ? N1 N2]; subst.
  - injection E as ->. constructor; [exact HH|]. eapply heres_move; [exact F|exact PX|apply ext_refl| |exact H']. intros b Hb Pb. destruct (PG b Pb) as [Gb| ->]; [|contradiction]. exact (proj1 (proj2 (heres_in _ _ _ _ _ H' Hb)) Gb).
  - constructor; [|exact (IH N2 i E HH)]. eapply here_move; [exact F|exact PX|apply ext_refl| |exact H]. intro Pb. destruct (PG b Pb) as [Gb| ->]; [exact (proj1 (proj2 H) Gb)|]. apply N1. eapply nth_error_In. exact E.
Qed.
(* the caller between calls, as a function without variables *)
Lemma caller_inv : forall X s hs, base source hg0 X s hs -> loc s = [] -> Inv source hg0 [] [] X (G hg0) s hs.
Proof.
  intros X s hs B E. constructor; [exact B|exact (b_G _ _ _ _ _ B)|auto|rewrite E; constructor| |]; rewrite E; discriminate.
Qed.
Lemma may_G : forall C s hs a, may hg0 C [] s hs a -> G hg0 a.
Proof. intros C s hs a [_ [H|(y & H & _)]]; [exact H|discriminate H]. Qed.
Lemma none_lv : none_of [] (flat_map bound (module_body source "caller") ++ builtins) = true.
Proof. reflexivity. Qed.

Lemma nodup_snoc : forall A (l : list A) a, NoDup l -> ~ In a l -> NoDup (l ++ [a]).
Proof.
  intros A l a H. induction H as [|b l N H IH]; intro Na; [constructor; [exact Na|constructor]|]. cbn. constructor; [|apply IH; intro K; apply Na; right; exact K].
  intro K. apply in_app_or in K. destruct K as [K|[->|[]]]; [contradiction|]. apply Na. left. reflexivity.
Qed.
Lemma make_stands : forall files n X env rs o leg ads hs x, stand X env rs o leg ads hs ->
  exists hs' X' ads', heap_act files (S n) hs (Make x) = HOk HNone hs' /\ hout hs' = o /\ stand X' (set x (List.length rs) env) (rs ++ [new_record]) o leg ads' hs'.
Proof.
  intros files n X env rs o leg ads hs x [w1 w2 w3 w4 w5]. pose proof (caller_inv X _ hs w2 eq_refl) as I.
  pose proof (call_value_sim source files hg0 source_prog_ok (S n) (runs_ok source files hg0 source_prog_ok (S n)) [] [] X (G hg0) (St [] o (globs leg recs)) hs (VClass "arinc424.record" "Record") (HClass "arinc424.record" "Record") [] [] [] [] Raised Done I
    (conj eq_refl eq_refl) (Forall2_nil _) (Forall2_nil _)) as H.
  rewrite source_Record in H. specialize (H Logic.I). cbn [heap_act]. destruct (hcall_value source files (hrun source files (S n)) (HClass "arinc424.record" "Record") [] [] hs) as [w hs1|e hs1|why]; [|destruct H as (s' & E & _); discriminate E|contradiction].
  destruct H as (v & s' & E & St1 & _ & NW). injection E as <- <-. destruct (NW eq_refl eq_refl) as (a & ob & -> & At & La & Na & Ob & I'). pose proof St1 as [e1 e2 e3 e4].
  assert (Fr : frame (G hg0) hs hs1) by (eapply frame_mono; [exact e4|intros b; apply may_G]).
  assert (Ex : ext X (add X a) (List.length (heap hs))) by (split; [left; assumption|]; intros b [H|H]; [left; exact H|right; lia]).
  assert (NG : ~ G hg0 a) by (intro Ga; exact (Na (b_G _ _ _ _ _ w2 a Ga))).
  cbn [hbind]. exists (hbind_local x (HRef a) hs1), (add X a), (ads ++ [a]). split; [reflexivity|]. split; [exact (b_out _ _ _ _ _ (i_base _ _ _ _ _ _ _ _ e1))|].
  constructor.
  - exact w1.
  - eapply base_loc; [exact (i_base _ _ _ _ _ _ _ _ I')|reflexivity..].
  - apply nodup_snoc; [exact w3|]. intro Ia. destruct (heres_in _ _ _ _ _ w4 Ia) as (_ & _ & L). lia.
  - apply Forall2_app.
    + apply (heres_move hs X _ (G hg0) (add X a)); [exact Fr|exact (b_G _ _ _ _ _ w2)|exact Ex| |exact w4]. intros b Hb. exact (proj1 (proj2 (heres_in _ _ _ _ _ w4 Hb))).
    + constructor; [|constructor]. split; [right; reflexivity|]. split; [exact NG|]. exists ob. split; [exact At|exact Ob].
  - intro y. cbn [hloc hbind_local]. destruct (String.eqb_spec y x) as [->|Ne].
    + rewrite !get_set_same. exists a. split; [|reflexivity]. rewrite nth_error_app2; rewrite (heres_length _ _ _ _ w4); [rewrite PeanoNat.Nat.sub_diag; reflexivity|lia].
    + rewrite !get_set_other by exact Ne. rewrite e2. specialize (w5 y). destruct (get y env) as [i|]; [|exact w5]. destruct w5 as (b & K1 & K2). exists b. split; [|exact K2]. rewrite nth_error_app1; [exact K1|]. apply nth_error_Some. congruence.
Qed.
Lemma let_stands : forall files n X env rs o leg ads hs x y i, stand X env rs o leg ads hs -> get y env = Some i ->
  exists hs', heap_act files n hs (Let x y) = HOk HNone hs' /\ stand X (set x i env) rs o leg ads hs'.
Proof.
  intros files n X env rs o leg ads hs x y i [w1 w2 w3 w4 w5] E. pose proof (w5 y) as K. rewrite E in K. destruct K as (a & K1 & K2). cbn [heap_act]. rewrite K2. exists (hbind_local x (HRef a) hs). split; [reflexivity|]. constructor; try assumption.
  - eapply base_loc; [exact w2|reflexivity..].
  - intro z. cbn [hloc hbind_local]. destruct (String.eqb_spec z x) as [->|Ne]; [rewrite !get_set_same; exists a; split; [exact K1|reflexivity]|rewrite !get_set_other by exact Ne; exact (w5 z)].
Qed.
(* ---- functions of the package ---- *)
Lemma call_source : forall q, is_call q = true -> exists f args hargs, call_of q = Some (f, hargs) /\
  (forall h X, Forall2 (arg_in hg0 h X) args hargs) /\
  forall files n o leg, leg_ok leg -> exists leg', leg_ok leg' /\
    match reply files new_record q with
    | (o', _, Ok v) => call_value source files (run source files (7 + n)) (VFun "arinc424" f) args [] (St [] o (globs leg recs)) Raised Done = Done v (St [] (o ++ o') (globs leg' recs))
    | (o', _, Err e) => exists x, e_kind x = e /\
        call_value source files (run source files (7 + n)) (VFun "arinc424" f) args [] (St [] o (globs leg recs)) Raised Done = Raised x (St [] (o ++ o') (globs leg' recs))
    end.
Proof.
  assert (K : forall A depth d name args (toval : A -> value) model, api depth name args toval model -> 7 = depth + d -> forall files n o leg, leg_ok leg -> exists leg', leg_ok leg' /\
    match (fst (model files), new_record, map_result toval (snd (model files))) with
    | (o', _, Ok v) => call_value source files (run source files (7 + n)) (VFun "arinc424" name) args [] (St [] o (globs leg recs)) Raised Done = Done v (St [] (o ++ o') (globs leg' recs))
    | (o', _, Err e) => exists x, e_kind x = e /\
        call_value source files (run source files (7 + n)) (VFun "arinc424" name) args [] (St [] o (globs leg recs)) Raised Done = Raised x (St [] (o ++ o') (globs leg' recs))
    end).
  { intros A depth d name args toval model H E files n o leg L. rewrite E, <- PeanoNat.Nat.add_assoc. destruct (H files (d + n) [] o leg Raised Done L) as (leg' & L' & Q). exists leg'. split; [exact L'|].
    destruct (model files) as [o' [y|e]]; exact Q. }
  assert (T : forall h X s, arg_in hg0 h X (VStr s) (HStr s)) by reflexivity. assert (B : forall h X b, arg_in hg0 h X (VBool b) (HBool b)) by reflexivity.
  intros q Q. destruct q as [line b|path fl|path b|path| |line|line| | |b|b|b l]; try discriminate Q.
  - destruct b as [b|]; eexists _, _, _; (split; [reflexivity|]); (split; [|]).
    2: exact (K _ 5 2 "parse" _ _ _ (source_parse line b) eq_refl). 3: exact (K _ 5 2 "parse" _ _ _ (source_parse_default line) eq_refl). all: intros h X; repeat constructor.
  - eexists _, _, _; (split; [reflexivity|]); (split; [|]). 2: exact (K _ 5 2 "search" _ _ _ (source_search path fl) eq_refl).
    intros h X. constructor; [apply T|]. constructor; [|constructor]. destruct fl; try reflexivity. unfold arg_in. cbn [filters_val mutable hfilters]. apply rep_list. eexists. split; [reflexivity|]. clear. induction l as [|t l IHl]; cbn [map]; [constructor|]. constructor; [reflexivity|exact IHl].
  - destruct b as [b|]; eexists _, _, _; (split; [reflexivity|]); (split; [|]).
    2: exact (K _ 6 1 "read_file" _ _ _ (source_read_file path b) eq_refl). 3: exact (K _ 6 1 "read_file" _ _ _ (source_read_file_default path) eq_refl). all: intros h X; repeat constructor.
  - eexists _, _, _; (split; [reflexivity|]); (split; [|]). 2: exact (K _ 7 0 "read_folder" _ _ _ (source_read_folder path) eq_refl). intros h X; repeat constructor.
Qed.
Lemma rep_plain : forall files r q h X v w, snd (reply files r q) = Ok v -> rep h X v w -> plain w = Some v.
Proof.
  intros files r q h X v w E H. assert (K : match v with VNone | VBool _ | VStr _ | VTableText _ => True | _ => False end).
  { destruct q; cbn [reply snd] in E; repeat (match type of E with context [let (_, _) := ?x in _] => destruct x as [? ?] | context [map_result _ ?x] => destruct x end; cbn [snd map_result fst] in E); try discriminate E; injection E as <-; exact Logic.I. }
  destruct v; try contradiction; destruct w; try contradiction; cbn in H; subst; reflexivity.
Qed.
Definition outcome (r : hres hval) (o : list event) (v : result value) : Prop :=
  match r, v with
  | HOk w hs, Ok v => hout hs = o /\ plain w = Some v
  | HRaise e hs, Err k => hout hs = o /\ e_kind e = k
  | _, _ => False
  end.
Definition left_in (r : hres hval) (hs : hst) : Prop := match r with HOk _ hs' | HRaise _ hs' => hs' = hs | HStuck _ => False end.
Lemma call_stands : forall files n X env rs o leg ads hs q, stand X env rs o leg ads hs -> is_call q = true ->
  let '(o', _, v) := reply files new_record q in
  exists hs' leg', left_in (heap_act files (7 + n) hs (Call q)) hs' /\ outcome (heap_act files (7 + n) hs (Call q)) (o ++ o') v /\ stand X env rs (o ++ o') leg' ads hs'.
Proof.
  intros files n X env rs o leg ads hs q [w1 w2 w3 w4 w5] Q. destruct (call_source q Q) as (f & args & hargs & E & Fa & K). destruct (K files n o leg w1) as (leg' & L' & K'). clear K. pose proof (rep_plain files new_record q) as RP.
  pose proof (caller_inv X _ hs w2 eq_refl) as I. cbn [heap_act]. rewrite E.
  pose proof (call_value_sim source files hg0 source_prog_ok (7 + n) (runs_ok source files hg0 source_prog_ok (7 + n)) [] [] X (G hg0) (St [] o (globs leg recs)) hs (VFun "arinc424" f) (HFun "arinc424" f) args hargs [] [] Raised Done I
    (conj eq_refl eq_refl) (Fa _ _) (Forall2_nil _)) as H.
  assert (ST : forall o' s' hs', estep source hg0 [] [] X (G hg0) [] (St [] o (globs leg recs)) hs s' hs' -> s' = St [] (o ++ o') (globs leg' recs) -> hout hs' = o ++ o' /\ stand X env rs (o ++ o') leg' ads hs').
  { intros o' s' hs' [e1 e2 e3 e4] ->. split; [exact (b_out _ _ _ _ _ (i_base _ _ _ _ _ _ _ _ e1))|]. constructor.
    - exact L'.
    - exact (i_base _ _ _ _ _ _ _ _ e1).
    - exact w3.
    - eapply (heres_move hs X hs' (G hg0)); [eapply frame_mono; [exact e4|intros b; apply may_G]|exact (b_G _ _ _ _ _ w2)|apply ext_refl| |exact w4]. intros b Hb. exact (proj1 (proj2 (heres_in _ _ _ _ _ w4 Hb))).
    - intro x. rewrite e2. exact (w5 x). }
  destruct (reply files new_record q) as [[o' r'] [v|e]].
  - rewrite K' in H. specialize (H Logic.I). destruct (hcall_value source files (hrun source files (7 + n)) (HFun "arinc424" f) hargs [] hs) as [w hs'|ex hs'|why]; [|destruct H as (s' & D & _); discriminate D|contradiction].
    destruct H as (v' & s' & D & St1 & Rv & _). injection D as <- <-. destruct (ST o' _ hs' St1 eq_refl) as [S1 S2]. exists hs', leg'. split; [reflexivity|]. split; [|exact S2]. split; [exact S1|]. eapply RP; [reflexivity|exact Rv].
  - destruct K' as (x & Kx & K'). rewrite K' in H. specialize (H Logic.I). destruct (hcall_value source files (hrun source files (7 + n)) (HFun "arinc424" f) hargs [] hs) as [w hs'|ex hs'|why]; [destruct H as (v' & s' & D & _); discriminate D| |contradiction].
    destruct H as (s' & D & St1). injection D as <- <-. destruct (ST o' _ hs' St1 eq_refl) as [S1 S2]. exists hs', leg'. split; [reflexivity|]. split; [|exact S2]. split; [exact S1|exact Kx].
Qed.

(* ---- methods ---- *)
Lemma method_source : forall q, is_method q = true -> exists a vars hvars, method_of q = Some (a, hvars) /\ map fst vars = map fst hvars /\
  Forall2 (fun p w => fst p = fst w /\ mutable (snd p) = false /\ forall h X, rep h X (snd p) (snd w)) vars hvars /\
  (forall files depth r o leg, source_reply files depth (session "r" KOwn (rec_val r) [] o leg) q = ask files depth "r" a (map fst vars) (session "r" KOwn (rec_val r) vars o leg)) /\
  NoDup ("r" :: map fst vars) /\ eok (gn source) (ECall (EAttr (EName "r") a) (map EName (map fst vars)) []) = true /\
  none_of ("r" :: map fst vars) (flat_map bound (module_body source "caller") ++ builtins) = true.
Proof.
  intros q Q. destruct q as [line b|path fl|path b|path| |line|line| | |b|b|b l]; try discriminate Q.
  - exists "read", [("line", VStr line)], [("line", HStr line)]. split; [reflexivity|]. split; [reflexivity|]. split; [repeat constructor|]. split; [reflexivity|]. split; [apply distinct_nodup; reflexivity|]. split; vm_compute; reflexivity.
  - exists "validate", [("line", VStr line)], [("line", HStr line)]. split; [reflexivity|]. split; [reflexivity|]. split; [repeat constructor|]. split; [reflexivity|]. split; [apply distinct_nodup; reflexivity|]. split; vm_compute; reflexivity.
  - exists "primary", [], []. split; [reflexivity|]. split; [reflexivity|]. split; [repeat constructor|]. split; [reflexivity|]. split; [apply distinct_nodup; reflexivity|]. split; vm_compute; reflexivity.
  - exists "hasCont", [], []. split; [reflexivity|]. split; [reflexivity|]. split; [repeat constructor|]. split; [reflexivity|]. split; [apply distinct_nodup; reflexivity|]. split; vm_compute; reflexivity.
  - destruct b as [b|]; [exists "decode", [("output", VBool b)], [("output", HBool b)]|exists "decode", [], []];
    (split; [reflexivity|]; split; [reflexivity|]; split; [repeat constructor|]; split; [reflexivity|]; split; [apply distinct_nodup; reflexivity|]; split; vm_compute; reflexivity).
  - destruct b as [b|]; [exists "json", [("output", VBool b)], [("output", HBool b)]|exists "json", [], []];
    (split; [reflexivity|]; split; [reflexivity|]; split; [repeat constructor|]; split; [reflexivity|]; split; [apply distinct_nodup; reflexivity|]; split; vm_compute; reflexivity).
  - exists "json", [("output", VBool b); ("single_line", VBool l)], [("output", HBool b); ("single_line", HBool l)]. split; [reflexivity|]. split; [reflexivity|]. split; [repeat constructor|]. split; [reflexivity|]. split; [apply distinct_nodup; reflexivity|]. split; vm_compute; reflexivity.
Qed.
Lemma vars_get : forall (vars : list (string * value)) (hvars : list (string * hval)) x kd v,
  Forall2 (fun p w => fst p = fst w /\ mutable (snd p) = false /\ forall h X, rep h X (snd p) (snd w)) vars hvars ->
  get x (map (fun yv => (fst yv, (KRef, snd yv))) vars) = Some (kd, v) -> In x (map fst vars) /\ kd = KRef /\ mutable v = false /\ exists w, get x hvars = Some w /\ forall h X, rep h X v w.
Proof.
  intros vars hvars x kd v F. induction F as [|[y u] [z w] vars hvars (E1 & E2 & E3) F IH]; [discriminate|]. cbn in *. subst z. destruct (String.eqb_spec x y) as [->|Ne].
  - intro Q. injection Q as <- <-. split; [left; reflexivity|]. split; [reflexivity|]. split; [exact E2|]. exists w. split; [reflexivity|exact E3].
  - intro Q. destruct (IH Q) as (K1 & K2). split; [right; exact K1|exact K2].
Qed.
Lemma record_inv : forall X o leg hs a r vars hvars, base source hg0 X (St [] o (globs leg recs)) hs -> here hs X a r ->
  Forall2 (fun p w => fst p = fst w /\ mutable (snd p) = false /\ forall h X, rep h X (snd p) (snd w)) vars hvars -> NoDup ("r" :: map fst vars) ->
  Inv source hg0 ("r" :: map fst vars) [] X (fun b => G hg0 b \/ b = a) (session "r" KOwn (rec_val r) vars o leg) (HSt (("r", HRef a) :: hvars) (hout hs) (hglob hs) (heap hs)).
Proof.
  intros X o leg hs a r vars hvars B (H1 & H2 & ob & H3 & H4) F ND. unfold session. constructor.
  - eapply base_loc; [exact B|reflexivity..].
  - intros b [H| ->]; [exact (b_G _ _ _ _ _ B b H)|exact H1].
  - intros b H. left. exact H.
  - cbn [loc map fst]. rewrite map_map. exact ND.
  - intros y ky v Q. cbn [loc hloc get heap] in *. destruct (String.eqb_spec y "r") as [->|Ne].
    + injection Q as <- <-. split; [reflexivity|]. split; [discriminate|]. exists (HRef a). split; [reflexivity|]. exists a, ob. split; [reflexivity|]. split; [exact H3|]. split; [exact H4|]. split; [right; reflexivity|exact H2].
    + destruct (vars_get _ _ _ _ _ F Q) as (K1 & -> & K3 & w & K4 & K5). split; [apply has_in; right; exact K1|]. split; [discriminate|]. exists w. split; [exact K4|]. unfold var_in. rewrite K3. split; [reflexivity|apply K5].
  - intros y z ky vy kz vz b Qy Wy Hy Qz Wz Hz. cbn [loc get] in *. destruct (String.eqb_spec y "r") as [->|Ny]; [|destruct (vars_get _ _ _ _ _ F Qy) as (_ & -> & _); discriminate Wy].
    destruct (String.eqb_spec z "r") as [->|Nz]; [reflexivity|destruct (vars_get _ _ _ _ _ F Qz) as (_ & -> & _); discriminate Wz].
Qed.
Lemma on_stands : forall files n X env rs o leg ads hs x i r q, stand X env rs o leg ads hs -> is_method q = true -> get x env = Some i -> nth_error rs i = Some r ->
  let '(o', r', v) := reply files r q in
  exists hs' leg', left_in (heap_act files (7 + n) hs (On x q)) hs' /\ outcome (heap_act files (7 + n) hs (On x q)) (o ++ o') v /\ stand X env (replace i r' rs) (o ++ o') leg' ads hs'.
Proof.
  intros files n X env rs o leg ads hs x i r q [w1 w2 w3 w4 w5] Q Gx Ni. destruct (method_source q Q) as (a & vars & hvars & E & Mf & Fv & K & ND & Eo & Lv). pose proof (w5 x) as Hx. rewrite Gx in Hx. destruct Hx as (ad & Na & Hx).
  destruct (heres_nth _ _ _ _ _ _ w4 Na) as (r0 & N0 & Hr). rewrite Ni in N0. injection N0 as <-. pose proof (record_inv X o leg hs ad r vars hvars w2 Hr Fv ND) as I.
  destruct (request_stands files n q r [] o leg w1) as (leg' & vars' & L' & SR). rewrite K in SR. clear K. pose proof (rep_plain files r q) as RP.
  cbn [heap_act]. rewrite Hx, E. unfold heap_method. rewrite <- Mf.
  pose proof (eval_sim source files hg0 source_prog_ok (7 + n) (runs_ok source files hg0 source_prog_ok (7 + n)) "caller" ("r" :: map fst vars) [] Lv _ X _ _ _ Raised Done I Eo) as H. unfold ask in SR.
  set (e := ECall (EAttr (EName "r") a) (map EName (map fst vars)) []) in *. set (s1 := session "r" KOwn (rec_val r) vars o leg) in *. set (hs1 := HSt (("r", HRef ad) :: hvars) (hout hs) (hglob hs) (heap hs)) in *.
  assert (ST : forall o' r' hs', estep source hg0 ("r" :: map fst vars) [] X (fun b => G hg0 b \/ b = ad) (touched e) s1 hs1 (session "r" KOwn (rec_val r') vars' (o ++ o') leg') hs' ->
     hout hs' = o ++ o' /\ stand X env (replace i r' rs) (o ++ o') leg' ads (HSt (hloc hs) (hout hs') (hglob hs') (heap hs'))).
  { intros o' r' hs' [e1 e2 e3 e4]. split; [exact (b_out _ _ _ _ _ (i_base _ _ _ _ _ _ _ _ e1))|]. pose proof e1 as [i1 i2 i3 i4 i5 i6]. constructor.
    - exact L'.
    - eapply base_loc; [exact i1|reflexivity..].
    - exact w3.
    - eapply (heres_put hs X _ (fun b => G hg0 b \/ b = ad)) with (a := ad); [eapply frame_mono; [exact e4|intros b [Hb _]; exact Hb]| |intros b Hb; exact Hb|exact w3|exact w4|exact Na|].
      + intros b [Hb| ->]; [exact (b_G _ _ _ _ _ w2 b Hb)|exact (proj1 Hr)].
      + split; [exact (proj1 Hr)|]. split; [exact (proj1 (proj2 Hr))|]. destruct (i5 "r" KOwn (rec_val r') eq_refl) as (_ & _ & w & G1 & G2). rewrite e2 in G1. cbn in G1. injection G1 as <-. destruct G2 as (b & ob & Eb & G3 & G4 & _). injection Eb as <-. exists ob. split; [exact G3|exact G4].
    - exact w5. }
  destruct (reply files r q) as [[o' r'] [v|ek]].
  - rewrite SR in H. specialize (H Logic.I). destruct (heval source files (hrun source files (7 + n)) "caller" ("r" :: map fst vars) e hs1) as [w hs'|ex hs'|why]; [|destruct H as (s' & D & _); discriminate D|contradiction].
    destruct H as (v' & s' & D & St1 & Rv & _). injection D as <- <-. destruct (ST o' r' hs' St1) as [S1 S2]. cbn [finally]. eexists _, leg'. split; [reflexivity|]. split; [|exact S2]. split; [exact S1|]. eapply RP; [reflexivity|exact Rv].
  - destruct SR as (y & Ky & SR). rewrite SR in H. specialize (H Logic.I). destruct (heval source files (hrun source files (7 + n)) "caller" ("r" :: map fst vars) e hs1) as [w hs'|ex hs'|why]; [destruct H as (v' & s' & D & _); discriminate D| |contradiction].
    destruct H as (s' & D & St1). injection D as <- <-. destruct (ST o' r' hs' St1) as [S1 S2]. cbn [finally]. eexists _, leg'. split; [reflexivity|]. split; [|exact S2]. split; [exact S1|exact Ky].
Qed.

(* ---- sessions ---- *)
Lemma method_call : forall q, is_method q = false -> method_of q = None.
Proof. intros q H. destruct q; try discriminate H; reflexivity. Qed.
Lemma call_call : forall q, is_call q = false -> call_of q = None.
Proof. intros q H. destruct q; try discriminate H; reflexivity. Qed.
Lemma acts_stand : forall files n l X env rs o leg ads hs, stand X env rs o leg ads hs -> heap_acts files (7 + n) hs l = acts files env rs o l.
Proof.
  intros files n l. induction l as [|a l IH]; intros X env rs o leg ads hs W.
  - cbn. rewrite (b_out _ _ _ _ _ (w_base _ _ _ _ _ _ _ W)). reflexivity.
  - cbn [heap_acts acts]. destruct a as [x|x y|q|x q].
    + destruct (make_stands files (6 + n) X env rs o leg ads hs x W) as (hs' & X' & ads' & E & _ & W'). change (S (6 + n)) with (7 + n) in E. rewrite E. cbn [plain act]. rewrite (IH _ _ _ _ _ _ _ W'), app_nil_r. destruct (acts files _ _ o l) as [[vs o2]|]; reflexivity.
    + cbn [act]. destruct (get y env) as [i|] eqn:Gy.
      * destruct (let_stands files (7 + n) X env rs o leg ads hs x y i W Gy) as (hs' & E & W'). rewrite E. cbn [plain]. rewrite (IH _ _ _ _ _ _ _ W'), app_nil_r. destruct (acts files _ _ o l) as [[vs o2]|]; reflexivity.
      * cbn [heap_act]. pose proof (w_env _ _ _ _ _ _ _ W y) as K. rewrite Gy in K. rewrite K. reflexivity.
    + cbn [act]. destruct (is_call q) eqn:Q; [|cbn [heap_act]; rewrite (call_call q Q); reflexivity]. pose proof (call_stands files n X env rs o leg ads hs q W Q) as H.
      destruct (reply files new_record q) as [[o' r'] v]. destruct H as (hs' & leg' & L & O & W'). destruct (heap_act files (7 + n) hs (Call q)) as [w h1|e h1|why]; [| |contradiction]; cbn in L; subst h1; rewrite (IH _ _ _ _ _ _ _ W').
      * destruct v as [v|k]; [|contradiction]. destruct O as [_ ->]. destruct (acts files env rs (o ++ o') l) as [[vs o2]|]; reflexivity.
      * destruct v as [v|k]; [contradiction|]. destruct O as [_ ->]. destruct (acts files env rs (o ++ o') l) as [[vs o2]|]; reflexivity.
    + cbn [act]. pose proof (w_env _ _ _ _ _ _ _ W x) as Kx. destruct (is_method q) eqn:Q; [|cbn [heap_act]; rewrite (method_call q Q); destruct (get x (hloc hs)); reflexivity].
      destruct (get x env) as [i|] eqn:Gx; [|cbn [heap_act]; rewrite Kx; reflexivity]. destruct Kx as (ad & Na & Hx). destruct (heres_nth _ _ _ _ _ _ (w_here _ _ _ _ _ _ _ W) Na) as (r & Nr & _). rewrite Nr.
      pose proof (on_stands files n X env rs o leg ads hs x i r q W Q Gx Nr) as H. destruct (reply files r q) as [[o' r'] v]. destruct H as (hs' & leg' & L & O & W').
      destruct (heap_act files (7 + n) hs (On x q)) as [w h1|e h1|why]; [| |contradiction]; cbn in L; subst h1; rewrite (IH _ _ _ _ _ _ _ W').
      * destruct v as [v|k]; [|contradiction]. destruct O as [_ ->]. destruct (acts files env (replace i r' rs) (o ++ o') l) as [[vs o2]|]; reflexivity.
      * destruct v as [v|k]; [contradiction|]. destruct O as [_ ->]. destruct (acts files env (replace i r' rs) (o ++ o') l) as [[vs o2]|]; reflexivity.
Qed.
