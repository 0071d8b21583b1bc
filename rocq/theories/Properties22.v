(* C80: a console that stops taking output, at any print of any session. *)
From Coq Require Import List String NArith ZArith Bool Arith Lia.
From Verif Require Import PyBase Record Api Utf8 PySyntax PyEval Source SrcCheck SrcSession SrcApi2 Samples Properties11 PyHeap HeapWorld Properties19 PyCrash CrashProps CrashWorld.
Import ListNotations.
Open Scope string_scope.
Open Scope list_scope.
Local Open Scope nat_scope.

(* ================= C80: a console that fails ================= *)
(* print raises any exception then: OSError (of which BrokenPipeError is one), or a ValueError (UnicodeEncodeError, a closed stdout), which the one
   handler in the package, decoder.py:757-761, would catch if its try printed something *)
(* while there is room, nothing is different *)
Theorem C80_enough : forall files n err l vs o room, acts files [] [] [] l = Some (vs, o) -> List.length o <= room ->
  crash_session files room err (7 + n) l = Some (vs, o).
Proof.
  intros files n err l vs o room H L. rewrite <- (C77_session files n) in H. exact (session_enough files room err (5 + n) l vs o H L).
Qed.
Print Assumptions C80_enough.
(* the action during which the console fails raises what print raised, and what has been shown is the beginning of what would have been shown *)
Theorem C80_fails : forall files n err l a vs o vs' o' room,
  acts files [] [] [] l = Some (vs, o) -> acts files [] [] [] (l ++ [a]) = Some (vs', o') -> List.length o <= room < List.length o' ->
  crash_session files room err (7 + n) (l ++ [a]) = Some (vs ++ [Err (e_kind err)], firstn room o').
Proof.
  intros files n err l a vs o vs' o' room H H' L. rewrite <- (C77_session files n) in H, H'. exact (session_fail files room err (5 + n) l a vs o vs' o' H H' L).
Qed.
Print Assumptions C80_fails.
(* both, for one call of the package: parse, search, read_file or read_folder *)
Theorem C80_call : forall files n err q room, is_call q = true ->
  let '(o, _, v) := reply files new_record q in
  crash_session files room err (7 + n) [Call q] = Some (if List.length o <=? room then ([v], o) else ([Err (e_kind err)], firstn room o)).
Proof.
  intros files n err q room Q. destruct (reply files new_record q) as [[o r] v] eqn:R.
  assert (H : acts files [] [] [] [Call q] = Some ([v], o)) by (cbn [acts act]; rewrite Q, R; reflexivity).
  destruct (Nat.leb_spec (List.length o) room) as [L|L]; [apply C80_enough; assumption|].
  exact (C80_fails files n err [] (Call q) [] [] [v] o room eq_refl H (conj (Nat.le_0_l room) L)).
Qed.
Print Assumptions C80_call.
Definition broken : exc := Exc OSError None.
Definition encoding : exc := Exc ValueError None.
(* read_file prints the table of each record: with room for one, the second raises *)
Example C80_ex : exists t1 t2 v, reply one_file new_record (QReadFile (lit "a") None) = ([t1; t2], new_record, v) /\ v = Ok VNone /\
  crash_session one_file 2 broken 7 [Call (QReadFile (lit "a") None)] = Some ([Ok VNone], [t1; t2]) /\
  crash_session one_file 1 broken 7 [Call (QReadFile (lit "a") None)] = Some ([Err OSError], [t1]) /\
  crash_session one_file 0 broken 7 [Call (QReadFile (lit "a") None)] = Some ([Err OSError], []) /\
  crash_session one_file 1 encoding 7 [Call (QReadFile (lit "a") None)] = Some ([Err ValueError], [t1]).
Proof.
  destruct (reply one_file new_record (QReadFile (lit "a") None)) as [[o r] v] eqn:R. vm_compute in R. injection R as <- <- <-. eexists _, _, _. split; [reflexivity|]. split; [reflexivity|].
  repeat split; vm_compute; reflexivity.
Qed.
