(* C81: no file stays open. *)
From Coq Require Import List String NArith ZArith Bool Arith Lia.
From Verif Require Import PyBase Record Api Utf8 PySyntax PyEval Source SrcCheck SrcSession SrcApi2 Samples Properties11 PyHeap HeapWorld Properties19 PyCrash CrashProps CrashWorld Properties22 ClosedProps ClosedWorld.
Import ListNotations.
Open Scope string_scope.
Open Scope list_scope.
Local Open Scope nat_scope.

(* ================= C81: no file stays open ================= *)
(* the state in which a session leaves the package has no object that is an open file, wherever and however the console fails *)
Definition all_closed (s : hst) : Prop := forall a bs, at_ s a <> Some (OFile bs).
Theorem C81_closed : forall files room err depth l s, session_state files room err depth l = Some s -> all_closed s.
Proof. intros files room err depth l s H. exact (session_good files room err depth l s H). Qed.
Print Assumptions C81_closed.
(* such a state there is, after the sessions of C77 ... *)
Theorem C81_after : forall files n err l vs o room, acts files [] [] [] l = Some (vs, o) -> List.length o <= room ->
  exists s, session_state files room err (7 + n) l = Some s /\ hout s = o /\ all_closed s.
Proof.
  intros files n err l vs o room H L. destruct (session_exists _ _ _ _ _ _ _ (C80_enough files n err l vs o room H L)) as (s & S & O). exists s. split; [exact S|]. split; [exact O|]. eapply C81_closed. exact S.
Qed.
Print Assumptions C81_after.
(* ... and when the console has failed in the middle of a call *)
Theorem C81_failed : forall files n err l a vs o vs' o' room,
  acts files [] [] [] l = Some (vs, o) -> acts files [] [] [] (l ++ [a]) = Some (vs', o') -> List.length o <= room < List.length o' ->
  exists s, session_state files room err (7 + n) (l ++ [a]) = Some s /\ hout s = firstn room o' /\ all_closed s.
Proof.
  intros files n err l a vs o vs' o' room H H' L. destruct (session_exists _ _ _ _ _ _ _ (C80_fails files n err l a vs o vs' o' room H H' L)) as (s & S & O). exists s. split; [exact S|]. split; [exact O|]. eapply C81_closed. exact S.
Qed.
Print Assumptions C81_failed.
(* a file that was opened, and closed again: after read_file; with the console failing between its two tables; and when the file is no UTF-8 *)
Definition bad_file : disk := Disk (fun _ => Ok [255%N]) (fun _ => Err OSError).
Definition files_of (o : option hst) : option (list obj) :=
  option_map (fun s => filter (fun x => match x with OFile _ | OClosed => true | _ => false end) (heap s)) o.
Example C81_ex : files_of (session_state one_file 2 broken 7 [Call (QReadFile (lit "a") None)]) = Some [OClosed] /\
  files_of (session_state one_file 1 broken 7 [Call (QReadFile (lit "a") None)]) = Some [OClosed] /\
  files_of (session_state bad_file 1 broken 7 [Call (QReadFile (lit "a") None); Call (QSearch (lit "a") (FStr (lit "SEATTLE")))]) = Some [OClosed; OClosed].
Proof. repeat split; vm_compute; reflexivity. Qed.
