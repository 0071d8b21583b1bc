(* The one piece of module state of the library that changes at run time: LegTypeDesc,
   /repo/src/arinc424/decoder.py:356-379, a module-level defaultdict(def_val).  field_021
   (decoder.py:381-389) subscripts it, which INSERTS a missing key with the default.
   Decoder.v's field_021 reads a constant table; here is the stateful version. *)
From Coq Require Import List String NArith Bool.
From Verif Require Import PyBase DecoderTables Decoder.
Import ListNotations.
Open Scope string_scope.
Open Scope list_scope.

Definition leg_dict := list (str * str).
(* LegTypeDesc after import *)
Definition leg_init : leg_dict := tbl_LegTypeDesc.
(* defaultdict.__getitem__ : value, and the dictionary afterwards *)
Definition dd_get (d : leg_dict) (k : str) : str * leg_dict :=
  match assoc k d with
  | Some v => (v, d)
  | None => (def_val, d ++ [(k, def_val)])
  end.
(* decoder.py:381-389 with the dictionary threaded through *)
Definition field_021_st (d : leg_dict) (value : str) : M dval * leg_dict :=
  let value := strip value in
  if Nat.eqb (List.length value) 0 then (ret (DStr value), d)
  else if negb (isalpha value) then (raise ValueError, d)
  else let '(v, d') := dd_get d value in (ret (DStr v), d').
(* a run of calls *)
Fixpoint run_021 (d : leg_dict) (vs : list str) : list (M dval) * leg_dict :=
  match vs with
  | [] => ([], d)
  | v :: vs' =>
      let '(m, d1) := field_021_st d v in
      let '(ms, d2) := run_021 d1 vs' in (m :: ms, d2)
  end.
