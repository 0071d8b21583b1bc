(* class Record, /repo/src/arinc424/record.py:89-187. *)
From Coq Require Import List String NArith Bool.
From Verif Require Import PyBase DecoderTables Decoder Layouts Json.
Import ListNotations.
Open Scope string_scope.
Open Scope list_scope.
Local Open Scope nat_scope.

(* The five attributes of a Record; definition is None for the initial -1. *)
Record rec := Rec {
  ident : str;
  raw : str;
  continuation : str;
  fields : list field;
  definition : option cls
}.

(* record.py:91-96  Record.__init__ *)
Definition new_record : rec := Rec [] [] [] [] None.

(* record.py:98-101 *)
Definition primary (r : rec) : bool :=
  match definition r with
  | None => false
  | Some _ => str_eqb (continuation r) (lit "0") || str_eqb (continuation r) (lit "1")
  end.

(* record.py:103-106 *)
Definition hasCont (r : rec) : bool :=
  if negb (primary r) then false else str_eqb (continuation r) (lit "1").

(* record.py:108-116 *)
Definition validate (line : str) : bool :=
  let line := strip line in
  if negb (startswith line (lit "S") || startswith line (lit "T")) then false
  else if negb (Nat.eqb (List.length line) 132) then false
  else if negb (isnumeric (slice_last 9 line)) then false
  else true.

(* `x in records` / records[x], record.py:129-136; `records` is never written after import
   because every subscript is guarded by `in` *)
Definition record_class (id : str) : option cls := assoc id records.

(* attribute assignments *)
Definition set_raw (v : str) (r : rec) : rec := Rec (ident r) v (continuation r) (fields r) (definition r).
Definition set_ident (v : str) (r : rec) : rec := Rec v (raw r) (continuation r) (fields r) (definition r).
Definition set_continuation (v : str) (r : rec) : rec := Rec (ident r) (raw r) v (fields r) (definition r).
Definition set_fields (v : list field) (r : rec) : rec := Rec (ident r) (raw r) (continuation r) v (definition r).
Definition set_definition (v : option cls) (r : rec) : rec := Rec (ident r) (raw r) (continuation r) (fields r) v.

(* What a call of read leaves behind: output, the object, and the returned value or exception. *)
Definition outcome : Type := list event * rec * result bool.

(* record.py:142-144 *)
Definition bad_continuation (d : cls) (r : rec) : list event :=
  [EvPrint (lit "Unsupported " ++ cls_name d ++ lit " Continuation Record Number: " ++ quoted (continuation r));
   EvPrint (lit "Valid Continuation Record Numbers are 0, 1, 2 (through 9) A, B, C (through Z)");
   EvPrint (lit "Record: " ++ raw r)].

(* record.py:159-164: the tail of read *)
Definition read_fields (d : cls) (line : str) (r : rec) : outcome :=
  match cls_read d line (primary r) with
  | Err e => ([], r, Err e)
  | Ok fs =>
      let r := set_fields fs r in
      match fs with
      | [] => ([], r, Ok false)
      | _ => ([], r, Ok true)
      end
  end.

(* bool('J'), record.py:151 *)
Definition truthy_J : bool := true.

(* record.py:138-157: the continuation record checks, then the tail *)
Definition read_definition (d : cls) (line : str) (r : rec) : outcome :=
  match cls_cont_idx d with
  | None => read_fields d line r
  | Some ci =>
      match index (raw r) ci with
      | Err e => ([], r, Err e)
      | Ok c =>
          let r := set_continuation c r in
          if negb (isalnum (continuation r)) then (bad_continuation d r, r, Ok false)
          else if negb (primary r) then
            match cls_app_idx d with
            | Some _ =>
                match cls_application_type d (raw r) with
                | Err e => ([], r, Err e)
                | Ok a =>
                    (* record.py:151-155: `and not 'J'`; the two other lines printed in this
                       branch are left out, the branch being dead whatever they say *)
                    if negb (mem_str a (cls_continuations d)) && negb truthy_J
                    then ([EvPrint (lit "Record: " ++ raw r)], r, Ok false)
                    else read_fields d line r
                end
            | None => ([], r, Err ValueError)
            end
          else read_fields d line r
      end
  end.

(* record.py:118-164 *)
Definition read (r : rec) (line : str) : outcome :=
  if negb (validate line) then ([], r, Ok false) else
  let r := set_raw (strip line) r in
  let identifier_1 := slice 4 6 line in
  match bindR (index line 4) (fun a => bindR (index line 12) (fun b => Ok (a ++ b))) with
  | Err e => ([], r, Err e)
  | Ok identifier_2 =>
      match record_class identifier_1 with
      | Some d => read_definition d line (set_definition (Some d) (set_ident identifier_1 r))
      | None =>
          match record_class identifier_2 with
          | Some d => read_definition d line (set_definition (Some d) (set_ident identifier_2 r))
          | None => ([], r, Ok false)
          end
      end
  end.

Definition view (r : rec) : recview := RecView (ident r) (raw r).

(* record.py:169-170: table.add_row([field.name, "'{}'".format(field.value), field.decode(self)]) *)
Fixpoint decode_rows (v : recview) (fs : list field) : M (list table_row) :=
  match fs with
  | [] => ret []
  | f :: fs' =>
      x <- run_fn (f_fn f) (f_value f) v ;;
      rows <- decode_rows v fs' ;;
      ret ((f_name f, lit "'" ++ f_value f ++ lit "'", x) :: rows)
  end.

(* record.py:166-173.  `output` stands for the test `output is True`.  The returned string is
   table.get_string(); the rows stand for it here, its characters are in Console.v (decode_text). *)
Definition decode (r : rec) (output : bool) : M (list table_row) :=
  rows <- decode_rows (view r) (fields r) ;;
  (if output then emit (EvTable rows) else ret tt) ;;;
  ret rows.

(* d.update({k: v}) on an insertion-ordered dict *)
Fixpoint dict_update (k v : str) (d : list (str * str)) : list (str * str) :=
  match d with
  | [] => [(k, v)]
  | (k', v') :: d' => if str_eqb k k' then (k', v) :: d' else (k', v') :: dict_update k v d'
  end.
(* record.py:176-178 *)
Definition json_dict (fs : list field) : list (str * str) :=
  fold_left (fun d f => dict_update (f_name f) (f_value f) d) fs [].

(* record.py:175-187; `output` stands for `output is True`, single_line for its truth value *)
Definition json (r : rec) (output single_line : bool) : M str :=
  let d := json_dict (fields r) in
  let data := if single_line then dumps d else dumps_pretty d in
  (if output then say data else ret tt) ;;;
  ret data.
