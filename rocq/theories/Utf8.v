(* Text files as bytes: what open(file) makes of them in a UTF-8 locale. *)
From Coq Require Import List NArith Bool.
From Verif Require Import PyBase Decoder Layouts Record Api.
Import ListNotations.
Open Scope list_scope.
Local Open Scope N_scope.

(* a byte of the form 10xxxxxx within the given bounds *)
Definition within (lo hi b : N) : bool := (lo <=? b) && (b <=? hi).
(* The decoder of CPython (Objects/stringlib/codecs.h, utf8_decode), errors='strict': UnicodeDecodeError, which is a
   ValueError, on anything that is not well formed.  Bytes are numbers below 256. *)
Fixpoint decode_utf8 (bs : list N) : result str :=
  match bs with
  | [] => Ok []
  | a :: r =>
      if a <? 128 then bindR (decode_utf8 r) (fun t => Ok (a :: t))
      else if within 194 223 a then
        match r with
        | b :: r => if within 128 191 b then bindR (decode_utf8 r) (fun t => Ok ((a - 192) * 64 + (b - 128) :: t)) else Err ValueError
        | _ => Err ValueError
        end
      else if within 224 239 a then
        match r with
        | b :: c :: r =>
            if within (if a =? 224 then 160 else 128) (if a =? 237 then 159 else 191) b && within 128 191 c
            then bindR (decode_utf8 r) (fun t => Ok ((a - 224) * 4096 + (b - 128) * 64 + (c - 128) :: t)) else Err ValueError
        | _ => Err ValueError
        end
      else if within 240 244 a then
        match r with
        | b :: c :: d :: r =>
            if within (if a =? 240 then 144 else 128) (if a =? 244 then 143 else 191) b && within 128 191 c && within 128 191 d
            then bindR (decode_utf8 r) (fun t => Ok ((a - 240) * 262144 + (b - 128) * 4096 + (c - 128) * 64 + (d - 128) :: t)) else Err ValueError
        | _ => Err ValueError
        end
      else Err ValueError
  end.

(* the file system with the contents of files as bytes.  readlines() decodes the whole file before the first line is
   looked at, so that a decoding error is like a failing open. *)
Record disk := Disk {
  contents : str -> result (list N);
  entries : str -> result (list str)
}.
Definition mount (d : disk) : world := World (fun p => bindR (contents d p) decode_utf8) (entries d).
