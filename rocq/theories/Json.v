(* json.dumps on a dict of str to str, as called at /repo/src/arinc424/record.py:180 and 182.
   Not code of /repo: the part of the Python standard library it calls (json.encoder, the default
   ensure_ascii=True encoder). *)
From Coq Require Import List String NArith Bool.
From Verif Require Import PyStr.
Import ListNotations.
Open Scope N_scope.

(* '{0:04x}' of one UTF-16 code unit *)
Definition hex_digit (d : N) : N := if d <? 10 then 48 + d else 87 + d.
Definition u_escape (u : N) : str :=
  [92; 117; hex_digit (u / 4096 mod 16); hex_digit (u / 256 mod 16); hex_digit (u / 16 mod 16); hex_digit (u mod 16)].

(* json.encoder.py_encode_basestring_ascii, one character: ESCAPE_DCT, printable ASCII as is,
   \uXXXX for the rest, a surrogate pair above U+FFFF *)
Definition esc_char (c : N) : str :=
  if c =? 34 then [92; 34]
  else if c =? 92 then [92; 92]
  else if c =? 10 then [92; 110]
  else if c =? 13 then [92; 114]
  else if c =? 9 then [92; 116]
  else if c =? 12 then [92; 102]
  else if c =? 8 then [92; 98]
  else if (32 <=? c) && (c <=? 126) then [c]
  else if c <? 65536 then u_escape c
  else let n := c - 65536 in
       u_escape (55296 + n / 1024 mod 1024) ++ u_escape (56320 + n mod 1024).
Definition encode_str (s : str) : str := 34 :: flat_map esc_char s ++ [34].

(* sep.join(parts) *)
Fixpoint join (sep : str) (parts : list str) : str :=
  match parts with
  | [] => []
  | [p] => p
  | p :: ps => p ++ sep ++ join sep ps
  end.
Definition member (kv : str * str) : str := encode_str (fst kv) ++ lit ": " ++ encode_str (snd kv).

(* json.dumps(d): separators (', ', ': ') *)
Definition dumps (d : list (str * str)) : str :=
  lit "{" ++ join (lit ", ") (map member d) ++ lit "}".

(* str < str: lexicographic by code point *)
Fixpoint str_ltb (a b : str) : bool :=
  match a, b with
  | [], [] => false
  | [], _ :: _ => true
  | _ :: _, [] => false
  | x :: a', y :: b' => (x <? y) || ((x =? y) && str_ltb a' b')
  end.
(* sorted(d.items()): stable insertion by key; the keys of a dict are distinct *)
Fixpoint insert_kv (kv : str * str) (l : list (str * str)) : list (str * str) :=
  match l with
  | [] => [kv]
  | kv' :: l' => if str_ltb (fst kv') (fst kv) then kv' :: insert_kv kv l' else kv :: l
  end.
Fixpoint sort_kv (l : list (str * str)) : list (str * str) :=
  match l with
  | [] => []
  | kv :: l' => insert_kv kv (sort_kv l')
  end.

(* json.dumps(d, sort_keys=True, indent=4, separators=(',', ': ')); an empty dict gives '{}' *)
Definition dumps_pretty (d : list (str * str)) : str :=
  match sort_kv d with
  | [] => lit "{}"
  | s => lit "{" ++ [10] ++ lit "    " ++
         join (lit "," ++ [10] ++ lit "    ") (map member s) ++ [10] ++ lit "}"
  end.
