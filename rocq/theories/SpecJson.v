(* A reader of JSON texts (RFC 8259), for objects whose members are strings; written without looking at the
   encoder.  Like json.loads it joins a \uD8xx\uDCxx pair of escapes into one character, and keeps the members in order. *)
From Coq Require Import List String NArith Bool.
From Verif Require Import PyStr Decoder Layouts Spec.
Import ListNotations.
Open Scope list_scope.
Open Scope N_scope.

Definition hex_value (c : N) : option N :=
  if (48 <=? c) && (c <=? 57) then Some (c - 48)
  else if (97 <=? c) && (c <=? 102) then Some (c - 87)
  else if (65 <=? c) && (c <=? 70) then Some (c - 55)
  else None.
Definition hex4 (a b c d : N) : option N :=
  match hex_value a, hex_value b, hex_value c, hex_value d with
  | Some a, Some b, Some c, Some d => Some (4096 * a + 256 * b + 16 * c + d)
  | _, _, _, _ => None
  end.
(* the character after a backslash, other than u: quote, backslash, slash, b, f, n, r, t *)
Definition simple_escape (c : N) : option N :=
  if c =? 34 then Some 34 else if c =? 92 then Some 92 else if c =? 47 then Some 47
  else if c =? 98 then Some 8 else if c =? 102 then Some 12 else if c =? 110 then Some 10
  else if c =? 114 then Some 13 else if c =? 116 then Some 9 else None.

(* what a string token consists of: characters, and \u escapes *)
Inductive unit16 := Plain (c : N) | Escaped (u : N).
(* from after the opening quote: the contents, and what follows the closing quote *)
Fixpoint string_body (s : str) : option (list unit16 * str) :=
  match s with
  | [] => None
  | c :: s1 =>
      if c =? 34 then Some ([], s1)
      else if c =? 92 then
        match s1 with
        | [] => None
        | e :: s2 =>
            if e =? 117 then
              match s2 with
              | a :: b :: c :: d :: s3 =>
                  match hex4 a b c d, string_body s3 with
                  | Some u, Some (us, rest) => Some (Escaped u :: us, rest)
                  | _, _ => None
                  end
              | _ => None
              end
            else
              match simple_escape e, string_body s2 with
              | Some x, Some (us, rest) => Some (Plain x :: us, rest)
              | _, _ => None
              end
        end
      else if c <? 32 then None
      else match string_body s1 with Some (us, rest) => Some (Plain c :: us, rest) | None => None end
  end.
Definition high_surrogate (u : N) : bool := (55296 <=? u) && (u <=? 56319).
Definition low_surrogate (u : N) : bool := (56320 <=? u) && (u <=? 57343).
Fixpoint characters (us : list unit16) : str :=
  match us with
  | [] => []
  | Plain c :: us1 => c :: characters us1
  | Escaped h :: us1 =>
      match us1 with
      | Escaped l :: us2 =>
          if high_surrogate h && low_surrogate l
          then 65536 + (h - 55296) * 1024 + (l - 56320) :: characters us2
          else h :: characters us1
      | _ => h :: characters us1
      end
  end.

(* blanks between tokens *)
Definition json_space (c : N) : bool := (c =? 32) || (c =? 9) || (c =? 10) || (c =? 13).
Fixpoint skip (s : str) : str :=
  match s with
  | [] => []
  | c :: s1 => if json_space c then skip s1 else s
  end.
Definition string_token (s : str) : option (str * str) :=
  match skip s with
  | c :: s1 => if c =? 34 then match string_body s1 with Some (us, rest) => Some (characters us, rest) | None => None end else None
  | [] => None
  end.
(* the members of an object, from the first one to the end of the text; n bounds their number *)
Fixpoint members (n : nat) (s : str) : option (list (str * str)) :=
  match n with
  | O => None
  | S n =>
      match string_token s with
      | None => None
      | Some (k, s1) =>
          match skip s1 with
          | c :: s2 =>
              if c =? 58 then
                match string_token s2 with
                | None => None
                | Some (v, s3) =>
                    match skip s3 with
                    | c :: s4 =>
                        if c =? 44 then match members n s4 with Some ms => Some ((k, v) :: ms) | None => None end
                        else if c =? 125 then match skip s4 with [] => Some [(k, v)] | _ => None end
                        else None
                    | [] => None
                    end
                end
              else None
          | [] => None
          end
      end
  end.
Definition read_json (s : str) : option (list (str * str)) :=
  match skip s with
  | c :: s1 =>
      if c =? 123 then
        match skip s1 with
        | d :: s2 => if d =? 125 then match skip s2 with [] => Some [] | _ => None end else members (List.length s1) s1
        | [] => None
        end
      else None
  | [] => None
  end.

(* ---- what is expected of it ---- *)
(* text of Unicode code points without a high surrogate right before a low one *)
Definition sound_text (s : str) : Prop :=
  Forall (fun c => c < 1114112) s /\
  forall a h l b, s = a ++ h :: l :: b -> high_surrogate h = true -> low_surrogate l = true -> False.
(* text without surrogates, such as any text decoded from a file *)
Definition scalar_text (s : str) : Prop := Forall (fun c => c < 1114112 /\ ~ (55296 <= c <= 57343)) s.
(* v is the value of the last field named k *)
Definition last_value (fs : list field) (k v : str) : Prop :=
  exists pre f post, fs = pre ++ f :: post /\ f_name f = k /\ f_value f = v /\ Forall (fun g => f_name g <> k) post.
(* a comes before b: compare the first characters that differ, a proper prefix comes first *)
Definition comes_before (a b : str) : Prop :=
  exists p, (exists y b', a = p /\ b = p ++ y :: b') \/
            (exists x y a' b', a = p ++ x :: a' /\ b = p ++ y :: b' /\ x < y).
