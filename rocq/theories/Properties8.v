(* C58: the texts quoted in messages. *)
From Coq Require Import List String NArith Bool Arith Lia.
From Verif Require Import PyBase PyRepr Decoder Layouts Record Api Spec SpecNum SpecLiteral SpecApi LiteralProps ApiProps Samples Properties1.
Import ListNotations.
Open Scope string_scope.
Open Scope list_scope.
Local Open Scope nat_scope.

(* ================= C58 ================= *)
(* repr() writes a Python literal whose value is the text *)
Theorem C58_repr : forall s, text s -> literal (repr_str s) s.
Proof. exact repr_str_literal. Qed.
Print Assumptions C58_repr.
Theorem C58_repr_of_list : forall l, Forall text l -> list_literal (repr_list l) l.
Proof. exact repr_list_literal. Qed.
Print Assumptions C58_repr_of_list.
(* and a literal has one value *)
Theorem C58_one_value : (forall t s s', literal t s -> literal t s' -> s = s') /\ (forall t l l', list_literal t l -> list_literal t l' -> l = l').
Proof. split; [exact literal_unique|exact list_literal_unique]. Qed.
Print Assumptions C58_one_value.
(* ordinary texts are put between apostrophes as they are *)
Theorem C58_ordinary_text : forall s, Forall (fun c => 32 <= c <= 126 /\ c <> 39 /\ c <> 92)%N s -> repr_str s = lit "'" ++ s ++ lit "'".
Proof. exact repr_ordinary. Qed.
Print Assumptions C58_ordinary_text.
(* the summary of a search tells which list of filters it was for *)
Theorem C58_summary_of_lists : forall l l' n n' ev, Forall text l -> Forall text l' -> summary (FList l) n ev -> summary (FList l') n' ev -> l = l' /\ n = n'.
Proof. exact c58_lists. Qed.
Print Assumptions C58_summary_of_lists.
Theorem C58_summary_of_texts : forall s s' n n' ev, summary (FStr s) n ev -> summary (FStr s') n' ev -> s = s' /\ n = n'.
Proof. exact c58_texts. Qed.
Print Assumptions C58_summary_of_texts.
(* but not whether it was for a list: the text ['SEA'] and the list of the text SEA read the same *)
Theorem C58_text_or_list_refuted : exists s l ev, summary (FStr s) 0 ev /\ summary (FList l) 0 ev /\ ~ (forall t, matches (FStr s) t <-> matches (FList l) t).
Proof.
  exists (lit "['SEA']"), [lit "SEA"], (found 0 (FStr (lit "['SEA']"))). split; [apply found_summary|]. split; [exact (found_summary 0 (FList [lit "SEA"]))|].
  intro H. destruct (proj2 (H (lit "SEA"))) as [a [b E]]; [constructor; [exists [], []; reflexivity|constructor]|].
  apply (f_equal (@List.length N)) in E. rewrite !app_length in E. cbn in E. lia.
Qed.
Print Assumptions C58_text_or_list_refuted.
Example C58_ex : repr_str (lit "SEA") = lit "'SEA'" /\ repr_str (lit "O'HARE") = lit """O'HARE""" /\ repr_str (lit "O'""H") = lit "'O\'""H'" /\
  repr_str [92; 9; 0; 233; 160; 8232; 128169; 917505]%N = lit "'\\\t\x00" ++ [233]%N ++ lit "\xa0\u2028" ++ [128169]%N ++ lit "\U000e0001'" /\
  repr_list [lit "A"; lit "B'"; []] = lit "['A', ""B'"", '']" /\ repr_list [] = lit "[]".
Proof. repeat split; vm_compute; reflexivity. Qed.
