(* C75: what two codes of a field are shown as. *)
From Coq Require Import List String NArith Bool Arith Lia.
From Verif Require Import PyBase Decoder Layouts Record Api SpecLayouts Spec SpecNum SpecCodes SpecDecode SpecTell StrFacts CodeProps TellProps Samples.
Import ListNotations.
Open Scope string_scope.
Open Scope list_scope.
Local Open Scope nat_scope.

(* ================= C75 ================= *)
(* values of one length that a code field shows alike are equal, or both unknown, or one of the listed pairs; the records may differ *)
Theorem C75_text_tells_code : forall cf v v' r r' s, In cf code_fields -> List.length v = List.length v' -> shows (cf_fn cf) v r s -> shows (cf_fn cf) v' r' s ->
  v = v' \/ both_unknown cf v v' \/ exists c c', In (cf_fn cf, (c, c')) same_text /\ v = lit c /\ v' = lit c'.
Proof. exact c75. Qed.
Print Assumptions C75_text_tells_code.
(* numbers of one width that are shown alike are equal *)
Theorem C75_numbers : forall f v v' r r' d, In f number_fns -> digit_string v -> digit_string v' -> List.length v = List.length v' -> List.length v <= 4 \/ (List.length v <= 15 /\ f <> F026) ->
  run_fn f v r = ([], Ok d) -> run_fn f v' r' = ([], Ok d) -> v = v'.
Proof. exact c75_numbers. Qed.
Print Assumptions C75_numbers.
Theorem C75_always_refuted : forall f c c', In (f, (c, c')) same_text -> c <> c' /\ String.length c = String.length c' /\ forall r, exists s, shows f (lit c) r s /\ shows f (lit c') r s.
Proof.
  intros f c c' I. cbn in I. repeat (destruct I as [E|I]; [injection E as <- <- <-; split; [discriminate|split; [reflexivity|intros r; eexists; split; vm_compute; reflexivity]]|]). destruct I.
Qed.
Print Assumptions C75_always_refuted.
Theorem C75_unknown_refuted : forall cf v v' r, In cf code_fields -> both_unknown cf v v' -> (cf_blank cf = true -> ~ whitespace v /\ ~ whitespace v') -> exists s, shows (cf_fn cf) v r s /\ shows (cf_fn cf) v' r s.
Proof.
  intros cf v v' r I (O & L & L') B. exists (lit "<UNKNOWN>"). pose proof (c25_other cf v r I L ltac:(intros H; apply (B H))) as K. pose proof (c25_other cf v' r I L' ltac:(intros H; apply (B H))) as K'. rewrite O in K, K'. auto.
Qed.
Print Assumptions C75_unknown_refuted.
Example C75_ex : (exists cf, In cf code_fields /\ cf_fn cf = F101 /\ shows (cf_fn cf) (lit "TCA") (view new_record) (lit "Terminal Control Area") /\ shows (cf_fn cf) (lit "TMA") (view new_record) (lit "Terminal Control Area") /\
    shows (cf_fn cf) (lit "ACC") (view new_record) (lit "Area Control Center") /\ shows (cf_fn cf) (lit "XXX") (view new_record) (lit "<UNKNOWN>")) /\
  shows F020 (lit "E") (view new_record) (lit "Either") /\ shows F020 (lit " ") (view new_record) (lit "Either") /\
  shows F034 (lit "11160") (view new_record) (lit "111.60") /\ In F034 number_fns /\ digit_string (lit "11160").
Proof. split; [|split; [vm_compute; reflexivity|split; [vm_compute; reflexivity|split; [vm_compute; reflexivity|split; [vm_compute; tauto|split; [discriminate|repeat constructor; vm_compute; discriminate]]]]]]. eexists. split; [do 7 right; left; reflexivity|]. repeat split; vm_compute; reflexivity. Qed.
