(* The values of the source for the objects of the model, the state that import leaves, and checks of the
   program text that the interpreter relies on. *)
From Coq Require Import List String NArith ZArith Bool.
From Verif Require Import PyBase PyRepr StrFacts DecoderTables Decoder Layouts Json Record Api Utf8 PySyntax PyEval Source SrcFacts.
Import ListNotations.
Open Scope string_scope.
Open Scope list_scope.
Local Open Scope nat_scope.

Lemma assoc_app : forall {A} key (a b : list (str * A)), assoc key (a ++ b) = match assoc key a with Some v => Some v | None => assoc key b end.
Proof. intros A key a b. induction a as [|[k v] a IH]; [reflexivity|]. cbn [List.app assoc]. destruct (str_eqb key k); [reflexivity|exact IH]. Qed.
Lemma assoc_none : forall {A} key (l : list (str * A)), ~ In key (map fst l) -> assoc key l = None.
Proof.
  intros A key l H. induction l as [|[k v] l IH]; [reflexivity|]. cbn [assoc]. destruct (str_eqb key k) eqn:E.
  - apply str_eqb_eq in E. exfalso. apply H. left. symmetry. exact E.
  - apply IH. intro I. apply H. right. exact I.
Qed.
Lemma assoc_rev : forall {A} key (l : list (str * A)), NoDup (map fst l) -> assoc key (rev l) = assoc key l.
Proof.
  intros A key l H. induction l as [|[k v] l IH]; [reflexivity|]. cbn [map fst] in H. inversion H as [|? ? N D]; subst. cbn [rev]. rewrite assoc_app, (IH D). cbn [assoc].
  destruct (str_eqb key k) eqn:E; [|destruct (assoc key l); reflexivity].
  apply str_eqb_eq in E. subst k. rewrite (assoc_none key l N). reflexivity.
Qed.
Lemma assoc_map : forall {A B} (f : A -> B) key (l : list (str * A)), assoc key (map (fun kc => (fst kc, f (snd kc))) l) = option_map f (assoc key l).
Proof. intros A B f key l. induction l as [|[k v] l IH]; [reflexivity|]. cbn [map fst snd assoc]. destruct (str_eqb key k); [reflexivity|exact IH]. Qed.
Fixpoint distinct (l : list str) : bool := match l with [] => true | x :: l' => negb (existsb (str_eqb x) l') && distinct l' end.
Lemma distinct_NoDup : forall l, distinct l = true -> NoDup l.
Proof.
  induction l as [|x l IH]; intro H; constructor; cbn [distinct] in H; apply andb_prop in H; destruct H as [N D].
  - intro I. apply negb_true_iff in N. assert (E : existsb (str_eqb x) l = true); [|congruence]. apply existsb_exists. exists x. split; [exact I|]. apply str_eqb_eq. reflexivity.
  - exact (IH D).
Qed.
Lemma recs_assoc : forall key, assoc key recs_items = option_map cls_val (assoc key records).
Proof.
  intro key. unfold recs_items. rewrite assoc_rev; [apply assoc_map|]. apply distinct_NoDup. vm_compute. reflexivity.
Qed.

(* ---- import ---- *)
Definition leg0 : list (str * value) := rev (map (fun kc => (fst kc, VStr (snd kc))) tbl_LegTypeDesc).
Lemma leg0_ok : leg_ok leg0.
Proof.
  intro key. unfold leg0. rewrite assoc_rev; [|apply distinct_NoDup; vm_compute; reflexivity]. rewrite assoc_map. unfold lookup.
  destruct (assoc key tbl_LegTypeDesc); reflexivity.
Qed.
(* the statements of all modules, run once, print nothing and leave the two dictionaries *)
Lemma import_source : forall files n k, import_all source files (S (S n)) source (St [] [] []) k = k (St [] [] (globs leg0 recs)).
Proof. intros files n k. vm_compute. reflexivity. Qed.
