(* What is shown in a table can be searched for. *)
From Coq Require Import List String NArith Bool Arith Lia.
From Verif Require Import PyBase Decoder Layouts Record Api SpecLayouts Spec SpecRecord SpecApi SpecColumns SpecEdit StrFacts ReadFacts ReadProps ReadProps2 ReadProps3 RecordProps ApiProps ColumnProps.
Import ListNotations.
Open Scope string_scope.
Open Scope list_scope.
Local Open Scope nat_scope.

Lemma columns_occur : forall t a n, 1 <= a -> occurs (columns t (seq a n)) t.
Proof.
  intros t a n P. destruct a as [|a]; [lia|]. rewrite <- slice_columns. unfold slice. exists (firstn a t), (skipn n (skipn a t)).
  replace (a + n - a) with n by lia. rewrite firstn_skipn. symmetry. apply firstn_skipn.
Qed.
Definition whole_cell (sections : list string) (c : cell) : bool :=
  list_eqb Nat.eqb (c_cols c) (seq (hd 0 (c_cols c)) (List.length (c_cols c))) && (1 <=? hd 0 (c_cols c)) ||
  String.eqb (c_name c) "Section Code" && forallb shows_5_13 sections.
Lemma whole_all : forallb (fun e => forallb (whole_cell (e_sections e)) (e_cells e)) catalogue = true.
Proof. vm_compute. reflexivity. Qed.
Lemma field_occurs : forall r line t o r' f, record_line line t -> read r line = (o, r', Ok true) -> In f (fields r') -> in_one_piece r' f -> occurs (f_value f) t.
Proof.
  intros r line t o r' f RL R I W. destruct (read_entry _ _ _ _ _ RL R) as (e & s & E & S & ID & F & _). rewrite F in I. apply in_map_iff in I as (c & <- & C). cbn [field_of f_value f_name] in *.
  pose proof whole_all as A. rewrite forallb_forall in A. specialize (A e E). cbn beta in A. rewrite forallb_forall in A. specialize (A c C). unfold whole_cell in A. apply orb_true_iff in A as [A|A].
  - apply andb_true_iff in A as [A B]. apply Nat.leb_le in B. apply list_eqb_nat in A. rewrite A. apply columns_occur. exact B.
  - apply andb_true_iff in A as [A B]. apply String.eqb_eq in A. unfold in_one_piece in W. cbn [field_of f_name] in W. rewrite A in W. destruct (W eq_refl) as (s' & ID' & X). rewrite ID in ID'. apply lit_inj in ID'. subst s'.
    rewrite forallb_forall in B. rewrite (B s S) in X. discriminate.
Qed.
Lemma found_line : forall fl line o r t, read new_record line = (o, r, Ok true) -> record_line line t -> matches fl t -> report fl line [EvPrint t] 1.
Proof.
  intros fl line o r t R RL M. apply rep_found; [rewrite R; reflexivity| |exact M]. destruct RL as (_ & A & B & post & P & ->). split; [exact A|]. split; [exact B|]. exists [], post. repeat split; [constructor|exact P].
Qed.
Lemma c73_search : forall w file text ls fl line t o r, open_text w file = Ok text -> lines_of text ls -> Forall reads ls -> In line ls -> record_line line t -> read new_record line = (o, r, Ok true) ->
  matches fl t -> In (EvPrint t) (output_of (search w file fl)).
Proof.
  intros w file text ls fl line t o r OT LS RD I RL R M.
  assert (X : exists reps, Forall2 (fun l p => report fl l (fst p) (snd p)) ls reps).
  { clear - RD. induction RD as [|l ls H RD (reps & IH)]; [exists []; constructor|]. destruct (report_total fl l H) as (oo & k & P). exists ((oo, k) :: reps). constructor; [exact P|exact IH]. }
  destruct X as (reps & X). destruct (c35_ok _ _ _ _ _ _ OT LS X) as (ev & _ & ->). cbn [output_of fst]. apply in_or_app. left. apply in_concat. exists [EvPrint t]. split; [|left; reflexivity].
  clear OT LS RD. induction X as [|l p ls reps P X IH]; [destruct I|]. cbn [map]. destruct I as [->|I]; [left|right; apply IH; exact I].
  destruct (report_unique _ _ _ _ _ _ P (found_line _ _ _ _ _ R RL M)) as (A & _). exact A.
Qed.
Lemma c73_field : forall w file text ls line t o r f, open_text w file = Ok text -> lines_of text ls -> Forall reads ls -> In line ls -> record_line line t -> read new_record line = (o, r, Ok true) ->
  In f (fields r) -> in_one_piece r f -> In (EvPrint t) (output_of (search w file (FStr (f_value f)))).
Proof. intros w file text ls line t o r f OT LS RD I RL R F W. eapply c73_search; try eassumption. cbn. eapply field_occurs; eassumption. Qed.
Lemma c73_fields : forall w file text ls line t o r fs, open_text w file = Ok text -> lines_of text ls -> Forall reads ls -> In line ls -> record_line line t -> read new_record line = (o, r, Ok true) ->
  incl fs (fields r) -> Forall (in_one_piece r) fs -> In (EvPrint t) (output_of (search w file (FList (map f_value fs)))).
Proof.
  intros w file text ls line t o r fs OT LS RD I RL R F W. eapply c73_search; try eassumption. cbn. apply Forall_forall. intros v V. apply in_map_iff in V as (f & <- & IF). rewrite Forall_forall in W. eapply field_occurs; [exact RL|exact R|apply F; exact IF|apply W; exact IF].
Qed.
