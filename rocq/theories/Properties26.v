(* C84: files read where the locale's encoding is a code page of single bytes, not UTF-8. *)
From Coq Require Import List String NArith Bool Arith Lia.
From Verif Require Import PyBase PyStr Decoder Layouts Record Api Utf8 Spec SpecApi SpecUtf8 StrFacts ReadFacts ReadProps ApiProps Utf8Props PageProps Samples Properties7.
Import ListNotations.
Open Scope string_scope.
Open Scope list_scope.
Local Open Scope nat_scope.

(* ================= C84 ================= *)
(* the code pages the theorems are about; more can be added by computation (fits_western) *)
Theorem C84_pages : western latin1 /\ western cp1252 /\ western ascii.
Proof. exact (conj latin1_western (conj cp1252_western ascii_western)). Qed.
Print Assumptions C84_pages.

(* files of ASCII, which ARINC 424 prescribes, are read alike in all of them *)
Theorem C84_ascii : forall pg d p, extends_ascii pg -> (forall bs, contents d p = Ok bs -> is_ascii bs) ->
  (forall output, read_file (mount_page pg d) p output = read_file (mount d) p output) /\ (forall fl, search (mount_page pg d) p fl = search (mount d) p fl).
Proof.
  intros pg d p E A. apply file_open. destruct (contents d p) as [bs|e] eqn:C; [apply (ascii_open pg d p bs E C); apply A; reflexivity|apply (err_open pg d p e C)].
Qed.
Print Assumptions C84_ascii.
Theorem C84_ascii_folder : forall pg d p, extends_ascii pg -> (forall f bs, contents d f = Ok bs -> is_ascii bs) -> read_folder (mount_page pg d) p = read_folder (mount d) p.
Proof.
  intros pg d p E A. unfold read_folder. change (scandir (mount_page pg d) p) with (scandir (mount d) p). destruct (scandir (mount d) p) as [ns|e]; [|reflexivity]. unfold lift. cbn [bind].
  erewrite for_each_ext; [reflexivity|]. intros n _. cbv beta. rewrite (proj1 (C84_ascii pg d _ E (A _))). reflexivity.
Qed.
Print Assumptions C84_ascii_folder.

(* a byte without a character ends the reading of the file, before any line of it is parsed *)
Theorem C84_undecodable : forall pg d p bs, contents d p = Ok bs -> Exists (fun b => pg b = None) bs ->
  (forall output, read_file (mount_page pg d) p output = ([], Err ValueError)) /\ (forall fl, search (mount_page pg d) p fl = ([], Err ValueError)).
Proof.
  intros pg d p bs C X. assert (O : open_text (mount_page pg d) p = Err ValueError).
  { cbn [mount_page open_text]. rewrite C. cbn [bindR]. clear C. induction X as [b bs E|b bs X IH]; cbn [decode_page]; [rewrite E; reflexivity|]. destruct (pg b); [rewrite IH; reflexivity|reflexivity]. }
  split; intros; [unfold read_file|apply search_open_error; exact O]. rewrite O. reflexivity.
Qed.
Print Assumptions C84_undecodable.

(* a record with any character outside ASCII, written in UTF-8, is silently no record in a code page *)
Theorem C84_refused : forall pg t bs u x r output, western pg -> utf8 t bs -> decode_page pg bs = Ok u -> ~ is_ascii t -> trimmed t x -> framed x ->
  read r u = ([], r, Ok false) /\ parse u output = ([], Ok false).
Proof.
  intros pg t bs u x r output W U D N T F. assert (H : seen pg t u) by (exists bs; split; [exact U|apply decode_page_iff; exact D]).
  pose proof (not_framed pg W t u x _ H N T F (strip_trimmed u)) as K. split; [eapply c01_read|eapply c01_parse]; eauto using strip_trimmed.
Qed.
Print Assumptions C84_refused.

(* for a whole file: as if it contained only the lines in ASCII *)
Lemma seen_parse : forall pg output ls us, western pg -> Forall2 (seen pg) ls us -> (forall l, In l ls -> ~ is_ascii l -> exists x, trimmed l x /\ framed x) ->
  (for_each (parse_line output) us = for_each (parse_line output) (filter asciib ls)) /\ forall fl n, search_lines fl n us = search_lines fl n (filter asciib ls).
Proof.
  intros pg output ls us W F. induction F as [|l u ls us (bs & U & P) F IH]; intro R; [split; reflexivity|].
  destruct (IH (fun l I => R l (or_intror I))) as [IH1 IH2]. cbn [filter]. destruct (asciib l) eqn:A.
  - apply asciib_iff in A. rewrite (seen_ascii pg W l u A) by (exists bs; split; assumption). cbn [for_each search_lines]. rewrite IH1. split; [reflexivity|]. intros fl n. destruct (read new_record l) as [[o r] [b|e]]; [|reflexivity]. rewrite !IH2. reflexivity.
  - assert (N : ~ is_ascii l) by (rewrite <- asciib_iff, A; discriminate). destruct (R l (or_introl eq_refl) N) as (x & T & X). apply decode_page_iff in P. split.
    + cbn [for_each]. unfold parse_line at 1. rewrite (proj2 (C84_refused pg l bs u x new_record output W U P N T X)), IH1. cbn [bind ret]. destruct (for_each (parse_line output) (filter asciib ls)). reflexivity.
    + intros fl n. cbn [search_lines]. rewrite (proj1 (C84_refused pg l bs u x new_record output W U P N T X)). cbn [negb bind]. rewrite IH2. destruct (search_lines fl n (filter asciib ls)). reflexivity.
Qed.
Theorem C84_file : forall pg d d' p bs bs' t t' u ls, western pg -> contents d p = Ok bs -> utf8 t bs -> lines_of t ls -> decode_page pg bs = Ok u ->
  (forall l, In l ls -> ~ is_ascii l -> exists x, trimmed l x /\ framed x) ->
  contents d' p = Ok bs' -> utf8 t' bs' -> lines_of t' (filter asciib ls) ->
  (forall output, read_file (mount_page pg d) p output = read_file (mount d') p output) /\ (forall fl, search (mount_page pg d) p fl = search (mount d') p fl).
Proof.
  intros pg d d' p bs bs' t t' u ls W C U L D R C' U' L'. pose proof (mount_open _ _ _ _ C' U') as O'. assert (O : open_text (mount_page pg d) p = Ok u) by (cbn [mount_page open_text]; rewrite C; exact D).
  assert (H : seen pg t u) by (exists bs; split; [exact U|apply decode_page_iff; exact D]). destruct (seen_lines pg W t ls L u H) as (us & K & F).
  split; intros; [rewrite (read_file_lines _ _ _ _ _ O K), (read_file_lines _ _ _ _ _ O' L'); apply (seen_parse pg _ _ _ W F R)|].
  rewrite (search_unfold _ _ _ _ _ O K), (search_unfold _ _ _ _ _ O' L'), (proj2 (seen_parse pg true _ _ W F R)). reflexivity.
Qed.
Print Assumptions C84_file.

(* Latin-1 has a text for every file *)
Theorem C84_latin_total : forall bs, Forall (fun b => (b < 256)%N) bs -> decode_page latin1 bs = Ok bs.
Proof. intros bs H. apply decode_page_iff. induction H as [|b bs L H IH]; constructor; [unfold latin1; rewrite (proj2 (N.ltb_lt _ _) L); reflexivity|exact IH]. Qed.
Print Assumptions C84_latin_total.

(* and takes for a record what is none in UTF-8: a line of 131 characters, one of them of two bytes *)
Definition l_short : str := firstn 93 l_sea ++ [201%N] ++ skipn 95 l_sea.
Definition l_short_bytes : list N := firstn 93 l_sea ++ [195; 137]%N ++ skipn 95 l_sea.
Theorem C84_gained_refuted : ~ (forall pg t bs u output, western pg -> utf8 t bs -> decode_page pg bs = Ok u -> snd (parse u output) = Ok true -> snd (parse t output) = Ok true).
Proof.
  intro H. specialize (H latin1 l_short l_short_bytes l_short_bytes false latin1_western). assert (X : snd (parse l_short false) = Ok true); [|vm_compute in X; discriminate X].
  apply H; [apply decode_iff; vm_compute; reflexivity|vm_compute; reflexivity|vm_compute; reflexivity].
Qed.
Print Assumptions C84_gained_refuted.

(* the disk of C57_ex: the record with its accent in UTF-8 (d/u) is lost in Latin-1, the one in Latin-1 (d/l) is found; Windows tells the same; Python's ASCII fails *)
Definition s_disk : disk := Disk (fun _ => Ok l_short_bytes) (fun _ => Err OSError).
Example C84_ex :
  search (mount_page latin1 a_disk) (lit "d/u") (FOther (lit "None")) = ([EvPrint l_acv; EvColored (lit "green") (lit "Found 1 records that contain None")], Ok tt) /\
  search (mount_page cp1252 a_disk) (lit "d/l") (FOther (lit "None")) = ([EvPrint l_acv; EvPrint (l_accent [201%N]); EvColored (lit "green") (lit "Found 2 records that contain None")], Ok tt) /\
  search (mount_page ascii a_disk) (lit "d/u") (FOther (lit "None")) = ([], Err ValueError) /\
  snd (read_folder (mount_page latin1 a_disk) (lit "d")) = Ok tt /\ snd (read_folder (mount a_disk) (lit "d")) = Err ValueError /\
  search (mount s_disk) (lit "x") (FStr (lit "EATTLE")) = ([EvColored (lit "red") (lit "Found 0 records that contain EATTLE")], Ok tt) /\
  search (mount_page latin1 s_disk) (lit "x") (FStr (lit "TTLE")) = ([EvPrint l_short_bytes; EvColored (lit "green") (lit "Found 1 records that contain TTLE")], Ok tt) /\
  decode_page cp1252 [128; 201]%N = Ok [8364; 201]%N /\ decode_page cp1252 [83; 129]%N = Err ValueError.
Proof. repeat match goal with |- _ /\ _ => split end; vm_compute; reflexivity. Qed.
(* the hypotheses of C84_file hold of d/u *)
Example C84_file_ex : exists t, utf8 t (l_acv ++ [13; 10]%N ++ l_accent [195; 137]%N) /\ lines_of t [l_acv; l_accent [201%N]] /\ ~ is_ascii (l_accent [201%N]) /\ trimmed (l_accent [201%N]) (l_accent [201%N]) /\ framed (l_accent [201%N]).
Proof.
  assert (O : forall l, forallb (fun c => negb (c =? 10)%N && negb (c =? 13)%N) l = true -> one_line l).
  { intros l H. unfold one_line. apply Forall_forall. intros c I. rewrite forallb_forall in H. specialize (H c I). apply andb_true_iff in H as [H1 H2]. split; intros ->; discriminate. }
  exists (l_acv ++ [13; 10]%N ++ l_accent [201%N]). split; [apply decode_iff; vm_compute; reflexivity|]. split.
  - apply lines_more; [apply O; vm_compute; reflexivity|right; right; left; reflexivity|discriminate|]. apply lines_last; [apply O; vm_compute; reflexivity|discriminate].
  - split; [rewrite <- asciib_iff; vm_compute; discriminate|]. split; [replace (l_accent [201%N]) with (strip (l_accent [201%N])) at 2 by (vm_compute; reflexivity); apply strip_trimmed|replace (l_accent [201%N]) with (strip (l_accent [201%N])) by (vm_compute; reflexivity); apply validate_framed; vm_compute; reflexivity].
Qed.
