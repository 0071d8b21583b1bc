(* C56, C57: files as bytes. *)
From Coq Require Import List String NArith Bool Arith Lia.
From Verif Require Import PyBase Decoder Layouts Json Record Api Utf8 Spec SpecApi SpecJson SpecUtf8 StrFacts ReadProps ApiProps Utf8Props Samples Properties4.
Import ListNotations.
Open Scope string_scope.
Open Scope list_scope.
Local Open Scope N_scope.

(* ================= C56 ================= *)
Theorem C56_decoding : forall bs, (forall t, decode_utf8 bs = Ok t <-> utf8 t bs) /\ (decode_utf8 bs = Err ValueError <-> ~ exists t, utf8 t bs) /\
  (forall e, decode_utf8 bs = Err e -> e = ValueError).
Proof. intro bs. split; [intro t; apply decode_iff|]. split; [symmetry; apply not_utf8|intros e E; eapply decode_error; eauto]. Qed.
Print Assumptions C56_decoding.
(* every text without surrogates has one encoding, in bytes; other texts have none, and no bytes encode two texts *)
Theorem C56_encoding : forall t, (scalar_text t <-> exists bs, utf8 t bs) /\
  (forall bs bs', utf8 t bs -> utf8 t bs' -> bs = bs') /\ (forall t' bs, utf8 t bs -> utf8 t' bs -> t = t') /\
  (forall bs, utf8 t bs -> Forall (fun b => b < 256) bs /\ (List.length t <= List.length bs)%nat).
Proof.
  intro t. split; [split; [apply utf8_exists|intros [bs U]; eapply utf8_scalar; eauto]|]. split; [intros; eapply utf8_unique; eauto|]. split.
  - intros t' bs U U'. apply decode_iff in U, U'. congruence.
  - intros bs U. split; [eapply utf8_bytes; eauto|apply utf8_length; exact U].
Qed.
Print Assumptions C56_encoding.
Theorem C56_ascii : forall t bs, Forall (fun b => b < 128) bs -> (utf8 t bs <-> t = bs).
Proof. intros t bs A. split; [intro U; apply utf8_ascii_only; auto|intros ->; apply utf8_ascii; exact A]. Qed.
Print Assumptions C56_ascii.
Theorem C56_concatenation : forall t t' bs bs', utf8 t bs -> utf8 t' bs' -> utf8 (t ++ t') (bs ++ bs').
Proof. exact utf8_app. Qed.
Print Assumptions C56_concatenation.
(* a byte above 127 between bytes below 128, as an accent in Latin-1 *)
Theorem C56_lone_byte : forall a x b, 128 <= x -> (forall a' y, a = a' ++ [y] -> y < 128) -> (forall y b', b = y :: b' -> y < 128) ->
  decode_utf8 (a ++ x :: b) = Err ValueError.
Proof. intros a x b X A B. apply not_utf8. intros [t U]. eapply lone_byte; eauto. Qed.
Print Assumptions C56_lone_byte.
Example C56_ex : utf8 [65; 233; 8364; 128512] [65; 195; 169; 226; 130; 172; 240; 159; 152; 128] /\ utf8 [55295; 57344; 65535; 65536; 1114111]
    [237; 159; 191; 238; 128; 128; 239; 191; 191; 240; 144; 128; 128; 244; 143; 191; 191] /\
  (* overlong forms, surrogates, beyond 10FFFF, stray and missing continuation bytes *)
  Forall (fun bs => decode_utf8 bs = Err ValueError)
    [[192; 128]; [193; 191]; [224; 159; 191]; [240; 143; 191; 191]; [237; 160; 128]; [244; 144; 128; 128]; [245; 128; 128; 128]; [255]; [128]; [65; 195]; [226; 130]; [226; 130; 65]; [240; 159; 152]; [195; 169; 169]].
Proof. split; [apply decode_iff; vm_compute; reflexivity|]. split; [apply decode_iff; vm_compute; reflexivity|]. repeat constructor. Qed.

(* ================= C57 ================= *)
(* the file functions see the text that the bytes of the file encode *)
Theorem C57_text_of_a_file : forall d p bs, contents d p = Ok bs -> forall t, open_text (mount d) p = Ok t <-> utf8 t bs.
Proof. intros d p bs C t. cbn [mount open_text]. rewrite C. cbn [bindR]. apply decode_iff. Qed.
Print Assumptions C57_text_of_a_file.
(* bytes that encode no text, anywhere in a file: nothing of the file is read, not even the lines before *)
Theorem C57_undecodable_file : forall d p bs, contents d p = Ok bs -> (~ exists t, utf8 t bs) ->
  (forall fl, search (mount d) p fl = ([], Err ValueError)) /\ (forall output, read_file (mount d) p output = ([], Err ValueError)).
Proof.
  intros d p bs C U. pose proof (mount_bad _ _ _ C U) as O. split; intros; [apply search_open_error|apply read_file_open_error]; exact O.
Qed.
Print Assumptions C57_undecodable_file.
(* in a folder: neither is anything of the files after it *)
Theorem C57_undecodable_in_folder : forall d p pre n post bs, entries d p = Ok (pre ++ n :: post) ->
  Forall (fun n => succeeds (read_file (mount d) (path_join p n) true)) pre -> contents d (path_join p n) = Ok bs -> (~ exists t, utf8 t bs) ->
  read_folder (mount d) p = (List.concat (map (fun n => output_of (read_file (mount d) (path_join p n) true)) pre), Err ValueError).
Proof.
  intros d p pre n post bs E S C U. rewrite (c38_err (mount d) p pre n post [] ValueError E S); [rewrite List.app_nil_r; reflexivity|].
  apply (C57_undecodable_file d _ bs C U).
Qed.
Print Assumptions C57_undecodable_in_folder.
(* columns are characters: a line of 132 bytes, one of them not ASCII, is refused *)
Theorem C57_columns_are_characters : forall t bs r output, utf8 t bs -> List.length bs = 132%nat -> ~ Forall (fun b => b < 128) bs ->
  read r t = ([], r, Ok false) /\ parse t output = ([], Ok false).
Proof.
  intros t bs r output U L A. pose proof (utf8_length _ _ U) as [L1 L2].
  assert (F : forall x, trimmed t x -> ~ framed x).
  { intros x [_ [_ [pre [post [_ [_ ->]]]]]] [X _]. rewrite !List.app_length in *. apply A, L2. lia. }
  pose proof (strip_trimmed t) as T. split; [eapply c01_read|eapply c01_parse]; eauto.
Qed.
Print Assumptions C57_columns_are_characters.
(* a byte order mark at the start of a file: its first record is silently left out *)
Theorem C57_byte_order_mark_refuted :
  (forall d d' p bs bs' t t' l ls rt, contents d p = Ok ([239; 187; 191] ++ bs) -> utf8 t bs -> lines_of t (l :: ls) -> record_line l rt ->
     contents d' p = Ok bs' -> utf8 t' bs' -> lines_of t' ls ->
     (forall output, read_file (mount d) p output = read_file (mount d') p output) /\ (forall fl, search (mount d) p fl = search (mount d') p fl)) /\
  (exists d d' p bs, contents d p = Ok ([239; 187; 191] ++ bs) /\ contents d' p = Ok bs /\
     search (mount d) p (FStr (lit "SEA")) = ([EvColored (lit "red") (lit "Found 0 records that contain SEA")], Ok tt) /\
     search (mount d') p (FStr (lit "SEA")) = ([EvPrint l_sea; EvColored (lit "green") (lit "Found 1 records that contain SEA")], Ok tt)).
Proof.
  split; [exact bom_file|]. exists (Disk (fun _ => Ok ([239; 187; 191] ++ l_sea)) (fun _ => Err OSError)), (Disk (fun _ => Ok l_sea) (fun _ => Err OSError)), [], l_sea.
  repeat split; vm_compute; reflexivity.
Qed.
Print Assumptions C57_byte_order_mark_refuted.
(* every record read from a file, however it is indented, has the JSON of C28 *)
Theorem C57_json_of_files : forall d p bs t ls line r o r' single, contents d p = Ok bs -> open_text (mount d) p = Ok t -> lines_of t ls -> In line ls ->
  read r line = (o, r', Ok true) ->
  exists text ms, json r' false single = ([], Ok text) /\ read_json text = Some ms /\ NoDup (map fst ms) /\ (forall k v, In (k, v) ms <-> last_value (fields r') k v).
Proof.
  intros d p bs t ls line r o r' single C O L I R. apply C28_round_trip. apply (C57_text_of_a_file d p bs C) in O. apply utf8_scalar in O.
  apply (lines_scalar _ _ L) in O. rewrite Forall_forall in O. apply (scalar_fields r line o r'); auto.
Qed.
Print Assumptions C57_json_of_files.
(* three files: "É" for "E" in UTF-8 after a first record, the same in Latin-1, and one that is not looked at *)
Definition l_accent (e : list N) : list N := firstn 94 l_sea ++ e ++ skipn 95 l_sea.
Definition a_disk : disk := Disk
  (fun p => if str_eqb p (lit "d/u") then Ok (l_acv ++ [13; 10] ++ l_accent [195; 137]) else if str_eqb p (lit "d/l") then Ok (l_acv ++ [13; 10] ++ l_accent [201])
            else if str_eqb p (lit "d/s") then Ok (firstn 131 (l_accent [195; 137]) ++ [57]) else Err OSError)
  (fun p => if str_eqb p (lit "d") then Ok [lit "u"; lit "l"; lit "s"] else Err OSError).
Example C57_ex : search (mount a_disk) (lit "d/u") (FStr (lit "TTLE")) = ([EvPrint (l_accent [201]); EvColored (lit "green") (lit "Found 1 records that contain TTLE")], Ok tt) /\
  List.length (l_accent [195; 137]) = 133%nat /\ search (mount a_disk) (lit "d/u") (FOther (lit "None")) = ([EvPrint l_acv; EvPrint (l_accent [201]); EvColored (lit "green") (lit "Found 2 records that contain None")], Ok tt) /\
  search (mount a_disk) (lit "d/l") (FOther (lit "None")) = ([], Err ValueError) /\ search (mount a_disk) (lit "d/s") (FOther (lit "None")) = ([EvColored (lit "red") (lit "Found 0 records that contain None")], Ok tt) /\
  snd (read_folder (mount a_disk) (lit "d")) = Err ValueError /\ output_of (read_folder (mount a_disk) (lit "d")) = output_of (read_file (mount a_disk) (lit "d/u") true) /\
  ~ (exists t, utf8 t (l_acv ++ [13; 10] ++ l_accent [201])).
Proof. repeat match goal with |- _ /\ _ => split end; try (vm_compute; reflexivity). apply not_utf8. vm_compute. reflexivity. Qed.
