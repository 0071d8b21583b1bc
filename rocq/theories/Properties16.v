(* C72-C74: fields changed in a line, fields searched for, and the characters of the output. *)
From Coq Require Import List String NArith Bool Arith Lia.
From Verif Require Import PyBase PyRepr Decoder Layouts Record Api SpecLayouts Spec SpecRecord SpecApi SpecColumns SpecEdit SpecJson SpecUtf8 Utf8 Console SpecConsole SpecChars StrFacts ReadProps ReadProps2 RecordProps EditProps SearchProps Utf8Props CharFacts Samples Properties1 Properties5.
Import ListNotations.
Open Scope string_scope.
Open Scope list_scope.
Local Open Scope nat_scope.

(* ================= C72 ================= *)
(* other characters in columns that do not tell the kind of a record: still a record of the same kind, with the fields of the new columns *)
Theorem C72_changed : forall r line t o r' cells ks t', record_line line t -> read r line = (o, r', Ok true) -> layout_of t r' cells -> changed_in ks t t' -> keeps_keys t (ident r') ks ->
  fields r' = map (field_of t) cells /\ exists r'', read r t' = (o, r'', Ok true) /\ ident r'' = ident r' /\ raw r'' = t' /\ continuation r'' = continuation r' /\ layout_of t' r'' cells /\ fields r'' = map (field_of t') cells.
Proof. exact c72_changed. Qed.
Print Assumptions C72_changed.
Theorem C72_layout : forall r line t o r', record_line line t -> read r line = (o, r', Ok true) -> exists cells, layout_of t r' cells /\ fields r' = map (field_of t) cells.
Proof. exact layout_read. Qed.
Print Assumptions C72_layout.
(* any text of the right length can be written into a field, and no other field changes *)
Theorem C72_edit : forall r line t o r' a c b v, record_line line t -> read r line = (o, r', Ok true) -> layout_of t r' (a ++ c :: b) ->
  (forall k, In k (c_cols c) -> ~ shown_twice (a ++ c :: b) k) -> keeps_keys t (ident r') (c_cols c) -> List.length v = List.length (c_cols c) ->
  exists t' r'', changed_in (c_cols c) t t' /\ columns t' (c_cols c) = v /\ read r t' = (o, r'', Ok true) /\ ident r'' = ident r' /\ continuation r'' = continuation r' /\ raw r'' = t' /\
    fields r' = map (field_of t) a ++ Field (lit (c_name c)) (columns t (c_cols c)) (c_fn c) :: map (field_of t) b /\
    fields r'' = map (field_of t) a ++ Field (lit (c_name c)) v (c_fn c) :: map (field_of t) b.
Proof. exact c72_edit. Qed.
Print Assumptions C72_edit.
(* then the tables, if there are any, differ in that row only: no decoder looks at other fields *)
Theorem C72_table : forall r1 r2 a f1 f2 b out1 out2 o1 o2 rows1 rows2, ident r1 = ident r2 -> fields r1 = a ++ f1 :: b -> fields r2 = a ++ f2 :: b ->
  decode r1 out1 = (o1, Ok rows1) -> decode r2 out2 = (o2, Ok rows2) ->
  exists x y w1 w2, rows1 = x ++ w1 :: y /\ rows2 = x ++ w2 :: y /\ List.length x = List.length a.
Proof. exact c72_table. Qed.
Print Assumptions C72_table.

(* Seattle renamed *)
Definition l_tacoma : str := firstn 93 l_sea ++ lit "TACOMA                        " ++ skipn 123 l_sea.
(* the continuation number is a key column: with a 2 in it the line is another kind of record, and its application type is none *)
Definition l_sea_2 : str := firstn 21 l_sea ++ lit "2" ++ skipn 22 l_sea.
Definition named (name : string) (r : rec) : list str := map f_value (filter (fun f => str_eqb (f_name f) (lit name)) (fields r)).
Definition others (name : string) (r : rec) : list field := filter (fun f => negb (str_eqb (f_name f) (lit name))) (fields r).
Example C72_ex : changed_in (seq 94 30) l_sea l_tacoma /\ keeps_keys l_sea (lit "PA") (seq 94 30) /\
  named "Airport Name" (after (read new_record l_sea)) = [lit "SEATTLE-TACOMA INTL           "] /\ named "Airport Name" (after (read new_record l_tacoma)) = [lit "TACOMA                        "] /\
  others "Airport Name" (after (read new_record l_sea)) = others "Airport Name" (after (read new_record l_tacoma)) /\
  key_column l_sea (lit "PA") 22 /\ key_column l_sea (lit "PA") 13 /\ returned (read new_record l_sea_2) = Ok false.
Proof.
  assert (TI : forall cont app, type_info (lit "PA") cont app <-> type_columns (lit "PA") = (cont, app)) by (intros; apply type_info_iff; exists "PA"; split; [vm_compute; tauto|reflexivity]).
  split; [split; [vm_compute; reflexivity|]|].
  { assert (D : forall k, k < 133 -> ~ In k (seq 94 30) -> column l_tacoma k = column l_sea k).
    { intros k L X. do 133 (destruct k as [|k]; [first [vm_compute; reflexivity|exfalso; apply X; cbn; tauto]|]). lia. }
    intros k X. destruct (le_lt_dec 133 k) as [G|G]; [|apply D; assumption]. destruct k as [|k]; [lia|]. cbn [column].
    assert (L1 : List.length l_tacoma = 132) by (vm_compute; reflexivity). assert (L2 : List.length l_sea = 132) by (vm_compute; reflexivity).
    transitivity (@None N); [|symmetry]; apply nth_error_None; lia. }
  split.
  { intros k I. apply in_seq in I. intros [K|[(K & _)|(cont & app & T & K)]]; [cbn in K; lia|lia|]. apply TI in T. vm_compute in T. injection T as <- <-.
    destruct K as [K|K]; [injection K as <-; lia|cbn in K; lia]. }
  split; [vm_compute; reflexivity|]. split; [vm_compute; reflexivity|]. split; [vm_compute; reflexivity|].
  split; [right; right; exists (Some 22), [23]; split; [apply TI; vm_compute; reflexivity|auto]|]. split; [right; left; split; [reflexivity|vm_compute; discriminate]|]. vm_compute. reflexivity.
Qed.

(* ================= C73 ================= *)
(* a file in which every line can be read: whatever is shown as the value of a field finds its line *)
Theorem C73_field : forall w file text ls line t o r f, open_text w file = Ok text -> lines_of text ls -> Forall reads ls -> In line ls -> record_line line t -> read new_record line = (o, r, Ok true) ->
  In f (fields r) -> in_one_piece r f -> In (EvPrint t) (output_of (search w file (FStr (f_value f)))).
Proof. exact c73_field. Qed.
Print Assumptions C73_field.
(* and so do several values of one record together *)
Theorem C73_fields : forall w file text ls line t o r fs, open_text w file = Ok text -> lines_of text ls -> Forall reads ls -> In line ls -> record_line line t -> read new_record line = (o, r, Ok true) ->
  incl fs (fields r) -> Forall (in_one_piece r) fs -> In (EvPrint t) (output_of (search w file (FList (map f_value fs)))).
Proof. exact c73_fields. Qed.
Print Assumptions C73_fields.
(* not so the section code of an airport: its two characters are not next to each other *)
Theorem C73_section_code_refuted : exists w file text ls line o r f, open_text w file = Ok text /\ lines_of text ls /\ Forall reads ls /\ In line ls /\ record_line line line /\
  read new_record line = (o, r, Ok true) /\ In f (fields r) /\ f_name f = lit "Section Code" /\ f_value f = lit "PA" /\
  search w file (FStr (f_value f)) = ([EvColored (lit "red") (lit "Found 0 records that contain PA")], Ok tt).
Proof.
  exists (disk t_mixed), (lit "d/f"), t_mixed, [l_sea; l_acv; lit "HDR not a record"; l_sea_cont], l_sea. do 3 eexists.
  split; [reflexivity|]. split; [lines|]. split; [repeat (constructor; [eexists; vm_compute; reflexivity|]); constructor|]. split; [left; reflexivity|].
  split; [sample|]. split; [vm_compute; reflexivity|]. split; [right; right; left; reflexivity|]. vm_compute. repeat split; reflexivity.
Qed.
Print Assumptions C73_section_code_refuted.
Example C73_ex : exists f, In f (fields (after (read new_record l_acv))) /\ f_name f = lit "Section Code" /\ f_value f = lit "D " /\ in_one_piece (after (read new_record l_acv)) f /\
  search (disk t_mixed) (lit "d/f") (FStr (f_value f)) = ([EvPrint l_acv; EvColored (lit "green") (lit "Found 1 records that contain D ")], Ok tt).
Proof.
  eexists. split; [right; right; left; reflexivity|]. split; [vm_compute; reflexivity|]. split; [vm_compute; reflexivity|]. split; [intros _; exists "D "; split; vm_compute; reflexivity|]. vm_compute. reflexivity.
Qed.

(* ================= C74 ================= *)
Lemma contains_char : forall (s : str) c, existsb (N.eqb c) s = true -> In c s.
Proof. intros s c H. apply existsb_exists in H as (x & I & E). apply N.eqb_eq in E. subst x. exact I. Qed.
(* apart from ASCII, nothing is printed but characters of the line *)
Theorem C74_parse : forall line output e c, In e (output_of (parse line output)) -> mentions e c -> ascii_char c \/ In c line.
Proof.
  intros line output e c E C. assert (K : clean (fun c => ascii_char c \/ In c line) (parse line output)) by (apply parse_chars; [left; assumption|apply Forall_forall; right; assumption]).
  unfold clean in K. rewrite Forall_forall in K. exact (K e E c C).
Qed.
Print Assumptions C74_parse.
Theorem C74_read_file : forall w path output e c, In e (output_of (read_file w path output)) -> mentions e c -> ascii_char c \/ exists t, open_text w path = Ok t /\ In c t.
Proof.
  intros w path output e c E C. assert (K : clean (fun c => ascii_char c \/ exists t, open_text w path = Ok t /\ In c t) (read_file w path output)).
  { apply file_chars; [left; assumption|]. intros t T. apply Forall_forall. intros x X. right. exists t. auto. }
  unfold clean in K. rewrite Forall_forall in K. exact (K e E c C).
Qed.
Print Assumptions C74_read_file.
Theorem C74_read_folder : forall w path e c, In e (output_of (read_folder w path)) -> mentions e c ->
  ascii_char c \/ exists ns n t, scandir w path = Ok ns /\ In n ns /\ open_text w (path_join path n) = Ok t /\ In c t.
Proof.
  intros w path e c E C.
  assert (K : clean (fun c => ascii_char c \/ exists ns n t, scandir w path = Ok ns /\ In n ns /\ open_text w (path_join path n) = Ok t /\ In c t) (read_folder w path)).
  { apply folder_chars; [left; assumption|]. intros ns n t S I T. apply Forall_forall. intros x X. right. exists ns, n, t. auto. }
  unfold clean in K. rewrite Forall_forall in K. exact (K e E c C).
Qed.
Print Assumptions C74_read_folder.
Theorem C74_search : forall w file fl e c, In e (output_of (search w file fl)) -> mentions e c -> ascii_char c \/ (exists t, open_text w file = Ok t /\ In c t) \/ in_filters fl c.
Proof.
  intros w file fl e c E C.
  assert (K : clean (fun c => ascii_char c \/ (exists t, open_text w file = Ok t /\ In c t) \/ in_filters fl c) (search w file fl)).
  { apply search_chars; [left; assumption| |].
    - intros t T. apply Forall_forall. intros x X. right. left. exists t. auto.
    - destruct fl as [s|l|s]; cbn [filters_text]; try (apply Forall_forall; intros x X; right; right; exact X). apply list_chars; [left; assumption|]. intros s x S X _. right. right. exists s. auto. }
  unfold clean in K. rewrite Forall_forall in K. exact (K e E c C).
Qed.
Print Assumptions C74_search.
(* tables and colours add ASCII characters only *)
Theorem C74_console : forall colours evs c, In c (console colours evs) -> ascii_char c \/ exists e, In e evs /\ mentions e c.
Proof. exact console_in. Qed.
Print Assumptions C74_console.
(* what is printed for files can be written in UTF-8, whatever their bytes; for a search the filter must be such a text, or a list of any texts *)
Theorem C74_utf8 : forall d colours path,
  (forall output, exists bs, utf8 (console colours (output_of (read_file (mount d) path output))) bs) /\
  (exists bs, utf8 (console colours (output_of (read_folder (mount d) path))) bs) /\
  (forall s, scalar_text s -> exists bs, utf8 (console colours (output_of (search (mount d) path (FStr s)))) bs) /\
  (forall l, exists bs, utf8 (console colours (output_of (search (mount d) path (FList l)))) bs).
Proof.
  intros d colours path.
  assert (A : forall c : N, (c < 128)%N -> (fun c => (c < 1114112)%N /\ ~ (55296 <= c <= 57343)%N) c) by (intros c H; lia).
  assert (T : forall p t, open_text (mount d) p = Ok t -> scalar_text t).
  { intros p t O. cbn [mount open_text] in O. destruct (contents d p) as [bs|]; [|discriminate]. cbn [bindR] in O. apply decode_iff in O. eapply utf8_scalar. exact O. }
  split; [|split; [|split]]; intros; apply utf8_exists; apply (clean_console _ _ _ colours A).
  - apply file_chars; [exact A|]. intros t. apply T.
  - apply folder_chars; [exact A|]. intros ns n t _ _. apply T.
  - apply search_chars; [exact A|intros t; apply T|assumption].
  - apply search_chars; [exact A|intros t; apply T|]. apply list_chars; [exact A|]. intros s c _ _ P. unfold printable_char, in_ranges in P.
    apply existsb_exists in P as ([a b] & I & P). cbn [fst snd] in P. apply andb_true_iff in P as [P1 P2]. apply N.leb_le in P1, P2.
    assert (Q : forallb (fun r => ((snd r <? 1114112) && ((snd r <? 55296) || (57343 <? fst r)))%N) UnicodePrintable.printable_ranges = true) by (vm_compute; reflexivity).
    rewrite forallb_forall in Q. specialize (Q _ I). cbn [fst snd] in Q. apply andb_true_iff in Q as [Q1 Q2]. apply orb_true_iff in Q2. rewrite !N.ltb_lt in *. lia.
Qed.
Print Assumptions C74_utf8.
(* a line of a Python program may have a lone surrogate, which no encoding has; then the table has it, and so has the last line of a search for it *)
Theorem C74_lone_surrogate_refuted : (exists line, returned (read new_record line) = Ok true /\ forall colours, ~ exists bs, utf8 (console colours (output_of (parse line true))) bs) /\
  (forall w file s, open_text w file = Ok [] -> ~ scalar_text s -> forall colours, ~ exists bs, utf8 (console colours (output_of (search w file (FStr s)))) bs).
Proof.
  split.
  - exists (firstn 93 l_sea ++ [56320%N] ++ skipn 94 l_sea). split; [vm_compute; reflexivity|]. intros colours (bs & U). apply utf8_scalar in U. unfold scalar_text in U. rewrite Forall_forall in U. specialize (U 56320%N).
    destruct colours; destruct (U ltac:(apply contains_char; vm_compute; reflexivity)) as (_ & X); apply X; lia.
  - intros w file s O S colours (bs & U). apply utf8_scalar in U. apply S. unfold search in U. rewrite O in U. cbn [lift bind readlines universal_newlines lines_keep search_lines ret output_of fst console flat_map found app] in U.
    unfold scalar_text in *. rewrite Forall_forall in *. intros c C. apply U. unfold console, emit, found, print. cbn [flat_map fst output_of snd app]. rewrite app_nil_r. apply in_or_app. left. unfold colored. destruct colours.
    + right. apply in_or_app. right. apply in_or_app. right. apply in_or_app. right. apply in_or_app. left. apply in_or_app. right. apply in_or_app. right. apply in_or_app. right. exact C.
    + apply in_or_app. right. apply in_or_app. right. apply in_or_app. right. exact C.
Qed.
Print Assumptions C74_lone_surrogate_refuted.
(* an accent in the name of an airport is shown, and nothing else that is not ASCII *)
Definition l_accent : str := firstn 93 l_sea ++ [233%N] ++ skipn 94 l_sea.
Example C74_ex : (exists e, In e (output_of (parse l_accent true)) /\ mentions e 233%N) /\ ~ ascii_char 233%N /\
  filter (fun c => (128 <=? c)%N) (console true (output_of (parse l_accent true))) = [233; 233]%N /\ filter (fun c => (128 <=? c)%N) (console true (output_of (parse l_sea true))) = [].
Proof.
  split; [|split; [unfold ascii_char; lia|split; vm_compute; reflexivity]].
  assert (K : In 233%N (console true (output_of (parse l_accent true)))) by (apply contains_char; vm_compute; reflexivity).
  apply C74_console in K as [K|K]; [unfold ascii_char in K; lia|exact K].
Qed.
