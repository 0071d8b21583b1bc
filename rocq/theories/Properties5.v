(* C35-C40: searching and reading files, and the table that changes at run time. *)
From Coq Require Import List String NArith Bool Arith Lia.
From Verif Require Import PyBase DecoderTables Decoder Layouts Record Api LegTypes SpecLayouts Spec SpecApi StrFacts ReadFacts ApiProps Samples Properties1.
Import ListNotations.
Open Scope string_scope.
Open Scope list_scope.
Local Open Scope nat_scope.

(* a file system for the examples: two records, a line of something else, a continuation record; CRLF, LF, CR and no line end *)
Definition t_mixed : str := l_sea ++ [13; 10]%N ++ l_acv ++ [10]%N ++ lit "HDR not a record" ++ [13]%N ++ l_sea_cont.
Definition t_unix : str := l_sea ++ [10]%N ++ l_acv ++ [10]%N ++ lit "HDR not a record" ++ [10]%N ++ l_sea_cont ++ [10]%N.
(* its second line raises on reading *)
Definition t_bad : str := l_sea ++ [10]%N ++ l_airway_x ++ [10]%N ++ l_acv.
(* its second line reads as a record, but the decoder of its frequency calls exit() *)
Definition t_freq : str := l_sea ++ [10]%N ++ l_acv_freq ++ [10]%N ++ l_acv.
Definition disk (t : str) : world :=
  World (fun p => if str_eqb p (lit "d/f") then Ok t else if str_eqb p (lit "d/g") then Ok l_acv else Err OSError)
        (fun p => if str_eqb p (lit "d") then Ok [lit "g"; lit "f"] else if str_eqb p (lit "e") then Ok [lit "../d/f"; lit "sub"] else Err OSError).
Ltac lines := apply lines_self; vm_compute; reflexivity.

(* every text is a list of lines, in one way *)
Theorem C39_lines : forall t, exists ls, lines_of t ls /\ forall ls', lines_of t ls' -> ls' = ls.
Proof. intro t. destruct (lines_exist t) as [ls H]. exists ls. split; [exact H|]. intros ls' H'. eapply lines_unique; eauto. Qed.
Print Assumptions C39_lines.

(* ================= C35 ================= *)
Theorem C35_search_prints_matching_records : forall w file fl t ls reps,
  open_text w file = Ok t -> lines_of t ls -> Forall2 (fun l p => report fl l (fst p) (snd p)) ls reps ->
  exists ev, summary fl (list_sum (map snd reps)) ev /\ search w file fl = (List.concat (map fst reps) ++ [ev], Ok tt).
Proof. exact c35_ok. Qed.
Print Assumptions C35_search_prints_matching_records.
(* such reports exist for all lines that read without an exception, and there is one for each line *)
Theorem C35_reports : forall fl line, reads line -> exists o k, report fl line o k /\ forall o' k', report fl line o' k' -> o' = o /\ k' = k.
Proof.
  intros fl line H. destruct (report_total fl line H) as [o [k R]]. exists o, k. split; [exact R|]. intros o' k' R'. eapply report_unique; eauto.
Qed.
Print Assumptions C35_reports.
(* and the first other line ends the search, before the number of records is reported *)
Theorem C35_search_stops_at_an_exception : forall w file fl t pre l post reps e,
  open_text w file = Ok t -> lines_of t (pre ++ l :: post) -> Forall2 (fun l p => report fl l (fst p) (snd p)) pre reps ->
  returned (read new_record l) = Err e -> search w file fl = (List.concat (map fst reps), Err e).
Proof. exact c35_err. Qed.
Print Assumptions C35_search_stops_at_an_exception.
Theorem C35_search_without_file : forall w file fl e, open_text w file = Err e -> search w file fl = ([], Err e).
Proof. exact search_open_error. Qed.
Print Assumptions C35_search_without_file.
Example C35_ex : search (disk t_mixed) (lit "d/f") (FStr (lit "SEA")) = ([EvPrint l_sea; EvPrint l_sea_cont; EvColored (lit "green") (lit "Found 2 records that contain SEA")], Ok tt) /\
  search (disk t_mixed) (lit "d/f") (FList [lit "SEA"; lit "SEATTLE"]) = ([EvPrint l_sea; EvColored (lit "green") (lit "Found 1 records that contain ['SEA', 'SEATTLE']")], Ok tt) /\
  search (disk t_bad) (lit "d/f") (FStr (lit "SEA")) = ([EvPrint l_sea], Err ValueError) /\
  lines_of t_mixed [l_sea; l_acv; lit "HDR not a record"; l_sea_cont] /\
  report (FStr (lit "SEA")) l_sea [EvPrint l_sea] 1 /\ report (FStr (lit "SEA")) l_acv [] 0 /\ report (FStr (lit "R")) (lit "HDR not a record") [] 0.
Proof.
  split; [vm_compute; reflexivity|]. split; [vm_compute; reflexivity|]. split; [vm_compute; reflexivity|]. split; [lines|].
  assert (T : forall l, strip l = l -> trimmed l l) by (intros l H; rewrite <- H at 2; apply strip_trimmed).
  split; [|split].
  - apply (rep_found _ _ l_sea); [vm_compute; reflexivity|apply T; vm_compute; reflexivity|]. apply contains_iff. vm_compute. reflexivity.
  - apply (rep_other _ _ l_acv); [vm_compute; reflexivity|apply T; vm_compute; reflexivity|]. intro H. apply contains_iff in H. vm_compute in H. discriminate.
  - exact (rep_none (FStr (lit "R")) (lit "HDR not a record") eq_refl).
Qed.

(* ================= C36 ================= *)
Theorem C36_one_filter : forall w file s, same_findings (FList [s]) (search w file (FList [s])) (FStr s) (search w file (FStr s)).
Proof.
  intros. apply search_ext. intro t. cbn [matches]. split; intro H; [inversion H; auto|constructor; auto].
Qed.
Print Assumptions C36_one_filter.
Theorem C36_order_and_repetition : forall w file l l', (forall s, In s l <-> In s l') -> 
  same_findings (FList l) (search w file (FList l)) (FList l') (search w file (FList l')).
Proof.
  intros w file l l' H. apply search_ext. intro t. cbn [matches]. rewrite !Forall_forall. split; intros A s I; apply A, H, I.
Qed.
Print Assumptions C36_order_and_repetition.
Theorem C36_more_filters_find_no_more : forall w file l l' o' n' ev', incl l l' -> summary (FList l') n' ev' -> search w file (FList l') = (o' ++ [ev'], Ok tt) ->
  exists o n ev, summary (FList l) n ev /\ search w file (FList l) = (o ++ [ev], Ok tt) /\ n' <= n /\ part_of o' o.
Proof.
  intros w file l l' o' n' ev' I. apply search_part. intro t. cbn [matches]. rewrite !Forall_forall. auto.
Qed.
Print Assumptions C36_more_filters_find_no_more.
(* a part of a filter finds at least as much *)
Theorem C36_shorter_filter_finds_more : forall w file s s' o' n' ev', occurs s s' -> summary (FStr s') n' ev' -> search w file (FStr s') = (o' ++ [ev'], Ok tt) ->
  exists o n ev, summary (FStr s) n ev /\ search w file (FStr s) = (o ++ [ev], Ok tt) /\ n' <= n /\ part_of o' o.
Proof.
  intros w file s s' o' n' ev' [a [b ->]]. apply search_part. intros t [a' [b' ->]]. exists (a' ++ a), (b ++ b'). rewrite <- !List.app_assoc. reflexivity.
Qed.
Print Assumptions C36_shorter_filter_finds_more.
(* an object that is neither a string nor a list, such as a tuple of strings, filters nothing *)
Theorem C36_empty_filters : forall w file x, same_findings (FStr []) (search w file (FStr [])) (FOther x) (search w file (FOther x)) /\
  same_findings (FList []) (search w file (FList [])) (FOther x) (search w file (FOther x)).
Proof.
  intros w file x. split; apply search_ext; intro t; cbn [matches]; split; auto. intros _. exists [], t. reflexivity.
Qed.
Print Assumptions C36_empty_filters.
Example C36_ex : search (disk t_mixed) (lit "d/f") (FOther (lit "('SEA',)")) =
    ([EvPrint l_sea; EvPrint l_acv; EvPrint l_sea_cont; EvColored (lit "green") (lit "Found 3 records that contain ('SEA',)")], Ok tt) /\
  search (disk t_mixed) (lit "d/f") (FList [lit "ARCATA"; lit "ACV"; lit "ARCATA"]) = 
    ([EvPrint l_acv; EvColored (lit "green") (lit "Found 1 records that contain ['ARCATA', 'ACV', 'ARCATA']")], Ok tt) /\
  search (disk t_mixed) (lit "d/f") (FList [lit "ARCATA"; lit "SEATTLE"]) = 
    ([EvColored (lit "red") (lit "Found 0 records that contain ['ARCATA', 'SEATTLE']")], Ok tt).
Proof. vm_compute. repeat split; reflexivity. Qed.

(* ================= C37 ================= *)
Theorem C37_line_by_line : forall w path output t ls, open_text w path = Ok t -> lines_of t ls ->
  Forall (fun l => succeeds (parse l output)) ls ->
  read_file w path output = (List.concat (map (fun l => output_of (parse l output)) ls), Ok tt).
Proof. exact c37_ok. Qed.
Print Assumptions C37_line_by_line.
Theorem C37_first_exception : forall w path output t pre l post o e, open_text w path = Ok t -> lines_of t (pre ++ l :: post) ->
  Forall (fun l => succeeds (parse l output)) pre -> parse l output = (o, Err e) ->
  read_file w path output = (List.concat (map (fun l => output_of (parse l output)) pre) ++ o, Err e).
Proof. exact c37_err. Qed.
Print Assumptions C37_first_exception.
(* there is no third case *)
Theorem C37_cases : forall output ls, Forall (fun l => succeeds (parse l output)) ls \/
  exists pre l post o e, ls = pre ++ l :: post /\ Forall (fun l => succeeds (parse l output)) pre /\ parse l output = (o, Err e).
Proof. exact first_error. Qed.
Print Assumptions C37_cases.
Theorem C37_concatenation : forall w w1 w2 path output t1 t2,
  open_text w path = Ok (t1 ++ [10%N] ++ t2) -> open_text w1 path = Ok (t1 ++ [10%N]) -> open_text w2 path = Ok t2 ->
  (forall o1, read_file w1 path output = (o1, Ok tt) -> read_file w path output = (o1 ++ output_of (read_file w2 path output), snd (read_file w2 path output))) /\
  (forall o1 e, read_file w1 path output = (o1, Err e) -> read_file w path output = (o1, Err e)).
Proof.
  intros w w1 w2 path output t1 t2 O O1 O2. rewrite (c37_concat w w1 w2 path output t1 t2 O O1 O2). split.
  - intros o1 ->. cbn [bind]. unfold output_of. destruct (read_file w2 path output). reflexivity.
  - intros o1 e ->. reflexivity.
Qed.
Print Assumptions C37_concatenation.
Theorem C37_no_file : forall w path output e, open_text w path = Err e -> read_file w path output = ([], Err e).
Proof. exact read_file_open_error. Qed.
Print Assumptions C37_no_file.
Example C37_ex : lines_of t_freq ([l_sea] ++ l_acv_freq :: [l_acv]) /\ Forall (fun l => succeeds (parse l true)) [l_sea] /\
  snd (parse l_acv_freq true) = Err SystemExit /\ snd (read_file (disk t_freq) (lit "d/f") true) = Err SystemExit /\
  output_of (read_file (disk t_freq) (lit "d/f") true) = output_of (parse l_sea true) ++ output_of (parse l_acv_freq true) /\
  snd (read_file (disk t_mixed) (lit "d/f") true) = Ok tt /\ List.length (output_of (read_file (disk t_mixed) (lit "d/f") true)) = 3.
Proof.
  split; [lines|]. split; [constructor; [|constructor]; exists (output_of (parse l_sea true)), true; vm_compute; reflexivity|]. compute_all.
Qed.

(* ================= C38 ================= *)
Theorem C38_file_by_file : forall w path names, scandir w path = Ok names ->
  Forall (fun n => succeeds (read_file w (path_join path n) true)) names ->
  read_folder w path = (List.concat (map (fun n => output_of (read_file w (path_join path n) true)) names), Ok tt).
Proof. exact c38_ok. Qed.
Print Assumptions C38_file_by_file.
Theorem C38_first_exception : forall w path pre n post o e, scandir w path = Ok (pre ++ n :: post) ->
  Forall (fun n => succeeds (read_file w (path_join path n) true)) pre -> read_file w (path_join path n) true = (o, Err e) ->
  read_folder w path = (List.concat (map (fun n => output_of (read_file w (path_join path n) true)) pre) ++ o, Err e).
Proof. exact c38_err. Qed.
Print Assumptions C38_first_exception.
(* an entry that cannot be opened, such as a subdirectory *)
Theorem C38_unreadable_entry : forall w path pre n post, scandir w path = Ok (pre ++ n :: post) ->
  Forall (fun n => succeeds (read_file w (path_join path n) true)) pre -> open_text w (path_join path n) = Err OSError ->
  snd (read_folder w path) = Err OSError.
Proof.
  intros w path pre n post D S O. rewrite (c38_err w path pre n post [] OSError D S (read_file_open_error _ _ _ _ O)). reflexivity.
Qed.
Print Assumptions C38_unreadable_entry.
Theorem C38_no_folder : forall w path e, scandir w path = Err e -> read_folder w path = ([], Err e).
Proof. intros w path e D. unfold read_folder, lift. rewrite D. reflexivity. Qed.
Print Assumptions C38_no_folder.
(* where the files of the folder are looked for *)
Theorem C38_paths : forall p c name, path_join [] name = name /\ path_join (p ++ lit "/") name = p ++ lit "/" ++ name /\
  ([c] <> lit "/" -> path_join (p ++ [c]) name = p ++ [c] ++ lit "/" ++ name).
Proof. exact c38_paths. Qed.
Print Assumptions C38_paths.
Example C38_ex : read_folder (disk t_unix) (lit "d") = (output_of (parse l_acv true) ++ output_of (parse l_sea true) ++ output_of (parse l_acv true) ++ output_of (parse l_sea_cont true), Ok tt) /\
  path_join (lit "d") (lit "g") = lit "d/g" /\ snd (read_folder (disk t_unix) (lit "e")) = Err OSError.
Proof. split; [vm_compute; reflexivity|]. split; vm_compute; reflexivity. Qed.

(* ================= C39 ================= *)
Theorem C39_newlines_read_file : forall w w' path output t t' ls, open_text w path = Ok t -> open_text w' path = Ok t' ->
  lines_of t ls -> lines_of t' ls -> read_file w path output = read_file w' path output.
Proof. exact c39_read_file. Qed.
Print Assumptions C39_newlines_read_file.
Theorem C39_newlines_search : forall w w' file fl t t' ls, open_text w file = Ok t -> open_text w' file = Ok t' ->
  lines_of t ls -> lines_of t' ls -> search w file fl = search w' file fl.
Proof. intros. rewrite (search_unfold w file fl t ls), (search_unfold w' file fl t' ls); auto. Qed.
Print Assumptions C39_newlines_search.
Example C39_ex : lines_of t_mixed [l_sea; l_acv; lit "HDR not a record"; l_sea_cont] /\
  lines_of t_unix [l_sea; l_acv; lit "HDR not a record"; l_sea_cont] /\ t_mixed <> t_unix /\
  (* only LF, CR and CRLF end lines: not the other separators of str.splitlines *)
  lines_of ([97; 12; 98; 8232; 99; 10; 10; 100; 13; 10] : str)%N [[97; 12; 98; 8232; 99]; []; [100]]%N.
Proof. split; [lines|]. split; [lines|]. split; [vm_compute; discriminate|lines]. Qed.

(* ================= C40 ================= *)
(* whatever was decoded before, a path and terminator means what it means at first *)
Theorem C40_decoding_is_stable : forall vs v r, fst (field_021_st (snd (run_021 leg_init vs)) v) = run_fn F021 v r.
Proof. intros. apply run_021_step. exact leg_init_extends. Qed.
Print Assumptions C40_decoding_is_stable.
Theorem C40_runs : forall vs r, fst (run_021 leg_init vs) = map (fun v => run_fn F021 v r) vs.
Proof. intros. apply run_021_results. exact leg_init_extends. Qed.
Print Assumptions C40_runs.
(* but the table grows: each alphabetic value decoded stays in it, once *)
Theorem C40_table_growth : forall vs, NoDup (map fst (snd (run_021 leg_init vs))) /\
  forall k, In k (map fst (snd (run_021 leg_init vs))) <-> In k (map fst leg_init) \/ exists v, In v vs /\ trimmed v k /\ isalpha k = true.
Proof. intro vs. exact (run_021_keys vs leg_init leg_keys_nodup). Qed.
Print Assumptions C40_table_growth.
Example C40_ex : let vs := [lit "ZZ"; lit "TF"; lit "ZZ"; lit "Q "; lit "12"; lit "  "] in
  fst (run_021 leg_init vs) = [ret (DStr (lit "<UNKNOWN>")); ret (DStr (lit "Track to a Fix or TF Leg.")); ret (DStr (lit "<UNKNOWN>"));
    ret (DStr (lit "<UNKNOWN>")); raise ValueError; ret (DStr [])] /\
  List.length leg_init = 23 /\ List.length (snd (run_021 leg_init vs)) = 25 /\
  fst (field_021_st (snd (run_021 leg_init vs)) (lit "ZZ")) = ret (DStr (lit "<UNKNOWN>")).
Proof. vm_compute. repeat split; reflexivity. Qed.
