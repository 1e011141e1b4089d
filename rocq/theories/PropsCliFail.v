(** * Properties of convert_ddl when something goes wrong, and of its options (C80-C86) *)
From Verif Require ExcelTalkFacts.
From Verif Require Import StrFacts ParsedFacts SpecCli CliFacts CliFrame PropsCli.

Lemma files_emit o st : files (emit o st) = files st.
Proof. reflexivity. Qed.
Lemma objects_emit o st : objects (emit o st) = objects st.
Proof. reflexivity. Qed.
Lemma convert_starts H message a st : convert_accepts a -> version a = false ->
  convert H message a st = (database <-- read_step H message a ;;
      _ <-- when (validate_option a) (validate_step database) ;;
      _ <-- when (given (to_tql a)) (_ <-- print ($"Writing TQL ...") ;; write_tql_of H (case_of a) (create_db a) database (to_tql a)) ;;
      _ <-- when (given (to_excel a)) (_ <-- print ($"Writing Excel ...") ;; write_excel H a database) ;;
      when (given (to_ts a)) (_ <-- print ($"Writing to ThoughtSpot ...") ;; write_to_ts H a database)) (emit (Namespace (convert_namespace a)) st).
Proof. intros CA NV. unfold convert, then_ at 1. rewrite (convert_valid a st CA). cbn [negb]. unfold then_ at 1. rewrite NV. reflexivity. Qed.

(** C80, the part that holds: when reading the named file raises, no file changes and nothing is sent. *)
Theorem C80_unreadable_partial : forall H message a st e, convert_accepts a -> version a = false ->
  (is_given (from_ddl a) -> exists t, files st (text (from_ddl a)) = Some (Text t) /\ parse_text (text (db_option a)) (schema_option a) t = Err e) ->
  (~ is_given (from_ddl a) -> is_given (from_excel a)
     /\ (files st (text (from_excel a)) = None /\ e = FileNotFoundError
         \/ exists w, files st (text (from_excel a)) = Some (Book w) /\ read_xls (objects st) [] w = Err e)) ->
  exists st', convert H message a st = (st', Err e) /\ (forall n, files st' n = files st n) /\ sent st' = sent st.
Proof.
  intros H message a st e CA NV A B. rewrite (convert_starts H message a st CA NV). unfold then_ at 1, read_step. destruct (given (from_ddl a)) eqn:G.
  - apply given_iff in G. destruct (A G) as [t [F P]]. destruct (given_text _ G) as [PT _]. destruct CA as [_ CA]. destruct (given_text _ (CA (or_introl G))) as [_ DT].
    unfold then_, print, read_ddl. rewrite PT, DT. rewrite (parse_file_is H _ _ _ t); [|rewrite ?files_emit; exact F]. rewrite P. cbn [map_ok].
    eexists. split; [reflexivity|]. split; reflexivity.
  - apply given_false in G. destruct (B G) as [X Y]. destruct (given_text _ X) as [PT _]. rewrite (proj2 (given_iff _) X). unfold then_ at 1, print, read_excel. rewrite PT.
    destruct Y as [[F ->]|[w [F R]]].
    + unfold then_ at 1. unfold read_book. rewrite ?files_emit. rewrite F. eexists. split; [reflexivity|]. split; reflexivity.
    + unfold then_ at 1. rewrite (read_book_is H message _ w); [|exact F]. rewrite ?objects_emit. apply ExcelTalkFacts.heard_err in R. destruct R as [ms R]. rewrite R. eexists. split; [reflexivity|]. split; reflexivity.
Qed.
Print Assumptions C80_unreadable_partial.
Example C80_case : exists t e, parse_text ($"d") ($"falcon_default_schema") t = Err e.
Proof. exists ($"create table a (x int,, y int);"). eexists. vm_compute. reflexivity. Qed.

(** C80 does not hold: when the file named by --from_ddl is missing, or the workbook holds no database,
    the conversion goes on without a model and empties the file named by --to_tql before it fails. *)
Theorem C80_no_model_refuted : forall H message a st, no_failures H -> convert_accepts a -> version a = false -> validate_option a = false ->
  (is_given (from_ddl a) /\ files st (text (from_ddl a)) = None
   \/ ~ is_given (from_ddl a) /\ is_given (from_excel a)
      /\ exists w ms, files st (text (from_excel a)) = Some (Book w) /\ read_xls (objects st) [] w = Ok ([], ms)) ->
  forall n, tql_file a n -> exists st', convert H message a st = (st', Err AttributeError) /\ files st' n = Some (Text []).
Proof.
  intros H message a st NF CA NV VO SRC n [G [ND ->]]. rewrite (convert_starts H message a st CA NV).
  assert (R : exists st1, read_step H message a (emit (Namespace (convert_namespace a)) st) = (st1, Ok None)).
  { unfold read_step. destruct SRC as [[GD F]|[GD [GX [w [ms [F X]]]]]].
    - rewrite (proj2 (given_iff _) GD). unfold then_, print, read_ddl, parse_file, exists_. destruct (given_text _ GD) as [-> _]. rewrite ?files_emit. rewrite F. eexists. reflexivity.
    - rewrite (proj2 (given_false _) GD), (proj2 (given_iff _) GX). unfold then_ at 1, print, read_excel. destruct (given_text _ GX) as [-> _]. unfold then_ at 1. rewrite (read_book_is H message _ w); [|exact F].
      rewrite ?objects_emit. apply ExcelTalkFacts.heard_ok in X. rewrite X. cbn [dvals map]. eexists. reflexivity. }
  destruct R as [st1 R]. unfold then_ at 1. rewrite R, VO. unfold then_ at 1. cbn [when done]. rewrite (proj2 (given_iff _) G). cbn [when].
  unfold then_ at 1. destruct (given_text _ G) as [_ T]. unfold then_ at 1, print, write_tql_of, perform, smart_open. rewrite T. cbn [text].
  assert (N1 : str_eqb (text (to_tql a)) [] = false) by (destruct (str_eqb_spec (text (to_tql a)) []) as [?|]; [contradiction|reflexivity]).
  assert (N2 : str_eqb (text (to_tql a)) ($"-") = false) by (destruct (str_eqb_spec (text (to_tql a)) ($"-")) as [?|]; [contradiction|reflexivity]).
  rewrite N1, N2. cbn [negb andb]. unfold io_bind, do_open. rewrite (proj1 NF). cbn [throw do_close app fold_left]. eexists. split; [reflexivity|].
  cbn [happen files set_file with_files]. rewrite str_eqb_refl. reflexivity.
Qed.
Print Assumptions C80_no_model_refuted.
Example C80_refuted_case : exists a st n, convert_accepts a /\ version a = false /\ validate_option a = false /\ is_given (from_ddl a) /\ files st (text (from_ddl a)) = None
  /\ tql_file a n /\ files st n = Some (Text ($"precious")).
Proof.
  exists (ddl_to_tql ($"typo.ddl") ($"good.tql") (Some ($"d"))), {| files := fun n => if str_eqb n ($"good.tql") then Some (Text ($"precious")) else None; out := []; err := []; sent := []; objects := 0 |}, ($"good.tql").
  split; [split; [right; right; left; discriminate|intros _; discriminate]|]. repeat (split; [reflexivity || discriminate|]). split; [split; [discriminate|split; [discriminate|reflexivity]]|reflexivity].
Qed.

(** C81: whatever happens, only the named outputs, and temporary files when a cluster is involved, change;
    what was printed and sent is never taken back. *)
Theorem C81_only_named_files : forall H message a st n, ~ tql_file a n -> ~ excel_file a n ->
  ~ (is_given (to_ts a) \/ from_cluster a) \/ (~ exists s, n = s ++ $".tmp") -> files (fst (convert H message a st)) n = files st n.
Proof. intros H message a st n N1 N2 N3. apply (kp_files _ _ (keeps_convert H message a)). intros [T|[T|[T1 T2]]]; tauto. Qed.
Print Assumptions C81_only_named_files.
Example C81_case : ~ tql_file to_everything ($"in.ddl") /\ ~ excel_file to_everything ($"in.ddl") /\ ~ exists s, $"in.ddl" = s ++ $".tmp".
Proof.
  split; [intros [_ [_ E]]; discriminate|]. split; [intros E; apply excel_file_iff in E; destruct E as [_ E]; discriminate|].
  intros [s E]. apply (f_equal (fun l => hd "0"%char (rev l))) in E. rewrite rev_app_distr in E. discriminate.
Qed.

(** C82 does not hold: a file that has the name of the temporary file is lost, and when the cluster does not
    take the script the temporary file stays. *)
Theorem C82_existing_file_refuted : forall H message a st d ms script w r response,
  no_failures H -> convert_accepts a -> version a = false -> reads H message a st d ms ->
  (validate_option a = true -> validate d = Ok r) ->
  (is_given (to_tql a) \/ is_given (to_ts a) -> tql_script (case_of a) (create_db a) d = Ok script) ->
  (is_given (to_excel a) -> exists f, write_database (h_fresh H) new_writer d (text (to_excel a)) = Ok (w, f)) ->
  (forall c, In c (to_send a script) -> h_run H (sent st ++ asked a) c = Ok response) -> is_given (to_ts a) ->
  exists st', convert H message a st = (st', Ok tt) /\ files st' (db_name d ++ $".tmp") = None.
Proof.
  intros H message a st d ms script w r response NF CA NV RD V S X R T. destruct (C79_converted H message a st d ms script w r response NF CA NV RD V S X R) as [st' [E C]].
  exists st'. split; [exact E|]. apply (cv_temp _ _ _ _ _ _ _ _ _ C); [reflexivity|left; exact T].
Qed.
Print Assumptions C82_existing_file_refuted.
(** the hypotheses are those of [C79_converted], met by [C79_case], where a cluster is written to *)
Example C82_case : is_given (to_ts to_everything).
Proof. discriminate. Qed.
Theorem C82_left_behind_refuted : forall H message a st d ms script e,
  no_failures H -> convert_accepts a -> version a = false -> validate_option a = false -> reads H message a st d ms ->
  ~ is_given (to_tql a) -> ~ is_given (to_excel a) -> is_given (to_ts a) -> tql_script (case_of a) (create_db a) d = Ok script ->
  (forall c, In c (to_send a script) -> h_run H (sent st ++ asked a) c = Err e) ->
  exists st', convert H message a st = (st', Err e) /\ files st' (db_name d ++ $".tmp") = Some (Text script).
Proof.
  intros H message a st d ms script e NF CA NV VO RD N1 N2 G S R. rewrite (convert_starts H message a st CA NV).
  destruct (does_read H message a _ d ms NF CA (reads_emit _ _ _ _ _ _ (Namespace (convert_namespace a)) RD)) as [dd [[AN [AS _]] [_ [st1 [E1 X1]]]]].
  unfold then_ at 1. rewrite E1, VO. unfold then_ at 1. cbn [when done]. unfold then_ at 1. rewrite (proj2 (given_false _) N1), (proj2 (given_false _) N2), (proj2 (given_iff _) G). unfold when, done, then_ at 1, then_ at 1, print.
  unfold write_to_ts, then_ at 1. destruct (temp_name (db_name dd)) as [T1 T2]. rewrite <- AS in S.
  destruct (does_write H (db_name dd ++ $".tmp") _ _ (emit (Printed ($"Writing to ThoughtSpot ..." ++ [newline])) st1) NF T1 S) as [st2 [E2 X2]]. unfold write_tql_of, write_tql. rewrite E2.
  rewrite T2 in X2. assert (F2 : files st2 (db_name dd ++ $".tmp") = Some (Text script)) by (rewrite (ef_files _ _ _ _ _ _ X2); unfold upd; rewrite str_eqb_refl; reflexivity).
  unfold then_ at 1, read_text. rewrite F2. unfold then_ at 1, run_tql_command. rewrite (ef_sent _ _ _ _ _ _ X2), app_nil_r. change (sent (emit ?o st1)) with (sent st1).
  rewrite (ef_sent _ _ _ _ _ _ X1). change (sent (emit ?o st)) with (sent st). destruct (given_text _ G) as [-> _].
  rewrite R; [|unfold to_send; rewrite (given_yes _ _ (proj2 (given_iff _) G)); left; reflexivity]. eexists. split; [reflexivity|]. rewrite <- AN. exact F2.
Qed.
Print Assumptions C82_left_behind_refuted.

(** C84: --schema is the schema of every table read from a DDL file ... *)
Theorem C84_schema_ddl : forall H message a st d ms t, reads H message a st d ms -> is_given (from_ddl a) -> In t (db_iter d) -> t_schema t = schema_option a.
Proof.
  intros H message a st d ms t R G I. destruct R as [x d G' F P|w d rest ms N G' F R|lines d [_ [N _]] R P|n N1 N2 N3 E]; try contradiction.
  apply c44 in P. exact (pt_schema _ _ (proj2 (proj2 P) t I)).
Qed.
Print Assumptions C84_schema_ddl.
(** ... but it is ignored when the model comes from a cluster. *)
Theorem C84_schema_cluster_refuted : forall H message a st d ms t, reads H message a st d ms -> from_cluster a -> In t (db_iter d) -> t_schema t = $"falcon_default_schema".
Proof.
  intros H message a st d ms t R [G [N1 N2]] I. destruct R as [x d G' F P|w d rest ms N G' F R|lines d C R P|n N1' N2' N3 E]; try contradiction.
  apply c44 in P. exact (pt_schema _ _ (proj2 (proj2 P) t I)).
Qed.
Print Assumptions C84_schema_cluster_refuted.
Definition from_a_cluster : convert_args :=
  {| version := false; empty := false; from_ddl := None; to_tql := None; from_ts := Some ($"10.1.1.1"); to_ts := None;
     username := $"admin"; password := $"pw"; from_excel := None; to_excel := None; db_option := Some ($"d"); schema_option := $"mine";
     create_db := false; lower_option := false; upper_option := false; camel_option := false; validate_option := false; debug := false |}.
Definition answering : host :=
  {| h_env := h_env quiet; h_run := fun _ _ => Ok [$"create table t (id int);"]; h_calc := h_calc quiet; h_fresh := h_fresh quiet; h_as_text := h_as_text quiet;
     h_as_book := h_as_book quiet; h_path := h_path quiet; h_reason := h_reason quiet; h_query_error := h_query_error quiet; h_yaml_text := h_yaml_text quiet |}.
Example C84_case : convert_accepts from_a_cluster /\ from_cluster from_a_cluster /\ exists d t, reads answering (fun _ => []) from_a_cluster small_state d [] /\ In t (db_iter d)
  /\ t_schema t <> schema_option from_a_cluster.
Proof.
  assert (C : from_cluster from_a_cluster) by (split; [discriminate|split; intros X; exact (X eq_refl)]).
  split; [split; [right; right; right; right; left; discriminate|intros _; discriminate]|]. split; [exact C|].
  destruct (parse_text ($"d") ($"falcon_default_schema") (flat_map line [$"create table t (id int);"])) as [d|] eqn:P; [|vm_compute in P; discriminate].
  exists d. pose proof P as P'. vm_compute in P'. injection P' as <-. eexists.
  split; [assert (R := reads_cluster answering (fun _ => []) from_a_cluster small_state [$"create table t (id int);"] _ C eq_refl P);
          assert (Q : complaints answering (text (db_option from_a_cluster)) ($"falcon_default_schema") (flat_map line [$"create table t (id int);"]) = []) by (vm_compute; reflexivity); rewrite Q in R; exact R|].
  split; [left; reflexivity|]. intros X. vm_compute in X. discriminate.
Qed.

(** C85 does not hold: the password is printed on standard output, whenever the arguments are accepted. *)
Theorem C85_password_refuted : forall H message a st, convert_accepts a ->
  exists l, In (Namespace l) (out (fst (convert H message a st))) /\ In ($"password", AText (password a)) l.
Proof.
  intros H message a st CA. exists (convert_namespace a). split; [|do 7 right; left; reflexivity].
  unfold convert, then_ at 1. rewrite (convert_valid a st CA). cbn [negb]. unfold then_ at 1.
  destruct (kp_out _ _ (keeps_convert_body H message a) (emit (Namespace (convert_namespace a)) st)) as [l O].
  change (In (Namespace (convert_namespace a)) (out (fst ((if version a then print ($"convert_ddl (v2.0):  " ++ h_path H ++ $"/convert_ddl")
    else
      database <-- read_step H message a ;;
      _ <-- when (validate_option a) (validate_step database) ;;
      _ <-- when (given (to_tql a)) (_ <-- print ($"Writing TQL ...") ;; write_tql_of H (case_of a) (create_db a) database (to_tql a)) ;;
      _ <-- when (given (to_excel a)) (_ <-- print ($"Writing Excel ...") ;; write_excel H a database) ;;
      when (given (to_ts a)) (_ <-- print ($"Writing to ThoughtSpot ...") ;; write_to_ts H a database)) (emit (Namespace (convert_namespace a)) st))))).
  rewrite O. apply in_or_app. left. cbn [emit out]. apply in_or_app. right. left. reflexivity.
Qed.
Print Assumptions C85_password_refuted.

(** C86: --validate only reports: files and commands are the same without it, also for a model that is not
    valid. *)
Definition without_validation (a : convert_args) : convert_args :=
  {| version := version a; empty := empty a; from_ddl := from_ddl a; to_tql := to_tql a; from_ts := from_ts a; to_ts := to_ts a;
     username := username a; password := password a; from_excel := from_excel a; to_excel := to_excel a; db_option := db_option a; schema_option := schema_option a;
     create_db := create_db a; lower_option := lower_option a; upper_option := upper_option a; camel_option := camel_option a; validate_option := false; debug := debug a |}.
Theorem C86_validation_reports : forall H message a st d ms script w r response,
  no_failures H -> convert_accepts a -> version a = false -> reads H message a st d ms -> validate_option a = true -> validate d = Ok r ->
  (is_given (to_tql a) \/ is_given (to_ts a) -> tql_script (case_of a) (create_db a) d = Ok script) ->
  (is_given (to_excel a) -> exists f, write_database (h_fresh H) new_writer d (text (to_excel a)) = Ok (w, f)) ->
  (forall c, In c (to_send a script) -> h_run H (sent st ++ asked a) c = Ok response) ->
  exists st1 st2, convert H message a st = (st1, Ok tt) /\ convert H message (without_validation a) st = (st2, Ok tt)
    /\ (forall n, files st1 n = files st2 n) /\ sent st1 = sent st2
    /\ err st1 = err st2 ++ map line (snd (report r)) /\ err st2 = err st ++ map line ms.
Proof.
  intros H message a st d ms script w r response NF CA NV RD VO V S X R. set (b := without_validation a).
  assert (CB : convert_accepts b) by (destruct CA as [C1 C2]; split; [exact C1|exact C2]).
  assert (RB : reads H message b st d ms).
  { destruct RD as [t d G F P|w0 d rest ms N G F RR|lines d C RR P|n N1 N2 N3 E].
    - exact (reads_ddl H message b st t d G F P).
    - exact (reads_excel H message b st w0 d rest ms N G F RR).
    - exact (reads_cluster H message b st lines d C RR P).
    - exact (reads_nothing H message b st n N1 N2 N3 E). }
  assert (X' : is_given (to_excel a) -> exists w', write_database (h_fresh H) new_writer d (text (to_excel a)) = Ok (w', xls_filename (text (to_excel a))) /\ saved (h_calc H) w = saved (h_calc H) w').
  { intros G. destruct (X G) as [f E]. exists w. split; [|reflexivity]. rewrite E. rewrite (database_file_name _ _ _ _ _ _ E). reflexivity. }
  destruct (does_read H message a _ d ms NF CA (reads_emit _ _ _ _ _ _ (Namespace (convert_namespace a)) RD)) as [da [ALa [_ DRa]]].
  destruct (does_read H message b _ d ms NF CB (reads_emit _ _ _ _ _ _ (Namespace (convert_namespace b)) RB)) as [db [ALb [_ DRb]]].
  destruct (does_convert H message a st d da ms script _ _ r response _ NF CA NV ALa DRa (fun _ => V) S X' R) as [st1 [E1 F1]].
  destruct (does_convert H message b st d db ms script _ _ r response _ NF CB NV ALb DRb ltac:(discriminate) S X' R) as [st2 [E2 F2]].
  exists st1, st2. split; [exact E1|]. split; [exact E2|]. split; [intros n; rewrite (ef_files _ _ _ _ _ _ F1), (ef_files _ _ _ _ _ _ F2); reflexivity|].
  split; [rewrite (ef_sent _ _ _ _ _ _ F1), (ef_sent _ _ _ _ _ _ F2); reflexivity|]. rewrite (ef_err _ _ _ _ _ _ F1), (ef_err _ _ _ _ _ _ F2), VO. cbn [if_true b without_validation validate_option].
  rewrite app_nil_r, map_app, app_assoc. split; reflexivity.
Qed.
Print Assumptions C86_validation_reports.
(** the hypotheses are those of [C79_converted], met by [C79_case], where validation is asked for *)
Example C86_case : validate_option to_everything = true.
Proof. reflexivity. Qed.
