(** * C80: what convert_ddl does to files and clusters when it cannot read a model *)
From Verif Require ExcelTalkFacts.
From Verif Require Import StrFacts SpecCli CliFacts CliFrame PropsCli PropsCliFail.
From Coq Require Import List. Import ListNotations.

(** there is no model to read: the DDL file is missing, or the workbook holds no database *)
Definition no_model (a : convert_args) (st : state) : Prop :=
  is_given (from_ddl a) /\ files st (text (from_ddl a)) = None
  \/ ~ is_given (from_ddl a) /\ is_given (from_excel a)
     /\ exists w ms, files st (text (from_excel a)) = Some (Book w) /\ read_xls (objects st) [] w = Ok ([], ms).

(** Exactly what happens then: nothing is sent and no file changes, except that the file named by --to_tql is
    left empty unless --validate is given. *)
Theorem C80_exact : forall H message a st, no_failures H -> convert_accepts a -> version a = false -> no_model a st ->
  let st' := fst (convert H message a st) in
  sent st' = sent st
  /\ (forall n, tql_file a n -> validate_option a = false -> files st' n = Some (Text []))
  /\ (forall n, ~ tql_file a n \/ validate_option a = true -> files st' n = files st n).
Proof.
  intros H message a st NF CA NV SRC. cbv zeta. cut (exists st' r, convert H message a st = (st', r) /\ sent st' = sent st
    /\ (forall n, tql_file a n -> validate_option a = false -> files st' n = Some (Text [])) /\ (forall n, ~ tql_file a n \/ validate_option a = true -> files st' n = files st n)).
  { intros [st' [r [-> C]]]. exact C. }
  rewrite (convert_starts H message a st CA NV).
  assert (R : exists st1, read_step H message a (emit (Namespace (convert_namespace a)) st) = (st1, Ok None) /\ sent st1 = sent st /\ forall n, files st1 n = files st n).
  { unfold read_step. destruct SRC as [[GD F]|[GD [GX [w [ms [F X]]]]]].
    - rewrite (proj2 (given_iff _) GD). unfold then_, print, read_ddl, parse_file, exists_. destruct (given_text _ GD) as [-> _]. rewrite ?files_emit. rewrite F. eexists. split; [reflexivity|]. split; reflexivity.
    - rewrite (proj2 (given_false _) GD), (proj2 (given_iff _) GX). unfold then_ at 1, print, read_excel. destruct (given_text _ GX) as [-> _]. unfold then_ at 1. rewrite (read_book_is H message _ w); [|exact F].
      rewrite ?objects_emit. apply ExcelTalkFacts.heard_ok in X. rewrite X. cbn [dvals map]. eexists. split; [reflexivity|]. split; reflexivity. }
  destruct R as [st1 [R [S1 F1]]]. unfold then_ at 1. rewrite R. clear R. unfold then_ at 1. destruct (validate_option a) eqn:VO; cbn [Cli.when].
  { eexists _, _. split; [reflexivity|]. split; [exact S1|]. split; [discriminate|]. intros n _. exact (F1 n). }
  unfold done. unfold then_ at 1. destruct (given (to_tql a)) eqn:G; cbn [Cli.when].
  - apply given_iff in G. destruct (given_text _ G) as [_ T]. unfold then_ at 1, print, write_tql_of, perform, smart_open. rewrite T. cbn [text].
    assert (N1 : str_eqb (text (to_tql a)) [] = false) by (destruct (str_eqb_spec (text (to_tql a)) []) as [?|]; [contradiction|reflexivity]). rewrite N1. cbn [negb andb].
    destruct (str_eqb_spec (text (to_tql a)) ($"-")) as [N2|N2]; cbn [negb andb].
    + eexists _, _. split; [reflexivity|]. split; [exact S1|]. split; [|intros n _; exact (F1 n)]. intros n [_ [Q _]] _. contradiction.
    + unfold io_bind, do_open. rewrite (proj1 NF). cbn [throw do_close app fold_left]. eexists _, _. split; [reflexivity|]. cbn [happen files set_file with_files sent]. split; [exact S1|]. split.
      * intros n [_ [_ ->]] _. cbn [files]. rewrite str_eqb_refl. reflexivity.
      * intros n [Q|Q]; [|discriminate]. cbn [files]. destruct (str_eqb_spec n (text (to_tql a))) as [E|_]; [|exact (F1 n)]. exfalso. apply Q. split; [exact G|]. split; [exact N2|exact E].
  - apply given_false in G. unfold done, then_ at 1. assert (K : forall n, tql_file a n -> False) by (intros n [Q _]; contradiction).
    assert (Q : forall st2, sent st2 = sent st1 -> (forall n, files st2 n = files st1 n) ->
      sent st2 = sent st /\ (forall n, tql_file a n -> false = false -> files st2 n = Some (Text [])) /\ (forall n, ~ tql_file a n \/ false = true -> files st2 n = files st n)).
    { intros st2 S2 F2. split; [congruence|]. split; [intros n X; destruct (K n X)|]. intros n _. rewrite F2. apply F1. }
    destruct (given (to_excel a)); cbn [Cli.when]; [eexists _, _; split; [reflexivity|apply Q; reflexivity]|].
    destruct (given (to_ts a)); cbn [Cli.when]; eexists _, _; (split; [reflexivity|apply Q; reflexivity]).
Qed.
Print Assumptions C80_exact.
Example C80_exact_case : convert_accepts (ddl_to_tql ($"typo.ddl") ($"good.tql") (Some ($"d"))) /\ no_model (ddl_to_tql ($"typo.ddl") ($"good.tql") (Some ($"d"))) small_state
  /\ tql_file (ddl_to_tql ($"typo.ddl") ($"good.tql") (Some ($"d"))) ($"good.tql").
Proof.
  split; [split; [right; right; left; discriminate|intros _; discriminate]|]. split; [left; split; [discriminate|reflexivity]|split; [discriminate|split; [discriminate|reflexivity]]].
Qed.

(** A cluster that does not answer: the command was sent, and that is all. *)
Theorem C80_cluster_fails : forall H message a st e, convert_accepts a -> version a = false -> from_cluster a ->
  h_run H (sent st) (script_command (text (from_ts a)) (username a) (password a) (text (db_option a))) = Err e ->
  exists st', convert H message a st = (st', Err e) /\ (forall n, files st' n = files st n) /\ sent st' = sent st ++ asked a.
Proof.
  intros H message a st e CA NV [G [N1 N2]] R. rewrite (convert_starts H message a st CA NV). unfold then_ at 1, read_step.
  rewrite (proj2 (given_false _) N1), (proj2 (given_false _) N2), (proj2 (given_iff _) G). unfold then_ at 1, print, read_from_cluster.
  destruct (given_text _ G) as [-> _]. destruct CA as [_ CA]. destruct (given_text _ (CA (or_intror G))) as [DT _]. rewrite DT. fold (script_command (text (from_ts a)) (username a) (password a) (text (db_option a))).
  unfold then_ at 1, run_tql_command. change (sent (emit ?o ?s)) with (sent s). change (sent (emit ?o ?s)) with (sent s). rewrite R. eexists. split; [reflexivity|]. split; [reflexivity|]. cbn [sent]. f_equal.
  unfold asked. apply given_false in N1, N2. rewrite (proj2 (given_no (A:=unit) _ [] N1)), (proj2 (given_no (A:=unit) _ [] N2)). apply given_iff in G. rewrite (given_yes _ _ G). reflexivity.
Qed.
Print Assumptions C80_cluster_fails.
Example C80_cluster_fails_case : convert_accepts from_a_cluster /\ from_cluster from_a_cluster /\ asked from_a_cluster <> [].
Proof. split; [split; [right; right; right; right; left; discriminate|intros _; discriminate]|]. split; [split; [discriminate|split; intros X; exact (X eq_refl)]|discriminate]. Qed.

(** An answer that cannot be parsed is left behind in a temporary file, in place of what was there; no other
    file changes and nothing more is sent. *)
Theorem C80_cluster_refuted : forall H message a st lines e, no_failures H -> convert_accepts a -> version a = false -> from_cluster a ->
  h_run H (sent st) (script_command (text (from_ts a)) (username a) (password a) (text (db_option a))) = Ok lines ->
  parse_text (text (db_option a)) ($"falcon_default_schema") (flat_map line lines) = Err e ->
  exists st', convert H message a st = (st', Err e) /\ sent st' = sent st ++ asked a
    /\ files st' (text (db_option a) ++ $".tmp") = Some (Text (flat_map line lines))
    /\ forall n, n <> text (db_option a) ++ $".tmp" -> files st' n = files st n.
Proof.
  intros H message a st lines e NF CA NV [G [N1 N2]] R P. rewrite (convert_starts H message a st CA NV). unfold then_ at 1, read_step.
  rewrite (proj2 (given_false _) N1), (proj2 (given_false _) N2), (proj2 (given_iff _) G). unfold then_ at 1, print, read_from_cluster.
  destruct (given_text _ G) as [-> _]. destruct CA as [_ CA]. destruct (given_text _ (CA (or_intror G))) as [DT DS]. rewrite DT. fold (script_command (text (from_ts a)) (username a) (password a) (text (db_option a))).
  set (st0 := emit (Printed _) _). assert (R0 : h_run H (sent st0) (script_command (text (from_ts a)) (username a) (password a) (text (db_option a))) = Ok lines) by exact R.
  destruct (does_run H _ _ st0 R0) as [st1 [E1 X1]]. destruct (temp_name (text (db_option a))) as [T1 T2].
  destruct (does_write H (text (db_option a) ++ $".tmp") _ _ st1 NF T1 (concat_lines lines)) as [st2 [E2 X2]]. rewrite T2 in X2. cbn [if_true] in X2.
  assert (F2 : files st2 (text (db_option a) ++ $".tmp") = Some (Text (flat_map line lines))) by (rewrite (ef_files _ _ _ _ _ _ X2); unfold upd; rewrite str_eqb_refl; reflexivity).
  unfold then_ at 1. rewrite E1. unfold then_ at 1. rewrite E2. unfold then_ at 1. change DEFAULT_SCHEMA with ($"falcon_default_schema"). rewrite DS. cbn [text]. rewrite (parse_file_is H _ _ _ _ st2 F2), P. cbn [map_ok].
  eexists. split; [reflexivity|]. cbn [files sent]. split; [|split; [exact F2|]].
  - rewrite (ef_sent _ _ _ _ _ _ X2), (ef_sent _ _ _ _ _ _ X1), app_nil_r. change (sent st0) with (sent st). f_equal. unfold asked. apply given_false in N1, N2. rewrite (proj2 (given_no (A:=unit) _ [] N1)), (proj2 (given_no (A:=unit) _ [] N2)). apply given_iff in G. rewrite (given_yes _ _ G). reflexivity.
  - intros n N. rewrite (ef_files _ _ _ _ _ _ X2). unfold upd. destruct (str_eqb_spec n (text (db_option a) ++ $".tmp")) as [E|_]; [contradiction|]. apply (ef_files _ _ _ _ _ _ X1).
Qed.
Print Assumptions C80_cluster_refuted.
Example C80_cluster_case : exists e, parse_text (text (db_option from_a_cluster)) ($"falcon_default_schema") (flat_map line [$"create table a (x int,, y int);"]) = Err e.
Proof. eexists. vm_compute. reflexivity. Qed.
