(** * The case options of convert_ddl (C94) *)
From Verif Require Import StrFacts SpecCliFlow ScriptFacts CliFacts GenFacts CheckFacts PropsScript PropsValidate PropsCli.

Lemma cased_by a n : cased (case_of a) n = names_by_option a n.
Proof.
  unfold cased, to_case, names_by_option, case_of, all_but_default, in_camel. cbn [lowercase uppercase camelcase].
  change default_schema with DEFAULT_SCHEMA. destruct (lower_option a), (upper_option a), (camel_option a), (str_eqb n DEFAULT_SCHEMA); reflexivity.
Qed.
Lemma columns_by a n : col_cased (case_of a) n = columns_by_option a n.
Proof. unfold col_cased, columns_by_option, case_of. cbn [lowercase uppercase camelcase]. destruct (lower_option a), (upper_option a); reflexivity. Qed.
Lemma stmts_ext cn cn' cc cc' b d : (forall n, cn n = cn' n) -> (forall n, cc n = cc' n) -> script_stmts cn cc b d = script_stmts cn' cc' b d.
Proof.
  intros N C. unfold script_stmts. rewrite !N.
  assert (E : forall (A : Type) (a a' b b' : list A), a = a' -> b = b' -> a ++ b = a' ++ b') by (intros; subst; reflexivity).
  apply E; [reflexivity|]. apply E; [reflexivity|]. apply E; [|apply E; [|apply E]].
  - destruct b; [|reflexivity]. apply map_ext. intros x. rewrite N. reflexivity.
  - apply flat_map_ext. intros t. unfold table_stmts. rewrite !N. do 3 f_equal. apply map_ext. intros c. rewrite C. reflexivity.
  - apply flat_map_ext. intros t. apply map_ext. intros fk. unfold fk_stmt. rewrite !N. reflexivity.
  - apply flat_map_ext. intros t. apply map_ext. intros r. unfold rel_stmt. rewrite !N. reflexivity.
Qed.

Lemma script_named o create_db d : (forall n, In n (names_used d) -> exists n', to_case o n = Ok n') -> exists s, tql_script o create_db d = Ok s.
Proof.
  intros Hn. assert (Ht : forall t n, In t (db_iter d) -> In n (t_schema t :: t_name t :: flat_map (fun fk => [fk_from_table fk; fk_to_table fk]) (foreign_keys_iter t)
                        ++ flat_map (fun r => [rel_from_table r; rel_to_table r]) (relationships_iter t)) -> exists n', to_case o n = Ok n').
  { intros t n It I. apply Hn. right. apply in_or_app. right. apply in_flat_map. exists t. split; [exact It|exact I]. }
  apply concat_results_total. intros r Hr. unfold tql_texts in Hr.
  repeat (apply in_app_iff in Hr; destruct Hr as [Hr|Hr]).
  - destruct create_db; [|destruct Hr]. destruct Hr as [<-|[]]. unfold gen_create_database. destruct (Hn (db_name d) (or_introl eq_refl)) as [? ->]. cbn [bind]. eauto.
  - destruct Hr as [<-|[]]. unfold gen_use_database. destruct (Hn (db_name d) (or_introl eq_refl)) as [? ->]. cbn [bind]. eauto.
  - destruct create_db; [|destruct Hr]. apply in_map_iff in Hr. destruct Hr as [n [<- I]]. apply filter_In in I. destruct I as [I _]. unfold gen_create_schema.
    destruct (Hn n) as [? ->]; [right; apply in_or_app; left; exact I|]. cbn [bind]. eauto.
  - apply in_flat_map in Hr. destruct Hr as [t [It Hr]].
    destruct (Ht t (t_schema t) It (or_introl eq_refl)) as [s Es], (Ht t (t_name t) It (or_intror (or_introl eq_refl))) as [n En].
    destruct Hr as [<-|[<-|[<-|[<-|[]]]]]; eauto.
    + unfold gen_drop_table, cased_names. rewrite Es, En. cbn [bind]. eauto.
    + unfold gen_create_table. rewrite Es, En. cbn [bind]. destruct (t_shard t); eauto.
  - apply in_flat_map in Hr. destruct Hr as [t [It Hr]]. apply in_map_iff in Hr. destruct Hr as [fk [<- I]].
    assert (J : forall n, n = fk_from_table fk \/ n = fk_to_table fk -> exists n', to_case o n = Ok n').
    { intros n E. apply (Ht t n It). right. right. apply in_or_app. left. apply in_flat_map. exists fk. split; [exact I|]. destruct E as [-> | ->]; [left|right; left]; reflexivity. }
    unfold gen_foreign_key. destruct (Ht t (t_schema t) It (or_introl eq_refl)) as [? ->], (J _ (or_introl eq_refl)) as [? ->], (J _ (or_intror eq_refl)) as [? ->].
    cbn [bind]. eauto.
  - apply in_flat_map in Hr. destruct Hr as [t [It Hr]]. apply in_map_iff in Hr. destruct Hr as [fk [<- I]].
    assert (J : forall n, n = rel_from_table fk \/ n = rel_to_table fk -> exists n', to_case o n = Ok n').
    { intros n E. apply (Ht t n It). right. right. apply in_or_app. right. apply in_flat_map. exists fk. split; [exact I|]. destruct E as [-> | ->]; [left|right; left]; reflexivity. }
    unfold gen_relationships. destruct (Ht t (t_schema t) It (or_introl eq_refl)) as [? ->], (J _ (or_introl eq_refl)) as [? ->], (J _ (or_intror eq_refl)) as [? ->].
    cbn [bind]. eauto.
Qed.

(** C94: the file written consists of the statements of the model, with names as the options say.
    Lowercase is preferred over uppercase and uppercase over camel case; key columns stay as they are
    (see C19). *)
Theorem C94_case_options : forall H message a st d ms g,
  no_failures H -> convert_accepts a -> version a = false -> reads H message a st d ms -> well_formed d -> writable d ->
  to_tql a = Some g -> g <> [] -> g <> $"-" -> ~ is_given (to_excel a) -> ~ is_given (to_ts a) ->
  (lower_option a = false -> upper_option a = false -> camel_option a = true -> camel_able d) ->
  exists st' s, convert H message a st = (st', Ok tt) /\ files st' g = Some (Text s)
    /\ read_script s = Some (script_stmts (names_by_option a) (columns_by_option a) (create_db a) d).
Proof.
  intros H message a st d ms g NF CA V RD W Wr T G1 G2 NX NS CM.
  assert (S : exists s, tql_script (case_of a) (create_db a) d = Ok s).
  { apply script_named. intros n I. unfold to_case. destruct (str_eqb n DEFAULT_SCHEMA); [eauto|]. cbn [case_of lowercase uppercase camelcase].
    destruct (lower_option a); [eauto|]. destruct (upper_option a); [eauto|]. destruct (camel_option a); [|eauto].
    destruct (CM eq_refl eq_refl eq_refl n I) as [c [Ic Nc]]. destruct (C13_camel n) as [C1 [C2 _]].
    destruct (to_camel n) as [m|e] eqn:E; [eauto|]. rewrite (C2 e eq_refl) in C1. destruct (Nc (proj1 C1 eq_refl c Ic)). }
  destruct S as [s S].
  destruct (C09_validation_issues d) as [r [Va _]]; [intros t fk I J; apply (wf_paired t); [apply (wf_tables _ W), I|exact J]|].
  destruct (C79_converted H message a st d ms s new_writer r [] NF CA V RD) as [st' [E C]]; [auto|auto|intros X; destruct (NX X)| |].
  { intros c I. unfold to_send, if_given in I. destruct (text (to_ts a)) eqn:Y; [destruct I|exfalso; apply NS; unfold is_given; rewrite Y; discriminate]. }
  exists st', s. split; [exact E|]. split.
  - apply (cv_tql _ _ _ _ _ _ _ _ _ C).
    + unfold tql_file. rewrite T. split; [exact G1|split; [exact G2|reflexivity]].
    + intros X. apply excel_file_iff in X. destruct X as [X _]. exact (NX X).
    + intros [X _]. exact (NS X).
  - rewrite (script_reads _ _ _ _ Wr S). f_equal. apply stmts_ext; [apply cased_by|apply columns_by].
Qed.
Print Assumptions C94_case_options.
Definition to_upper : convert_args := file_to_tql ($"in.ddl") ($"d_b") ($"falcon_default_schema") ($"out.tql") {| o_create := true; o_lower := false; o_upper := true; o_camel := true; o_validate := false |}.
Definition to_camel_case : convert_args := file_to_tql ($"in.ddl") ($"d_b") ($"falcon_default_schema") ($"out.tql") {| o_create := true; o_lower := false; o_upper := false; o_camel := true; o_validate := false |}.
Definition case_ddl : str := $"create table my_table (Id int, v varchar(5));" ++ [newline_char].
Example C94_case : exists d, parse_text ($"d_b") ($"falcon_default_schema") case_ddl = Ok d /\ writable d /\ camel_able d
  /\ script_stmts (names_by_option to_upper) (columns_by_option to_upper) true d
     = [SCreateDatabase ($"D_B"); SUse ($"D_B"); SDropTable default_schema ($"MY_TABLE"); SCreateTable default_schema ($"MY_TABLE") [($"ID", $"BIGINT"); ($"V", $"VARCHAR(0)")] [] None]
  /\ script_stmts (names_by_option to_camel_case) (columns_by_option to_camel_case) true d
     = [SCreateDatabase ($"DB"); SUse ($"DB"); SDropTable default_schema ($"MyTable"); SCreateTable default_schema ($"MyTable") [($"Id", $"BIGINT"); ($"v", $"VARCHAR(0)")] [] None].
Proof.
  destruct (parse_text ($"d_b") ($"falcon_default_schema") case_ddl) as [d|] eqn:P; [|vm_compute in P; discriminate]. vm_compute in P. injection P as <-.
  eexists. split; [reflexivity|]. split; [apply usable_ok; vm_compute; reflexivity|]. split; [|split; vm_compute; reflexivity].
  intros n I. vm_compute in I. repeat (destruct I as [<-|I]; [eexists; split; [left; reflexivity|discriminate]|]). destruct I.
Qed.
