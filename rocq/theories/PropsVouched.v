(** * C118: what convert_ddl calls valid can be created *)
From Verif Require Import StrFacts ParsedFacts RoundDemo SpecRound SpecCliDiff SpecCliFlow ScriptFacts CliFacts GenFacts CatalogFacts CheckFacts PropsValidate PropsRound PropsCli PropsCliDiff PropsCliFlow CasedFacts CasedRun PropsCased PropsSettle SpecSound PropsSound.
From Coq Require Import List. Import ListNotations.

(** a parsed model that is consistent can be written, up to the names of columns and the conditions of relationships *)
Lemma parsed_writable n s text d : parse_text n s text = Ok d -> quote_free n -> quote_free s ->
  (forall t c, In t (db_iter d) -> In c (table_iter t) -> quote_free (column_name c)) ->
  (forall t r, In t (db_iter d) -> In r (relationships_iter t) -> plain_condition (rel_conditions r)) ->
  consistent_db d -> writable d.
Proof.
  intros P Qn Qs Qc Qr C. destruct (c44 _ _ _ _ P) as [N [W T]].
  assert (A : forall w l, free_of l w -> In dq l -> quote_free w) by (intros w l H I; exact (H dq I)).
  split; [rewrite N; exact Qn|apply Forall_forall; intros x I; rewrite (c44_schemas _ _ _ _ P x I); exact Qs|].
  intros t I. destruct (T t I) as [P1 P2 P3 P4 P5 P6 P7]. destruct (C t I) as [_ K _ _ _]. split.
  - apply (A _ _ P2). right. left. reflexivity.
  - rewrite P1. exact Qs.
  - intros c J. split; [exact (Qc t c I J)|]. specialize (P3 c J). unfold target_types in P3.
    repeat (destruct P3 as [<-|P3]; [intros x X; repeat (destruct X as [<-|X]; [repeat split; discriminate|]); destruct X|]). destruct P3.
  - apply Forall_forall. intros k J. apply (A _ _ (P4 k J)). right. left. reflexivity.
  - intros E F. destruct (t_pk t) as [|k l] eqn:G; [exact (E eq_refl)|]. specialize (K k (or_introl eq_refl)). unfold get_column_names in K. unfold table_iter in F.
    assert (Z : t_cols t = []) by (apply map_eq_nil in F; exact F). rewrite Z in K. destruct K.
  - intros sk E. apply Forall_forall. intros k J. apply (A _ _ (P5 sk E k J)). right. right. left. reflexivity.
  - intros fk J. destruct (P6 fk J) as [F1 F2 F3 F4]. split; [apply (A _ _ F2); left; reflexivity|]. split; [rewrite F1; apply (A _ _ P2); right; left; reflexivity|].
    split; [apply (A _ _ F3); right; left; reflexivity|]. assert (B : forall k, In k (fk_from_keys fk ++ fk_to_keys fk) -> quote_free k) by (intros k L; apply (A _ _ (F4 k L)); right; right; left; reflexivity).
    split; apply Forall_forall; intros k L; apply B, in_or_app; [left|right]; exact L.
  - intros r J. destruct (P7 r J) as [F1 F2 F3]. split; [apply (A _ _ F2); left; reflexivity|]. split; [rewrite F1; apply (A _ _ P2); right; left; reflexivity|].
    split; [apply (A _ _ F3); right; left; reflexivity|]. exact (Qr t r I J).
Qed.

(** convert_ddl --from_ddl [f] --database [n] --schema [s] --to_tql [g] --validate --create_db, with or without
    case options (camel case alone needs names with letters), finishes.  It either says that there are issues, or that the database is
    valid.  If it says that it is valid, the script in [g] runs on a catalog without that database exactly if the
    option does no harm, and creates the model that was read under its converted names. *)
Definition the_options (low up camel : bool) : tql_options := {| o_create := true; o_lower := low; o_upper := up; o_camel := camel; o_validate := true |}.
Theorem C118_vouched : forall H message st f n s g low up camel t d,
  no_failures H -> f <> [] -> n <> [] -> g <> [] -> g <> $"-" ->
  files st f = Some (Text t) -> parse_text n s t = Ok d -> quote_free n -> quote_free s ->
  (forall t c, In t (db_iter d) -> In c (table_iter t) -> quote_free (column_name c)) ->
  (forall t r, In t (db_iter d) -> In r (relationships_iter t) -> plain_condition (rel_conditions r)) ->
  let a := file_to_tql f n s g (the_options low up camel) in
  let o := {| lowercase := low; uppercase := up; camelcase := camel |} in
  (low = false -> up = false -> camel = true -> camel_able d) -> NoDup (map (cased o) (get_table_names d)) ->
  exists st' script verdict found,
    convert H message a st = (st', Ok tt) /\ files st' g = Some (Text script)
    /\ prints (Namespace (convert_namespace a) :: map says ([$"Reading DDL ..."; $"Validating database"] ++ verdict ++ [$"Writing TQL ..."])) st st'
    /\ err st' = err st ++ map line (complaints H n s t ++ found)
    /\ (found = [] /\ verdict = [$"Database is valid."] /\ consistent_db d
        /\ (forall c, existsb (is_db (cased o n)) (cat_dbs c) = false ->
              (survives o d -> run_script c script
                 = Some {| cat_dbs := cat_dbs c ++ [{| cd_name := cased o n; cd_schemas := default_schema :: map (cased o) (new_schemas d);
                                                       cd_tables := map (converted_entry o) (db_iter d) |}];
                           cat_use := Some (cased o n) |})
              /\ (~ survives o d -> run_script c script = None))
        \/ found <> [] /\ verdict = [] /\ ~ consistent_db d).
Proof.
  intros H message st f n s g low up camel t d NF F N G G1 T P Qn Qs Qc Qr a o CM A. destruct (c44 _ _ _ _ P) as [DN [W PT]].
  assert (AC : convert_accepts a) by (split; [right; right; left; exact F|intros _; exact N]). pose proof (reads_ddl H message a st t d F T P) as R.
  destruct (C114_converts H message a st d _ [] [] NF AC eq_refl R CM) as [st1 [script [r [E1 [S [V C1]]]]]]; [intros D; destruct (D eq_refl)|intros sc c []|].
  assert (PD : paired_db d) by (intros u fk I J; apply (wf_paired u); [apply (wf_tables _ W), I|exact J]).
  destruct (C08_validation_verdict d PD) as [r1 [V1 VV]]. rewrite V in V1. apply ok_inj in V1. subst r1. destruct (C09_validation_issues d PD) as [r' [V' [VI _]]]. rewrite V in V'. apply ok_inj in V'. subst r'.
  exists st1, script, (fst (report r)), (snd (report r)). split; [exact E1|].
  split; [apply (cv_tql _ _ _ _ _ _ _ _ _ C1); [split; [exact G|split; [exact G1|reflexivity]]|intros [D _]; exact (D eq_refl)|intros [D _]; exact (D eq_refl)]|].
  split; [|split; [exact (cv_err _ _ _ _ _ _ _ _ _ C1)|]].
  - pose proof (cv_out _ _ _ _ _ _ _ _ _ C1) as Q. assert (E : forall l l', l = l' -> prints l st st1 -> prints l' st st1) by (intros l l' -> X; exact X). refine (E _ _ _ Q).
    unfold a. cbn [file_to_tql from_ddl from_excel from_ts to_tql to_excel to_ts validate_option the_options o_validate if_true text].
    unfold if_given. cbn [text]. destruct f as [|x f]; [destruct (F eq_refl)|]. destruct g as [|y g]; [destruct (G eq_refl)|]. rewrite (proj2 (str_eqb_neq (y :: g) ($"-")) G1).
    cbn [app if_true map]. f_equal. f_equal. rewrite map_app. reflexivity.
  - unfold report. destruct (issues r) as [|i l] eqn:IR; cbn [fst snd].
    + left. assert (C : consistent_db d) by (apply VV, VI; reflexivity). split; [reflexivity|]. split; [reflexivity|]. split; [exact C|]. intros c NE.
      pose proof (parsed_writable n s t d P Qn Qs Qc Qr C) as Wr.
      assert (Own : own_fks d) by (intros u fk I J; apply (pt_fks _ _ (PT u I) fk J)).
      assert (L : schema_local d) by (intros u v I _ J; rewrite (pt_schema _ _ (PT u I)), (pt_schema _ _ (PT v J)); reflexivity).
      rewrite <- DN in *. exact (C117_runs o d script c W Wr C Own L A S NE).
    + right. split; [discriminate|]. split; [reflexivity|]. intros C. apply VV, VI in C. discriminate C.
Qed.
Print Assumptions C118_vouched.

(** The same for a workbook, of which the first database is read, if its names and conditions can be quoted and no
    foreign key or relationship crosses a schema border. *)
Theorem C118_workbook : forall H message st x g low up camel w n d rest ms,
  no_failures H -> x <> [] -> g <> [] -> g <> $"-" ->
  files st x = Some (Book w) -> read_xls (objects st) [] w = Ok ((n, d) :: rest, ms) -> writable d -> schema_local d ->
  let a := excel_to_tql x g (the_options low up camel) in
  let o := {| lowercase := low; uppercase := up; camelcase := camel |} in
  (low = false -> up = false -> camel = true -> camel_able d) -> NoDup (map (cased o) (get_table_names d)) ->
  exists st' script verdict found,
    convert H message a st = (st', Ok tt) /\ files st' g = Some (Text script)
    /\ prints (Namespace (convert_namespace a) :: map says ([$"Reading Excel ..."; $"Validating database"] ++ verdict ++ [$"Writing TQL ..."])) st st'
    /\ err st' = err st ++ map line (map message ms ++ match rest with [] => [] | _ => [$"WARNING:  multiple databases read.  Only using " ++ n] end ++ found)
    /\ (found = [] /\ verdict = [$"Database is valid."] /\ consistent_db d
        /\ (forall c, existsb (is_db (cased o n)) (cat_dbs c) = false ->
              (survives o d -> run_script c script
                 = Some {| cat_dbs := cat_dbs c ++ [{| cd_name := cased o n; cd_schemas := default_schema :: map (cased o) (new_schemas d);
                                                       cd_tables := map (converted_entry o) (db_iter d) |}];
                           cat_use := Some (cased o n) |})
              /\ (~ survives o d -> run_script c script = None))
        \/ found <> [] /\ verdict = [] /\ ~ consistent_db d).
Proof.
  intros H message st x g low up camel w n d rest ms NF X G G1 T P Wr L a o CM A.
  destruct (C114_sound _ (held_read _ _ _ _ _ held_nothing P) n d) as [[DN NN] W SD]; [cbn [dget]; rewrite str_eqb_refl; reflexivity|].
  assert (AC : convert_accepts a) by (split; [right; right; right; left; exact X|intros [D|D]; destruct (D eq_refl)]).
  pose proof (reads_excel H message a st w (n, d) rest ms (fun D => D eq_refl) X T P) as R. cbn [snd] in R.
  destruct (C114_converts H message a st d _ [] [] NF AC eq_refl R CM) as [st1 [script [r [E1 [S [V C1]]]]]]; [intros D; destruct (D eq_refl)|intros sc c []|].
  assert (PD : paired_db d) by (intros u fk I J; apply (wf_paired u); [apply (wf_tables _ W), I|exact J]).
  destruct (C08_validation_verdict d PD) as [r1 [V1 VV]]. rewrite V in V1. apply ok_inj in V1. subst r1. destruct (C09_validation_issues d PD) as [r' [V' [VI _]]]. rewrite V in V'. apply ok_inj in V'. subst r'.
  exists st1, script, (fst (report r)), (snd (report r)). split; [exact E1|].
  split; [apply (cv_tql _ _ _ _ _ _ _ _ _ C1); [split; [exact G|split; [exact G1|reflexivity]]|intros [D _]; exact (D eq_refl)|intros [D _]; exact (D eq_refl)]|].
  split; [|split; [pose proof (cv_err _ _ _ _ _ _ _ _ _ C1) as Q; rewrite DN in Q; rewrite <- app_assoc in Q; exact Q|]].
  - pose proof (cv_out _ _ _ _ _ _ _ _ _ C1) as Q. assert (E : forall l l', l = l' -> prints l st st1 -> prints l' st st1) by (intros l l' -> Y; exact Y). refine (E _ _ _ Q).
    unfold a. cbn [excel_to_tql from_ddl from_excel from_ts to_tql to_excel to_ts validate_option the_options o_validate if_true text].
    unfold if_given. cbn [text]. destruct x as [|z x]; [destruct (X eq_refl)|]. destruct g as [|y g]; [destruct (G eq_refl)|]. rewrite (proj2 (str_eqb_neq (y :: g) ($"-")) G1).
    cbn [app if_true map]. f_equal. f_equal. rewrite map_app. reflexivity.
  - unfold report. destruct (issues r) as [|i l] eqn:IR; cbn [fst snd].
    + left. assert (C : consistent_db d) by (apply VV, VI; reflexivity). split; [reflexivity|]. split; [reflexivity|]. split; [exact C|]. intros c NE.
      assert (Own : own_fks d) by (intros u fk I J; apply (sd_fks _ (SD u I) fk J)).
      rewrite <- DN in *. exact (C117_runs o d script c W Wr C Own L A S NE).
    + right. split; [discriminate|]. split; [reflexivity|]. intros C. apply VV, VI in C. discriminate C.
Qed.
Print Assumptions C118_workbook.
(** a file with all kinds of keys is called valid and survives without an option, and does not survive --lowercase *)
Definition vouched_ddl : str := settle_ddl ($"T") ($"Us") ($"serial").
Definition as_read (low : bool) : case_opts := {| lowercase := low; uppercase := false; camelcase := false |}.
Example C118_case : exists d, parse_text ($"D") ($"S") vouched_ddl = Ok d /\ consistent_db d /\ length (db_iter d) = 2
  /\ (forall t c, In t (db_iter d) -> In c (table_iter t) -> quote_free (column_name c))
  /\ (forall t r, In t (db_iter d) -> In r (relationships_iter t) -> plain_condition (rel_conditions r))
  /\ (forall low, NoDup (map (cased (as_read low)) (get_table_names d))) /\ survives (as_read false) d /\ ~ survives (as_read true) d.
Proof.
  eexists. split; [vm_compute; reflexivity|]. match goal with |- consistent_db ?x /\ _ => set (d := x) end.
  assert (U : usable d) by (apply usable_ok; vm_compute; reflexivity). destruct U as (U1 & U2 & U3 & U4 & U5).
  split; [exact U3|]. split; [reflexivity|]. split; [intros t c I J; apply (wt_cols _ (wd_tables _ U2 t I) c J)|]. split; [intros t r I J; apply (wt_rels _ (wd_tables _ U2 t I) r J)|].
  split; [intros []; apply no_dups_spec; vm_compute; reflexivity|]. split.
  - split.
    + intros t I. apply no_dups_spec. revert t I. apply Forall_forall. repeat constructor.
    + apply no_dups_spec. vm_compute. reflexivity.
    + intros s I. vm_compute in I. destruct I as [<-|[]]; intros N E. discriminate E.
    + reflexivity.
  - intros [_ _ _ K]. specialize (K ($"Id")). assert (Z : col_cased (as_read true) ($"Id") = $"Id") by (apply K; vm_compute; left; reflexivity). discriminate Z.
Qed.
(** A column name with a quote in it: the file is called valid, and the script cannot be run. *)
Theorem C118_quote_refuted : exists t d r s, parse_text ($"D") ($"S") t = Ok d /\ validate d = Ok r /\ issues r = [] /\ consistent_db d
  /\ tql_script no_case true d = Ok s /\ forall c, run_script c s = None.
Proof.
  exists ($"create table t (a" ++ dq :: $"b int);" ++ [newline_char]). eexists _, _, _. split; [vm_compute; reflexivity|]. split; [vm_compute; reflexivity|]. split; [reflexivity|].
  split; [apply valid_ok; vm_compute; reflexivity|]. split; [vm_compute; reflexivity|]. intros c. unfold run_script. match goal with |- match ?q with _ => _ end = _ => assert (Z : q = None) by (vm_compute; reflexivity); rewrite Z end. reflexivity.
Qed.
Print Assumptions C118_quote_refuted.
(** a workbook that is called valid: the one written for a model with two schemas *)
Definition shop_book : workbook cell :=
  match write_database (h_fresh PropsCli.quiet) new_writer shop ($"x") with Ok (w, _) => saved (h_calc PropsCli.quiet) w | Err _ => [] end.
Example C118_workbook_case : exists n d, read_xls 0 [] shop_book = Ok ([(n, d)], []) /\ writable d /\ schema_local d /\ consistent_db d /\ survives no_case d /\ length (db_iter d) = 3.
Proof.
  eexists _, _. split; [vm_compute; reflexivity|]. match goal with |- writable ?x /\ _ => set (d := x) end.
  assert (U : usable d) by (apply usable_ok; vm_compute; reflexivity). destruct U as (U1 & U2 & U3 & U4 & U5). split; [exact U2|]. split; [exact U5|]. split; [exact U3|]. split; [|reflexivity]. split.
  - intros t I. apply no_dups_spec. revert t I. apply Forall_forall. repeat constructor.
  - apply no_dups_spec. vm_compute. reflexivity.
  - intros s I N. unfold cased, to_case. destruct (str_eqb s DEFAULT_SCHEMA); exact N.
  - reflexivity.
Qed.
