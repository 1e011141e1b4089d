(** * C119: running a script again *)
From Verif Require Import StrFacts SpecScript SpecGen Writer GenFacts ScriptFacts CatalogFacts CheckFacts CasedFacts CasedRun PropsClauses PropsCased.
From Coq Require Import List. Import ListNotations.

(** a table of the model, under its converted name *)
Definition of_model (o : case_opts) (d : database) (x : ctable) : bool := existsb (fun t => is_table (cased o (t_schema t)) (cased o (t_name t)) x) (db_iter d).
Lemma entry_cased o t : entry_of (cased_table o t) = converted_entry o t.
Proof. unfold entry_of, converted_entry. rewrite cased_columns, cased_fks, cased_rels, !map_map. reflexivity. Qed.
Lemma model_entry o d t : In t (db_iter d) -> of_model o d (converted_entry o t) = true.
Proof. intros I. apply existsb_exists. exists t. split; [exact I|]. unfold is_table, converted_entry. cbn [ct_schema ct_name]. rewrite !str_eqb_refl. reflexivity. Qed.
Lemma others_cased o d l : others (cased_db o d) l = filter (fun x => negb (of_model o d x)) l.
Proof.
  unfold others. apply filter_ext. intros x. f_equal. unfold of_model, in_model. rewrite cased_iter. induction (db_iter d) as [|t ts IH]; [reflexivity|]. cbn [map existsb]. rewrite IH. reflexivity.
Qed.
Lemma filter_none {A} (p : A -> bool) l : (forall x, In x l -> p x = true) -> filter (fun x => negb (p x)) l = [].
Proof. intros H. induction l as [|x l IH]; [reflexivity|]. cbn [filter]. rewrite (H x (or_introl eq_refl)). apply IH. intros y I. apply H. right. exact I. Qed.
Lemma filter_again {A} (p : A -> bool) l m : (forall x, In x m -> p x = true) -> filter (fun x => negb (p x)) (filter (fun x => negb (p x)) l ++ m) = filter (fun x => negb (p x)) l.
Proof.
  intros H. rewrite filter_app, (filter_none p m H), app_nil_r. induction l as [|x l IH]; [reflexivity|]. cbn [filter]. destruct (negb (p x)) eqn:E; [|exact IH]. cbn [filter]. rewrite E, IH. reflexivity.
Qed.
Lemma with_same c : with_tables c (cd_tables c) = c.
Proof. destruct c; reflexivity. Qed.

Section Replay.
Variables (o : case_opts) (d : database).
Hypotheses (W : well_formed d) (Wr : writable d) (C : consistent_db d) (Own : own_fks d) (L : schema_local d).
Hypotheses (A : NoDup (map (cased o) (get_table_names d))) (V : survives o d).
Lemma replaced s c db : tql_script o false d = Ok s -> List.find (is_db (cased o (db_name d))) (cat_dbs c) = Some db ->
  (forall t, In t (db_iter d) -> In (cased o (t_schema t)) (cd_schemas db)) ->
  run_script c s = Some {| cat_dbs := replace_db (cased o (db_name d)) (with_tables db (filter (fun x => negb (of_model o d x)) (cd_tables db) ++ map (converted_entry o) (db_iter d))) (cat_dbs c);
                           cat_use := Some (cased o (db_name d)) |}.
Proof.
  intros S F H. destruct V as [A2 A3 A4 K]. assert (A4' : forall s, In s (get_schema_names d) -> s = default_schema \/ cased o s <> default_schema).
  { intros x I. destruct (str_eqb_spec x default_schema) as [E|E]; [left; exact E|right; exact (A4 x I E)]. }
  unfold run_script. rewrite (script_reads o false d s Wr S), (cased_stmts o d A4').
  rewrite (script_existing (cased_db o d) (many_formed o d W A A2 A3) (cased_consistent o d C A A2 K) (cased_own o d Own) (cased_local o d W C L A) c db F).
  - rewrite others_cased, cased_iter, map_map, (map_ext _ _ (entry_cased o)). reflexivity.
  - intros t I. rewrite cased_iter in I. apply in_map_iff in I. destruct I as [u [<- I]]. exact (H u I).
Qed.
End Replay.

(** A script written without CREATE DATABASE, run on a database that has the schemas, replaces the tables of the
    model and keeps all others; run again it changes nothing. *)
Theorem C119_replaces : forall o d s c db, well_formed d -> writable d -> consistent_db d -> own_fks d -> schema_local d ->
  NoDup (map (cased o) (get_table_names d)) -> survives o d -> tql_script o false d = Ok s ->
  List.find (is_db (cased o (db_name d))) (cat_dbs c) = Some db -> (forall t, In t (db_iter d) -> In (cased o (t_schema t)) (cd_schemas db)) ->
  let c' := {| cat_dbs := replace_db (cased o (db_name d)) {| cd_name := cd_name db; cd_schemas := cd_schemas db;
                 cd_tables := filter (fun x => negb (of_model o d x)) (cd_tables db) ++ map (converted_entry o) (db_iter d) |} (cat_dbs c);
               cat_use := Some (cased o (db_name d)) |} in
  run_script c s = Some c' /\ run_script c' s = Some c'.
Proof.
  intros o d s c db W Wr C Own L A V S F H c'. split; [exact (replaced o d W Wr C Own L A V s c db S F H)|].
  set (db' := {| cd_name := cd_name db; cd_schemas := cd_schemas db; cd_tables := filter (fun x => negb (of_model o d x)) (cd_tables db) ++ map (converted_entry o) (db_iter d) |}).
  assert (Hn : is_db (cased o (db_name d)) db' = true) by (apply find_some in F; apply F).
  rewrite (replaced o d W Wr C Own L A V s c' db' S (find_replace _ db' _ _ F Hn) H). cbn [cat_dbs c' cd_tables db'].
  rewrite filter_again by (intros x I; apply in_map_iff in I; destruct I as [t [<- I]]; apply model_entry, I).
  change (with_tables db' (filter (fun x => negb (of_model o d x)) (cd_tables db) ++ map (converted_entry o) (db_iter d))) with db'. rewrite (replace_replace _ db' db' _ Hn). reflexivity.
Qed.
Print Assumptions C119_replaces.
(** On a database just created by the script with CREATE DATABASE, the script without it changes nothing, and the
    script with it fails. *)
Theorem C119_created : forall o d s1 s c c', well_formed d -> writable d -> consistent_db d -> own_fks d -> schema_local d ->
  NoDup (map (cased o) (get_table_names d)) -> tql_script o true d = Ok s1 -> tql_script o false d = Ok s ->
  existsb (is_db (cased o (db_name d))) (cat_dbs c) = false -> run_script c s1 = Some c' ->
  run_script c' s = Some c' /\ run_script c' s1 = None.
Proof.
  intros o d s1 s c c' W Wr C Own L A S1 S N R. destruct (C117_runs o d s1 c W Wr C Own L A S1 N) as [R1 R2].
  assert (VN : ~ ~ survives o d) by (intros X; rewrite (R2 X) in R; discriminate R). clear R2.
  assert (V : survives o d).
  { split.
    - intros t I. apply no_dups_spec. destruct (no_dups (map (col_cased o) (get_column_names t))) eqn:E; [reflexivity|]. destruct VN. intros [X _ _ _]. apply X, no_dups_spec in I. rewrite I in E. discriminate E.
    - apply no_dups_spec. destruct (no_dups (map (cased o) (get_schema_names d))) eqn:E; [reflexivity|]. destruct VN. intros [_ X _ _]. apply no_dups_spec in X. rewrite X in E. discriminate E.
    - intros x I D E. apply VN. intros [_ _ X _]. exact (X x I D E).
    - intros n I. destruct (str_eqb_spec (col_cased o n) n) as [E|E]; [exact E|]. destruct VN. intros [_ _ _ X]. exact (E (X n I)). }
  rewrite (R1 V) in R. apply (f_equal (fun x => match x with Some y => y | None => c' end)) in R. cbn beta iota in R. subst c'.
  set (db := {| cd_name := cased o (db_name d); cd_schemas := default_schema :: map (cased o) (new_schemas d); cd_tables := map (converted_entry o) (db_iter d) |}).
  assert (Hn : is_db (cased o (db_name d)) db = true) by apply str_eqb_refl.
  set (c' := {| cat_dbs := cat_dbs c ++ [db]; cat_use := Some (cased o (db_name d)) |}).
  assert (F : List.find (is_db (cased o (db_name d))) (cat_dbs c') = Some db) by (apply find_app_new; assumption). split.
  - rewrite (replaced o d W Wr C Own L A V s c' db S F).
    + rewrite filter_none by (intros x I; cbn [cd_tables db] in I; apply in_map_iff in I; destruct I as [t [<- I]]; apply model_entry, I). cbn [app].
      change (with_tables db (map (converted_entry o) (db_iter d))) with db. rewrite (replace_same _ _ _ F). reflexivity.
    + intros t I. cbn [cd_schemas db]. destruct (str_dec (t_schema t) default_schema) as [E|E]; [left; rewrite E; reflexivity|]. right. apply in_map. unfold new_schemas. apply filter_In. split; [apply (wf_schemas _ W), I|].
      apply Bool.negb_true_iff, str_eqb_neq, E.
  - unfold run_script. rewrite (script_reads o true d s1 Wr S1). unfold script_stmts. cbn [app exec_all exec cat_dbs c']. rewrite existsb_app. cbn [existsb]. rewrite Hn, Bool.orb_true_r. reflexivity.
Qed.
Print Assumptions C119_created.
(** a catalog with two tables, one of which is replaced, under camel case *)
Definition old_catalog : catalog :=
  {| cat_dbs := [{| cd_name := $"other"; cd_schemas := [default_schema]; cd_tables := [] |};
                 {| cd_name := cased all_camel ($"shop"); cd_schemas := [default_schema; cased all_camel ($"audit")];
                    cd_tables := [{| ct_schema := default_schema; ct_name := $"kept"; ct_cols := [($"a", $"BIGINT")]; ct_pk := []; ct_shard := None; ct_fks := []; ct_rels := [] |};
                                  {| ct_schema := default_schema; ct_name := cased all_camel ($"Orders"); ct_cols := []; ct_pk := []; ct_shard := None; ct_fks := []; ct_rels := [] |}] |}];
     cat_use := None |}.
Example C119_case : survives all_camel shop /\ NoDup (map (cased all_camel) (get_table_names shop))
  /\ exists db, List.find (is_db (cased all_camel (db_name shop))) (cat_dbs old_catalog) = Some db
     /\ (forall t, In t (db_iter shop) -> In (cased all_camel (t_schema t)) (cd_schemas db))
     /\ map ct_name (filter (fun x => negb (of_model all_camel shop x)) (cd_tables db)) = [$"kept"].
Proof.
  destruct C117_case as [_ [A [V _]]]. split; [exact V|]. split; [exact A|]. eexists. split; [vm_compute; reflexivity|]. split; [|vm_compute; reflexivity].
  apply Forall_forall. vm_compute. repeat (apply Forall_cons || apply Forall_nil); tauto.
Qed.
