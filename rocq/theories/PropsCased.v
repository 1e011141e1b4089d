(** * C117: running a script written with a case option *)
From Verif Require Import StrFacts SpecScript SpecGen Writer GenFacts ScriptFacts CatalogFacts CheckFacts CasedFacts CasedRun PropsClauses.
From Coq Require Import List. Import ListNotations.

(** the catalog entry of a table under a case option: the names of columns in the column list are converted as
    columns, those of the table, its schema and the tables it references as tables, and all others are kept *)
Definition converted_entry (o : case_opts) (t : table) : ctable :=
  {| ct_schema := cased o (t_schema t); ct_name := cased o (t_name t);
     ct_cols := map (fun c => (col_cased o (column_name c), column_type c)) (table_iter t);
     ct_pk := t_pk t; ct_shard := match t_shard t with Some k => Some (sk_shards k, sk_keys k) | None => None end;
     ct_fks := map (fun f => {| cf_name := fk_name f; cf_cols := fk_from_keys f; cf_schema := cased o (t_schema t);
                                cf_table := cased o (fk_to_table f); cf_to_cols := fk_to_keys f |}) (foreign_keys_iter t);
     ct_rels := map (fun r => {| cr_name := rel_name r; cr_schema := cased o (t_schema t); cr_table := cased o (rel_to_table r);
                                 cr_cond := rel_conditions r |}) (relationships_iter t) |}.
(** what the option must not do to the other names: make two columns of a table, two schemas, or a schema and the
    default schema one, or change the name of a column of a key *)
Record survives (o : case_opts) (d : database) : Prop := {
  sv_columns : forall t, In t (db_iter d) -> NoDup (map (col_cased o) (get_column_names t));
  sv_schemas : NoDup (map (cased o) (get_schema_names d));
  sv_default : forall s, In s (get_schema_names d) -> s <> default_schema -> cased o s <> default_schema;
  sv_keys : forall n, In n (key_columns d) -> col_cased o n = n }.

Lemma inner_script (cn cc : str -> str) (b : bool) (d : database) : Forall inner ((if b then map (fun s => SCreateSchema (cn s)) (new_schemas d) else []) ++ flat_map (table_stmts cn cc) (db_iter d)
  ++ flat_map (fun t => map (fk_stmt cn t) (foreign_keys_iter t)) (db_iter d) ++ flat_map (fun t => map (rel_stmt cn t) (relationships_iter t)) (db_iter d)).
Proof.
  apply Forall_app. split; [destruct b; [|constructor]; apply Forall_forall; intros x H; apply in_map_iff in H; destruct H as [s [<- _]]; exact I|].
  apply Forall_app; split; [|apply Forall_app; split]; apply Forall_forall; intros x H; apply in_flat_map in H; destruct H as [t [_ H]].
  - destruct H as [<-|[<-|[]]]; exact I.
  - apply in_map_iff in H. destruct H as [fk [<- _]]. exact I.
  - apply in_map_iff in H. destruct H as [r [<- _]]. exact I.
Qed.
(** the names of schemas stay apart, and from the default, if the new ones do *)
Lemma schemas_apart o l : NoDup l -> NoDup (map (cased o) (filter (fun s => negb (str_eqb s default_schema)) l)) ->
  (forall s, In s l -> s <> default_schema -> cased o s <> default_schema) -> NoDup (map (cased o) l).
Proof.
  intros N M D. induction N as [|s l Hs N IH]; [constructor|]. cbn [map filter] in *. assert (IH' := fun M => IH M (fun x I => D x (or_intror I))). clear IH.
  destruct (str_eqb_spec s default_schema) as [E|E]; cbn [negb map] in M.
  - constructor; [|apply IH', M]. subst s. change (cased o default_schema) with default_schema. intros J. apply in_map_iff in J. destruct J as [x [E J]].
    apply (D x (or_intror J)); [intros ->; exact (Hs J)|exact E].
  - inversion M as [|? ? M1 M2]. subst. constructor; [|apply IH', M2]. intros J. apply in_map_iff in J. destruct J as [x [Q J]]. destruct (str_eqb_spec x default_schema) as [Z|Z].
    + apply (D s (or_introl eq_refl) E). rewrite <- Q, Z. reflexivity.
    + apply M1. rewrite <- Q. apply in_map, filter_In. split; [exact J|]. apply Bool.negb_true_iff, str_eqb_neq, Z.
Qed.

(** The script of a valid model, written with a case option that keeps its tables apart and with CREATE DATABASE,
    runs on a catalog without that database exactly if the option does no harm to the other names, and then it
    creates the model with its names converted. *)
Theorem C117_runs : forall o d s c, well_formed d -> writable d -> consistent_db d -> own_fks d -> schema_local d ->
  NoDup (map (cased o) (get_table_names d)) -> tql_script o true d = Ok s -> existsb (is_db (cased o (db_name d))) (cat_dbs c) = false ->
  (survives o d -> run_script c s
     = Some {| cat_dbs := cat_dbs c ++ [{| cd_name := cased o (db_name d); cd_schemas := default_schema :: map (cased o) (new_schemas d);
                                           cd_tables := map (converted_entry o) (db_iter d) |}];
               cat_use := Some (cased o (db_name d)) |})
  /\ (~ survives o d -> run_script c s = None).
Proof.
  intros o d s c W Wr C Own L A S N. unfold run_script. pose proof (script_reads o true d s Wr S) as R. rewrite R. split.
  - intros [A2 A3 A4 K]. assert (A4' : forall s, In s (get_schema_names d) -> s = default_schema \/ cased o s <> default_schema).
    { intros x I. destruct (str_eqb_spec x default_schema) as [E|E]; [left; exact E|right; exact (A4 x I E)]. }
    rewrite (cased_runs o d W C Own L A A2 A3 A4' K c N). do 4 f_equal. f_equal. apply map_ext. intros t. unfold entry_of, converted_entry. rewrite cased_columns, cased_fks, cased_rels, !map_map. reflexivity.
  - intros NS. destruct (exec_all c _) as [c'|] eqn:E; [|reflexivity]. destruct NS.
    pose proof E as E0. unfold script_stmts in E. cbn [app exec_all exec] in E. rewrite N in E. cbn [negb guard cat_dbs] in E.
    set (new := {| cd_name := cased o (db_name d); cd_schemas := [default_schema]; cd_tables := [] |}) in E.
    assert (Hnew : is_db (cased o (db_name d)) new = true) by apply str_eqb_refl.
    assert (Hex : existsb (is_db (cased o (db_name d))) (cat_dbs c ++ [new]) = true) by (rewrite existsb_app; cbn [existsb]; rewrite Hnew, Bool.orb_true_r; reflexivity).
    rewrite Hex in E. cbn [guard] in E.
    match type of E with exec_all ?c1 ?l = _ => destruct (inner_runs (cased o (db_name d)) l c1 new c') as [db' D] end; [apply (inner_script (cased o) (col_cased o) true d)|reflexivity|apply find_app_new; assumption|exact E|].
    assert (Z : NoDup (map (cased o) (new_schemas d)) /\ forall s, In s (map (cased o) (new_schemas d)) -> ~ In s [default_schema]).
    { rewrite exec_db_all_app in D. match type of D with match ?q with _ => _ end = _ => destruct q as [db1|] eqn:D1 end; [|discriminate D]. apply (schemas_show _ new db1). rewrite map_map. exact D1. }
    destruct Z as [Z1 Z2].
    assert (V : forall x, In x (get_schema_names d) -> x <> default_schema -> cased o x <> default_schema).
    { intros x I Q X. apply (Z2 (cased o x)); [apply in_map; unfold new_schemas; apply filter_In; split; [exact I|apply Bool.negb_true_iff, str_eqb_neq, Q]|left; symmetry; exact X]. }
    destruct (run_shows _ [SCreateDatabase (cased o (db_name d)); SUse (cased o (db_name d))] new db' (fun x (I : In x []) => match I with end) D) as [P F].
    split.
    + intros t I. assert (J : In (SCreateTable (cased o (t_schema t)) (cased o (t_name t)) (map (fun c0 => (col_cased o (column_name c0), column_type c0)) (table_iter t)) (t_pk t) (shard_of t)) (flat_map (table_stmts (cased o) (col_cased o)) (db_iter d))).
      { apply in_flat_map. exists t. split; [exact I|]. right. left. reflexivity. }
      destruct (P _ _ _ _ _ (in_or_app _ _ _ (or_intror (in_or_app _ _ _ (or_introl J))))) as [Q _]. rewrite map_map in Q. cbn [fst] in Q.
      destruct (wf_cols _ (wf_tables _ W t I)) as [Nc Fc]. unfold get_column_names. rewrite <- (dict_vals_name column_name (t_cols t) Nc Fc), map_map. exact Q.
    + apply (schemas_apart o); [apply (wf_schemas _ W)|exact Z1|exact V].
    + exact V.
    + destruct (C19_exact o true d s W Wr C Own L S) as [l [R' X]]. rewrite R in R'. injection R' as <-. apply X. split.
      * intros a t cols pk sh I. unfold script_stmts in I. cbn [app] in I. destruct I as [I|[I|I]]; [discriminate I|discriminate I|]. destruct (P _ _ _ _ _ I) as [_ Q]. exact Q.
      * intros a t n fc ts tn tc I. unfold script_stmts in I. cbn [app] in I. destruct I as [I|[I|I]]; [discriminate I|discriminate I|]. exact (F _ _ _ _ _ _ _ I).
Qed.
Print Assumptions C117_runs.
(** a model with two schemas and all kinds of keys survives camel case, and does not survive upper case *)
Example C117_case : (well_formed shop /\ writable shop /\ consistent_db shop /\ own_fks shop /\ schema_local shop)
  /\ NoDup (map (cased all_camel) (get_table_names shop)) /\ survives all_camel shop /\ (exists s, tql_script all_camel true shop = Ok s)
  /\ NoDup (map (cased all_upper) (get_table_names shop)) /\ ~ survives all_upper shop /\ (exists s, tql_script all_upper true shop = Ok s).
Proof.
  split; [exact shop_usable|]. split; [apply no_dups_spec; vm_compute; reflexivity|]. split.
  - split.
    + intros t I. apply no_dups_spec. revert t I. apply Forall_forall. repeat constructor.
    + apply no_dups_spec. vm_compute. reflexivity.
    + intros s I. vm_compute in I. destruct I as [<-|[<-|[]]]; intros N E; [apply N; reflexivity|discriminate E].
    + reflexivity.
  - split; [eexists; vm_compute; reflexivity|]. split; [apply no_dups_spec; vm_compute; reflexivity|]. split; [|eexists; vm_compute; reflexivity].
    intros [_ _ _ K]. specialize (K ($"Id")). assert (Z : col_cased all_upper ($"Id") = $"Id") by (apply K; vm_compute; left; reflexivity). discriminate Z.
Qed.
(** When the option makes two tables one, a run can succeed and leave one of them. *)
Definition two_logs : database :=
  add_table (add_table (empty_database ($"d")) {| t_name := $"Log"; t_schema := DEFAULT_SCHEMA; t_pk := []; t_shard := None; t_cols := [($"at", col ($"at") ($"DATETIME"))]; t_fks := []; t_rels := [] |})
    {| t_name := $"log"; t_schema := DEFAULT_SCHEMA; t_pk := []; t_shard := None; t_cols := [($"n", col ($"n") ($"BIGINT"))]; t_fks := []; t_rels := [] |}.
Definition all_lower : case_opts := {| uppercase := false; lowercase := true; camelcase := false |}.
Theorem C117_together_refuted : exists d s c db,
  well_formed d /\ writable d /\ consistent_db d /\ own_fks d /\ schema_local d /\ survives all_lower d /\ tql_script all_lower true d = Ok s
  /\ run_script empty_catalog s = Some c /\ cat_dbs c = [db] /\ length (db_iter d) = 2 /\ length (cd_tables db) = 1.
Proof.
  assert (U : usable two_logs) by (apply usable_ok; vm_compute; reflexivity). destruct U as (U1 & U2 & U3 & U4 & U5).
  exists two_logs. eexists _, _, _. do 5 (split; [assumption|]). split.
  - split.
    + intros t I. apply no_dups_spec. revert t I. apply Forall_forall. repeat constructor.
    + apply no_dups_spec. vm_compute. reflexivity.
    + intros s I. vm_compute in I. destruct I as [<-|[]]; intros N E; apply N; reflexivity.
    + intros n [].
  - split; [vm_compute; reflexivity|]. split; [vm_compute; reflexivity|]. split; [reflexivity|]. split; reflexivity.
Qed.
Print Assumptions C117_together_refuted.
