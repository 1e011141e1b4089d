(** * Properties of dt/model.py: columns, keys, tables, databases (C01-C07, C11) *)
From Verif Require Import ModelFacts.

(** C01: [Column(name, type)] succeeds exactly for the published types and VARCHAR..., keeping name
    and type. *)
Theorem C01_column_admission : forall n ty,
  (In ty [ $"VARCHAR"; $"DOUBLE"; $"FLOAT"; $"BOOL"; $"INT"; $"BIGINT"; $"DATE"; $"DATETIME";
           $"TIMESTAMP"; $"TIME"; $"UNKNOWN" ] \/ (exists rest, ty = $"VARCHAR" ++ rest) ->
     mk_column (Some n) (Some ty) = Ok {| column_name := n; column_type := ty |})
  /\ (~ In ty [ $"VARCHAR"; $"DOUBLE"; $"FLOAT"; $"BOOL"; $"INT"; $"BIGINT"; $"DATE"; $"DATETIME";
           $"TIMESTAMP"; $"TIME"; $"UNKNOWN" ] -> ~ (exists rest, ty = $"VARCHAR" ++ rest) ->
     mk_column (Some n) (Some ty) = Err ValueError).
Proof. exact mk_column_spec. Qed.
Print Assumptions C01_column_admission.
Example C01_accepts : mk_column (Some ($"a")) (Some ($"VARCHAR(30)"))
  = Ok {| column_name := $"a"; column_type := $"VARCHAR(30)" |}.
Proof. reflexivity. Qed.
Example C01_rejects : mk_column (Some ($"a")) (Some ($"varchar")) = Err ValueError.
Proof. reflexivity. Qed.

(** C02: every foreign key in a table pairs its columns, whatever calls were made, and a call that
    raises changes nothing; a call raises exactly when an argument is missing or the counts differ
    ([wanted_fk] and [wanted_rel] describe the accepted calls). *)
Theorem C02_foreign_keys_paired : forall ops t0, t_fks t0 = [] ->
  (forall fk, In fk (foreign_keys_iter (run_con_ops ops t0)) ->
     length (fk_from_keys fk) = length (fk_to_keys fk))
  /\ (forall o, snd (run_con_op (run_con_ops ops t0) o) <> None ->
        fst (run_con_op (run_con_ops ops t0) o) = run_con_ops ops t0)
  /\ (forall o, snd (run_con_op (run_con_ops ops t0) o) <> None <->
        wanted_fk (t_name t0) o = None /\ wanted_rel (t_name t0) o = None).
Proof. exact c02_paired. Qed.
Print Assumptions C02_foreign_keys_paired.

Definition demo_ops : list con_op :=
  [ AddFkParts (Some (KeyList [$"a"; $"b"])) (Some ($"T2")) (Some (KeyList [$"x"; $"y"])) None;
    AddFkParts (Some (KeyList [$"a"; $"b"])) (Some ($"T2")) (Some (OneKey ($"x"))) None;
    AddRelParts (Some ($"T3")) None (Some ($"T1.a = T3.a")) ].
Definition demo_table : table := mk_table ($"T1") DEFAULT_SCHEMA None None.
Example C02_case : t_fks demo_table = []
  /\ length (foreign_keys_iter (run_con_ops demo_ops demo_table)) = 1
  /\ snd (run_con_op demo_table (nth 1 demo_ops (AddRelParts None None None))) = Some ValueError.
Proof. repeat split. Qed.

(** C03: the columns of a table after any calls. *)
Theorem C03_columns : forall ops t0, t_cols t0 = [] ->
  let t := run_col_ops ops t0 in
  (forall n c, get_column t n = Some c <-> Holds (col_history ops) n c)
  /\ (forall n, has_column t n = true <-> Live (col_history ops) n)
  /\ NoDup (get_column_names t)
  /\ (forall n, In n (get_column_names t) <-> Live (col_history ops) n)
  /\ number_columns t = length (get_column_names t)
  /\ map (fun c => Some c) (table_iter t) = map (get_column t) (get_column_names t)
  /\ StronglySorted (born_before (col_history ops)) (get_column_names t).
Proof. exact columns_refine. Qed.
Print Assumptions C03_columns.
(** C03, the frame: these calls change nothing but the columns, and [drop_column] returns what it
    removes. *)
Theorem C03_columns_frame : forall ops t0,
  (let t := run_col_ops ops t0 in
   t_name t = t_name t0 /\ t_schema t = t_schema t0 /\ t_pk t = t_pk t0 /\ t_shard t = t_shard t0
   /\ t_fks t = t_fks t0 /\ t_rels t = t_rels t0)
  /\ (forall n, snd (drop_column (run_col_ops ops t0) n) = get_column (run_col_ops ops t0) n).
Proof. exact c03_frame. Qed.
Print Assumptions C03_columns_frame.
Definition demo_cols : list col_op :=
  [ AddColumns [ {| column_name := $"a"; column_type := $"INT" |}; {| column_name := $"b"; column_type := $"INT" |};
                 {| column_name := $"c"; column_type := $"INT" |} ];
    DropColumn ($"a"); AddColumn {| column_name := $"b"; column_type := $"DATE" |};
    AddColumn {| column_name := $"a"; column_type := $"BOOL" |} ].
Example C03_case : t_cols demo_table = []
  /\ map (fun c => (column_name c, column_type c)) (table_iter (run_col_ops demo_cols demo_table))
     = [($"b", $"DATE"); ($"c", $"INT"); ($"a", $"BOOL")].
Proof. split; reflexivity. Qed.

(** C04: constraints are filed under their own names. *)
Theorem C04_constraints : forall ops t0, t_fks t0 = [] -> t_rels t0 = [] ->
  let t := run_con_ops ops t0 in
  (forall n fk, get_foreign_key t n = Some fk <-> Holds (fk_history (t_name t0) ops) n fk)
  /\ (forall n r, get_relationship t n = Some r <-> Holds (rel_history (t_name t0) ops) n r)
  /\ (forall n fk, get_foreign_key t n = Some fk -> fk_name fk = n)
  /\ (forall n r, get_relationship t n = Some r -> rel_name r = n)
  /\ (forall fk, In fk (foreign_keys_iter t) -> get_foreign_key t (fk_name fk) = Some fk)
  /\ (forall r, In r (relationships_iter t) -> get_relationship t (rel_name r) = Some r).
Proof. exact constraints_refine. Qed.
Print Assumptions C04_constraints.
Example C04_case : t_rels demo_table = []
  /\ get_foreign_key (run_con_ops demo_ops demo_table) ($"FK_T1_to_T2")
     = Some {| fk_name := $"FK_T1_to_T2"; fk_from_table := $"T1"; fk_from_keys := [$"a"; $"b"];
               fk_to_table := $"T2"; fk_to_keys := [$"x"; $"y"] |}
  /\ get_relationship (run_con_ops demo_ops demo_table) ($"REL_T1_to_T3")
     = Some {| rel_name := $"REL_T1_to_T3"; rel_from_table := $"T1"; rel_to_table := $"T3";
               rel_conditions := $"T1.a = T3.a" |}.
Proof. repeat split. Qed.

(** C05: a database as a map of tables. *)
Theorem C05_database : forall ops n0, exists d, run_db_ops ops (empty_database n0) = Ok d
  /\ db_name d = n0
  /\ (forall n t, get_table d n = Some t <-> Holds (db_history ops) n t)
  /\ (forall n t, get_table d n = Some t -> t_name t = n)
  /\ (forall n, In n (get_table_names d) <-> Live (db_history ops) n)
  /\ NoDup (get_table_names d)
  /\ number_tables d = length (get_table_names d)
  /\ map Some (db_iter d) = map (get_table d) (get_table_names d)
  /\ StronglySorted (born_before (db_history ops)) (get_table_names d)
  /\ (forall n, exists d', drop_table d n = Ok (d', get_table d n)
        /\ get_table d' n = None
        /\ (forall m, m <> n -> get_table d' m = get_table d m)).
Proof. exact database_refine. Qed.
Print Assumptions C05_database.
Definition demo_db_ops : list db_op :=
  [ AddTable (mk_table ($"A") ($"s1") None None); AddTable (mk_table ($"B") ($"s2") None None);
    AddTable (mk_table ($"C") ($"s2") None None); DropTable ($"B"); DropTable ($"Z");
    AddTable (mk_table ($"B") ($"s1") None None) ].
Definition demo_db : database :=
  match run_db_ops demo_db_ops (empty_database ($"db")) with Ok d => d | Err _ => empty_database [] end.
Example C05_case : run_db_ops demo_db_ops (empty_database ($"db")) = Ok demo_db
  /\ get_table_names demo_db = [$"A"; $"C"; $"B"].
Proof. split; reflexivity. Qed.

(** C06: schema bookkeeping. *)
Theorem C06_schemas_cover : forall ops n0, exists d, run_db_ops ops (empty_database n0) = Ok d
  /\ (forall n, exists d', drop_table d n = Ok (d', get_table d n))
  /\ (forall t, In t (db_iter d) -> In (t_schema t) (get_schema_names d))
  /\ (forall s, In s (get_schema_names d) -> exists k, dget s (db_schemas d) = Some k
        /\ (Z.of_nat (tables_in_schema d s) <= k)%Z)
  /\ NoDup (get_schema_names d).
Proof. exact schemas_cover. Qed.
Print Assumptions C06_schemas_cover.
Theorem C06_schemas_exact : forall ops n0, no_overwrite ops ->
  exists d, run_db_ops ops (empty_database n0) = Ok d
  /\ (forall s, In s (get_schema_names d) <-> exists t, In t (db_iter d) /\ t_schema t = s).
Proof. exact schemas_exact. Qed.
Print Assumptions C06_schemas_exact.
Example C06_case : no_overwrite demo_db_ops /\ get_schema_names demo_db = [$"s1"; $"s2"].
Proof. split; [apply no_overwrite_check; reflexivity | reflexivity]. Qed.

(** C07 is false: adding a table over a live one of the same name leaks a count. *)
Theorem C07_schema_leak_refuted : exists ops n0 d s,
  run_db_ops ops (empty_database n0) = Ok d
  /\ In s (get_schema_names d) /\ ~ (exists t, In t (db_iter d) /\ t_schema t = s).
Proof. exact schema_leak. Qed.
Print Assumptions C07_schema_leak_refuted.

(** C11: relationship counts. *)
Theorem C11_counts : forall d n,
  (forall t, get_table d n = Some t ->
     get_number_relationships_from_table d n = Ok (leaving t)
     /\ get_number_relationships_to_table d n = Ok (count_occ str_dec (all_targets d) n))
  /\ (get_table d n = None ->
     get_number_relationships_from_table d n = Err ValueError
     /\ get_number_relationships_to_table d n = Err ValueError).
Proof. exact counts_spec. Qed.
Print Assumptions C11_counts.
Theorem C11_counts_balance : forall d, NoDup (get_table_names d) -> closed_db d ->
  list_sum (map (fun n => ok_or_zero (get_number_relationships_to_table d n)) (get_table_names d))
  = list_sum (map (fun n => ok_or_zero (get_number_relationships_from_table d n)) (get_table_names d)).
Proof. exact counts_balance. Qed.
Print Assumptions C11_counts_balance.
Definition demo_rel_db : database :=
  add_table (add_table (add_table (empty_database ($"db")) (run_con_ops demo_ops demo_table))
    (mk_table ($"T2") DEFAULT_SCHEMA None None)) (mk_table ($"T3") DEFAULT_SCHEMA None None).
Example C11_case : NoDup (get_table_names demo_rel_db) /\ closed_db demo_rel_db
  /\ list_sum (map (fun n => ok_or_zero (get_number_relationships_to_table demo_rel_db n))
                   (get_table_names demo_rel_db)) = 2.
Proof.
  split; [|split; [|reflexivity]].
  - repeat constructor; simpl; intros H; repeat destruct H as [H|H]; try discriminate; assumption.
  - intros n. simpl. intros [<-|[<-|[]]]; auto.
Qed.
