(** * Properties of the generated TQL (C12-C21) and of whole client programs (C66) *)
From Verif Require Import ApiFacts CheckFacts.

(** C12: case conversion laws. *)
Theorem C12_case_laws : forall o n,
  to_case o ($"falcon_default_schema") = Ok ($"falcon_default_schema")
  /\ (n <> $"falcon_default_schema" ->
       (lowercase o = true -> to_case o n = Ok (lower n))
       /\ (lowercase o = false -> uppercase o = true -> to_case o n = Ok (upper n))
       /\ (lowercase o = false -> uppercase o = false -> camelcase o = true -> to_case o n = to_camel n))
  /\ (lowercase o = false -> uppercase o = false -> camelcase o = false -> to_case o n = Ok n)
  /\ (lowercase o = true \/ uppercase o = true ->
       forall m, to_case o n = Ok m -> length m = length n /\ to_case o m = Ok m).
Proof. exact to_case_laws. Qed.
Print Assumptions C12_case_laws.
Example C12_case : to_case {| uppercase := true; lowercase := true; camelcase := true |} ($"My_Table") = Ok ($"my_table").
Proof. reflexivity. Qed.

(** C13: camel case of a name made of words. *)
Theorem C13_camel : forall v,
  (to_camel v = Err IndexError <-> forall c, In c v -> c = "_"%char)
  /\ (forall e, to_camel v = Err e -> e = IndexError)
  /\ (forall w ws a b, Forall word (w :: ws) -> v = underscores a ++ join ($"_") (w :: ws) ++ underscores b ->
        let r := flat_map capitalised (w :: ws) in to_camel v = Ok r /\ ~ In "_"%char r /\ to_camel r = Ok r).
Proof. exact c13. Qed.
Print Assumptions C13_camel.
Example C13_case : to_camel ($"__my_big_table_") = Ok ($"MyBigTable")
  /\ $"__my_big_table_" = underscores 2 ++ join ($"_") [$"my"; $"big"; $"table"] ++ underscores 1
  /\ Forall word [$"my"; $"big"; $"table"] /\ to_camel ($"__") = Err IndexError.
Proof.
  repeat split; repeat constructor; try discriminate; intros H; vm_compute in H;
    repeat destruct H as [H|H]; try discriminate; exact H.
Qed.

(** C14 is false: doubled underscores. *)
Theorem C14_camel_idempotent_refuted : exists v r r', to_camel v = Ok r /\ to_camel r = Ok r' /\ r' <> r.
Proof. exact c14_refuted. Qed.
Print Assumptions C14_camel_idempotent_refuted.

(** C15: comma lists. *)
Theorem C15_comma_lists : forall l,
  (l <> [] -> Forall plain_item l -> map strip (split_char "," (list_to_string l false)) = l)
  /\ list_to_string l true = join ($", ") (map q l)
  /\ (Forall quote_free l -> rlist (list_to_string l true) = Some (l, [])).
Proof. exact c15. Qed.
Print Assumptions C15_comma_lists.
Example C15_case : Forall plain_item [$"first name"; $"id"; []] /\ Forall quote_free [$"first name"; $"id"; []]
  /\ list_to_string [$"first name"; $"id"; []] false = $"first name, id, ".
Proof.
  split; [|split; [|reflexivity]].
  - repeat constructor; intros H; vm_compute in H; repeat destruct H as [H|H]; try discriminate; exact H.
  - apply qfs_ok. reflexivity.
Qed.

(** C16: the text of CREATE TABLE, line by line, for every table and option; and it reads back as
    the table. *)
Theorem C16_create_table_text : forall o t,
  (exists s n, to_case o (t_schema t) = Ok s /\ to_case o (t_name t) = Ok n
     /\ gen_create_table o t = Ok (create_table_text s n
          (map (fun c => (col_cased o (column_name c), column_type c)) (table_iter t)) (t_pk t) (shard_of t)))
  \/ (exists e, gen_create_table o t = Err e /\ (to_case o (t_schema t) = Err e \/ to_case o (t_name t) = Err e)).
Proof. exact create_table_shape. Qed.
Print Assumptions C16_create_table_text.
Theorem C16_create_table_reads_back : forall o t s, writable_table t -> gen_create_table o t = Ok s ->
  read_script s = Some [SCreateTable (cased o (t_schema t)) (cased o (t_name t))
      (map (fun c => (col_cased o (column_name c), column_type c)) (table_iter t)) (t_pk t) (shard_of t)].
Proof.
  exact (fun o t s W H => readable_script _ _ _ (readable_create_table o t W)
    (eq_trans (f_equal (fun r => concat_results [r]) H) (f_equal Ok (app_nil_r s)))).
Qed.
Print Assumptions C16_create_table_reads_back.
Example C16_case : writable_table shop_orders
  /\ option_map (@length stmt) (match gen_create_table all_upper shop_orders with Ok s => read_script s | Err _ => None end) = Some 1.
Proof. split; [apply wr_table_ok |]; vm_compute; reflexivity. Qed.

(** C17: the script, read back, is exactly the expected statements in the expected order; and a
    script always results unless the camel case option is in force. *)
Theorem C17_script_order : forall o create_db d s, writable d -> tql_script o create_db d = Ok s ->
  read_script s = Some (
    (if create_db then [SCreateDatabase (cased o (db_name d))] else [])
    ++ [SUse (cased o (db_name d))]
    ++ (if create_db then map (fun s => SCreateSchema (cased o s))
          (filter (fun s => negb (str_eqb s ($"falcon_default_schema"))) (get_schema_names d)) else [])
    ++ flat_map (table_stmts (cased o) (col_cased o)) (db_iter d)
    ++ flat_map (fun t => map (fk_stmt (cased o) t) (foreign_keys_iter t)) (db_iter d)
    ++ flat_map (fun t => map (rel_stmt (cased o) t) (relationships_iter t)) (db_iter d)).
Proof. exact script_reads. Qed.
Print Assumptions C17_script_order.
Theorem C17_script_exists : forall o create_db d,
  camelcase o = false \/ lowercase o = true \/ uppercase o = true -> exists s, tql_script o create_db d = Ok s.
Proof. exact script_total. Qed.
Print Assumptions C17_script_exists.
Example C17_case : writable shop
  /\ option_map (@length stmt) (match tql_script all_camel true shop with Ok s => read_script s | Err _ => None end) = Some 11.
Proof. split; [apply shop_usable | vm_compute; reflexivity]. Qed.

(** C18: running the script on a catalog without that database creates exactly the model. *)
Theorem C18_script_rebuilds_model : forall d s c,
  well_formed d -> writable d -> consistent_db d -> own_fks d -> schema_local d ->
  tql_script no_case true d = Ok s -> existsb (is_db (db_name d)) (cat_dbs c) = false ->
  run_script c s
  = Some {| cat_dbs := cat_dbs c ++ [{| cd_name := db_name d; cd_schemas := default_schema :: new_schemas d;
                                        cd_tables := map entry_of (db_iter d) |}];
            cat_use := Some (db_name d) |}.
Proof. exact run_create. Qed.
Print Assumptions C18_script_rebuilds_model.
(** C18, without CREATE DATABASE: the model's tables are replaced, all others kept. *)
Theorem C18_script_replaces_tables : forall d s c db,
  well_formed d -> writable d -> consistent_db d -> own_fks d -> schema_local d ->
  tql_script no_case false d = Ok s -> List.find (is_db (db_name d)) (cat_dbs c) = Some db ->
  (forall t, In t (db_iter d) -> In (t_schema t) (cd_schemas db)) ->
  run_script c s
  = Some {| cat_dbs := replace_db (db_name d) (with_tables db
               (filter (fun x => negb (existsb (fun t => is_table (t_schema t) (t_name t) x) (db_iter d))) (cd_tables db)
                ++ map entry_of (db_iter d))) (cat_dbs c);
            cat_use := Some (db_name d) |}.
Proof. exact run_existing. Qed.
Print Assumptions C18_script_replaces_tables.
Example C18_case : well_formed shop /\ writable shop /\ consistent_db shop /\ own_fks shop /\ schema_local shop
  /\ option_map (fun c => map (fun d => map ct_name (cd_tables d)) (cat_dbs c))
       (match tql_script no_case true shop with Ok s => run_script empty_catalog s | Err _ => None end)
     = Some [[$"Orders"; $"Customers"; $"log"]].
Proof. destruct shop_usable as (?&?&?&?&?). repeat (split; [assumption|]). vm_compute. reflexivity. Qed.

(** C19 holds for key columns whose names the options leave alone; in particular without the lower
    and upper case options.  Missing: other names, for which it is false (next theorem). *)
Theorem C19_clauses_resolve_partial : forall o b d s,
  well_formed d -> writable d -> consistent_db d -> own_fks d -> schema_local d ->
  (forall n, In n (key_columns d) -> col_cased o n = n) ->
  tql_script o b d = Ok s -> exists l, read_script s = Some l /\ clauses_resolve l.
Proof. exact clauses_ok. Qed.
Print Assumptions C19_clauses_resolve_partial.
Theorem C19_clauses_resolve_refuted : exists o b d s l,
  well_formed d /\ writable d /\ consistent_db d /\ own_fks d /\ schema_local d
  /\ tql_script o b d = Ok s /\ read_script s = Some l /\ ~ clauses_resolve l.
Proof. exact c19_refuted. Qed.
Print Assumptions C19_clauses_resolve_refuted.
Example C19_case : (forall n, In n (key_columns shop) -> col_cased all_camel n = n)
  /\ (exists s, tql_script all_camel false shop = Ok s).
Proof. split; [reflexivity | eexists; vm_compute; reflexivity]. Qed.

(** C20 holds when no constraint crosses a schema border.  Missing: models spread over schemas, for
    which it is false (next theorem). *)
Theorem C20_targets_created_partial : forall o b d s,
  well_formed d -> writable d -> consistent_db d -> schema_local d ->
  tql_script o b d = Ok s -> exists l, read_script s = Some l /\ targets_created l.
Proof. exact targets_ok. Qed.
Print Assumptions C20_targets_created_partial.
Theorem C20_targets_created_refuted : exists o b d s l,
  well_formed d /\ writable d /\ consistent_db d /\ own_fks d
  /\ tql_script o b d = Ok s /\ read_script s = Some l /\ ~ targets_created l.
Proof. exact c20_refuted. Qed.
Print Assumptions C20_targets_created_refuted.

(** C21: the effects of the two writers, for every environment, i.e. for every point of failure. *)
Theorem C21_output_files : forall E filename,
  (forall o b d, writes_texts E filename (tql_texts o b d) (write_tql E o b d filename))
  /\ (forall ds, writes_texts E filename (map get_alter ds) (write_alters E ds filename)).
Proof. exact c21. Qed.
Print Assumptions C21_output_files.
Example C21_case :
  let E := {| open_fails := fun _ => false; write_fails := fun tr _ _ => Nat.eqb (length tr) 3 |} in
  write_tql E no_case true shop (Some ($"out.tql")) []
  = ([Open ($"out.tql"); Write (File ($"out.tql")) ($"CREATE DATABASE " ++ q ($"shop") ++ $";" ++ [newline_char]);
      Write (File ($"out.tql")) ($"USE " ++ q ($"shop") ++ $";" ++ [newline_char]); Close (File ($"out.tql"))], Err OSError).
Proof. vm_compute. reflexivity. Qed.

(** C66: whatever sequence of API calls is made, the database is well formed; a sequence fails only
    by using a table that is not there. *)
Theorem C66_reachable_well_formed : forall ops n0,
  (forall d, run_api ops (empty_database n0) = Ok d -> well_formed d /\ db_name d = n0)
  /\ (forall e, run_api ops (empty_database n0) = Err e -> e = AttributeError).
Proof. exact api_reachable. Qed.
Print Assumptions C66_reachable_well_formed.
Example C66_case : match run_api [ ApiAddTable ($"A") ($"s") None None [OnColumns (AddColumn (col ($"a") ($"INT")))];
    ApiAddTable ($"B") ($"s") None None []; ApiOnTable ($"A") (SetPrimaryKey (Some (OneKey ($"a")))); ApiDropTable ($"B") ]
    (empty_database ($"d")) with Ok d => map t_pk (db_iter d) | Err _ => [] end = [[$"a"]].
Proof. reflexivity. Qed.
