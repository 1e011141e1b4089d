(** * The expectations of the project's own unit tests, computed in the model

    These are checks of the model against expectations that the authors of the code wrote down, not
    proofs of any property: a wrong line in the model that one of the project's tests would notice is
    noticed here.  Each [Example] names the test it follows.  Left out are the tests whose data is not in
    the repository ([test_sharding], [test_worksheet_join_types], [test_yaml_reader]), the ones without an
    expectation, and [test_create_table_with_errors], as a table of the model always has its two names. *)
From Verif Require Import Model Validate Diff Writer Config Excel Reviewer.

Definition col (n t : str) : column := {| column_name := n; column_type := t |}.
Definition sk (k : list str) (n : Z) : shard_key := {| sk_id := 0; sk_keys := k; sk_shards := n |}.
Definition all_in (l : list str) (r : result str) : bool :=
  match r with Ok x => forallb (fun s => contains s x) l | Err _ => false end.
Definition none_in (s : str) (r : result str) : bool := match r with Ok x => negb (contains s x) | Err _ => false end.

(** ** dt/tests/test_io.py *)
(** [TestDDLParser.test_column_types] *)
Example test_column_types :
  forallb (fun p => match convert_type (fst p) with Ok x => str_eqb x (snd p) | Err _ => false end)
    [ ($"integer", $"BIGINT");
      ($"rowversion", $"INT");
      ($"uniqueidentifier", $"VARCHAR(0)");
      ($"serial", $"INT");
      ($"bit", $"BOOL");
      ($"blob", $"UNKNOWN");
      ($"binary", $"UNKNOWN");
      ($"number", $"BIGINT");
      ($"number(1)", $"INT");
      ($"NUMBER(1)", $"INT");
      ($"NUMBER(3,0)", $"INT");
      ($"NUMBER(10,0)", $"BIGINT");
      ($"NUMBER(*,0)", $"BIGINT");
      ($"NUMBER(4,2)", $"DOUBLE");
      ($"decimal", $"DOUBLE");
      ($"numeric", $"DOUBLE");
      ($"float", $"DOUBLE");
      ($"double", $"DOUBLE");
      ($"money", $"DOUBLE");
      ($"real", $"DOUBLE");
      ($"datetime", $"DATETIME");
      ($"time", $"TIME");
      ($"date", $"DATE");
      ($"text", $"VARCHAR(0)");
      ($"varchar", $"VARCHAR(0)");
      ($"char", $"VARCHAR(0)");
      ($"varchar(88)", $"VARCHAR(0)");
      ($"long", $"VARCHAR(0)");
      ($"enum", $"VARCHAR(0)");
      ($"xml", $"VARCHAR(0)");
      ($"something_new", $"UNKNOWN") ] = true.
Proof. vm_compute. reflexivity. Qed.

(** [TestTQLWriter.get_simple_db] *)
Definition simple_db : database :=
  add_table (empty_database ($"database1"))
    (add_columns (mk_table ($"table1") DEFAULT_SCHEMA None None)
       [col ($"col1") ($"INT"); col ($"Col2") ($"DOUBLE"); col ($"COL3") ($"FLOAT")]).

(** [TestTQLWriter.test_write_simple_db] *)
Example test_write_simple_db :
  let tql := tql_script (no_case) false simple_db in
  all_in [ $"USE ""database1""";
           $"DROP TABLE ""falcon_default_schema"".""table1""";
           $"CREATE TABLE ""falcon_default_schema"".""table1""";
           $"""col1"" INT";
           $"""Col2"" DOUBLE";
           $"""COL3"" FLOAT" ] tql = true
  /\ none_in ($"PRIMARY KEY") tql = true.
Proof. vm_compute. split; reflexivity. Qed.

(** [TestTQLWriter.test_write_upper] *)
Example test_write_upper :
  let tql := tql_script ({| uppercase := true; lowercase := false; camelcase := false |}) false simple_db in
  all_in [ $"USE ""DATABASE1""";
           $"DROP TABLE ""falcon_default_schema"".""TABLE1""";
           $"CREATE TABLE ""falcon_default_schema"".""TABLE1""";
           $"""COL1"" INT";
           $"""COL2"" DOUBLE";
           $"""COL3"" FLOAT" ] tql = true
  /\ none_in ($"PRIMARY KEY") tql = true.
Proof. vm_compute. split; reflexivity. Qed.

(** [TestTQLWriter.test_write_lower] *)
Example test_write_lower :
  let tql := tql_script ({| uppercase := false; lowercase := true; camelcase := false |}) false simple_db in
  all_in [ $"USE ""database1""";
           $"DROP TABLE ""falcon_default_schema"".""table1""";
           $"CREATE TABLE ""falcon_default_schema"".""table1""";
           $"""col1"" INT";
           $"""col2"" DOUBLE";
           $"""col3"" FLOAT" ] tql = true
  /\ none_in ($"PRIMARY KEY") tql = true.
Proof. vm_compute. split; reflexivity. Qed.

(** [TestTQLWriter.get_complex_db] *)
Definition complex_db : result database :=
  t1 <- add_rel_parts
          (add_columns (mk_table ($"table1") DEFAULT_SCHEMA (Some (OneKey ($"col1"))) (Some (sk [$"col1"] 128)))
             [col ($"col1") ($"INT"); col ($"Col2") ($"DOUBLE"); col ($"COL3") ($"FLOAT")])
          (Some ($"table2")) None (Some ($"(""table1"".""col1"" == ""table2.""COL6"")")) ;;
  t2 <- add_fk_parts
          (add_columns (mk_table ($"table2") DEFAULT_SCHEMA (Some (KeyList [$"col4"; $"Col5"]))
                          (Some (sk [$"col4"; $"Col5"] 96)))
             [col ($"col4") ($"VARCHAR(0)"); col ($"Col5") ($"DATE"); col ($"COL6") ($"BOOL")])
          (Some (OneKey ($"Col5"))) (Some ($"table1")) (Some (OneKey ($"COL3"))) None ;;
  Ok (add_table (add_table (empty_database ($"database2")) t1) t2).

(** [TestTQLWriter.test_write_complex_db] *)
Example test_write_complex_db :
  all_in [ $"CONSTRAINT PRIMARY KEY (""col1"")";
           $"CONSTRAINT PRIMARY KEY (""col4"", ""Col5"")";
           $"PARTITION BY HASH(128) KEY(""col1"")";
           $"PARTITION BY HASH(96) KEY(""col4"", ""Col5"")";
           $"ALTER TABLE ""falcon_default_schema"".""table2"" ADD CONSTRAINT ""FK_table2_to_table1"" FOREIGN KEY (""Col5"") REFERENCES ""falcon_default_schema"".""table1"" (""COL3"");";
           $"ALTER TABLE ""falcon_default_schema"".""table1"" ADD RELATIONSHIP ""REL_table1_to_table2"" WITH ""falcon_default_schema"".""table2"" AS (""table1"".""col1"" == ""table2.""COL6"");" ]
    (d <- complex_db ;; tql_script no_case true d) = true.
Proof. vm_compute. reflexivity. Qed.

(** dt/tests/test_excel_reader.xlsx: the cells as they are stored there, with the cached values of the formulas *)
Definition reader_book : workbook cell :=
  [ ($"Columns", [ [CText ($"Database"); CText ($"Schema"); CText ($"Table"); CText ($"Column"); CText ($"Name"); CText ($"Type")];
      [CText ($"xdb"); CText ($"s1"); CText ($"table1"); CNum 2; CText ($"column_1"); CText ($"INT")];
      [CText ($"xdb"); CText ($"s1"); CText ($"table1"); CNum 3; CText ($"column_2"); CText ($"DOUBLE")];
      [CText ($"xdb"); CText ($"s1"); CText ($"table1"); CNum 4; CText ($"column_3"); CText ($"FLOAT")];
      [CText ($"xdb"); CText ($"s1"); CText ($"table2"); CNum 2; CText ($"column_1"); CText ($"INT")];
      [CText ($"xdb"); CText ($"s1"); CText ($"table2"); CNum 3; CText ($"column_2"); CText ($"DATETIME")];
      [CText ($"xdb"); CText ($"s1"); CText ($"table2"); CNum 4; CText ($"column_3"); CText ($"BOOL")];
      [CText ($"xdb"); CText ($"s1"); CText ($"table2"); CNum 5; CText ($"column_4"); CText ($"DOUBLE")];
      [CText ($"xdb"); CText ($"s1"); CText ($"table3"); CNum 1; CText ($"column_1"); CText ($"INT")];
      [CText ($"xdb"); CText ($"s1"); CText ($"table3"); CNum 2; CText ($"column_2"); CText ($"VARCHAR(0)")];
      [CText ($"xdb"); CText ($"s1"); CText ($"table3"); CNum 3; CText ($"column_3"); CText ($"DOUBLE")];
      [CText ($"xdb"); CText ($"s1"); CText ($"table4"); CNum 1; CText ($"column_1"); CText ($"INT")];
      [CText ($"xdb"); CText ($"s1"); CText ($"table4"); CNum 2; CText ($"column_2"); CText ($"BOOL")];
      [CText ($"xdb"); CText ($"s1"); CText ($"table4"); CNum 3; CText ($"column_3"); CText ($"VARCHAR(0)")] ]);
    ($"Tables", [ [CText ($"Database"); CText ($"Schema"); CText ($"Table"); CText ($"Updated"); CText ($"Update Type"); CText ($"# Rows"); CText ($"# Columns"); CText ($"Primary Key"); CText ($"Shard Key"); CText ($"# Shards"); CText ($"RLS Column")];
      [CText ($"xdb"); CText ($"s1"); CText ($"table1"); CText ($"daily"); CText ($"partial"); CText []; CNum 3; CText ($"column_1"); CText ($"column_1"); CNum 128; CText []];
      [CText ($"xdb"); CText ($"s1"); CText ($"table2"); CText ($"daily"); CText ($"partial"); CText []; CNum 4; CText ($"column_1"); CText ($"column_1,column_2"); CNum 128; CText []];
      [CText ($"xdb"); CText ($"s1"); CText ($"table3"); CText ($"daily"); CText ($"partial"); CText []; CNum 3; CText ($"column_1, column_2"); CText []; CText []; CText []];
      [CText ($"xdb"); CText ($"s1"); CText ($"table4"); CText ($"daily"); CText ($"partial"); CText []; CNum 3; CText ($"column1, column_3"); CText []; CText []; CText []] ]);
    ($"Foreign Keys", [ [CText ($"Name"); CText ($"Database"); CText ($"Schema"); CText ($"From Table"); CText ($"From Columns"); CText ($"To Table"); CText ($"To Columns")];
      [CText ($"FK_table2_to_table1"); CText ($"xdb"); CText ($"s1"); CText ($"table2"); CText ($"column_1"); CText ($"table1"); CText ($"column_1")];
      [CText ($"FK_table3_to_table4"); CText ($"xdb"); CText ($"s1"); CText ($"table3"); CText ($"column_1, column_2"); CText ($"table4"); CText ($"column_1,column_3")] ]);
    ($"Relationships", [ [CText ($"Name"); CText ($"Database"); CText ($"Schema"); CText ($"From Table"); CText ($"To Table"); CText ($"Conditions")];
      [CText ($"REL_table2_to_table1"); CText ($"xdb"); CText ($"s1"); CText ($"table2"); CText ($"table1"); CText ($"table2.column_4 = table1.column_2")] ]) ].

Definition xls_tables (names : list str) : list (option table) :=
  match read_xls 0 [] reader_book with
  | Ok (dbs, _) => match dget ($"xdb") dbs with Some d => map (get_table d) names | None => [] end
  | Err _ => []
  end.
Definition shown (t : table) (columns : list str) :=
  (t_name t, t_schema t, t_pk t, get_shard_key_columns t, get_number_shards t,
   map (fun n => match get_column t n with Some c => Some (column_type c) | None => None end) columns).

(** [TestXLSReader.test_reading_excel] *)
Example test_reading_excel :
  match xls_tables [$"table1"; $"table2"; $"table3"] with
  | [Some t1; Some t2; Some t3] =>
      shown t1 [$"column_1"; $"column_3"]
      = ($"table1", $"s1", [$"column_1"], Some [$"column_1"], Some 128%Z, [Some ($"INT"); Some ($"FLOAT")])
      /\ shown t2 [$"column_1"; $"column_4"]
         = ($"table2", $"s1", [$"column_1"], Some [$"column_1"; $"column_2"], Some 128%Z,
            [Some ($"INT"); Some ($"DOUBLE")])
      /\ get_foreign_key t2 ($"FK_table2_to_table1")
         = Some {| fk_name := $"FK_table2_to_table1"; fk_from_table := $"table2"; fk_from_keys := [$"column_1"];
                   fk_to_table := $"table1"; fk_to_keys := [$"column_1"] |}
      /\ get_relationship t2 ($"REL_table2_to_table1")
         = Some {| rel_name := $"REL_table2_to_table1"; rel_from_table := $"table2"; rel_to_table := $"table1";
                   rel_conditions := $"table2.column_4 = table1.column_2" |}
      /\ get_foreign_key t3 ($"FK_table3_to_table4")
         = Some {| fk_name := $"FK_table3_to_table4"; fk_from_table := $"table3";
                   fk_from_keys := [$"column_1"; $"column_2"]; fk_to_table := $"table4";
                   fk_to_keys := [$"column_1"; $"column_3"] |}
  | _ => False
  end.
Proof. vm_compute. repeat split; reflexivity. Qed.

(** ** dt/tests/test_diff.py *)
Definition db1 (t : list table) : database := fold_left add_table t (empty_database ($"database1")).
Definition db2 (t : list table) : database := fold_left add_table t (empty_database ($"database2")).
Definition tab (pk : option keys) (s : option shard_key) : table := mk_table ($"table1") DEFAULT_SCHEMA pk s.
Definition first_changes (a b : database) : option (change * change) :=
  match compare_databases a b with
  | Ok (x :: _, y :: _) => Some (diff_change x, diff_change y)
  | _ => None
  end.

(** [test_new_and_drop_table] *)
Example test_new_and_drop_table :
  let t := mk_table ($"table_from_1") DEFAULT_SCHEMA None None in
  first_changes (db1 [t]) (db2 []) = Some (TableDropped t, TableCreated t).
Proof. vm_compute. reflexivity. Qed.
(** [test_add_and_drop_column] *)
Example test_add_and_drop_column :
  let t2 := add_columns (tab None None) [col ($"column1") ($"INT")] in
  first_changes (db1 [tab None None]) (db2 [t2])
  = Some (ColumnAdded (tab None None) (col ($"column1") ($"INT")), ColumnDropped t2 (col ($"column1") ($"INT"))).
Proof. vm_compute. reflexivity. Qed.
(** [test_change_column] *)
Example test_change_column :
  let t1 := add_columns (tab None None) [col ($"column1") ($"INT")] in
  let t2 := add_columns (tab None None) [col ($"column1") ($"FLOAT")] in
  first_changes (db1 [t1]) (db2 [t2])
  = Some (ColumnModified t1 (col ($"column1") ($"FLOAT")), ColumnModified t2 (col ($"column1") ($"INT"))).
Proof. vm_compute. reflexivity. Qed.
(** [test_add_and_drop_pk], [test_add_and_drop_fk] *)
Example test_add_and_drop_pk :
  let t1 := tab (Some (OneKey ($"column1"))) None in
  first_changes (db1 [t1]) (db2 [tab None None])
  = Some (PrimaryKeyDropped t1, PrimaryKeyAdded (tab None None) [$"column1"]).
Proof. vm_compute. reflexivity. Qed.
(** [test_add_and_drop_sk] *)
Example test_add_and_drop_sk :
  let t1 := tab None (Some (sk [$"column1"] 16)) in
  first_changes (db1 [t1]) (db2 [tab None None])
  = Some (ShardKeyDropped t1, ShardKeyAdded (tab None None) 16 [$"column1"]).
Proof. vm_compute. reflexivity. Qed.
(** [test_add_and_drop_rel] *)
Example test_add_and_drop_rel :
  match mk_relationship (Some ($"table_1")) (Some ($"table_2")) (Some ($"table1.col1 = table2.col2")) None with
  | Ok r =>
      let t1 := add_rel_obj (tab None None) r in
      first_changes (db1 [t1]) (db2 [tab None None])
      = Some (RelationshipDropped t1 (rel_name r), RelationshipAdded (tab None None) r)
  | Err _ => False
  end.
Proof. vm_compute. reflexivity. Qed.

(** ** dt/tests/test_util.py *)
(** the file of [setUp] *)
Definition test_cfg : str :=
  $"# this is a test file.
key1=val1 # no spaces.
key2 =val2 # space before.
key3= val3 # space after.
 key4 = val4# space before key.
 key5 = # missing value.
 = val6 # missing key.
 key7 is val7 # no equal, so ignore..
".
Definition disk (n text : str) (f : str) : option str := if str_eqb f n then Some text else None.
(** [test_create_config_file], [test_load_from_file] *)
Example test_load_from_file :
  let cf := fst (fst (load_from_file (disk ($"test.cfg") test_cfg) [] ($"test.cfg"))) in
  cfg_len [] = 0 /\ cfg_len cf = 4
  /\ map (cfg_getitem cf) [$"key1"; $"key2"; $"key3"; $"key4"]
     = [Some ($"val1"); Some ($"val2"); Some ($"val3"); Some ($"val4")].
Proof. vm_compute. repeat split; reflexivity. Qed.
(** [test_write_to_file] *)
Example test_write_to_file :
  let cf1 := cfg_set (cfg_set (cfg_set [] ($"key1") ($"val1")) ($"key2") ($"val2")) ($"key3") ($"val3") in
  let files := fst (fst (write_to_file (fun _ => None) (fun _ => true) cf1 ($"test_write.cf"))) in
  cfg_eqb cf1 (fst (fst (load_from_file files [] ($"test_write.cf")))) = true.
Proof. vm_compute. reflexivity. Qed.
(** [test_get] *)
Example test_get :
  let cf := cfg_set [] ($"k1") ($"v1") in
  cfg_get cf (Some ($"k1")) None = Some ($"v1") /\ cfg_get cf (Some ($"k2")) None = None
  /\ cfg_get cf (Some ($"k3")) (Some ($"3")) = Some ($"3").
Proof. vm_compute. repeat split; reflexivity. Qed.

(** ** dt/tests/test_model.py *)
(** [TestColumn] *)
Example test_create_column :
  mk_column (Some ($"column_1")) (Some ($"INT")) = Ok (col ($"column_1") ($"INT"))
  /\ mk_column (Some ($"column_2")) (Some ($"DOUBLE")) = Ok (col ($"column_2") ($"DOUBLE"))
  /\ mk_column (Some ($"column_3")) (Some ($"DATETIME")) = Ok (col ($"column_3") ($"DATETIME"))
  /\ mk_column (Some ($"column_1")) None = Err AssertionError
  /\ mk_column None (Some ($"INT")) = Err AssertionError
  /\ mk_column (Some ($"column_1")) (Some ($"bit")) = Err ValueError.
Proof. vm_compute. repeat split; reflexivity. Qed.
(** [TestForeignKey] *)
Example test_foreign_key :
  let a := Some ($"tableA") in let b := Some ($"tableB") in
  let ka := Some (OneKey ($"colA")) in let kb := Some (OneKey ($"colB")) in
  let kab := Some (KeyList [$"colA"; $"colB"]) in
  mk_foreign_key a ka b kb (Some ($"TestFK"))
  = Ok {| fk_name := $"TestFK"; fk_from_table := $"tableA"; fk_from_keys := [$"colA"];
          fk_to_table := $"tableB"; fk_to_keys := [$"colB"] |}
  /\ mk_foreign_key a ka b kb None
     = Ok {| fk_name := $"FK_tableA_to_tableB"; fk_from_table := $"tableA"; fk_from_keys := [$"colA"];
             fk_to_table := $"tableB"; fk_to_keys := [$"colB"] |}
  /\ mk_foreign_key None ka b kb None = Err AssertionError
  /\ mk_foreign_key a None b kb None = Err AssertionError
  /\ mk_foreign_key a ka None kb None = Err AssertionError
  /\ mk_foreign_key a ka b None None = Err AssertionError
  /\ match mk_foreign_key a kab b kab None with
     | Ok fk => fk_from_keys fk = [$"colA"; $"colB"] /\ fk_to_keys fk = [$"colA"; $"colB"]
     | Err _ => False
     end
  /\ mk_foreign_key a ka b kab None = Err ValueError.
Proof. vm_compute. repeat split; reflexivity. Qed.
(** [TestGenericRelationship] *)
Example test_relationship :
  let a := Some ($"tableA") in let b := Some ($"tableB") in
  mk_relationship a b (Some ($"col1 = col2")) (Some ($"REL_test"))
  = Ok {| rel_name := $"REL_test"; rel_from_table := $"tableA"; rel_to_table := $"tableB";
          rel_conditions := $"col1 = col2" |}
  /\ mk_relationship a b (Some ($"tableA.colA > tableB.colB")) None
     = Ok {| rel_name := $"REL_tableA_to_tableB"; rel_from_table := $"tableA"; rel_to_table := $"tableB";
             rel_conditions := $"tableA.colA > tableB.colB" |}.
Proof. vm_compute. split; reflexivity. Qed.
(** [TestTable.test_create_table_with_primary_keys], [test_set_primary_key] *)
Example test_primary_keys :
  t_pk (tab (Some (OneKey ($"column_1"))) None) = [$"column_1"]
  /\ t_pk (tab (Some (KeyList [$"column_1"; $"column_2"])) None) = [$"column_1"; $"column_2"]
  /\ match set_primary_key (tab (Some (OneKey ($"pk1"))) None) (Some (OneKey ($"pk2"))) with
     | Ok t => t_pk t = [$"pk2"]
               /\ match set_primary_key t (Some (KeyList [$"pk1"; $"pk2"])) with
                  | Ok t' => t_pk t' = [$"pk1"; $"pk2"]
                  | Err _ => False
                  end
     | Err _ => False
     end.
Proof. vm_compute. repeat split; reflexivity. Qed.
(** [TestTable.get_test_table] *)
Definition test_table : table :=
  add_columns (mk_table ($"Table") ($"test") None None)
    [col ($"column_1") ($"INT"); col ($"column_2") ($"DOUBLE"); col ($"column_3") ($"DATETIME");
     col ($"column_4") ($"BOOL")].
(** [TestTable.test_add_column], [test_drop_column], [test_has_column], [test_column_iteration] *)
Example test_columns :
  number_columns test_table = 4
  /\ (let t := fst (drop_column test_table ($"column_3")) in number_columns t = 3 /\ has_column t ($"column_3") = false)
  /\ map (has_column test_table) [$"column_1"; $"column_2"; $"column_3"; $"column_4"; $"column_5"]
     = [true; true; true; true; false]
  /\ map column_name (table_iter test_table) = [$"column_1"; $"column_2"; $"column_3"; $"column_4"].
Proof. vm_compute. repeat split; reflexivity. Qed.
(** [TestTable.test_add_foreign_key] *)
Example test_add_foreign_key :
  let t := tab (Some (OneKey ($"pk1"))) None in
  match (fk <- mk_foreign_key (Some ($"table1")) (Some (OneKey ($"col1"))) (Some ($"table2")) (Some (OneKey ($"col2")))
                 (Some ($"fk1")) ;;
         add_fk_parts (add_fk_obj t fk) (Some (OneKey ($"col3"))) (Some ($"table3")) (Some (OneKey ($"col4")))
           (Some ($"fk2"))) with
  | Ok t' =>
      (match get_foreign_key t' ($"fk1") with Some fk => Some (fk_from_table fk) | None => None end)
      = Some ($"table1")
      /\ get_foreign_key t' ($"fk2")
         = Some {| fk_name := $"fk2"; fk_from_table := $"table1"; fk_from_keys := [$"col3"];
                   fk_to_table := $"table3"; fk_to_keys := [$"col4"] |}
      /\ get_foreign_key t' ($"fkx") = None
  | Err _ => False
  end.
Proof. vm_compute. repeat split; reflexivity. Qed.
(** [TestTable.test_add_relationship] *)
Example test_add_relationship :
  let t := tab (Some (OneKey ($"pk1"))) None in
  match (r <- mk_relationship (Some ($"table1")) (Some ($"table2")) (Some ($"table1.col1 = table2.col2"))
                (Some ($"rel1")) ;;
         add_rel_parts (add_rel_obj t r) (Some ($"table3")) (Some ($"rel2")) (Some ($"table1.col1 = table3.col3"))) with
  | Ok t' =>
      (match get_relationship t' ($"rel1") with Some r => Some (rel_name r) | None => None end) = Some ($"rel1")
      /\ get_relationship t' ($"rel2")
         = Some {| rel_name := $"rel2"; rel_from_table := $"table1"; rel_to_table := $"table3";
                   rel_conditions := $"table1.col1 = table3.col3" |}
      /\ get_relationship t' ($"foo") = None
  | Err _ => False
  end.
Proof. vm_compute. repeat split; reflexivity. Qed.
(** [TestDatabase.create_test_database] *)
Definition test_database : database :=
  db1 [mk_table ($"table1") ($"schema1") None None; mk_table ($"table2") DEFAULT_SCHEMA None None].
(** [TestDatabase] *)
Example test_tables :
  map (fun n => match get_table test_database n with Some t => Some (t_name t, t_schema t) | None => None end)
      [$"table1"; $"table2"]
  = [Some ($"table1", $"schema1"); Some ($"table2", $"falcon_default_schema")]
  /\ get_table_names test_database = [$"table1"; $"table2"]
  /\ map t_name (db_iter test_database) = [$"table1"; $"table2"]
  /\ map (fun s => str_in s (get_schema_names test_database)) [$"schema1"; DEFAULT_SCHEMA] = [true; true]
  /\ match drop_table test_database ($"table1") with
     | Ok (d, _) => get_table_names d = [$"table2"] /\ get_schema_names d = [DEFAULT_SCHEMA]
     | Err _ => False
     end.
Proof. vm_compute. repeat split; reflexivity. Qed.
(** [TestDatabaseValidator.test_valid_database] *)
Example test_valid_database :
  (t2 <- add_fk_parts
           (mk_table ($"table2") DEFAULT_SCHEMA (Some (KeyList [$"col3"; $"col4"])) (Some (sk [$"col3"] 128)))
           (Some (KeyList [$"col3"; $"col4"])) (Some ($"table1")) (Some (KeyList [$"col1"; $"col2"])) None ;;
   validate
     (add_table
        (add_table (empty_database ($"good_db"))
           (add_columns
              (mk_table ($"table1") DEFAULT_SCHEMA (Some (KeyList [$"col1"; $"col2"])) (Some (sk [$"col1"] 128)))
              [col ($"col1") ($"INT"); col ($"col2") ($"INT")]))
        (add_columns t2 [col ($"col3") ($"INT"); col ($"col4") ($"INT")])))
  = Ok {| is_valid := true; issues := [] |}.
Proof. vm_compute. reflexivity. Qed.

(** ** dt/review/tests/test_review.py *)
(** dt/review/tests/circular.tql *)
Definition circular_tql : str :=
  $"-- database for testing circular references.

create table table1 (pk1 bigint, fk1_to_2 bigint, primary key pk1);
create table table2 (pk2 bigint, fk2_to_3 bigint, primary key pk2);
create table table3 (pk3 bigint, fk3_to_1 bigint, fk_3_to_4, primary key pk3);
create table table4 (pk4 bigint, primary key pk4);
create table table5 (pk5 bigint, fk5_to_5 bigint, primary key pk5);
create table table6 (pk6 bigint, fk6_to_7 bigint, primary key pk6);
create table table7 (pk7 bigint, fk7_to_6 bigint, primary key pk7);

alter table table1 add constraint ""fk_table1_to_table2"" foreign key (fk1_to_2) references table2 (pk2);
alter table table2 add constraint ""fk_table2_to_table3"" foreign key (fk2_to_3) references table3 (pk3);
alter table table3 add relationship ""rel_table3_to_table1"" with table1 as table3.fk3_to_fk1 = table1.pk1;
alter table table3 add constraint ""fk_table3_to_table4"" foreign key (fk3_to_4) references table4 (pk4);
alter table table5 add constraint ""fk_table5_to_table5"" foreign key (fk5_to_5) references table5 (pk5);
alter table table6 add constraint ""fk_table6_to_table7"" foreign key (fk6_to_7) references table7 (pk7);
alter table table7 add relationship ""rel_table7_to_table6"" with table6 as table7.fk7_to_6 = table6.pk6;
".

(** dt/review/tests/long_chain.tql *)
Definition long_chain_tql : str :=
  $"-- use for review_long_chain_relationships test.

create table table1 (pk1, fk1, primary key pk1);
create table table2 (pk2, fk2, primary key pk2);
create table table3 (pk3, fk3, primary key pk3);
create table table4 (pk4, fk4, primary key pk4);
create table table5 (pk5, fk5, primary key pk5);
create table table6 (pk6, fk6, primary key pk6);
create table table7 (pk7, fk7, primary key pk7);
create table table8 (pk8, fk8, primary key pk8);
create table table9 (pk9, fk9, primary key pk9);

alter table table1 add constraint ""fk_1_to_2"" foreign key (fk1) references table2 (pk2);
alter table table1 add constraint ""fk_1_to_3"" foreign key (fk1) references table3 (pk3);
alter table table1 add constraint ""fk_1_to_4"" foreign key (fk1) references table4 (pk4);

alter table table2 add constraint ""fk_2_to_5"" foreign key (fk2) references table5 (pk5);
alter table table2 add constraint ""fk_2_to_6"" foreign key (fk2) references table6 (pk6);

-- also capture relationships.
alter table table5 add constraint ""fk_5_to_7"" foreign key (fk5) references table7 (pk7);
alter table table5 add relationship ""rel_5_to_8"" with table8 as table5.fk5 = table8.pk8;

-- circular reference
alter table table6 add constraint ""fk_6_to_1"" foreign key (fk6) references table1 (pk1);

-- two ways to reach table 9, both long.
alter table table7 add constraint ""fk_7_to_9"" foreign key (fk7) references table9 (pk9);
alter table table8 add constraint ""fk_8_to_9"" foreign key (fk8) references table9 (pk9);
".

(** dt/review/tests/no_pks.tql *)
Definition no_pks_tql : str :=
  $"-- have a table with a PK and one without.

create table table_with_pk (col1 bigint, primary key (col1));
create table table_without_pk (col1 bigint);
".

(** [parse_ddl] and then [review_model] without a cluster or a worksheet: how many issues a review reports *)
Definition issue_count (db_name text review : str) : option nat :=
  match parse_ddl (disk ($"x.tql") text) db_name DEFAULT_SCHEMA (Some ($"x.tql")) with
  | Ok (Some d) =>
      match fst (fst (review_model (fun l => l) (fun x => x) (fun _ => []) (fun _ => []) 100 [] d [] None None)) with
      | Ok issues => match dget review issues with Some l => Some (length l) | None => None end
      | Err _ => None
      end
  | _ => None
  end.
(** [test_db_circular_relationship] *)
Example test_db_circular_relationship :
  issue_count ($"test_db") circular_tql ($"review_circular_relationships") = Some 6.
Proof. vm_compute. reflexivity. Qed.
(** [test_long_chain_relationships] *)
Example test_long_chain_relationships :
  issue_count ($"test_db") long_chain_tql ($"review_long_chain_relationships") = Some 6.
Proof. vm_compute. reflexivity. Qed.
(** [test_primary_keys] *)
Example test_primary_keys_review : issue_count ($"review_pks") no_pks_tql ($"review_pks") = Some 1.
Proof. vm_compute. reflexivity. Qed.

(** ** dt/tests/test_excel.xlsx
    The workbook that [TestXLSWriter.test_create_excel] once wrote.  It is older than the last two columns
    of the sheet of tables (dt/io.py:855-856, 911-912), so the rows are compared as far as it has them. *)
Definition written_book : workbook value :=
  [ ($"Columns", [ [VText ($"Database"); VText ($"Schema"); VText ($"Table"); VText ($"Column"); VText ($"Name"); VText ($"Type")];
      [VText ($"xdb"); VText ($"s1"); VText ($"table1"); VNum 1; VText ($"column_1"); VText ($"INT")];
      [VText ($"xdb"); VText ($"s1"); VText ($"table1"); VNum 2; VText ($"column_2"); VText ($"DOUBLE")];
      [VText ($"xdb"); VText ($"s1"); VText ($"table1"); VNum 3; VText ($"column_3"); VText ($"FLOAT")];
      [VText ($"xdb"); VText ($"s1"); VText ($"table2"); VNum 1; VText ($"column_1"); VText ($"INT")];
      [VText ($"xdb"); VText ($"s1"); VText ($"table2"); VNum 2; VText ($"column_2"); VText ($"DATETIME")];
      [VText ($"xdb"); VText ($"s1"); VText ($"table2"); VNum 3; VText ($"column_3"); VText ($"BOOL")];
      [VText ($"xdb"); VText ($"s1"); VText ($"table2"); VNum 4; VText ($"column_4"); VText ($"DOUBLE")] ]);
    ($"Tables", [ [VText ($"Database"); VText ($"Schema"); VText ($"Table"); VText ($"Updated"); VText ($"Update Type"); VText ($"# Rows"); VText ($"# Columns"); VText ($"Primary Key"); VText ($"Shard Key"); VText ($"# Shards"); VText ($"RLS Column"); VText ($"# FKs From"); VText ($"# FKs To")];
      [VText ($"xdb"); VText ($"s1"); VText ($"table1"); VText ($"daily"); VText ($"partial"); VText []; VText ($"=COUNTIFS(Columns!A:A,Tables!A2, Columns!B:B,Tables!B2, Columns!C:C,Tables!C2)"); VText ($"column_1"); VText ($"column_1"); VNum 128; VText []; VText ($"=IF(COUNTIF('Foreign Keys'!$D:$D,""=""&$C2)>0,COUNTIF('Foreign Keys'!$D:$D,""=""&$C2),"""")"); VText ($"=IF(COUNTIF('Foreign Keys'!$F:$F,""=""&$C2)>0,COUNTIF('Foreign Keys'!$F:$F,""=""&$C2),"""")")];
      [VText ($"xdb"); VText ($"s1"); VText ($"table2"); VText ($"daily"); VText ($"partial"); VText []; VText ($"=COUNTIFS(Columns!A:A,Tables!A3, Columns!B:B,Tables!B3, Columns!C:C,Tables!C3)"); VText ($"column_1"); VText []; VText []; VText []; VText ($"=IF(COUNTIF('Foreign Keys'!$D:$D,""=""&$C3)>0,COUNTIF('Foreign Keys'!$D:$D,""=""&$C3),"""")"); VText ($"=IF(COUNTIF('Foreign Keys'!$F:$F,""=""&$C3)>0,COUNTIF('Foreign Keys'!$F:$F,""=""&$C3),"""")")] ]);
    ($"Foreign Keys", [ [VText ($"Name"); VText ($"Database"); VText ($"Schema"); VText ($"From Table"); VText ($"From Columns"); VText ($"To Table"); VText ($"To Columns")];
      [VText ($"FK_table2_to_table_1"); VText ($"xdb"); VText ($"s1"); VText ($"table2"); VText ($"column_1"); VText ($"table_1"); VText ($"column_1")] ]);
    ($"Relationships", [ [VText ($"Name"); VText ($"Database"); VText ($"Schema"); VText ($"From Table"); VText ($"To Table"); VText ($"Conditions")];
      [VText ($"REL_table2_to_table1"); VText ($"xdb"); VText ($"s1"); VText ($"table2"); VText ($"table1"); VText ($"table2.column_4 = table1.column_2")] ]) ].
Definition written_db : result database :=
  t2 <- (t <- add_fk_parts
                (add_columns (mk_table ($"table2") ($"s1") (Some (OneKey ($"column_1"))) None)
                   [col ($"column_1") ($"INT"); col ($"column_2") ($"DATETIME"); col ($"column_3") ($"BOOL");
                    col ($"column_4") ($"DOUBLE")])
                (Some (OneKey ($"column_1"))) (Some ($"table_1")) (Some (OneKey ($"column_1"))) None ;;
         add_rel_parts t (Some ($"table1")) None (Some ($"table2.column_4 = table1.column_2"))) ;;
  Ok (add_table
        (add_table (empty_database ($"xdb"))
           (add_columns (mk_table ($"table1") ($"s1") (Some (OneKey ($"column_1"))) (Some (sk [$"column_1"] 128)))
              [col ($"column_1") ($"INT"); col ($"column_2") ($"DOUBLE"); col ($"column_3") ($"FLOAT")]))
        t2).
(** [TestXLSWriter.test_create_excel] *)
Example test_create_excel :
  match (d <- written_db ;; write_database (fun _ _ => []) new_writer d ($"test_excel")) with
  | Ok (w, name) => map (fun sheet => (fst sheet, map (firstn 13) (snd sheet))) w = written_book
                    /\ name = $"test_excel.xlsx"
  | Err _ => False
  end.
Proof. vm_compute. split; reflexivity. Qed.

(** ** [test_table_joins], on the data of dt/review/tests/table_joins.tql *)
Definition table_joins_tql : str :=
  $"-- database and data for testing table join cardinality and direction.  This data doesn't support missing keys.

drop database table_join_test;
create database table_join_test;
use table_join_test;

-- relationships -- will have both foreign keys and generic relationships.  Both should be OK.

-- table1 -> table2 -- 1:1
create table table1 (
  col1 bigint,
  col2 bigint,
  col3 bigint,
  col4 varchar(0),
  constraint primary key (col1, col2, col3)
);

insert into table1 values (1, 1, 1, 'one');
insert into table1 values (2, 2, 2, 'two');
insert into table1 values (3, 3, 3, 'three');
insert into table1 values (4, 4, 4, 'four');

create table table2 (
  col1 bigint,
  col2 bigint,
  col3 bigint,
  col4 varchar(0),
  constraint primary key (col1, col2, col3)
);

alter table table1 add constraint ""fk_table1_to_table2"" foreign key (col1, col2, col3) references table2 (col1, col2, col3);
alter table table1 add relationship ""rel_table1_to_table2"" with table2 as ((""table1"".""col1"" = ""table2"".""col1"" and ""table1"".""col2"" = ""table2"".""col2"") and table1.col3 = table2.col3);

insert into table2 values (1, 1, 1, 'one');
insert into table2 values (2, 2, 2, 'two');
insert into table2 values (3, 3, 3, 'three');
insert into table2 values (4, 4, 4, 'four');

-- table3 -> table4 -- M:1
create table table3 (
  col1 bigint,
  col2 varchar(0),
  col3 bigint,
  constraint primary key (col1)
);

insert into table3 values (1, 'one', 1);
insert into table3 values (2, 'two', 1);
insert into table3 values (3, 'three', 2);
insert into table3 values (4, 'four', 2);
insert into table3 values (5, 'five', 3);
insert into table3 values (6, 'six', 3);

create table table4 (
  col1 bigint,
  col2 varchar(0),
  constraint primary key (col1)
);

alter table table3 add constraint ""fk_table3_to_table4"" foreign key (col3) references table4 (col1);
alter table table3 add relationship ""rel_table3_to_table4"" with table4 as table3.col3 = table4.col1;

insert into table4 values (1, 'one');
insert into table4 values (2, 'two');
insert into table4 values (3, 'three');

-- table5 -> table6 -- 1:M
create table table5 (
  col1 bigint,
  col2 varchar(0),
  constraint primary key (col1)
);

insert into table5 values (1, 'one');
insert into table5 values (2, 'two');
insert into table5 values (3, 'three');

create table table6 (
  col1 bigint,
  col2 varchar(0),
  col3 bigint,
  constraint primary key (col1)
);

insert into table6 values (1, 'one', 1);
insert into table6 values (2, 'two', 1);
insert into table6 values (3, 'three', 2);
insert into table6 values (4, 'four', 2);
insert into table6 values (5, 'five', 3);
insert into table6 values (6, 'six', 3);

alter table table5 add relationship ""rel_table5_to_table6"" with table6 as table5.col1 = table6.col3;

-- table7 -> table8 -- M:M
-- also use long joins to verify join logic works.

create table table7 (
  col1 bigint,
  col2 varchar(0)
);

insert into table7 values (1, 'one');
insert into table7 values (1, 'two');
insert into table7 values (2, 'three');
insert into table7 values (2, 'four');
insert into table7 values (3, 'five');
insert into table7 values (3, 'six');

create table table8 (
  col1 bigint,
  col2 varchar(0)
);

-- can't have M:M with FK.
alter table table7 add relationship ""rel_table7_to_table8"" with table8 as table7.col1 = table8.col1;

insert into table8 values (1, 'one');
insert into table8 values (1, 'two');
insert into table8 values (2, 'three');
insert into table8 values (2, 'four');
insert into table8 values (3, 'five');
insert into table8 values (3, 'six');
".
(** How many rows of the second table the rows of the first one join with at most, in that data *)
Definition most_rows : list (str * str * str) :=
  [ ($"table1", $"table2", $"1"); ($"table2", $"table1", $"1"); ($"table3", $"table4", $"1");
    ($"table4", $"table3", $"2"); ($"table5", $"table6", $"2"); ($"table6", $"table5", $"1");
    ($"table7", $"table8", $"2"); ($"table8", $"table7", $"2") ].
Definition cluster : oracle := fun _ q =>
  let full (t : str) := $"""table_join_test"".""falcon_default_schema"".""" ++ t ++ $"""" in
  match List.find (fun p => contains ($"from " ++ full (fst (fst p)) ++ $", " ++ full (snd (fst p)) ++ $" where ") q) most_rows with
  | Some p => Ok [fun c => if str_eqb c ($"c1") then Ok (snd p) else Err KeyError]
  | None => Ok []
  end.
Example test_table_joins :
  match parse_ddl (disk ($"table_joins.tql") table_joins_tql) ($"table_join_test") DEFAULT_SCHEMA
          (Some ($"table_joins.tql")) with
  | Ok (Some d) =>
      match fst (fst (review_model (fun l => l) (fun x => x) (fun _ => []) (fun _ => []) 100 [] d
                        [$"review_table_joins"] None (Some cluster))) with
      | Ok issues => match dget ($"review_table_joins") issues with Some l => length l = 2 | None => False end
      | Err _ => False
      end
  | _ => False
  end.
Proof. vm_compute. reflexivity. Qed.
