(** * Specification: the statements a model's script should consist of, and the catalog it denotes *)
From Verif Require Export SpecTql Model Generator Validate SpecValid.

(** ** Text that can be quoted and read back *)
(** a name without double quotes *)
Definition quote_free (n : str) : Prop := ~ In quote_char n.
(** a type text without blanks, newlines, quotes and semicolons *)
Definition plain_type (ty : str) : Prop :=
  forall c, In c ty -> c <> " "%char /\ c <> newline_char /\ c <> quote_char /\ c <> ";"%char.
(** a condition: quotes balance and semicolons stand only inside quotes *)
Fixpoint scan (in_quotes : bool) (s : str) : option bool :=
  match s with
  | [] => Some in_quotes
  | c :: r => if Ascii.eqb c quote_char then scan (negb in_quotes) r
              else if Ascii.eqb c ";" && negb in_quotes then None
              else scan in_quotes r
  end.
Definition plain_condition (c : str) : Prop := scan false c = Some false.

Record writable_table (t : table) : Prop := {
  wt_name : quote_free (t_name t); wt_schema : quote_free (t_schema t);
  wt_cols : forall c, In c (table_iter t) -> quote_free (column_name c) /\ plain_type (column_type c);
  wt_pk : Forall quote_free (t_pk t);
  wt_pk_cols : t_pk t <> [] -> table_iter t <> [];
  wt_shard : forall sk, t_shard t = Some sk -> Forall quote_free (sk_keys sk);
  wt_fks : forall fk, In fk (foreign_keys_iter t) ->
    quote_free (fk_name fk) /\ quote_free (fk_from_table fk) /\ quote_free (fk_to_table fk)
    /\ Forall quote_free (fk_from_keys fk) /\ Forall quote_free (fk_to_keys fk);
  wt_rels : forall r, In r (relationships_iter t) ->
    quote_free (rel_name r) /\ quote_free (rel_from_table r) /\ quote_free (rel_to_table r)
    /\ plain_condition (rel_conditions r) }.
Record writable (d : database) : Prop := {
  wd_name : quote_free (db_name d);
  wd_schemas : Forall quote_free (get_schema_names d);
  wd_tables : forall t, In t (db_iter d) -> writable_table t }.

(** ** The statements expected, with [cn] the conversion of table, schema and database names and [cc]
    that of column names inside CREATE TABLE *)
Section Expected.
Variables cn cc : str -> str.

Definition shard_of (t : table) : option (Z * list str) :=
  match t_shard t with Some sk => Some (sk_shards sk, sk_keys sk) | None => None end.
Definition table_stmts (t : table) : list stmt :=
  [ SDropTable (cn (t_schema t)) (cn (t_name t));
    SCreateTable (cn (t_schema t)) (cn (t_name t))
      (map (fun c => (cc (column_name c), column_type c)) (table_iter t)) (t_pk t) (shard_of t) ].
Definition fk_stmt (t : table) (fk : foreign_key) : stmt :=
  SAddFk (cn (t_schema t)) (cn (fk_from_table fk)) (fk_name fk) (fk_from_keys fk)
         (cn (t_schema t)) (cn (fk_to_table fk)) (fk_to_keys fk).
Definition rel_stmt (t : table) (r : relationship) : stmt :=
  SAddRel (cn (t_schema t)) (cn (rel_from_table r)) (rel_name r) (cn (t_schema t)) (cn (rel_to_table r))
          (rel_conditions r).
Definition new_schemas (d : database) : list str :=
  filter (fun s => negb (str_eqb s default_schema)) (get_schema_names d).
Definition script_stmts (create_db : bool) (d : database) : list stmt :=
  (if create_db then [SCreateDatabase (cn (db_name d))] else [])
  ++ [SUse (cn (db_name d))]
  ++ (if create_db then map (fun s => SCreateSchema (cn s)) (new_schemas d) else [])
  ++ flat_map table_stmts (db_iter d)
  ++ flat_map (fun t => map (fk_stmt t) (foreign_keys_iter t)) (db_iter d)
  ++ flat_map (fun t => map (rel_stmt t) (relationships_iter t)) (db_iter d).
End Expected.

(** the name conversion in force, as a total function *)
Definition cased (o : case_opts) (n : str) : str := match to_case o n with Ok x => x | Err _ => n end.
(** column names inside CREATE TABLE: lower case wins over upper case, no camel case *)
Definition col_cased (o : case_opts) (n : str) : str :=
  if lowercase o then lower n else if uppercase o then upper n else n.

(** ** The catalog entry of a table *)
Definition entry_of (t : table) : ctable :=
  {| ct_schema := t_schema t; ct_name := t_name t;
     ct_cols := map (fun c => (column_name c, column_type c)) (table_iter t);
     ct_pk := t_pk t; ct_shard := shard_of t;
     ct_fks := map (fun fk => {| cf_name := fk_name fk; cf_cols := fk_from_keys fk; cf_schema := t_schema t;
                                 cf_table := fk_to_table fk; cf_to_cols := fk_to_keys fk |}) (foreign_keys_iter t);
     ct_rels := map (fun r => {| cr_name := rel_name r; cr_schema := t_schema t; cr_table := rel_to_table r;
                                 cr_cond := rel_conditions r |}) (relationships_iter t) |}.

(** ** What every program using the API gets (C02-C06), bundled *)
Record well_formed_table (t : table) : Prop := {
  wf_cols : NoDup (get_column_names t) /\ forall n c, get_column t n = Some c -> column_name c = n;
  wf_fks : NoDup (dkeys (t_fks t)) /\ forall n fk, get_foreign_key t n = Some fk -> fk_name fk = n;
  wf_rels : NoDup (dkeys (t_rels t)) /\ forall n r, get_relationship t n = Some r -> rel_name r = n;
  wf_paired : forall fk, In fk (foreign_keys_iter t) -> length (fk_from_keys fk) = length (fk_to_keys fk) }.
Record well_formed (d : database) : Prop := {
  wf_names : NoDup (get_table_names d) /\ forall n t, get_table d n = Some t -> t_name t = n;
  wf_schemas : NoDup (get_schema_names d) /\ forall t, In t (db_iter d) -> In (t_schema t) (get_schema_names d);
  wf_tables : forall t, In t (db_iter d) -> well_formed_table t }.

(** foreign keys belong to the table they are filed in *)
Definition own_fks (d : database) : Prop :=
  forall t fk, In t (db_iter d) -> In fk (foreign_keys_iter t) -> fk_from_table fk = t_name t.
(** no foreign key or relationship crosses a schema border *)
Definition schema_local (d : database) : Prop :=
  forall t tot, In t (db_iter d) -> In (t_name tot) (get_all_related_tables t) -> In tot (db_iter d) ->
                t_schema tot = t_schema t.
