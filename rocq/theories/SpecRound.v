(** * Specification: the models whose TQL is read back (C45) *)
From Verif Require Export SpecParsed.

(** identifiers: no white space, no quoting, no punctuation the reader reacts to *)
Definition word_char (c : ascii) : bool :=
  negb (is_space c) && negb (existsb (Ascii.eqb c) [SpecParse.dq; sq; bq; "("; ")"; ","; "."; ";"; "-"; "/"; "["; "]"]%char).
Definition plain (s : str) : Prop := forallb word_char s = true.
Definition mentions (w s : str) : Prop := occurs w (lower s).
(** types: the names [Column] accepts, or VARCHAR with a length *)
Definition readable_type (ty : str) : Prop := In ty VALID_TYPES \/ exists n, ty = $"VARCHAR(" ++ n_to_str n ++ $")".
(** join conditions: one clean line without comment marks and without words the reader takes for
    its own *)
Record readable_condition (c : str) : Prop := {
  pc_some : c <> [];
  pc_clean : clean_statement c;
  pc_cr : ~ In cr c;
  pc_comments : ~ occurs ($"--") c /\ ~ occurs ($"/*") c;
  pc_words : forall w, In w [$"create database"; $"create table"; $"create or replace table"; $"primary key"; $"foreign"] -> ~ mentions w c;
  pc_clauses : forall w, In w [$" add relationship "; $" with "; $" as "] -> ~ mentions w ($" " ++ c) }.

Record plain_fk (t : table) (fk : foreign_key) : Prop := {
  pk_from : fk_from_table fk = t_name t;
  pk_some : fk_from_keys fk <> [] /\ fk_to_keys fk <> [];
  pk_names : forall w, In w ([fk_name fk; fk_to_table fk] ++ fk_from_keys fk ++ fk_to_keys fk) -> plain w;
  pk_constraint : forall w, In w ([t_schema t; t_name t; fk_name fk; fk_to_table fk] ++ fk_from_keys fk ++ fk_to_keys fk) ->
     ~ mentions ($"constraint") w }.
Record plain_rel (t : table) (r : relationship) : Prop := {
  pl_from : rel_from_table r = t_name t;
  pl_names : plain (rel_name r) /\ plain (rel_to_table r);
  pl_foreign : forall w, In w [t_schema t; t_name t; rel_name r; rel_to_table r] -> ~ mentions ($"foreign") w;
  pl_cond : readable_condition (rel_conditions r) }.
Record plain_table (t : table) : Prop := {
  pt_names : forall w, In w ([t_schema t; t_name t] ++ get_column_names t ++ t_pk t) -> plain w;
  pt_coltypes : forall c, In c (table_iter t) -> readable_type (column_type c);
  pt_keys : forall sk, t_shard t = Some sk -> sk_keys sk <> [] /\ forall w, In w (sk_keys sk) -> plain w;
  pt_columns : t_cols t = [] -> t_pk t = [] /\ t_shard t = None;
  pt_all_fks : forall fk, In fk (foreign_keys_iter t) -> plain_fk t fk;
  pt_all_rels : forall r, In r (relationships_iter t) -> plain_rel t r }.
Record plain_db (d : database) : Prop := {
  pb_name : plain (db_name d);
  pb_schemas : forall s, In s (get_schema_names d) -> plain s;
  pb_tables : forall t, In t (db_iter d) -> plain_table t }.

(** the type a column comes back with *)
Definition read_type (ty : str) : str :=
  if str_eqb ty ($"INT") || str_eqb ty ($"BIGINT") then $"BIGINT"
  else if str_eqb ty ($"FLOAT") || str_eqb ty ($"DOUBLE") then $"DOUBLE"
  else if str_eqb ty ($"TIMESTAMP") || str_eqb ty ($"DATETIME") then $"DATETIME"
  else if starts_with ($"VARCHAR") ty then $"VARCHAR(0)"
  else ty.
(** what a table comes back as *)
Record read_back (schema : str) (t t' : table) : Prop := {
  rb_name : t_name t' = t_name t;
  rb_schema : t_schema t' = schema;
  rb_columns : map (fun c => (column_name c, column_type c)) (table_iter t')
               = map (fun c => (column_name c, read_type (column_type c))) (table_iter t);
  rb_pk : t_pk t' = t_pk t;
  rb_shard : shard_of t' = shard_of t;
  rb_fks : t_fks t' = t_fks t;
  rb_rels : t_rels t' = t_rels t }.
