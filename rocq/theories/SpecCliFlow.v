(** * Specification: the workflow DDL, Excel, TQL (C91) *)
From Coq Require Export Permutation.
From Verif Require Export SpecCli SpecExcel.

(** convert_ddl --from_ddl [f] --database [n] --schema [s] --to_excel [x] *)
Definition file_to_excel (f n s x : str) : convert_args :=
  {| version := false; empty := false; from_ddl := Some f; to_tql := None; from_ts := None; to_ts := None; username := $"admin"; password := [];
     from_excel := None; to_excel := Some x; db_option := Some n; schema_option := s; create_db := false; lower_option := false; upper_option := false;
     camel_option := false; validate_option := false; debug := false |}.
(** options of the TQL writer *)
Record tql_options := { o_create : bool; o_lower : bool; o_upper : bool; o_camel : bool; o_validate : bool }.
(** convert_ddl --from_excel [x] --to_tql [g] *)
Definition excel_to_tql (x g : str) (o : tql_options) : convert_args :=
  {| version := false; empty := false; from_ddl := None; to_tql := Some g; from_ts := None; to_ts := None; username := $"admin"; password := [];
     from_excel := Some x; to_excel := None; db_option := None; schema_option := $"falcon_default_schema"; create_db := o_create o; lower_option := o_lower o;
     upper_option := o_upper o; camel_option := o_camel o; validate_option := o_validate o; debug := false |}.
(** convert_ddl --from_ddl [f] --database [n] --schema [s] --to_tql [g] *)
Definition file_to_tql (f n s g : str) (o : tql_options) : convert_args :=
  {| version := false; empty := false; from_ddl := Some f; to_tql := Some g; from_ts := None; to_ts := None; username := $"admin"; password := [];
     from_excel := None; to_excel := None; db_option := Some n; schema_option := s; create_db := o_create o; lower_option := o_lower o;
     upper_option := o_upper o; camel_option := o_camel o; validate_option := o_validate o; debug := false |}.
(** ddldiff --ddl1 [f] --ddl2 [g] --database [n] --schema [s] *)
Definition file_diff (f g n s : str) : diff_args :=
  {| ddl1 := Some f; ddl2 := Some g; database1 := n; schema1 := s; alter1 := false; alter2 := false; ignore_case := false |}.
Definition as_is (create validated : bool) : tql_options := {| o_create := create; o_lower := false; o_upper := false; o_camel := false; o_validate := validated |}.
(** a table of which nothing is reported when its file is compared with the TQL made of it *)
Record nothing_to_report (t : table) : Prop := {
  nr_types : forall c, In c (table_iter t) -> column_type c <> $"INT";
  nr_shard : t_shard t = None;
  nr_fks : forall fk, In fk (foreign_keys_iter t) -> Permutation (fk_from_keys fk) (fk_to_keys fk) }.

(** ** The case options of convert_ddl (C94) *)
Definition all_but_default (f : str -> str) (n : str) : str := if str_eqb n default_schema then n else f n.
(** the name in camel case, for names that have one (C13) *)
Definition in_camel (n : str) : str := match to_camel n with Ok m => m | Err _ => n end.
(** what the options say about names of databases, schemas and tables, and about columns of CREATE TABLE *)
Definition names_by_option (a : convert_args) : str -> str :=
  if lower_option a then all_but_default lower
  else if upper_option a then all_but_default upper
  else if camel_option a then all_but_default in_camel
  else fun n => n.
Definition columns_by_option (a : convert_args) : str -> str :=
  if lower_option a then lower else if upper_option a then upper else fun n => n.
(** the names the script contains, besides columns and constraints *)
Definition names_used (d : database) : list str :=
  db_name d :: get_schema_names d
  ++ flat_map (fun t => t_schema t :: t_name t :: flat_map (fun fk => [fk_from_table fk; fk_to_table fk]) (foreign_keys_iter t)
                        ++ flat_map (fun r => [rel_from_table r; rel_to_table r]) (relationships_iter t)) (db_iter d).
(** every name has a character besides underscores *)
Definition camel_able (d : database) : Prop := forall n, In n (names_used d) -> exists c, In c n /\ c <> "_"%char.
