(** * dt/generator.py: TQL statements *)
From Verif Require Export Model.

Definition dq : ascii := chr 34.          (** the double quote *)
Definition nl : ascii := chr 10.          (** newline *)

(** ['"%s"' % s] *)
Definition quoted (s : str) : str := dq :: s ++ [dq].

(** dt/generator.py:20-33 [list_to_string] *)
Definition list_to_string (l : list str) (quote : bool) : str :=
  if quote then join ($", ") (map quoted l) else join ($", ") l.

(** dt/generator.py:42-56 [TQLCommandGenerator.__init__] *)
Record case_opts := { uppercase : bool; lowercase : bool; camelcase : bool }.
Definition no_case : case_opts := {| uppercase := false; lowercase := false; camelcase := false |}.

(** dt/generator.py:88-97 the loop of [to_camel] from index 1 on *)
Fixpoint camel_loop (s : str) : str :=
  match s with
  | [] => []
  | c :: s' =>
      if negb (Ascii.eqb c "_") then c :: camel_loop s'
      else match s' with
           | [] => []
           | d :: s'' => upper_char d :: camel_loop s''
           end
  end.

(** dt/generator.py:76-99 [to_camel]; [newval[0]] on an empty string raises [IndexError] *)
Definition to_camel (val : str) : result str :=
  match strip_char "_" val with
  | [] => Err IndexError
  | c :: s => Ok (upper_char c :: camel_loop s)
  end.

(** dt/generator.py:58-74 [to_case] *)
Definition to_case (o : case_opts) (s : str) : result str :=
  if str_eqb s DEFAULT_SCHEMA then Ok s
  else if lowercase o then Ok (lower s)
  else if uppercase o then Ok (upper s)
  else if camelcase o then to_camel s
  else Ok s.

(** dt/generator.py:101-109 *)
Definition gen_create_database (o : case_opts) (n : str) : result str :=
  n' <- to_case o n ;; Ok ($"CREATE DATABASE " ++ quoted n' ++ $";" ++ [nl]).

(** dt/generator.py:111-119 *)
Definition gen_use_database (o : case_opts) (n : str) : result str :=
  n' <- to_case o n ;; Ok ($"USE " ++ quoted n' ++ $";" ++ [nl]).

(** dt/generator.py:121-129 *)
Definition gen_create_schema (o : case_opts) (n : str) : result str :=
  n' <- to_case o n ;; Ok ($"CREATE SCHEMA " ++ quoted n' ++ $";" ++ [nl]).

(** dt/generator.py:144-149: columns are only lower- or upper-cased *)
Definition column_case (o : case_opts) (n : str) : str :=
  if lowercase o then lower n else if uppercase o then upper n else n.

(** dt/generator.py:142-154 the column lines; [first] is the loop's flag *)
Fixpoint column_lines (o : case_opts) (first : bool) (cs : list column) : str :=
  match cs with
  | [] => []
  | c :: cs' =>
      (if first then $"    " else $"   ,")
        ++ quoted (column_case o (column_name c)) ++ $" " ++ column_type c ++ [nl]
        ++ column_lines o false cs'
  end.

(** dt/generator.py:131-164 *)
Definition gen_create_table (o : case_opts) (t : table) : result str :=
  table_name <- to_case o (t_name t) ;;
  schema_name <- to_case o (t_schema t) ;;
  let cmd := $"CREATE TABLE " ++ quoted schema_name ++ $"." ++ quoted table_name ++ $" (" ++ [nl]
             ++ column_lines o true (table_iter t) in
  let cmd := if negb (Nat.eqb (length (t_pk t)) 0)
             then cmd ++ $"   ,CONSTRAINT PRIMARY KEY (" ++ list_to_string (t_pk t) true ++ $")" ++ [nl]
             else cmd in
  match t_shard t with
  | Some sk => Ok (cmd ++ $") PARTITION BY HASH(" ++ z_to_str (sk_shards sk) ++ $") KEY("
                   ++ list_to_string (sk_keys sk) true ++ $");" ++ [nl])
  | None => Ok (cmd ++ $");" ++ [nl])
  end.

(** The two names at the head of most statements: dt/generator.py:174-175 and likewise below *)
Definition cased_names (o : case_opts) (t : table) : result (str * str) :=
  table_name <- to_case o (t_name t) ;;
  schema_name <- to_case o (t_schema t) ;;
  Ok (schema_name, table_name).

(** dt/generator.py:166-177 *)
Definition gen_drop_table (o : case_opts) (t : table) : result str :=
  ' (s, n) <- cased_names o t ;;
  Ok ($"DROP TABLE " ++ quoted s ++ $"." ++ quoted n ++ $";" ++ [nl]).

(** dt/generator.py:179-193.  The format string ['... ({})});\n'] has a single closing brace, which
    [str.format] rejects with [ValueError] whatever its arguments. *)
Definition gen_add_primary_key (o : case_opts) (t : table) (pk : list str) : result str :=
  ' (s, n) <- cased_names o t ;; Err ValueError.

(** ['ALTER TABLE "{}"."{}" '] *)
Definition alter_head (s n : str) : str := $"ALTER TABLE " ++ quoted s ++ $"." ++ quoted n ++ $" ".

(** dt/generator.py:195-206 *)
Definition gen_drop_primary_key (o : case_opts) (t : table) : result str :=
  ' (s, n) <- cased_names o t ;;
  Ok (alter_head s n ++ $"DROP CONSTRAINT PRIMARY KEY;" ++ [nl]).

(** dt/generator.py:208-224 *)
Definition gen_add_hash_key (o : case_opts) (t : table) (number_shards : Z) (key : list str) : result str :=
  ' (s, n) <- cased_names o t ;;
  Ok (alter_head s n ++ $"SET FACT PARTITION BY HASH (" ++ z_to_str number_shards ++ $") KEY ("
      ++ list_to_string key true ++ $");" ++ [nl]).

(** dt/generator.py:226-237 *)
Definition gen_drop_hash_key (o : case_opts) (t : table) : result str :=
  ' (s, n) <- cased_names o t ;;
  Ok (alter_head s n ++ $"SET DIMENSIONS;" ++ [nl]).

(** dt/generator.py:239-254 *)
Definition gen_add_foreign_key (o : case_opts) (t : table) (fk : foreign_key) : result str :=
  ' (s, n) <- cased_names o t ;;
  Ok (alter_head s n ++ $"ADD CONSTRAINT FOREIGN KEY " ++ quoted (fk_name fk) ++ $" ("
      ++ list_to_string (fk_from_keys fk) true ++ $") REFERENCES " ++ quoted (fk_to_table fk)
      ++ $" (" ++ list_to_string (fk_to_keys fk) true ++ $");" ++ [nl]).

(** dt/generator.py:256-271 *)
Definition gen_add_relationship (o : case_opts) (t : table) (r : relationship) : result str :=
  ' (s, n) <- cased_names o t ;;
  Ok (alter_head s n ++ $"ADD RELATIONSHIP " ++ quoted (rel_name r) ++ $" WITH "
      ++ quoted (rel_to_table r) ++ $" AS " ++ rel_conditions r ++ $";" ++ [nl]).

(** dt/generator.py:273-286 *)
Definition gen_drop_constraint (o : case_opts) (t : table) (c : str) : result str :=
  ' (s, n) <- cased_names o t ;;
  Ok (alter_head s n ++ $"DROP CONSTRAINT " ++ quoted c ++ $";" ++ [nl]).

(** dt/generator.py:288-307 *)
Definition gen_add_column (o : case_opts) (t : table) (c : column) : result str :=
  ' (s, n) <- cased_names o t ;;
  Ok (alter_head s n ++ $"ADD COLUMN " ++ quoted (column_name c) ++ $" " ++ column_type c
      ++ $" DEFAULT " ++ (if starts_with ($"VARCHAR") (column_type c) then $"''" else $"0")
      ++ $";" ++ [nl]).

(** dt/generator.py:309-323 *)
Definition gen_modify_column (o : case_opts) (t : table) (c : column) : result str :=
  ' (s, n) <- cased_names o t ;;
  Ok (alter_head s n ++ $"MODIFY COLUMN " ++ quoted (column_name c) ++ $" " ++ column_type c
      ++ $";" ++ [nl]).

(** dt/generator.py:325-338 *)
Definition gen_drop_column (o : case_opts) (t : table) (c : column) : result str :=
  ' (s, n) <- cased_names o t ;;
  Ok (alter_head s n ++ $"DROP COLUMN " ++ quoted (column_name c) ++ $";" ++ [nl]).

(** dt/generator.py:340-363 *)
Definition gen_foreign_key (o : case_opts) (t : table) (fk : foreign_key) : result str :=
  schema_name <- to_case o (t_schema t) ;;
  from_table <- to_case o (fk_from_table fk) ;;
  to_table <- to_case o (fk_to_table fk) ;;
  Ok (alter_head schema_name from_table ++ $"ADD CONSTRAINT " ++ quoted (fk_name fk)
      ++ $" FOREIGN KEY (" ++ list_to_string (fk_from_keys fk) true ++ $") REFERENCES "
      ++ quoted schema_name ++ $"." ++ quoted to_table
      ++ $" (" ++ list_to_string (fk_to_keys fk) true ++ $");" ++ [nl]).

(** dt/generator.py:365-383 *)
Definition gen_relationships (o : case_opts) (t : table) (r : relationship) : result str :=
  schema_name <- to_case o (t_schema t) ;;
  from_table <- to_case o (rel_from_table r) ;;
  to_table <- to_case o (rel_to_table r) ;;
  Ok (alter_head schema_name from_table ++ $"ADD RELATIONSHIP " ++ quoted (rel_name r)
      ++ $" WITH " ++ quoted schema_name ++ $"." ++ quoted to_table
      ++ $" AS " ++ rel_conditions r ++ $";" ++ [nl]).
