(** * dt/io.py: what DDLParser says about the statements it handles

    The handlers of [Parser.v] with what they print to standard error ([eprint]) or log as errors
    ([logging.error]).  The text of an exception in a message is represented by its class. *)
From Verif Require Export Parser.

(** what the messages name: dt/io.py:479, 548, 597, 639, 669 *)
Inductive construct := HashKey | PrimaryKey | ForeignKey | Relationship | ShardKey.
Inductive message :=
| Unable (what : construct) (statement : str)             (** dt/io.py:548, 597, 639 *)
| Failed (what : construct) (e : exn) (statement : str)   (** dt/io.py:479, 561, 615, 653 *)
| NoTable (what : construct) (table : str).               (** dt/io.py:559, 612-613, 651, 669 *)

(** dt/io.py:534-561 [_add_primary_key] *)
Definition heard_primary_key (d : database) (statement : str) : database * list message :=
  match rmatch pk_pattern statement with
  | Some [g1; g2] =>
      match extract_table_name g1 with
      | Ok n =>
          match get_table d n with
          | Some t =>
              match set_primary_key t (Some (KeyList (key_columns_of g2))) with
              | Ok t' => (store_table d n t', [])
              | Err e => (d, [Failed PrimaryKey e statement])
              end
          | None => (d, [NoTable PrimaryKey n])
          end
      | Err e => (d, [Failed PrimaryKey e statement])
      end
  | _ => (d, [Unable PrimaryKey statement])
  end.

(** dt/io.py:583-615 the loop over the constraints *)
Fixpoint heard_fk_loop (statement table_name : str) (constraints : list str) (d : database) : database * list message :=
  match constraints with
  | [] => (d, [])
  | c :: cs =>
      let constraint := strip (strip_char ";" (strip_char "," (strip c))) in
      match fk_parts constraint with
      | Some (name, from_columns, Ok to_table, to_columns) =>
          match get_table d table_name with
          | Some t =>
              match add_fk_parts t (Some (KeyList from_columns)) (Some to_table)
                                 (Some (KeyList to_columns)) name with
              | Ok t' => heard_fk_loop statement table_name cs (store_table d table_name t')
              | Err e => (d, [Failed ForeignKey e statement])
              end
          | None => let '(d', ms) := heard_fk_loop statement table_name cs d in (d', NoTable ForeignKey table_name :: ms)
          end
      | Some (_, _, Err e, _) => (d, [Failed ForeignKey e statement])
      | None => (d, [Unable ForeignKey statement])
      end
  end.

(** dt/io.py:563-615 [_add_foreign_key]; without a match line 582 raises [TypeError] *)
Definition heard_foreign_key (d : database) (statement : str) : database * list message :=
  match rmatch add_pattern statement with
  | Some [g] => heard_fk_loop statement (clean_name g) (tl (resplit ($"constraint") statement)) d
  | _ => (d, [Failed ForeignKey TypeError statement])
  end.

(** dt/io.py:617-653 [_add_generic_relationship] *)
Definition heard_relationship (d : database) (statement : str) : database * list message :=
  match rel_parts statement with
  | Some (Ok n, name, Ok to_table, conditions) =>
      match get_table d n with
      | Some t =>
          match add_rel_parts t (Some to_table) name (Some conditions) with
          | Ok t' => (store_table d n t', [])
          | Err e => (d, [Failed Relationship e statement])
          end
      | None => (d, [NoTable Relationship n])
      end
  | Some (Err e, _, _, _) => (d, [Failed Relationship e statement])
  | Some (_, _, Err e, _) => (d, [Failed Relationship e statement])
  | None => (d, [Unable Relationship statement])
  end.

(** dt/io.py:655-671 [_add_shard_key] looks for a table without name *)
Definition heard_shard_key (d : database) : list message :=
  match get_table d [] with Some _ => [] | None => [NoTable ShardKey []] end.

(** dt/io.py:462-479 [_add_hashkey]; without a match line 474 raises [AttributeError] *)
Definition heard_hashkey (statement : str) : list message :=
  match rsearch hash_pattern statement with
  | Some [g1; g2] => match py_int g1 with Ok _ => [] | Err e => [Failed HashKey e statement] end
  | _ => [Failed HashKey AttributeError statement]
  end.

(** dt/io.py:208-224 [_parse_create_table] *)
Definition heard_create_table (schema : str) (id : nat) (d : database) (statement : str) : result database * list message :=
  let statement' := replace_char "]" [dquote] (replace_char "[" [dquote] statement) in
  match parse_columns (mk_table (get_table_name statement') schema None None) statement' with
  | Ok t =>
      if contains ($"partition by hash") (lower statement')
      then (Ok (add_table d (add_hashkey id t statement')), heard_hashkey statement')
      else (Ok (add_table d t), [])
  | Err e => (Err e, [])
  end.

(** dt/io.py:103-127 one statement *)
Definition heard_statement (schema : str) (id : nat) (d : database) (stmt : str) : result database * list message :=
  let l := lower stmt in
  if contains ($"create database") l then (Ok d, [])
  else if contains ($"create table") l || contains ($"create or replace table") l
  then heard_create_table schema id d stmt
  else if contains ($"alter table") l then
    if contains ($"primary key") l then let '(d', ms) := heard_primary_key d stmt in (Ok d', ms)
    else if contains ($"foreign") l then let '(d', ms) := heard_foreign_key d stmt in (Ok d', ms)
    else if contains ($"relationship") l then let '(d', ms) := heard_relationship d stmt in (Ok d', ms)
    else if contains ($"hash") l then (Ok d, heard_shard_key d)
    else (Ok d, [])
  else (Ok d, []).

(** dt/io.py:102-127 the loop *)
Fixpoint heard_statements (schema : str) (id : nat) (stmts : list str) (d : database) : result database * list message :=
  match stmts with
  | [] => (Ok d, [])
  | x :: l =>
      match heard_statement schema id d x with
      | (Ok d', ms) => let '(r, ms') := heard_statements schema (S id) l d' in (r, ms ++ ms')
      | (Err e, ms) => (Err e, ms)
      end
  end.

(** dt/io.py:84-129 [parse_ddl] on the content of an existing file *)
Definition heard_text (name schema text : str) : result database * list message :=
  heard_statements schema 0 (get_statements text) (empty_database name).

(** what the messages say about a construct: dt/io.py:479, 548, 559-561, 597, 613-615, 639, 651-653, 669-671 *)
Definition construct_text (k : construct) : str :=
  match k with
  | HashKey => $"hash key" | PrimaryKey => $"primary key" | ForeignKey => $"foreign key" | Relationship => $"relationship"
  | ShardKey => $"shard key"
  end.
(** The text on standard error.  [reason] is the text of the exception, which depends on the statement
    only.  [logging.error] writes the level and the name of the root logger first. *)
Definition message_text (reason : construct -> exn -> str -> str) (m : message) : str :=
  match m with
  | Unable k s => $"Possible parsing error: unable to extract " ++ (match k with Relationship => $"generic " | _ => [] end)
                  ++ construct_text k ++ $" from " ++ s ++ $"."
  | Failed k e s => $"Error """ ++ reason k e s ++ $""" extracting " ++ construct_text k ++ $" from: " ++ s
  | NoTable k n => $"ERROR:root:Attempting to add a " ++ construct_text k ++ $" to table " ++ n ++ $", which is not in the database."
  end.
