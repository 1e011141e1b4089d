(** * dt/io.py: what DDLParser logs with --debug

    --debug makes the root logger write the calls of [logging.debug] to standard error
    (ddltools/convert_ddl.py:52-53, ddltools/review_model.py:62-63).  The functions of [Parser] and
    [Messages] again, with these calls. *)
From Verif Require Export Messages Cli.

Inductive entry := Debug (s : str) | Message (m : message).

(** dt/io.py:149-183 one iteration, with lines 152 and 180 *)
Definition traced_line (st : reading) (raw : str) : reading * list str :=
  let line := before ($"--") (clean_line raw) in
  if should_ignore_line line then (st, [line])
  else
    let '(buffer, in_comment) := feed line (r_buffer st) (r_in_comment st) in
    if contains ($";") buffer
    then ({| r_statements := r_statements st ++ [strip (before ($";") buffer)];
             r_buffer := after ($";") buffer; r_in_comment := in_comment |},
          [line; $"adding statement:  " ++ before ($";") buffer])
    else ({| r_statements := r_statements st; r_buffer := buffer; r_in_comment := in_comment |}, [line]).
(** dt/io.py:149-183 the loop *)
Fixpoint traced_lines (lines : list str) (st : reading) : reading * list str :=
  match lines with
  | [] => (st, [])
  | raw :: lines' => let '(st1, l1) := traced_line st raw in let '(st2, l2) := traced_lines lines' st1 in (st2, l1 ++ l2)
  end.

(** dt/io.py:103-127 one statement; line 543 is the first of [_add_primary_key] *)
Definition traced_statement (schema : str) (id : nat) (d : database) (stmt : str) : result database * list entry :=
  let l := lower stmt in
  let '(r, es) :=
    if contains ($"create database") l then (Ok d, [Debug ($"Ignoring create database statement.")])
    else if contains ($"create table") l || contains ($"create or replace table") l
    then let '(r, ms) := heard_create_table schema id d stmt in (r, map Message ms)
    else if contains ($"alter table") l then
      let '(r, es) :=
        if contains ($"primary key") l then
          let '(d', ms) := heard_primary_key d stmt in
          (Ok d', Debug ($"adding a primary key:  " ++ stmt) :: Debug ($"Trying to extract primary key from " ++ stmt) :: map Message ms)
        else if contains ($"foreign") l then
          let '(d', ms) := heard_foreign_key d stmt in (Ok d', Debug ($"adding foreign key:  " ++ stmt) :: map Message ms)
        else if contains ($"relationship") l then
          let '(d', ms) := heard_relationship d stmt in (Ok d', Debug ($"creating a relationship:  " ++ stmt) :: map Message ms)
        else if contains ($"hash") l then (Ok d, Debug ($"sharding a table:  " ++ stmt) :: map Message (heard_shard_key d))
        else (Ok d, [Debug ($"ignoring alter")]) in
      (r, Debug ($"altering a table....") :: es)
    else (Ok d, [Debug ($"ignoring statement:  " ++ stmt)]) in
  (r, Debug ($">>> " ++ stmt) :: es).
(** dt/io.py:103-127 the loop *)
Fixpoint traced_statements (schema : str) (id : nat) (stmts : list str) (d : database) : result database * list entry :=
  match stmts with
  | [] => (Ok d, [])
  | x :: l =>
      match traced_statement schema id d x with
      | (Ok d', es) => let '(r, es') := traced_statements schema (S id) l d' in (r, es ++ es')
      | (Err e, es) => (Err e, es)
      end
  end.
(** dt/io.py:97-129 [parse_ddl] on the content of an existing file, from the numbers [id] on *)
Definition traced_text (name schema : str) (id : nat) (text : str) : result database * list entry :=
  let '(rd, ls) := traced_lines (file_lines (universal_newlines text)) start_reading in
  let '(r, es) := traced_statements schema id (map (sub_runs " ") (r_statements rd)) (empty_database name) in
  (r, map Debug ls ++ es).

(** the line on standard error, in the default format of the logging module *)
Definition entry_text (reason : construct -> exn -> str -> str) (e : entry) : str :=
  match e with Debug s => $"DEBUG:root:" ++ s | Message m => message_text reason m end.
(** dt/io.py:84-129 [parse_ddl] in a program that was started with --debug; compare [parse_file] *)
Definition parse_file_debug (H : host) (name : option str) (schema : str) (filename : str) : cli (option database) := fun st =>
  if exists_ st filename then
    (d0 <-- lift (mk_database name) ;;
     text <-- read_text H filename ;;
     (fun st' =>
        let '(r, es) := traced_text (db_name d0) schema (objects st') text in
        (_ <-- each (fun e => eprint (entry_text (h_reason H) e)) es ;;
         _ <-- count_objects (length (get_statements text)) ;;
         d <-- lift r ;; done (Some d)) st')) st
  else (_ <-- eprint ($"Input file " ++ filename ++ $" doesn't exist for parsing.") ;; done None) st.

(** ** convert_ddl with --debug.  Lines that the libraries log themselves are left out. *)
(** ddltools/convert_ddl.py:217-238 [read_from_ts]; compare [read_from_cluster] *)
Definition read_from_cluster_debug (H : host) (address user pass : str) (db : option str) : cli (option database) :=
  lines <-- run_tql_command H {| c_host := address; c_user := user; c_password := pass;
                                 c_text := $"script database " ++ py_text db ++ $";" |} ;;
  let filename := py_text db ++ $".tmp" in
  _ <-- perform (smart_open (h_env H) (Some filename)
                   (fun h => write_all (h_env H) h (map (fun l => Ok (l ++ [newline])) lines))) ;;
  d <-- parse_file_debug H db DEFAULT_SCHEMA filename ;;
  _ <-- remove filename ;;
  done d.
(** ddltools/convert_ddl.py:40-85 [main]; compare [convert] *)
Definition convert_debug (H : host) (message : xls_message -> str) (a : convert_args) : cli unit :=
  ok <-- convert_valid_args a ;;
  if negb ok then done tt
  else
    _ <-- (fun st => (emit (Namespace (convert_namespace a)) st, Ok tt)) ;;
    if version a then print ($"convert_ddl (v2.0):  " ++ h_path H ++ $"/convert_ddl")
    else
      database <-- (if given (from_ddl a)
                    then _ <-- print ($"Reading DDL ...") ;; parse_file_debug H (db_option a) (schema_option a) (py_text (from_ddl a))
                    else if given (from_excel a) then _ <-- print ($"Reading Excel ...") ;; read_excel H message a
                    else if given (from_ts a) then
                      _ <-- print ($"Reading DDL from ThoughtSpot") ;;
                      read_from_cluster_debug H (py_text (from_ts a)) (username a) (password a) (db_option a)
                    else lift (d <- mk_database (db_option a) ;; Ok (Some d))) ;;
      _ <-- when (validate_option a) (validate_step database) ;;
      _ <-- when (given (to_tql a)) (_ <-- print ($"Writing TQL ...") ;; write_tql_of H (case_of a) (create_db a) database (to_tql a)) ;;
      _ <-- when (given (to_excel a)) (_ <-- print ($"Writing Excel ...") ;; write_excel H a database) ;;
      when (given (to_ts a)) (_ <-- print ($"Writing to ThoughtSpot ...") ;; write_to_ts H a database).
