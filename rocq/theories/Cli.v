(** * ddltools/convert_ddl.py and ddltools/ddldiff.py: the command line tools

    The tools are given the parsed arguments; see [Args.v] for the command line.  Files hold texts or workbooks.
    Text files are written as they are (no translation of line ends), and removing a file that was just
    written succeeds.  Of logging only errors are modelled. *)
From Verif Require Export Writer Excel.
From Verif Require Messages Worksheet ExcelTalk.

Inductive content := Text (s : str) | Book (w : workbook cell).
(** a command run through [RemoteTQL(hostname, username, password).run_tql_command(text)] *)
Record command := { c_host : str; c_user : str; c_password : str; c_text : str }.
(** the value of an argument *)
Inductive arg := AText (s : str) | ANone | AFlag (b : bool).
(** what goes to standard output: texts, the arguments, the answer of a cluster *)
Inductive output := Printed (s : str) | Namespace (l : list (str * arg)) | Response (l : list str).

(** [objects] numbers the shard keys created so far *)
Record state := {
  files : str -> option content; out : list output; err : list str; sent : list command; objects : nat }.

(** The surroundings: failures of [open] and [write]; the answers of clusters, given the commands sent
    before; what the Excel libraries leave open ([h_calc], [h_fresh]); the text read from a workbook before
    its decoding fails (dt/io.py:184 goes on with it), what opening a text as a workbook gives; the
    directory of the tools; the texts of the exceptions the parser reports, and of those a query of a
    review raises; and the text of a YAML value that is none. *)
Record host := {
  h_env : env;
  h_run : list command -> command -> result (list str);
  h_calc : value -> cell;
  h_fresh : list str -> str -> str;
  h_as_text : workbook cell -> str;
  h_as_book : str -> result (workbook cell);
  h_path : str;
  h_reason : Messages.construct -> exn -> str -> str;
  h_query_error : list str -> str -> str;
  h_yaml_text : Worksheet.yaml -> str }.

Definition cli (A : Type) := state -> state * result A.
Definition done {A} (a : A) : cli A := fun st => (st, Ok a).
Definition fails {A} (e : exn) : cli A := fun st => (st, Err e).
Definition lift {A} (r : result A) : cli A := fun st => (st, r).
Definition then_ {A B} (m : cli A) (f : A -> cli B) : cli B :=
  fun st => match m st with (st', Ok a) => f a st' | (st', Err e) => (st', Err e) end.
Notation "x <-- e ;; e2" := (then_ e (fun x => e2)) (at level 61, e at next level, right associativity).
Notation "' p <-- e ;; e2" := (then_ e (fun x => let 'p := x in e2)) (at level 61, p pattern, e at next level, right associativity).

Definition with_files (f : str -> option content) (st : state) : state :=
  {| files := f; out := out st; err := err st; sent := sent st; objects := objects st |}.
Definition set_file (n : str) (c : option content) (st : state) : state :=
  with_files (fun m => if str_eqb m n then c else files st m) st.
Definition emit (o : output) (st : state) : state :=
  {| files := files st; out := out st ++ [o]; err := err st; sent := sent st; objects := objects st |}.
(** [print] and [eprint] *)
Definition print (s : str) : cli unit := fun st => (emit (Printed (s ++ [newline])) st, Ok tt).
Definition eprint (s : str) : cli unit := fun st =>
  ({| files := files st; out := out st; err := err st ++ [s ++ [newline]]; sent := sent st; objects := objects st |}, Ok tt).
Fixpoint each {A} (f : A -> cli unit) (l : list A) : cli unit :=
  match l with [] => done tt | x :: l' => _ <-- f x ;; each f l' end.

(** the effect of [open(n, "w")] and of writing to the file or to standard output *)
Definition happen (st : state) (e : event) : state :=
  match e with
  | Open n => set_file n (Some (Text [])) st
  | Write (File n) s =>
      set_file n (Some (Text (match files st n with Some (Text x) => x ++ s | _ => s end))) st
  | Write Stdout s => emit (Printed s) st
  | Close _ => st
  end.
Definition perform {A} (m : io A) : cli A := fun st => let '(tr, r) := m [] in (fold_left happen tr st, r).

(** Whether an argument is given: [None] and the empty text count as missing *)
Definition given (o : option str) : bool := match o with Some (_ :: _) => true | _ => false end.
(** the text of an argument, [None] being a possible value *)
Definition py_text (o : option str) : str := match o with Some s => s | None => $"None" end.
Definition show_text (o : option str) : arg := match o with Some s => AText s | None => ANone end.

Section Tools.
Variable H : host.

Definition exists_ (st : state) (n : str) : bool := match files st n with Some _ => true | None => false end.
(** reading all of a text file *)
Definition read_text (n : str) : cli str := fun st =>
  (st, match files st n with
       | None => Err FileNotFoundError
       | Some (Text s) => Ok s
       | Some (Book w) => Ok (h_as_text H w)
       end).
Definition remove (n : str) : cli unit := fun st => (set_file n None st, Ok tt).
Definition run_tql_command (c : command) : cli (list str) := fun st =>
  ({| files := files st; out := out st; err := err st; sent := sent st ++ [c]; objects := objects st |}, h_run H (sent st) c).

Definition count_objects (n : nat) : cli unit := fun st =>
  ({| files := files st; out := out st; err := err st; sent := sent st; objects := objects st + n |}, Ok tt).
(** dt/io.py:68-129 a [DDLParser] and its [parse_ddl]: a missing file is reported and gives [None].  The
    statements use up as many object numbers. *)
Definition parse_file (name : option str) (schema : str) (filename : str) : cli (option database) := fun st =>
  if exists_ st filename then
    (d0 <-- lift (mk_database name) ;;
     text <-- read_text filename ;;
     (fun st' => let stmts := get_statements text in
        let '(r, ms) := Messages.heard_statements schema (objects st') stmts d0 in
        (_ <-- each (fun m => eprint (Messages.message_text (h_reason H) m)) ms ;;
         _ <-- count_objects (length stmts) ;;
         d <-- lift r ;; done (Some d)) st')) st
  else (_ <-- eprint ($"Input file " ++ filename ++ $" doesn't exist for parsing.") ;; done None) st.

(** ** convert_ddl *)
(** ddltools/convert_ddl.py:88-157 the arguments *)
Record convert_args := {
  version : bool; empty : bool; from_ddl : option str; to_tql : option str; from_ts : option str; to_ts : option str;
  username : str; password : str; from_excel : option str; to_excel : option str; db_option : option str; schema_option : str;
  create_db : bool; lower_option : bool; upper_option : bool; camel_option : bool; validate_option : bool; debug : bool }.
Definition case_of (a : convert_args) : case_opts :=
  {| uppercase := upper_option a; lowercase := lower_option a; camelcase := camel_option a |}.
Definition convert_namespace (a : convert_args) : list (str * arg) :=
  [($"version", AFlag (version a)); ($"empty", AFlag (empty a)); ($"from_ddl", show_text (from_ddl a));
   ($"to_tql", show_text (to_tql a)); ($"from_ts", show_text (from_ts a)); ($"to_ts", show_text (to_ts a));
   ($"username", AText (username a)); ($"password", AText (password a)); ($"from_excel", show_text (from_excel a));
   ($"to_excel", show_text (to_excel a)); ($"database", show_text (db_option a)); ($"schema", AText (schema_option a));
   ($"create_db", AFlag (create_db a)); ($"lowercase", AFlag (lower_option a)); ($"uppercase", AFlag (upper_option a));
   ($"camelcase", AFlag (camel_option a)); ($"validate", AFlag (validate_option a)); ($"debug", AFlag (debug a))].

(** ddltools/convert_ddl.py:160-177 [valid_args] *)
Definition convert_valid_args (a : convert_args) : cli bool :=
  if negb (empty a) && negb (version a) && negb (given (from_ddl a))
     && negb (given (from_excel a)) && negb (given (to_excel a)) && negb (given (from_ts a))
  then _ <-- eprint ($"--version, --empty, --from_ddl, --from_excel, or from_ts must be provided as arguments.") ;; done false
  else if (given (from_ddl a) || given (from_ts a)) && negb (given (db_option a))
  then _ <-- eprint ($"--from_ddl and --from_ts require the --database parameter.") ;; done false
  else done true.

(** ddltools/convert_ddl.py:180-188 [read_ddl] *)
Definition read_ddl (a : convert_args) : cli (option database) :=
  parse_file (db_option a) (schema_option a) (py_text (from_ddl a)).

(** the text printed for a problem of a workbook: any text here, [ExcelTalk.xls_text] in the program *)
Variable message : xls_message -> str.
(** dt/io.py:1073-1091 a new [XLSReader] and its [read_xls] *)
Definition read_book (filename : str) : cli (dict database) := fun st =>
  match files st filename with
  | None => (st, Err FileNotFoundError)
  | Some c =>
      (wb <-- lift (match c with Book w => Ok w | Text s => h_as_book H s end) ;;
       (fun st' => let '(r, ms) := ExcelTalk.heard_xls (objects st') [] wb in
                   (_ <-- each (fun m => eprint (message m)) ms ;;
                    dbs <-- lift r ;;
                    (fun st'' => ({| files := files st''; out := out st''; err := err st''; sent := sent st'';
                                     objects := objects st'' + length (List.concat (dvals wb)) |}, Ok dbs))) st')) st
  end.
(** ddltools/convert_ddl.py:191-214 [read_excel] *)
Definition read_excel (a : convert_args) : cli (option database) :=
  dbs <-- read_book (py_text (from_excel a)) ;;
  match dvals dbs with
  | [] => _ <-- eprint ($"ERROR:  No databases read.") ;; done None
  | d :: l =>
      _ <-- (match l with
             | [] => done tt
             | _ => eprint ($"WARNING:  multiple databases read.  Only using " ++ db_name d)
             end) ;;
      done (Some d)
  end.

(** ddltools/convert_ddl.py:217-238 and ddltools/review_model.py:181-201 [read_from_ts].  The name of the
    temporary file is neither empty nor a dash, so [smart_open] stands for [open] here. *)
Definition read_from_cluster (address user pass : str) (db : option str) : cli (option database) :=
  lines <-- run_tql_command {| c_host := address; c_user := user; c_password := pass;
                               c_text := $"script database " ++ py_text db ++ $";" |} ;;
  let filename := py_text db ++ $".tmp" in
  _ <-- perform (smart_open (h_env H) (Some filename)
                   (fun h => write_all (h_env H) h (map (fun l => Ok (l ++ [newline])) lines))) ;;
  d <-- parse_file db DEFAULT_SCHEMA filename ;;
  _ <-- remove filename ;;
  done d.

(** dt/io.py:698-730 [write_tql] with what may be [None]: then line 709 raises *)
Definition write_tql_of (o : case_opts) (create : bool) (d : option database) (filename : option str) : cli unit :=
  perform (match d with
           | Some d => write_tql (h_env H) o create d filename
           | None => smart_open (h_env H) filename (fun _ => throw (Err AttributeError))
           end).
(** ddltools/convert_ddl.py:254-267 [write_excel]; it is only called when a name is given.  For [None]
    the loop at dt/io.py:810 raises.  Saving fails when the file cannot be opened. *)
Definition write_excel (a : convert_args) (d : option database) : cli unit :=
  match d with
  | None => fails TypeError
  | Some d =>
      ' (w, filename) <-- lift (write_database (h_fresh H) new_writer d (py_text (to_excel a))) ;;
      if open_fails (h_env H) filename then fails OSError
      else (fun st => (set_file filename (Some (Book (saved (h_calc H) w))) st, Ok tt))
  end.
(** ddltools/convert_ddl.py:270-294 [write_to_ts]; the file is read with universal newlines *)
Definition write_to_ts (a : convert_args) (d : option database) : cli unit :=
  match d with
  | None => fails AttributeError
  | Some d =>
      let tempfile := db_name d ++ $".tmp" in
      _ <-- write_tql_of (case_of a) (create_db a) (Some d) (Some tempfile) ;;
      text <-- read_text tempfile ;;
      response <-- run_tql_command {| c_host := py_text (to_ts a); c_user := username a; c_password := password a;
                                      c_text := universal_newlines text |} ;;
      _ <-- remove tempfile ;;
      (fun st => (emit (Response response) st, Ok tt))
  end.

Definition level_text (l : level) : str :=
  match l with INFO => $"Information" | WARNING => $"Warning" | ERROR => $"Error" end.
(** ddltools/convert_ddl.py:67-73 and dt/model.py:535-540 *)
Definition validate_step (d : option database) : cli unit :=
  _ <-- print ($"Validating database") ;;
  match d with
  | None => fails AttributeError
  | Some d =>
      vr <-- lift (validate d) ;;
      if is_valid vr then print ($"Database is valid.")
      else each (fun i => eprint (level_text (snd i) ++ $":  " ++ fst i)) (issues vr)
  end.
Definition when (b : bool) (m : cli unit) : cli unit := if b then m else done tt.

(** ddltools/convert_ddl.py:40-85 [main] *)
Definition convert (a : convert_args) : cli unit :=
  ok <-- convert_valid_args a ;;
  if negb ok then done tt
  else
    _ <-- (fun st => (emit (Namespace (convert_namespace a)) st, Ok tt)) ;;
    if version a then print ($"convert_ddl (v2.0):  " ++ h_path H ++ $"/convert_ddl")
    else
      database <-- (if given (from_ddl a) then _ <-- print ($"Reading DDL ...") ;; read_ddl a
                    else if given (from_excel a) then _ <-- print ($"Reading Excel ...") ;; read_excel a
                    else if given (from_ts a) then
                      _ <-- print ($"Reading DDL from ThoughtSpot") ;;
                      read_from_cluster (py_text (from_ts a)) (username a) (password a) (db_option a)
                    else lift (d <- mk_database (db_option a) ;; Ok (Some d))) ;;
      _ <-- when (validate_option a) (validate_step database) ;;
      _ <-- when (given (to_tql a)) (_ <-- print ($"Writing TQL ...") ;; write_tql_of (case_of a) (create_db a) database (to_tql a)) ;;
      _ <-- when (given (to_excel a)) (_ <-- print ($"Writing Excel ...") ;; write_excel a database) ;;
      when (given (to_ts a)) (_ <-- print ($"Writing to ThoughtSpot ...") ;; write_to_ts a database).

(** ** ddldiff *)
(** ddltools/ddldiff.py:74-114 the arguments *)
Record diff_args := {
  ddl1 : option str; ddl2 : option str; database1 : str; schema1 : str; alter1 : bool; alter2 : bool; ignore_case : bool }.
Definition diff_namespace (a : diff_args) : list (str * arg) :=
  [($"ddl1", show_text (ddl1 a)); ($"ddl2", show_text (ddl2 a)); ($"database", AText (database1 a)); ($"schema", AText (schema1 a));
   ($"alter1", AFlag (alter1 a)); ($"alter2", AFlag (alter2 a)); ($"ignore_case", AFlag (ignore_case a))].

(** ddltools/ddldiff.py:117-139 [valid_args] *)
Definition check_file (n : str) : cli bool := fun st =>
  if exists_ st n then (st, Ok true) else (_ <-- eprint ($"file " ++ n ++ $" doesn't exist") ;; done false) st.
Definition diff_valid_args (a : diff_args) : cli bool :=
  if negb (given (ddl1 a)) || negb (given (ddl2 a))
  then _ <-- eprint ($"--ddl1 and --ddl2 must be provided") ;; done false
  else b1 <-- check_file (py_text (ddl1 a)) ;; b2 <-- check_file (py_text (ddl2 a)) ;; done (b1 && b2).

(** a database that is needed: [None] has no tables to compare (dt/diff.py:560) *)
Definition needed (d : option database) : cli database :=
  match d with Some d => done d | None => fails AttributeError end.
Definition show_differences (title : str) (l : list difference) : cli unit :=
  _ <-- print title ;; each (fun d => print ([tab] ++ diff_repr d)) l.
(** ddltools/ddldiff.py:39-71 [main] *)
Definition ddldiff (a : diff_args) : cli unit :=
  ok <-- diff_valid_args a ;;
  if negb ok then done tt
  else
    _ <-- (fun st => (emit (Namespace (diff_namespace a)) st, Ok tt)) ;;
    o1 <-- parse_file (Some (database1 a)) (schema1 a) (py_text (ddl1 a)) ;;
    o2 <-- parse_file (Some (database1 a)) (schema1 a) (py_text (ddl2 a)) ;;
    db_1 <-- needed o1 ;;
    db_2 <-- needed o2 ;;
    ' (l1, l2) <-- lift (compare_databases db_1 db_2) ;;
    _ <-- when (alter1 a)
            (_ <-- print ($"-- changes needed for first schema to match the second") ;; perform (write_alters (h_env H) l1 None)) ;;
    _ <-- when (alter2 a)
            (_ <-- print ($"-- changes needed for second schema to match the first") ;; perform (write_alters (h_env H) l2 None)) ;;
    when (negb (alter1 a) && negb (alter2 a))
      (_ <-- show_differences ($"Database differences for DB 1:") l1 ;;
       show_differences ($"Database differences for DB 2:") l2).
End Tools.
