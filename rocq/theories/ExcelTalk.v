(** * What the reader of workbooks prints while it reads (dt/io.py:1073-1322)
    The reader of [Excel] with what it has printed kept also when it raises.  [heard_same] in
    [ExcelTalkFacts] says that the results are those of [Excel]. *)
From Verif Require Export Excel.
From Coq Require Import List. Import ListNotations.

(** how the reader ends and the messages it prints, in order *)
Definition heard (A : Type) := (result A * list xls_message)%type.
Definition hush {A} (r : result A) : heard A := (r, []).
Definition hears {A B} (m : heard A) (f : A -> heard B) : heard B :=
  match m with
  | (Ok a, ms) => let '(r, ms') := f a in (r, ms ++ ms')
  | (Err e, ms) => (Err e, ms)
  end.
Local Notation "x <~ m ;; f" := (hears m (fun x => f)) (at level 61, m at next level, right associativity).
Local Notation "' p <~ m ;; f" := (hears m (fun p => f)) (at level 61, p pattern, m at next level, right associativity).

(** dt/io.py:1105, 1113-1116, 1187-1190, 1225-1228, 1234-1237, 1261-1264, 1270-1273, 1307-1310 and
    1316-1319 the texts *)
Definition xls_text (m : xls_message) : str :=
  match m with
  | MissingSheet sheet => $"Error:  missing sheet " ++ sheet ++ $"!"
  | MissingColumn column sheet => $"Error:  missing column " ++ column ++ $" in sheet " ++ sheet ++ $"!"
  | NeedBoth table => $"ERROR:  " ++ table ++ $" need to provide both a shard key name and number of shards."
  | UnknownDatabase tab database => $"ERROR:  Database " ++ database ++ $" from the " ++ tab ++ $" tab is not known."
  | UnknownTable tab table => $"ERROR:  Table " ++ table ++ $" from the " ++ tab ++ $" tab is not known."
  end.

(** dt/io.py:1093-1120 [_verify_file_format] *)
Fixpoint heard_sheets (wb : workbook cell) (sheets : list str) (valid : bool) : heard bool :=
  match sheets with
  | [] => hush (Ok valid)
  | s :: l =>
      match dget s wb with
      | None => _ <~ (Ok tt, [MissingSheet s]) ;; heard_sheets wb l false
      | Some g =>
          h <~ hush (header_row g) ;;
          let missing := filter (fun c => negb (existsb (is_text c) h)) (required_columns s) in
          _ <~ (Ok tt, map (fun c => MissingColumn c s) missing) ;;
          heard_sheets wb l (match missing with [] => valid | _ => false end)
      end
  end.

(** The loops over the data rows; [id] numbers the rows *)
Fixpoint heard_rows (f : nat -> dict database -> list cell -> heard (dict database)) (id : nat) (rows : list (list cell))
         (dbs : dict database) : heard (dict database) :=
  match rows with
  | [] => hush (Ok dbs)
  | r :: rows' => dbs' <~ f id dbs r ;; heard_rows f (S id) rows' dbs'
  end.

(** dt/io.py:1160-1207 one row of the Tables sheet, with the same simplifications as
    [Excel.read_table_row] *)
Definition heard_table_row (h : list cell) (id : nat) (dbs : dict database) (row : list cell) : heard (dict database) :=
  dbn <~ hush (get_text h ($"Database") row) ;;
  if str_eqb dbn [] then hush (Ok dbs)
  else
    let d := match dget dbn dbs with Some d => d | None => empty_database dbn end in
    pk_text <~ hush (text_method h ($"Primary Key") row) ;;
    let pk := if str_eqb (strip pk_text) [] then None else Some (KeyList (cell_keys (strip pk_text))) in
    sk_text <~ hush (text_method h ($"Shard Key") row) ;;
    let sk_name := strip sk_text in
    nbr <~ hush (get_cell h ($"# Shards") row) ;;
    name <~ hush (get_text h ($"Table") row) ;;
    schema <~ hush (get_text h ($"Schema") row) ;;
    let no_number := is_text [] nbr in
    _ <~ (Ok tt, if (str_eqb sk_name [] && negb no_number) || (negb (str_eqb sk_name []) && no_number)
                 then [NeedBoth name] else []) ;;
    shard <~ hush (if str_eqb sk_name [] then Ok None
                    else match nbr with
                         | CText [] => Ok None
                         | CText _ => Err TypeError
                         | CNum 0 => Ok None
                         | CNum z => Ok (Some {| sk_id := id; sk_keys := cell_keys sk_name; sk_shards := z |})
                         end) ;;
    hush (Ok (dset dbn (add_table d (mk_table name schema pk shard)) dbs)).

(** The rows of the other sheets: find the database and the table, or print; [f] changes the table.
    [missing] is what follows the message about an unknown table. *)
Definition heard_on (tab : str) (h : list cell) (column : str) (missing : dict database -> result (dict database))
           (f : table -> result table) (dbs : dict database) (row : list cell) : heard (dict database) :=
  dbn <~ hush (get_text h ($"Database") row) ;;
  match dget dbn dbs with
  | None => (Ok dbs, [UnknownDatabase tab dbn])
  | Some d =>
      name <~ hush (get_text h column row) ;;
      match get_table d name with
      | None => (missing dbs, [UnknownTable tab name])
      | Some t => t' <~ hush (f t) ;; hush (Ok (dset dbn (store_table d name t') dbs))
      end
  end.
(** dt/io.py:1217-1242 one row of the Columns sheet *)
Definition heard_column_row (h : list cell) (id : nat) (dbs : dict database) (row : list cell) : heard (dict database) :=
  heard_on ($"Columns") h ($"Table") (fun dbs => Ok dbs)
    (fun t =>
       name <- get_text h ($"Name") row ;;
       type <- get_text h ($"Type") row ;;
       c <- mk_column (Some name) (Some type) ;;
       Ok (add_column t c)) dbs row.
(** dt/io.py:1253-1290 one row of the Foreign Keys sheet *)
Definition heard_fk_row (h : list cell) (id : nat) (dbs : dict database) (row : list cell) : heard (dict database) :=
  heard_on ($"Foreign Keys") h ($"From Table") (fun dbs => Ok dbs)
    (fun t =>
       name <- get_text h ($"Name") row ;;
       from_keys <- text_method h ($"From Columns") row ;;
       to_keys <- text_method h ($"To Columns") row ;;
       to_table <- get_text h ($"To Table") row ;;
       add_fk_parts t (Some (KeyList (cell_keys from_keys))) (Some to_table) (Some (KeyList (cell_keys to_keys))) (Some name))
    dbs row.
(** dt/io.py:1300-1322 one row of the Relationships sheet: after the message about an unknown table a
    method of [None] is called *)
Definition heard_rel_row (h : list cell) (id : nat) (dbs : dict database) (row : list cell) : heard (dict database) :=
  heard_on ($"Relationships") h ($"From Table") (fun _ => Err AttributeError)
    (fun t =>
       to_table <- get_text h ($"To Table") row ;;
       conditions <- get_text h ($"Conditions") row ;;
       add_rel_parts t (Some to_table) None (Some conditions))
    dbs row.

(** dt/io.py:1138-1148 [_read_databases_from_workbook] *)
Definition heard_databases (base : nat) (wb : workbook cell) (dbs : dict database) : heard (dict database) :=
  ' (h1, r1) <~ hush (sheet_parts wb ($"Tables")) ;;
  dbs1 <~ heard_rows (heard_table_row h1) base r1 dbs ;;
  ' (h2, r2) <~ hush (sheet_parts wb ($"Columns")) ;;
  dbs2 <~ heard_rows (heard_column_row h2) base r2 dbs1 ;;
  ' (h3, r3) <~ hush (sheet_parts wb ($"Foreign Keys")) ;;
  dbs3 <~ heard_rows (heard_fk_row h3) base r3 dbs2 ;;
  ' (h4, r4) <~ hush (sheet_parts wb ($"Relationships")) ;;
  heard_rows (heard_rel_row h4) base r4 dbs3.
(** dt/io.py:1080-1091 [read_xls] *)
Definition heard_xls (base : nat) (dbs : dict database) (wb : workbook cell) : heard (dict database) :=
  valid <~ heard_sheets wb required_sheets true ;;
  if valid then heard_databases base wb dbs else hush (Ok dbs).
