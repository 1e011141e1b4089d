(** * dt/io.py: XLSWriter and XLSReader

    The libraries openpyxl (writing) and xlrd (reading) and the file format between them are not
    modelled beyond this: a cell holds a text or a number; texts with control characters are refused
    and long ones cut when written; a text beginning with an equals sign is a formula and the texts of
    Excel's error values are errors, and what is read for them is left open ([calc]); other texts, and
    numbers a double can hold, are read as they were written.  Sheets are lists of rows; cells beyond
    the end of a row are read as empty texts, as xlrd does. *)
From Verif Require Export Parser Generator.

(** a value handed to [ws.cell] *)
Inductive value := VText (s : str) | VNum (z : Z).
(** a value returned by [row_values]; numbers that are no integers are not modelled *)
Inductive cell := CText (s : str) | CNum (z : Z).
(** sheets in order, each with its title *)
Definition workbook (A : Type) := dict (list (list A)).

(** ** Writing *)

(** openpyxl refuses control characters other than tab, newline and carriage return *)
Definition illegal (c : ascii) : bool :=
  let n := ord c in Nat.leb n 8 || (Nat.leb 11 n && Nat.leb n 12) || (Nat.leb 14 n && Nat.leb n 31).
(** openpyxl cuts a text at this length *)
Definition cell_limit : nat := N.to_nat 32767.
Definition check_value (v : value) : result value :=
  match v with
  | VText s => let s := firstn cell_limit s in
               if existsb illegal s then Err IllegalCharacterError else Ok (VText s)
  | VNum z => Ok (VNum z)
  end.
Fixpoint check_row (l : list value) : result (list value) :=
  match l with
  | [] => Ok []
  | v :: l' => v' <- check_value v ;; r <- check_row l' ;; Ok (v' :: r)
  end.

(** the rows of a sheet after cells 1 .. n of row [row + 1] were set *)
Fixpoint set_row (row : nat) (cols : list value) (rows : list (list value)) : list (list value) :=
  match row, rows with
  | 0, [] => [cols]
  | 0, r :: rs => (cols ++ skipn (length cols) r) :: rs
  | S n, [] => [] :: set_row n cols []
  | S n, r :: rs => r :: set_row n cols rs
  end.
(** dt/io.py:995-1015 [_write_header] and [_write_row], for the rows from [row + 1] on *)
Fixpoint write_rows (row : nat) (l : list (list value)) (rows : list (list value)) : result (list (list value)) :=
  match l with
  | [] => Ok rows
  | cols :: l' => cols' <- check_row cols ;; write_rows (S row) l' (set_row row cols' rows)
  end.

(** dt/io.py:805-808 *)
Definition columns_header : list value :=
  map VText [$"Database"; $"Schema"; $"Table"; $"Column"; $"Name"; $"Type"].
(** dt/io.py:813-828 the rows of one table; [col_idx] counts its columns *)
Fixpoint column_rows (dbn : str) (t : table) (col_idx : Z) (cs : list column) : list (list value) :=
  match cs with
  | [] => []
  | c :: cs' =>
      [VText dbn; VText (t_schema t); VText (t_name t); VNum col_idx; VText (column_name c); VText (column_type c)]
        :: column_rows dbn t (col_idx + 1) cs'
  end.
(** dt/io.py:810-828 *)
Definition columns_rows (d : database) : list (list value) :=
  flat_map (fun t => column_rows (db_name d) t 1 (table_iter t)) (db_iter d).

(** dt/io.py:838-857 *)
Definition tables_header : list value :=
  map VText [$"Database"; $"Schema"; $"Table"; $"Updated"; $"Update Type"; $"# Rows"; $"# Columns"; $"Primary Key";
             $"Shard Key"; $"# Shards"; $"RLS Column"; $"# FKs From"; $"# FKs To"; $"# Rels From"; $"# Rels To"].
(** dt/io.py:862-864 *)
Definition lookup_formula (r : str) : str :=
  $"=COUNTIFS(Columns!A:A,Tables!A" ++ r ++ $", Columns!B:B,Tables!B" ++ r ++ $", Columns!C:C,Tables!C" ++ r ++ $")".
(** dt/io.py:876-890: how many cells of a column of a sheet hold the name of the table of this row *)
Definition count_formula (sheet col r : str) : str :=
  let c := $"COUNTIF('" ++ sheet ++ $"'!$" ++ col ++ $":$" ++ col ++ $"," ++ quoted ($"=") ++ $"&$C" ++ r ++ $")" in
  $"=IF(" ++ c ++ $">0," ++ c ++ $"," ++ quoted [] ++ $")".
(** dt/io.py:860-913 one row; [row_cnt] is its number in the sheet.  The primary key is never
    [None] (dt/model.py:238). *)
Definition table_row (dbn : str) (row_cnt : N) (t : table) : list value :=
  let r := n_to_str row_cnt in
  let '(shard_key, number_shards) :=
    match t_shard t with
    | Some sk => (list_to_string (sk_keys sk) false, VNum (sk_shards sk))
    | None => ([], VText [])
    end in
  [VText dbn; VText (t_schema t); VText (t_name t); VText ($"daily"); VText ($"partial"); VText [];
   VText (lookup_formula r); VText (list_to_string (t_pk t) false); VText shard_key; number_shards; VText [];
   VText (count_formula ($"Foreign Keys") ($"D") r); VText (count_formula ($"Foreign Keys") ($"F") r);
   VText (count_formula ($"Relationships") ($"D") r); VText (count_formula ($"Relationships") ($"E") r)].
Fixpoint table_rows (dbn : str) (row_cnt : N) (ts : list table) : list (list value) :=
  match ts with
  | [] => []
  | t :: ts' => table_row dbn row_cnt t :: table_rows dbn (row_cnt + 1) ts'
  end.
(** dt/io.py:858-913 *)
Definition tables_rows (d : database) : list (list value) := table_rows (db_name d) 2 (db_iter d).

(** dt/io.py:923-934 *)
Definition fks_header : list value :=
  map VText [$"Name"; $"Database"; $"Schema"; $"From Table"; $"From Columns"; $"To Table"; $"To Columns"].
(** dt/io.py:939-954 *)
Definition fk_row (dbn : str) (t : table) (fk : foreign_key) : list value :=
  map VText [fk_name fk; dbn; t_schema t; fk_from_table fk; list_to_string (fk_from_keys fk) false;
             fk_to_table fk; list_to_string (fk_to_keys fk) false].
(** dt/io.py:936-954 *)
Definition fks_rows (d : database) : list (list value) :=
  flat_map (fun t => map (fk_row (db_name d) t) (foreign_keys_iter t)) (db_iter d).

(** dt/io.py:964-974 *)
Definition rels_header : list value :=
  map VText [$"Name"; $"Database"; $"Schema"; $"From Table"; $"To Table"; $"Conditions"].
(** dt/io.py:980-991 *)
Definition rel_row (dbn : str) (t : table) (r : relationship) : list value :=
  map VText [rel_name r; dbn; t_schema t; rel_from_table r; rel_to_table r; rel_conditions r].
(** dt/io.py:976-991 *)
Definition rels_rows (d : database) : list (list value) :=
  flat_map (fun t => map (rel_row (db_name d) t) (relationships_iter t)) (db_iter d).

(** dt/io.py:774-778 [XLSWriter.__init__]: a new workbook has one empty sheet *)
Definition new_writer : workbook value := [($"Sheet", [])].

Section Writer.
(** openpyxl's choice of a title when the one asked for is taken *)
Variable fresh : list str -> str -> str.

(** dt/io.py:794-828 [_write_columns_worksheet]: the active sheet is the first one *)
Definition write_columns_worksheet (w : workbook value) (d : database) : result (workbook value) :=
  match w with
  | [] => Err AttributeError
  | (_, rows) :: w' => rows' <- write_rows 0 (columns_header :: columns_rows d) rows ;; Ok (($"Columns", rows') :: w')
  end.
(** [self.workbook.create_sheet(title=title)] and filling the new sheet *)
Definition add_sheet (title : str) (l : list (list value)) (w : workbook value) : result (workbook value) :=
  rows <- write_rows 0 l [] ;;
  Ok (w ++ [(if str_in title (dkeys w) then fresh (dkeys w) title else title, rows)]).

(** dt/io.py:1017-1025 [_write_to_excel]: the name of the file *)
Definition xls_filename (filename : str) : str :=
  if ends_with ($".xlsx") filename then filename else filename ++ $".xlsx".

(** dt/io.py:780-792 [write_database]: the writer's workbook afterwards, which is what is saved, and
    the name of the file *)
Definition write_database (w : workbook value) (d : database) (filename : str) : result (workbook value * str) :=
  w1 <- write_columns_worksheet w d ;;
  w2 <- add_sheet ($"Tables") (tables_header :: tables_rows d) w1 ;;
  w3 <- add_sheet ($"Foreign Keys") (fks_header :: fks_rows d) w2 ;;
  w4 <- add_sheet ($"Relationships") (rels_header :: rels_rows d) w3 ;;
  Ok (w4, xls_filename filename).
End Writer.

(** ** From the saved file to what xlrd returns *)

(** openpyxl stores these texts as formulas and as errors *)
Definition error_values : list str :=
  [$"#NULL!"; $"#DIV/0!"; $"#VALUE!"; $"#REF!"; $"#NAME?"; $"#NUM!"; $"#N/A"].
Definition is_formula (s : str) : bool := starts_with ($"=") s && Nat.ltb 1 (length s).
Definition exact_number (z : Z) : bool := (Z.abs z <=? 2 ^ 53)%Z.
Section Saved.
Variable calc : value -> cell.
Definition as_read (v : value) : cell :=
  match v with
  | VText s => if is_formula s || str_in s error_values then calc v else CText s
  | VNum z => if exact_number z then CNum z else calc v
  end.
Definition saved (w : workbook value) : workbook cell :=
  map (fun s => (fst s, map (map as_read) (snd s))) w.
End Saved.

(** ** Reading *)

(** dt/io.py:1038 *)
Definition required_sheets : list str := [$"Columns"; $"Tables"; $"Foreign Keys"; $"Relationships"].
(** dt/io.py:1039-1071 *)
Definition required_columns (sheet : str) : list str :=
  if str_eqb sheet ($"Columns") then [$"Database"; $"Schema"; $"Table"; $"Column"; $"Name"; $"Type"]
  else if str_eqb sheet ($"Tables") then
    [$"Database"; $"Schema"; $"Table"; $"Updated"; $"Update Type"; $"# Rows"; $"# Columns"; $"Primary Key";
     $"Shard Key"; $"# Shards"; $"RLS Column"]
  else if str_eqb sheet ($"Foreign Keys") then
    [$"Name"; $"Database"; $"Schema"; $"From Table"; $"From Columns"; $"To Table"; $"To Columns"]
  else [$"Name"; $"Database"; $"Schema"; $"From Table"; $"To Table"; $"Conditions"].

(** what is printed to standard error *)
Inductive xls_message :=
| MissingSheet (sheet : str) | MissingColumn (column sheet : str) | NeedBoth (table : str)
| UnknownDatabase (tab database : str) | UnknownTable (tab table : str).

Definition is_text (s : str) (c : cell) : bool := match c with CText x => str_eqb s x | CNum _ => false end.

(** [sheet.row_values(rowx=0)]: fails on a sheet without rows *)
Definition header_row (g : list (list cell)) : result (list cell) :=
  match g with [] => Err IndexError | h :: _ => Ok h end.

(** dt/io.py:1093-1120 [_verify_file_format], sheet by sheet *)
Fixpoint verify_sheets (wb : workbook cell) (sheets : list str) (ms : list xls_message) (valid : bool)
  : result (list xls_message * bool) :=
  match sheets with
  | [] => Ok (ms, valid)
  | s :: l =>
      match dget s wb with
      | None => verify_sheets wb l (ms ++ [MissingSheet s]) false
      | Some g =>
          h <- header_row g ;;
          let missing := filter (fun c => negb (existsb (is_text c) h)) (required_columns s) in
          verify_sheets wb l (ms ++ map (fun c => MissingColumn c s) missing)
                        (match missing with [] => valid | _ => false end)
      end
  end.

(** dt/io.py:1122-1136 [_get_column_indices]: the place of a column; a later one overwrites *)
Fixpoint last_index (name : str) (i : nat) (h : list cell) : option nat :=
  match h with
  | [] => None
  | c :: h' => match last_index name (S i) h' with
               | Some n => Some n
               | None => if is_text name c then Some i else None
               end
  end.
(** [row[indices[name]]] *)
Definition get_cell (h : list cell) (name : str) (row : list cell) : result cell :=
  match last_index name 0 h with Some i => Ok (nth i row (CText [])) | None => Err KeyError end.
(** A cell used as a text.  Numbers in such cells are outside the model: [TypeError] stands for
    whatever happens then, except where the code calls a method of [str] ([text_method]). *)
Definition get_text (h : list cell) (name : str) (row : list cell) : result str :=
  c <- get_cell h name row ;; match c with CText s => Ok s | CNum _ => Err TypeError end.
Definition text_method (h : list cell) (name : str) (row : list cell) : result str :=
  c <- get_cell h name row ;; match c with CText s => Ok s | CNum _ => Err AttributeError end.

(** [[x.strip() for x in s.split(",")]] *)
Definition cell_keys (s : str) : list str := map strip (split_char "," s).

(** what the reader has read so far and printed *)
Definition xls_state := (dict database * list xls_message)%type.

(** The loops over the data rows; [id] numbers the rows *)
Fixpoint read_rows (f : nat -> xls_state -> list cell -> result xls_state) (id : nat) (rows : list (list cell)) (st : xls_state)
  : result xls_state :=
  match rows with
  | [] => Ok st
  | r :: rows' => st' <- f id st r ;; read_rows f (S id) rows' st'
  end.

(** dt/io.py:1160-1207 one row of the Tables sheet; [id] identifies the [ShardKey].  A text other than
    the empty one in "# Shards" is outside the model ([TypeError]). *)
Definition read_table_row (h : list cell) (id : nat) (st : xls_state) (row : list cell) : result xls_state :=
  let '(dbs, ms) := st in
  dbn <- get_text h ($"Database") row ;;
  if str_eqb dbn [] then Ok st
  else
    let d := match dget dbn dbs with Some d => d | None => empty_database dbn end in
    pk_text <- text_method h ($"Primary Key") row ;;
    let pk := if str_eqb (strip pk_text) [] then None else Some (KeyList (cell_keys (strip pk_text))) in
    sk_text <- text_method h ($"Shard Key") row ;;
    let sk_name := strip sk_text in
    nbr <- get_cell h ($"# Shards") row ;;
    name <- get_text h ($"Table") row ;;
    schema <- get_text h ($"Schema") row ;;
    let no_number := is_text [] nbr in
    let ms := if (str_eqb sk_name [] && negb no_number) || (negb (str_eqb sk_name []) && no_number)
              then ms ++ [NeedBoth name] else ms in
    shard <- (if str_eqb sk_name [] then Ok None
              else match nbr with
                   | CText [] => Ok None
                   | CText _ => Err TypeError
                   | CNum 0 => Ok None
                   | CNum z => Ok (Some {| sk_id := id; sk_keys := cell_keys sk_name; sk_shards := z |})
                   end) ;;
    Ok (dset dbn (add_table d (mk_table name schema pk shard)) dbs, ms).

(** The rows of the other sheets: find the database and the table, or print; [f] changes the table.
    [missing] is what follows the message about an unknown table. *)
Definition on_table (tab : str) (h : list cell) (column : str) (missing : xls_state -> result xls_state)
           (f : table -> result table) (st : xls_state) (row : list cell) : result xls_state :=
  let '(dbs, ms) := st in
  dbn <- get_text h ($"Database") row ;;
  match dget dbn dbs with
  | None => Ok (dbs, ms ++ [UnknownDatabase tab dbn])
  | Some d =>
      name <- get_text h column row ;;
      match get_table d name with
      | None => missing (dbs, ms ++ [UnknownTable tab name])
      | Some t => t' <- f t ;; Ok (dset dbn (store_table d name t') dbs, ms)
      end
  end.

(** dt/io.py:1217-1242 one row of the Columns sheet *)
Definition read_column_row (h : list cell) (id : nat) (st : xls_state) (row : list cell) : result xls_state :=
  on_table ($"Columns") h ($"Table") (fun st => Ok st)
    (fun t =>
       name <- get_text h ($"Name") row ;;
       type <- get_text h ($"Type") row ;;
       c <- mk_column (Some name) (Some type) ;;
       Ok (add_column t c)) st row.

(** dt/io.py:1253-1290 one row of the Foreign Keys sheet.  A name is never [None] here. *)
Definition read_fk_row (h : list cell) (id : nat) (st : xls_state) (row : list cell) : result xls_state :=
  on_table ($"Foreign Keys") h ($"From Table") (fun st => Ok st)
    (fun t =>
       name <- get_text h ($"Name") row ;;
       from_keys <- text_method h ($"From Columns") row ;;
       to_keys <- text_method h ($"To Columns") row ;;
       to_table <- get_text h ($"To Table") row ;;
       add_fk_parts t (Some (KeyList (cell_keys from_keys))) (Some to_table) (Some (KeyList (cell_keys to_keys))) (Some name))
    st row.

(** dt/io.py:1300-1322 one row of the Relationships sheet.  After an unknown table line 1319 calls a
    method of [None]; the name is not read. *)
Definition read_rel_row (h : list cell) (id : nat) (st : xls_state) (row : list cell) : result xls_state :=
  on_table ($"Relationships") h ($"From Table") (fun _ => Err AttributeError)
    (fun t =>
       to_table <- get_text h ($"To Table") row ;;
       conditions <- get_text h ($"Conditions") row ;;
       add_rel_parts t (Some to_table) None (Some conditions))
    st row.

(** [self.workbook.sheet_by_name(sheet)]: its header and its other rows *)
Definition sheet_parts (wb : workbook cell) (sheet : str) : result (list cell * list (list cell)) :=
  match dget sheet wb with
  | Some (h :: rows) => Ok (h, rows)
  | Some [] => Err IndexError
  | None => Err KeyError
  end.

(** dt/io.py:1138-1148 [_read_databases_from_workbook]; [base] makes the identities of new objects *)
Definition read_databases (base : nat) (wb : workbook cell) (st : xls_state) : result xls_state :=
  ' (h1, r1) <- sheet_parts wb ($"Tables") ;;
  st1 <- read_rows (read_table_row h1) base r1 st ;;
  ' (h2, r2) <- sheet_parts wb ($"Columns") ;;
  st2 <- read_rows (read_column_row h2) base r2 st1 ;;
  ' (h3, r3) <- sheet_parts wb ($"Foreign Keys") ;;
  st3 <- read_rows (read_fk_row h3) base r3 st2 ;;
  ' (h4, r4) <- sheet_parts wb ($"Relationships") ;;
  read_rows (read_rel_row h4) base r4 st3.

(** dt/io.py:1080-1091 [read_xls] on the workbook of an existing file; [dbs] is what the reader held
    before.  The databases it returns and what it prints. *)
Definition read_xls (base : nat) (dbs : dict database) (wb : workbook cell) : result xls_state :=
  ' (ms, valid) <- verify_sheets wb required_sheets [] true ;;
  if valid then read_databases base wb (dbs, ms) else Ok (dbs, ms).
