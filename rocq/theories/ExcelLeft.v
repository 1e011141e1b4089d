(** * What an Excel reader holds after a read, also after one that raised (dt/io.py:1073-1322)

    Excel.v models [read_xls] as a function that gives the databases or the exception.  The databases
    are an attribute of the reader, [self.databases], which the loops change row by row: after an
    exception the reader goes on holding what the rows before it have stored. *)
From Verif Require Export Excel.
From Coq Require Import List. Import ListNotations.

(** what the reader holds and the exception that ended the read, if one did *)
Definition left_over := (dict database * option exn)%type.

(** dt/io.py:1160-1207 a row of the Tables sheet that raises: a new database is stored (lines 1168-1171)
    before the other cells of the row are looked at *)
Definition table_row_left (h : list cell) (dbs : dict database) (row : list cell) : dict database :=
  match get_text h ($"Database") row with
  | Err _ => dbs
  | Ok dbn => if str_eqb dbn [] then dbs
              else match dget dbn dbs with Some _ => dbs | None => dset dbn (empty_database dbn) dbs end
  end.
(** dt/io.py:1217-1242, 1253-1290, 1300-1322 a row of another sheet that raises does so before anything
    is stored: the new column, foreign key or relationship is made first and added to the table last *)
Definition other_row_left (h : list cell) (dbs : dict database) (row : list cell) : dict database := dbs.

(** the loops over the data rows; what they print is left out *)
Fixpoint rows_left (f : nat -> xls_state -> list cell -> result xls_state) (g : dict database -> list cell -> dict database)
         (id : nat) (rows : list (list cell)) (dbs : dict database) : left_over :=
  match rows with
  | [] => (dbs, None)
  | r :: rows' => match f id (dbs, []) r with
                  | Ok (dbs', _) => rows_left f g (S id) rows' dbs'
                  | Err e => (g dbs r, Some e)
                  end
  end.
(** one sheet, unless an earlier one raised *)
Definition sheet_left (f : list cell -> nat -> xls_state -> list cell -> result xls_state)
           (g : list cell -> dict database -> list cell -> dict database)
           (base : nat) (wb : workbook cell) (sheet : str) (before : left_over) : left_over :=
  match before with
  | (dbs, Some e) => (dbs, Some e)
  | (dbs, None) => match sheet_parts wb sheet with
                   | Err e => (dbs, Some e)
                   | Ok (h, rows) => rows_left (f h) (g h) base rows dbs
                   end
  end.
(** dt/io.py:1138-1148 [_read_databases_from_workbook] *)
Definition databases_left (base : nat) (wb : workbook cell) (dbs : dict database) : left_over :=
  sheet_left read_rel_row other_row_left base wb ($"Relationships")
    (sheet_left read_fk_row other_row_left base wb ($"Foreign Keys")
      (sheet_left read_column_row other_row_left base wb ($"Columns")
        (sheet_left read_table_row table_row_left base wb ($"Tables") (dbs, None)))).
(** dt/io.py:1080-1091 [read_xls]: verifying the format changes nothing *)
Definition xls_left (base : nat) (dbs : dict database) (wb : workbook cell) : left_over :=
  match verify_sheets wb required_sheets [] true with
  | Err e => (dbs, Some e)
  | Ok (_, true) => databases_left base wb dbs
  | Ok (_, false) => (dbs, None)
  end.

(** dt/io.py:1091 [return self.databases]: what is returned is the object that the reader goes on
    changing.  What all the results that one reader has returned show after it has read these
    workbooks, one after the other, with or without success. *)
Fixpoint results_show (base : nat) (books : list (workbook cell)) (dbs : dict database) : dict database :=
  match books with
  | [] => dbs
  | wb :: books' => results_show base books' (fst (xls_left base dbs wb))
  end.
