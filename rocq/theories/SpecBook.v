(** * Specification: what the tools say about a workbook (C106), and what they read from it (C107) *)
From Verif Require Export SpecExcel SpecSilent.
From Verif Require ExcelTalk.
From Coq Require Import List. Import ListNotations.

(** every required column is there, once *)
Definition complete_book (w : workbook cell) : Prop := forall sheet col, required sheet col -> exists cells, column_is w sheet col cells.
(** row [k] of the sheet (the first below the header has number 0) holds [c] under the header [col] *)
Definition holds (w : workbook cell) (sheet : str) (k : nat) (col : str) (c : cell) : Prop :=
  exists cells, column_is w sheet col cells /\ nth_error cells k = Some c.

(** the sheet Tables names this database, and this table in it *)
Definition database_described (w : workbook cell) (b : str) : Prop := b <> [] /\ exists k, holds w ($"Tables") k ($"Database") (CText b).
Definition table_described (w : workbook cell) (b n : str) : Prop :=
  b <> [] /\ exists k, holds w ($"Tables") k ($"Database") (CText b) /\ holds w ($"Tables") k ($"Table") (CText n).
(** row [k] of the sheet Tables describes the table [n] with a shard key without a number of shards, or
    the other way round *)
Definition half_described (w : workbook cell) (n : str) : Prop :=
  exists k b sk nbr, holds w ($"Tables") k ($"Database") (CText b) /\ b <> [] /\ holds w ($"Tables") k ($"Table") (CText n)
    /\ holds w ($"Tables") k ($"Shard Key") (CText sk) /\ holds w ($"Tables") k ($"# Shards") nbr
    /\ (strip sk = [] <-> nbr <> CText []).
(** some row of the sheet is about the table [n] of the database [b] *)
Definition row_about (w : workbook cell) (sheet b n : str) : Prop :=
  exists k, holds w sheet k ($"Database") (CText b) /\ holds w sheet k (table_column sheet) (CText n).
Definition row_in (w : workbook cell) (sheet b : str) : Prop := exists k, holds w sheet k ($"Database") (CText b).

(** ** The lines *)
Definition no_sheet (sheet : str) : str := $"Error:  missing sheet " ++ sheet ++ $"!".
Definition no_column (column sheet : str) : str := $"Error:  missing column " ++ column ++ $" in sheet " ++ sheet ++ $"!".
Definition half_shard_key (table : str) : str := $"ERROR:  " ++ table ++ $" need to provide both a shard key name and number of shards.".
Definition no_database (sheet database : str) : str := $"ERROR:  Database " ++ database ++ $" from the " ++ sheet ++ $" tab is not known.".
Definition no_table (sheet table : str) : str := $"ERROR:  Table " ++ table ++ $" from the " ++ sheet ++ $" tab is not known.".

(** what reading the workbook prints; [base] numbers the objects it makes *)
Definition book_complaints (base : nat) (w : workbook cell) : list str := map ExcelTalk.xls_text (snd (ExcelTalk.heard_xls base [] w)).

(** convert_ddl is to read this workbook *)
Definition reads_book (a : convert_args) (st : state) (w : workbook cell) : Prop :=
  convert_accepts a /\ version a = false /\ ~ is_given (from_ddl a) /\ is_given (from_excel a) /\ files st (text (from_excel a)) = Some (Book w).
