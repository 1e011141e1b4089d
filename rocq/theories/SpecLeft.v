(** * Specification: what an Excel reader holds after a read that raised (C111) *)
From Verif Require Export SpecBook ExcelLeft.
From Coq Require Import List PeanoNat. Import ListNotations.

(** the sheets in the order in which they are read *)
Definition reading_order : list str := [$"Tables"; $"Columns"; $"Foreign Keys"; $"Relationships"].
Fixpoint place (s : str) (l : list str) : option nat :=
  match l with [] => None | x :: l' => if str_eqb s x then Some 0 else option_map S (place s l') end.
(** The workbook up to row [i], not included, of the [k]-th sheet read: that sheet has only the rows
    before it, the sheets read later have only their header. *)
Definition cut_rows (k i : nat) (s : str) (rows : list (list cell)) : list (list cell) :=
  match place s reading_order with
  | None => rows
  | Some j => if j <? k then rows else if j =? k then firstn (S i) rows else firstn 1 rows
  end.
Definition cut_book (k i : nat) (wb : workbook cell) : workbook cell := map (fun sg => (fst sg, cut_rows k i (fst sg) (snd sg))) wb.

(** the sheet Tables names, in row [i], a database that is not among these *)
Definition names_new (wb : workbook cell) (i : nat) (dbs : dict database) (b : str) : Prop :=
  b <> [] /\ dget b dbs = None /\ holds wb ($"Tables") i ($"Database") (CText b).
