(** * Specification: what is read from a workbook that someone wrote (C107) *)
From Verif Require Export SpecBook.
From Coq Require Import List. Import ListNotations.

(** What is filled row by row, when row [k] says [entry k x v], that the value of the name [x] is [v]:
    the last row about a name counts, and the names come in the order of their first rows. *)
Record filled {V : Type} (entry : nat -> str -> V -> Prop) (value_of : str -> option V) (names : list str) : Prop := {
  fi_last : forall x v, value_of x = Some v <-> exists k, entry k x v /\ forall j v', k < j -> ~ entry j x v';
  fi_names : forall x, In x names <-> value_of x <> None;
  fi_once : NoDup names;
  fi_order : forall i j x y, i < j -> nth_error names i = Some x -> nth_error names j = Some y ->
    exists k v, entry k x v /\ forall l v', entry l y v' -> k < l }.

(** the names between the commas of a cell, without the blanks around them *)
Definition between_commas (text : str) (l : list str) : Prop :=
  exists pieces, pieces <> [] /\ Forall (fun p => ~ In ","%char p) pieces /\ text = join ($",") pieces /\ l = map strip pieces.

(** row [k] of the sheet Tables names this database; and this table of the database [b] *)
Definition database_entry (w : workbook cell) (k : nat) (b : str) (_ : unit) : Prop := b <> [] /\ holds w ($"Tables") k ($"Database") (CText b).
Definition table_entry (w : workbook cell) (b : str) (k : nat) (n : str) (_ : unit) : Prop :=
  holds w ($"Tables") k ($"Database") (CText b) /\ holds w ($"Tables") k ($"Table") (CText n).
(** row [k] of the sheet Columns is about the column [x] of the table [n] of the database [b] *)
Definition column_entry (w : workbook cell) (b n : str) (k : nat) (x : str) (c : column) : Prop :=
  holds w ($"Columns") k ($"Database") (CText b) /\ holds w ($"Columns") k ($"Table") (CText n)
  /\ holds w ($"Columns") k ($"Name") (CText x) /\ holds w ($"Columns") k ($"Type") (CText (column_type c)) /\ column_name c = x.
(** the same for the sheets Foreign Keys and Relationships; the names of relationships are not read but
    made from those of the tables *)
Definition fk_entry (w : workbook cell) (b n : str) (k : nat) (x : str) (f : foreign_key) : Prop :=
  holds w ($"Foreign Keys") k ($"Database") (CText b) /\ holds w ($"Foreign Keys") k ($"From Table") (CText n)
  /\ holds w ($"Foreign Keys") k ($"Name") (CText x) /\ holds w ($"Foreign Keys") k ($"To Table") (CText (fk_to_table f))
  /\ (exists s, holds w ($"Foreign Keys") k ($"From Columns") (CText s) /\ between_commas s (fk_from_keys f))
  /\ (exists s, holds w ($"Foreign Keys") k ($"To Columns") (CText s) /\ between_commas s (fk_to_keys f))
  /\ fk_name f = x /\ fk_from_table f = n.
Definition rel_entry (w : workbook cell) (b n : str) (k : nat) (x : str) (r : relationship) : Prop :=
  holds w ($"Relationships") k ($"Database") (CText b) /\ holds w ($"Relationships") k ($"From Table") (CText n)
  /\ holds w ($"Relationships") k ($"To Table") (CText (rel_to_table r)) /\ holds w ($"Relationships") k ($"Conditions") (CText (rel_conditions r))
  /\ rel_name r = x /\ rel_from_table r = n /\ x = $"REL_" ++ n ++ $"_to_" ++ rel_to_table r.

(** ** When a workbook can be read *)
(** the columns read as texts *)
Definition text_columns : list (str * list str) :=
  [($"Tables", [$"Database"; $"Schema"; $"Table"; $"Primary Key"; $"Shard Key"]);
   ($"Columns", [$"Database"; $"Table"; $"Name"; $"Type"]);
   ($"Foreign Keys", [$"Name"; $"Database"; $"From Table"; $"From Columns"; $"To Table"; $"To Columns"]);
   ($"Relationships", [$"Database"; $"From Table"; $"To Table"; $"Conditions"])].
(** they hold texts, and the column "# Shards" numbers or nothing *)
Definition texts_only (w : workbook cell) : Prop :=
  (forall sheet cols col k c, In (sheet, cols) text_columns -> In col cols -> holds w sheet k col c -> exists s, c = CText s)
  /\ (forall k c, holds w ($"Tables") k ($"# Shards") c -> c = CText [] \/ exists z, c = CNum z).
Record sound_book (w : workbook cell) : Prop := {
  (* the columns of the tables have types ThoughtSpot knows *)
  so_types : forall b n k ty, table_described w b n -> holds w ($"Columns") k ($"Database") (CText b) -> holds w ($"Columns") k ($"Table") (CText n) ->
    holds w ($"Columns") k ($"Type") (CText ty) -> valid_type ty;
  (* their foreign keys have as many columns on either side *)
  so_keys : forall b n k from to l1 l2, table_described w b n -> holds w ($"Foreign Keys") k ($"Database") (CText b) -> holds w ($"Foreign Keys") k ($"From Table") (CText n) ->
    holds w ($"Foreign Keys") k ($"From Columns") (CText from) -> between_commas from l1 ->
    holds w ($"Foreign Keys") k ($"To Columns") (CText to) -> between_commas to l2 -> length l1 = length l2;
  (* the relationships in the databases are those of their tables *)
  so_rels : forall b n, row_about w ($"Relationships") b n -> database_described w b -> table_described w b n }.
