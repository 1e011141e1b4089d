(** * Specification: Excel workbooks (C48-C52, C71, C72) *)
From Verif Require Export Excel SpecScript SpecParse.

(** ** The format *)
(** the columns every workbook must have, by sheet *)
Definition format : list (str * list str) :=
  [($"Columns", [$"Database"; $"Schema"; $"Table"; $"Column"; $"Name"; $"Type"]);
   ($"Tables", [$"Database"; $"Schema"; $"Table"; $"Updated"; $"Update Type"; $"# Rows"; $"# Columns"; $"Primary Key";
                $"Shard Key"; $"# Shards"; $"RLS Column"]);
   ($"Foreign Keys", [$"Name"; $"Database"; $"Schema"; $"From Table"; $"From Columns"; $"To Table"; $"To Columns"]);
   ($"Relationships", [$"Name"; $"Database"; $"Schema"; $"From Table"; $"To Table"; $"Conditions"])].
Definition required (sheet col : str) : Prop := exists cols, In (sheet, cols) format /\ In col cols.
(** the workbook has the sheet, and a column with this header in it *)
Definition has_sheet (wb : workbook cell) (sheet : str) : Prop := In sheet (map fst wb).
Definition has_header (wb : workbook cell) (sheet col : str) : Prop :=
  exists h rows, dget sheet wb = Some (h :: rows) /\ In (CText col) h.
Definition format_ok (wb : workbook cell) : Prop := forall sheet col, required sheet col -> has_header wb sheet col.
(** the sheet is there but has no row at all, not even a header *)
Definition blank_sheet (wb : workbook cell) : Prop := exists sheet cols, In (sheet, cols) format /\ dget sheet wb = Some [].

(** the column with this header, of which there is only one, holds these cells below the header *)
Definition column_is (wb : workbook cell) (sheet col : str) (cells : list cell) : Prop :=
  exists h rows i, dget sheet wb = Some (h :: rows) /\ nth_error h i = Some (CText col)
    /\ (forall j, nth_error h j = Some (CText col) -> j = i)
    /\ cells = map (fun r => nth i r (CText [])) rows.
(** the same cells in the required columns, whatever their place and whatever else there is *)
Definition same_content (wb1 wb2 : workbook cell) : Prop :=
  forall sheet col, required sheet col -> exists cells, column_is wb1 sheet col cells /\ column_is wb2 sheet col cells.

(** ** What a workbook can hold *)
(** texts that are read from a cell as they were written *)
Record cell_text (s : str) : Prop := {
  ce_short : (N.of_nat (length s) <= 32767)%N;
  ce_printable : forall c, In c s -> 32 <= nat_of_ascii c;
  ce_formula : forall c r, s <> "="%char :: c :: r;
  ce_error : ~ In s [$"#NULL!"; $"#DIV/0!"; $"#VALUE!"; $"#REF!"; $"#NAME?"; $"#NUM!"; $"#N/A"] }.
(** lists of column names that are read back from one cell *)
Record key_list (l : list str) : Prop := {
  kl_words : forall k, In k l -> k <> [] /\ trimmed k /\ ~ In ","%char k;
  kl_cell : cell_text (join ($", ") l) }.
Definition valid_type (ty : str) : Prop := In ty VALID_TYPES \/ exists r, ty = $"VARCHAR" ++ r.

Record excel_table (t : table) : Prop := {
  et_names : cell_text (t_name t) /\ cell_text (t_schema t);
  et_cols : forall c, In c (table_iter t) -> cell_text (column_name c) /\ cell_text (column_type c) /\ valid_type (column_type c);
  et_pk : key_list (t_pk t);
  et_shard : forall sk, t_shard t = Some sk ->
    sk_keys sk <> [] /\ key_list (sk_keys sk) /\ sk_shards sk <> 0%Z /\ (Z.abs (sk_shards sk) <= 2 ^ 53)%Z;
  et_fks : forall fk, In fk (foreign_keys_iter t) -> fk_from_table fk = t_name t
    /\ cell_text (fk_name fk) /\ cell_text (fk_to_table fk)
    /\ fk_from_keys fk <> [] /\ key_list (fk_from_keys fk) /\ fk_to_keys fk <> [] /\ key_list (fk_to_keys fk);
  et_rels : forall r, In r (relationships_iter t) -> rel_from_table r = t_name t
    /\ cell_text (rel_name r) /\ cell_text (rel_to_table r) /\ cell_text (rel_conditions r) }.
Record excel_db (d : database) : Prop := {
  ed_name : db_name d <> [] /\ cell_text (db_name d);
  ed_some : db_iter d <> [];
  ed_tables : forall t, In t (db_iter d) -> excel_table t }.

(** ** What comes back *)
Record same_but_rels (t t' : table) : Prop := {
  sb_name : t_name t' = t_name t;
  sb_schema : t_schema t' = t_schema t;
  sb_cols : t_cols t' = t_cols t;
  sb_pk : t_pk t' = t_pk t;
  sb_shard : shard_of t' = shard_of t;
  sb_fks : t_fks t' = t_fks t }.
(** the name a relationship gets when none is given *)
Definition usual_name (r : relationship) : str := $"REL_" ++ rel_from_table r ++ $"_to_" ++ rel_to_table r.
(** the relationships of a table filed under their usual names: of several with the same one the last
    stays *)
Definition refiled (t t' : table) : Prop :=
  forall n r, get_relationship t' n = Some r <->
    exists pre r0 post, relationships_iter t = pre ++ r0 :: post /\ usual_name r0 = n
      /\ (forall r1, In r1 post -> usual_name r1 <> n)
      /\ r = {| rel_name := n; rel_from_table := rel_from_table r0; rel_to_table := rel_to_table r0;
                rel_conditions := rel_conditions r0 |}.

(** ** Rows *)
(** under the header [col], of which there is only one, the row holds [c] *)
Definition cell_in (h row : list cell) (col : str) (c : cell) : Prop :=
  exists i, nth_error h i = Some (CText col) /\ (forall j, nth_error h j = Some (CText col) -> j = i)
            /\ c = nth i row (CText []).
(** where the rows of a sheet name their table *)
Definition table_column (sheet : str) : str := if str_eqb sheet ($"Columns") then $"Table" else $"From Table".
Definition knows_table (dbs : dict database) (dbn name : str) : Prop :=
  exists d t, dget dbn dbs = Some d /\ get_table d name = Some t.
