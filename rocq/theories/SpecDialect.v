(** * Specification: CREATE TABLE statements as other databases write them (C99)

    A small abstract syntax, the text it stands for, and the table it describes.  Only string
    primitives and the [Table] record are shared with the model of the parser. *)
From Verif Require Export SpecParse Model.

(** ** Names, bare or quoted in one of four ways *)
Inductive quoting := Bare | DoubleQuotes | SingleQuotes | BackQuotes | Brackets.
Definition spell (q : quoting) (n : str) : str :=
  match q with
  | Bare => n
  | DoubleQuotes => dq :: n ++ [dq]
  | SingleQuotes => sq :: n ++ [sq]
  | BackQuotes => bq :: n ++ [bq]
  | Brackets => "["%char :: n ++ ["]"%char]
  end.
Definition blank_free (s : str) : Prop := forall c, In c s -> is_space c = false.
(** a name has no quotes, brackets, parentheses, commas or dots; a bare one has no white space *)
Definition name_marks : list ascii := [dq; sq; bq; "["; "]"; "("; ")"; ","; "."]%char.
Record good_name (q : quoting) (n : str) : Prop := {
  gn_some : n <> []; gn_free : free_of name_marks n; gn_bare : q = Bare -> blank_free n }.

(** ** The parts of a statement *)
(** a column: name, type, possibly with arguments, and what follows (NOT NULL, DEFAULT, ...) *)
Record column_decl := {
  dc_quoting : quoting; dc_name : str;
  dc_type_quoting : quoting; dc_type : str; dc_args : option str;
  dc_more : str }.
Definition args_text (a : option str) : str := match a with Some x => $"(" ++ x ++ $")" | None => [] end.
Definition column_decl_text (c : column_decl) : str :=
  spell (dc_quoting c) (dc_name c) ++ $" " ++ spell (dc_type_quoting c) (dc_type c) ++ args_text (dc_args c) ++ dc_more c.
(** the type as it would be written bare *)
Definition written_type (c : column_decl) : str := dc_type c ++ args_text (dc_args c).

Definition gap (b : bool) : str := if b then $" " else [].
Definition padded {A} (text : A -> str) (x : bool * A * bool) : str := gap (fst (fst x)) ++ text (snd (fst x)) ++ gap (snd x).
(** a PRIMARY KEY clause: what stands before its parenthesis, the columns, what follows *)
Record key_decl := { kd_head : str; kd_columns : list (bool * (quoting * str) * bool); kd_more : str }.
Definition spelled (x : quoting * str) : str := spell (fst x) (snd x).
Definition key_decl_text (k : key_decl) : str :=
  kd_head k ++ $"(" ++ join ($",") (map (padded spelled) (kd_columns k)) ++ $")" ++ kd_more k.
(** other key clauses (FOREIGN KEY, UNIQUE KEY ...) are free text *)
Inductive item := IColumn (c : column_decl) | IKey (k : key_decl) | IOther (s : str).
Definition item_text (i : item) : str :=
  match i with IColumn c => column_decl_text c | IKey k => key_decl_text k | IOther s => s end.
Record create_decl := {
  dt_head : str;                        (** CREATE TABLE or CREATE OR REPLACE TABLE *)
  dt_path : list (quoting * str);       (** database, schema *)
  dt_quoting : quoting; dt_name : str;
  dt_gap : bool;
  dt_items : list (bool * item * bool);
  dt_more : str }.
Definition path_text (c : create_decl) : str :=
  flat_map (fun x => spelled x ++ $".") (dt_path c) ++ spell (dt_quoting c) (dt_name c).
Definition create_decl_text (c : create_decl) : str :=
  dt_head c ++ path_text c ++ gap (dt_gap c) ++ $"(" ++ join ($",") (map (padded item_text) (dt_items c)) ++ $")" ++ dt_more c.

(** ** Which statements are meant *)
(** commas stand in parentheses only *)
Inductive commas_inside : str -> Prop :=
| ci_nil : commas_inside []
| ci_char c s : c <> "("%char -> c <> ","%char -> commas_inside s -> commas_inside (c :: s)
| ci_paren x s : ~ In ")"%char x -> commas_inside s -> commas_inside ($"(" ++ x ++ $")" ++ s).
Record good_column_decl (c : column_decl) : Prop := {
  gc_name : good_name (dc_quoting c) (dc_name c);
  gc_type : dc_type c <> [] /\ free_of name_marks (dc_type c) /\ trimmed (dc_type c);
  gc_args : forall a, dc_args c = Some a -> free_of ["("; ")"; "["; "]"]%char a;
  gc_bare : dc_args c = None -> blank_free (dc_type c) /\ ~ In ")"%char (dc_more c);
  gc_more : trimmed (dc_type c ++ dc_more c) /\ commas_inside (dc_more c);
  gc_apart : dc_more c = [] \/ exists r, dc_more c = " "%char :: r;
  gc_no_key : ~ occurs ($"key ") (lower (column_decl_text c)) }.
Record good_key_decl (k : key_decl) : Prop := {
  gk_head : free_of ["("; ","]%char (kd_head k) /\ trimmed (kd_head k ++ $"(");
  gk_words : occurs ($"key ") (lower (kd_head k)) /\ occurs ($"primary") (lower (kd_head k));
  gk_some : kd_columns k <> [];
  gk_columns : forall a q n b, In (a, (q, n), b) (kd_columns k) -> good_name q n /\ ~ In " "%char n
    /\ q <> SingleQuotes /\ q <> BackQuotes;
  gk_more : trimmed ($")" ++ kd_more k) /\ commas_inside (kd_more k) }.
Record good_other (s : str) : Prop := {
  go_text : s <> [] /\ trimmed s /\ commas_inside s;
  go_words : occurs ($"key ") (lower s) /\ ~ occurs ($"primary") (lower s) }.
Definition good_item (i : item) : Prop :=
  match i with IColumn c => good_column_decl c | IKey k => good_key_decl k | IOther s => good_other s end.
Definition items_of (c : create_decl) : list item := map (fun x => snd (fst x)) (dt_items c).
Definition columns_of (l : list item) : list column_decl := flat_map (fun i => match i with IColumn c => [c] | _ => [] end) l.
Record good_create_decl (c : create_decl) : Prop := {
  gt_head : lower (dt_head c) = $"create table " \/ lower (dt_head c) = $"create or replace table ";
  gt_names : forall q n, In (q, n) (dt_path c) \/ (q, n) = (dt_quoting c, dt_name c) -> good_name q n;
  gt_replace : lower (dt_head c) = $"create table " -> ~ occurs ($"or replace") (lower (path_text c));
  gt_items : forall i, In i (items_of c) -> good_item i;
  gt_distinct : NoDup (map dc_name (columns_of (items_of c)));
  gt_more : ~ In ")"%char (dt_more c);
  gt_only : ~ occurs ($"create database") (lower (create_decl_text c)) /\ ~ occurs ($"partition by hash") (lower (create_decl_text c)) }.

(** ** What they describe *)
(** the last PRIMARY KEY clause counts *)
Fixpoint declared_key (l : list item) (pk : list str) : list str :=
  match l with
  | [] => pk
  | IKey k :: l' => declared_key l' (map (fun x => snd (snd (fst x))) (kd_columns k))
  | _ :: l' => declared_key l' pk
  end.
(** given the ThoughtSpot types of its columns *)
Definition described (schema : str) (c : create_decl) (types : list str) : table :=
  {| t_name := dt_name c; t_schema := schema; t_pk := declared_key (items_of c) []; t_shard := None;
     t_cols := map (fun x => (dc_name (fst x), {| column_name := dc_name (fst x); column_type := snd x |}))
                   (combine (columns_of (items_of c)) types);
     t_fks := []; t_rels := [] |}.

(** ** Types of other databases *)
Definition dialect_types : list (str * str) :=
  map (fun w => (w, $"BIGINT")) [$"int"; $"integer"; $"bigint"; $"smallint"; $"tinyint"; $"mediumint"; $"int4"; $"int8"]
  ++ map (fun w => (w, $"DOUBLE")) [$"decimal"; $"numeric"; $"float"; $"float8"; $"double"; $"real"; $"money"; $"smallmoney"]
  ++ map (fun w => (w, $"DATETIME")) [$"datetime"; $"datetime2"; $"smalldatetime"; $"datetimeoffset"; $"timestamp"; $"timestamptz"]
  ++ [($"date", $"DATE"); ($"time", $"TIME"); ($"timetz", $"TIME"); ($"bit", $"BOOL"); ($"bool", $"BOOL"); ($"boolean", $"BOOL")]
  ++ map (fun w => (w, $"VARCHAR(0)")) [$"char"; $"varchar"; $"nchar"; $"nvarchar"; $"varchar2"; $"nvarchar2"; $"bpchar"; $"character"; $"text"; $"ntext"; $"tinytext";
       $"mediumtext"; $"longtext"; $"long"; $"enum"; $"xml"; $"uniqueidentifier"; $"sysname"].
(** arguments without letters, such as (10,2), or MAX *)
Definition plain_args (a : option str) : Prop :=
  match a with
  | None => True
  | Some x => ~ In ")"%char x /\ ((forall c, In c x -> lower_char c = c /\ upper_char c = c) \/ lower x = $"max")
  end.

(** ** For the limits: statements that mention neither CREATE DATABASE nor PARTITION BY HASH *)
Definition harmless (s : str) : Prop := ~ occurs ($"create database") (lower s) /\ ~ occurs ($"partition by hash") (lower s).
