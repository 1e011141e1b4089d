(** * Specification: the log of --debug (C124) *)
From Verif Require Export Debug SpecMessages SpecCli.

(** ** While the file is read *)
(** [b] is the text that waits for a semicolon and [i] tells whether a block comment is open.  Every line is
    logged as far as it counts, and a statement when its semicolon is found; [ps] are these statements. *)
Inductive reading_log : str -> bool -> list str -> list str -> list str -> Prop :=
| rl_none b i : reading_log b i [] [] []
| rl_go b i raw r raws log ps : line_content raw ($"GO" ++ r) -> reading_log b i raws log ps ->
    reading_log b i (raw :: raws) (($"GO" ++ r) :: log) ps
| rl_line b i raw l x j raws log ps : line_content raw l -> ~ (exists r, l = $"GO" ++ r) -> line_adds i l x j ->
    ~ occurs ($";") (b ++ x) -> reading_log (b ++ x) j raws log ps -> reading_log b i (raw :: raws) (l :: log) ps
| rl_ends b i raw l x j s b' raws log ps : line_content raw l -> ~ (exists r, l = $"GO" ++ r) -> line_adds i l x j ->
    first_cut ($";") (b ++ x) s b' -> reading_log b' j raws log ps ->
    reading_log b i (raw :: raws) (l :: ($"adding statement:  " ++ s) :: log) (s :: ps).

(** ** While the statements are handled *)
(** the lines that tell how a statement is understood *)
Inductive understood (s : str) : list str -> Prop :=
| un_database : occurs ($"create database") (lower s) -> understood s [$"Ignoring create database statement."]
| un_create : creates s -> understood s []
| un_key : about_primary_key s ->
    understood s [$"altering a table...."; $"adding a primary key:  " ++ s; $"Trying to extract primary key from " ++ s]
| un_foreign : about_foreign_key s -> understood s [$"altering a table...."; $"adding foreign key:  " ++ s]
| un_relationship : about_relationship s -> understood s [$"altering a table...."; $"creating a relationship:  " ++ s]
| un_shard : about_shard_key s -> understood s [$"altering a table...."; $"sharding a table:  " ++ s]
| un_alter : alters s -> ~ about_primary_key s -> ~ about_foreign_key s -> ~ about_relationship s -> ~ about_shard_key s ->
    understood s [$"altering a table...."; $"ignoring alter"]
| un_other : ~ occurs ($"create database") (lower s) -> ~ creates s -> ~ occurs ($"alter table") (lower s) ->
    understood s [$"ignoring statement:  " ++ s].
(** Each statement is shown, then how it is understood, then what is said about it; an exception ends the log. *)
Inductive handling_log (schema : str) : nat -> database -> list str -> list entry -> result database -> Prop :=
| hl_none id d : handling_log schema id d [] [] (Ok d)
| hl_next id d s ls ms d' stmts es r : understood s ls -> heard_statement schema id d s = (Ok d', ms) -> handling_log schema (S id) d' stmts es r ->
    handling_log schema id d (s :: stmts) (Debug ($">>> " ++ s) :: map Debug ls ++ map Message ms ++ es) r
| hl_stop id d s ls ms e stmts : understood s ls -> heard_statement schema id d s = (Err e, ms) ->
    handling_log schema id d (s :: stmts) (Debug ($">>> " ++ s) :: map Debug ls ++ map Message ms) (Err e).

(** the messages in a log *)
Definition messages_of (es : list entry) : list message := flat_map (fun e => match e with Message m => [m] | Debug _ => [] end) es.
(** an entry that shows a statement *)
Definition shows_statement (e : entry) : Prop := exists s, e = Debug ($">>> " ++ s).
(** the last statement shown in [es] is [s] *)
Definition last_shown (es : list entry) (s : str) : Prop :=
  exists a b, es = a ++ Debug ($">>> " ++ s) :: b /\ forall e, In e b -> ~ shows_statement e.
(** the lines of standard error that are not from --debug *)
Definition not_debug (l : str) : bool := negb (starts_with ($"DEBUG:root:") l).
(** [l1] is [l2] without some of the lines from --debug *)
Inductive fewer : list str -> list str -> Prop :=
| fw_none : fewer [] []
| fw_same x l1 l2 : fewer l1 l2 -> fewer (x :: l1) (x :: l2)
| fw_debug s l1 l2 : fewer l1 l2 -> fewer l1 (($"DEBUG:root:" ++ s) :: l2).
(** the output, where the line with the arguments shows another value of debug *)
Inductive same_output : list output -> list output -> Prop :=
| so_none : same_output [] []
| so_same x l1 l2 : same_output l1 l2 -> same_output (x :: l1) (x :: l2)
| so_arguments ns1 ns2 l1 l2 : map fst ns1 = map fst ns2 -> (forall k, k <> $"debug" -> dget k ns1 = dget k ns2) -> same_output l1 l2 ->
    same_output (Namespace ns1 :: l1) (Namespace ns2 :: l2).
(** the command line without and with --debug *)
Definition set_debug (v : bool) (a : convert_args) : convert_args :=
  {| version := version a; empty := empty a; from_ddl := from_ddl a; to_tql := to_tql a; from_ts := from_ts a; to_ts := to_ts a;
     username := username a; password := password a; from_excel := from_excel a; to_excel := to_excel a; db_option := db_option a; schema_option := schema_option a;
     create_db := create_db a; lower_option := lower_option a; upper_option := upper_option a; camel_option := camel_option a; validate_option := validate_option a; debug := v |}.
