(** * Specification: the command line tools (C65, C79-C91) *)
From Verif Require Export Cli SpecScript.
From Verif Require Messages.

Definition text (o : option str) : str := match o with Some s => s | None => [] end.
(** an argument that was given, with a text that is not empty *)
Definition is_given (o : option str) : Prop := text o <> [].
Definition file_exists (st : state) (n : str) : Prop := files st n <> None.
Definition line (s : str) : str := s ++ [newline_char].

(** ** Which arguments are accepted *)
(** something to do: --version, --empty, a source, or --to_excel *)
Definition convert_something (a : convert_args) : Prop :=
  version a = true \/ empty a = true \/ is_given (from_ddl a) \/ is_given (from_excel a) \/ is_given (from_ts a) \/ is_given (to_excel a).
Record convert_accepts (a : convert_args) : Prop := {
  ca_something : convert_something a;
  ca_database : is_given (from_ddl a) \/ is_given (from_ts a) -> is_given (db_option a) }.
Record diff_accepts (a : diff_args) (st : state) : Prop := {
  da_given : is_given (ddl1 a) /\ is_given (ddl2 a);
  da_exist : file_exists st (text (ddl1 a)) /\ file_exists st (text (ddl2 a)) }.

(** ** States *)
(** nothing but the messages on standard error has changed *)
Definition only_messages (st st' : state) (ms : list str) : Prop :=
  (forall n, files st' n = files st n) /\ out st' = out st /\ sent st' = sent st /\ objects st' = objects st
  /\ err st' = err st ++ map line ms.
(** files and standard output work *)
Definition no_failures (H : host) : Prop :=
  (forall n, open_fails (h_env H) n = false) /\ (forall tr h s, write_fails (h_env H) tr h s = false).

(** ** Effects *)
(** the text of some outputs, whatever arguments and answers look like *)
Definition rendered (f : list (str * arg) -> str) (g : list str -> str) (l : list output) : str :=
  flat_map (fun o => match o with Printed s => s | Namespace n => f n | Response r => g r end) l.
(** standard output has received these outputs *)
Definition prints (l : list output) (st st' : state) : Prop :=
  exists added, out st' = out st ++ added /\ forall f g, rendered f g added = rendered f g l.
Definition says (s : str) : output := Printed (line s).
Definition if_given (o : option str) {A} (l : list A) : list A := match text o with [] => [] | _ => l end.
Definition if_true (b : bool) {A} (l : list A) : list A := if b then l else [].

(** ** What convert_ddl reads *)
(** the cluster is asked only when no other source is named *)
Definition from_cluster (a : convert_args) : Prop := is_given (from_ts a) /\ ~ is_given (from_ddl a) /\ ~ is_given (from_excel a).
Definition script_command (address user pass name : str) : command :=
  {| c_host := address; c_user := user; c_password := pass; c_text := $"script database " ++ name ++ $";" |}.
Definition asked (a : convert_args) : list command :=
  match text (from_ddl a) ++ text (from_excel a) with
  | [] => if_given (from_ts a) [script_command (text (from_ts a)) (username a) (password a) (text (db_option a))]
  | _ => []
  end.
Definition to_send (a : convert_args) (script : str) : list command :=
  if_given (to_ts a) [{| c_host := text (to_ts a); c_user := username a; c_password := password a; c_text := universal_newlines script |}].
(** what the parser says about the script [t] *)
Definition complaints (H : host) (name schema t : str) : list str :=
  map (Messages.message_text (h_reason H)) (snd (Messages.heard_text name schema t)).
(** [reads H a st d ms]: the command line [a] reads the model [d], with the messages [ms] *)
Inductive reads (H : host) (message : xls_message -> str) (a : convert_args) (st : state) : database -> list str -> Prop :=
  | reads_ddl t d : is_given (from_ddl a) -> files st (text (from_ddl a)) = Some (Text t) ->
      parse_text (text (db_option a)) (schema_option a) t = Ok d -> reads H message a st d (complaints H (text (db_option a)) (schema_option a) t)
  | reads_excel w d rest ms : ~ is_given (from_ddl a) -> is_given (from_excel a) -> files st (text (from_excel a)) = Some (Book w) ->
      read_xls (objects st) [] w = Ok (d :: rest, ms) ->
      reads H message a st (snd d) (map message ms ++ match rest with [] => [] | _ => [$"WARNING:  multiple databases read.  Only using " ++ db_name (snd d)] end)
  | reads_cluster lines d : from_cluster a ->
      h_run H (sent st) (script_command (text (from_ts a)) (username a) (password a) (text (db_option a))) = Ok lines ->
      parse_text (text (db_option a)) ($"falcon_default_schema") (flat_map line lines) = Ok d ->
      reads H message a st d (complaints H (text (db_option a)) ($"falcon_default_schema") (flat_map line lines))
  | reads_nothing n : ~ is_given (from_ddl a) -> ~ is_given (from_excel a) -> ~ is_given (from_ts a) -> db_option a = Some n ->
      reads H message a st (empty_database n) [].

(** ** What convert_ddl leaves *)
(** the file --to_excel stands for, and the temporary file *)
Definition excel_file (a : convert_args) (n : str) : Prop :=
  is_given (to_excel a) /\ ((exists stem, text (to_excel a) = stem ++ $".xlsx") /\ n = text (to_excel a)
                            \/ (~ exists stem, text (to_excel a) = stem ++ $".xlsx") /\ n = text (to_excel a) ++ $".xlsx").
Definition tql_file (a : convert_args) (n : str) : Prop := is_given (to_tql a) /\ text (to_tql a) <> $"-" /\ n = text (to_tql a).
Definition report (r : validation_result) : list str * list str :=
  match issues r with
  | [] => ([$"Database is valid."], [])
  | l => ([], map (fun i => (match snd i with INFO => $"Information" | WARNING => $"Warning" | ERROR => $"Error" end) ++ $":  " ++ fst i) l)
  end.
Record converted (a : convert_args) (d : database) (script : str) (book : workbook cell) (r : validation_result)
                 (ms response : list str) (st st' : state) : Prop := {
  cv_tql : forall n, tql_file a n -> ~ excel_file a n -> ~ (is_given (to_ts a) /\ n = db_name d ++ $".tmp") -> files st' n = Some (Text script);
  cv_excel : forall n, excel_file a n -> files st' n = Some (Book book);
  cv_temp : forall n, n = db_name d ++ $".tmp" -> is_given (to_ts a) \/ from_cluster a /\ ~ tql_file a n -> files st' n = None;
  cv_other : forall n, ~ tql_file a n -> ~ excel_file a n -> ~ (is_given (to_ts a) \/ from_cluster a) \/ n <> db_name d ++ $".tmp" ->
    files st' n = files st n;
  cv_sent : sent st' = sent st ++ asked a ++ to_send a script;
  cv_out : prints (Namespace (convert_namespace a)
    :: if_given (from_ddl a) [says ($"Reading DDL ...")]
    ++ (match text (from_ddl a) with [] => if_given (from_excel a) [says ($"Reading Excel ...")] | _ => [] end)
    ++ (match text (from_ddl a) ++ text (from_excel a) with [] => if_given (from_ts a) [says ($"Reading DDL from ThoughtSpot")] | _ => [] end)
    ++ if_true (validate_option a) (says ($"Validating database") :: map says (fst (report r)))
    ++ if_given (to_tql a) (says ($"Writing TQL ...") :: if_true (str_eqb (text (to_tql a)) ($"-")) [Printed script])
    ++ if_given (to_excel a) [says ($"Writing Excel ...")]
    ++ if_given (to_ts a) [says ($"Writing to ThoughtSpot ..."); Response response]) st st';
  cv_err : err st' = err st ++ map line (ms ++ if_true (validate_option a) (snd (report r))) }.
