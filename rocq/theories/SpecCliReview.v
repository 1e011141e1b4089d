(** * Specification: review_model (C65, C89, C90) *)
From Verif Require Export CliReview SpecCli.

Record review_accepts (a : review_args) (st : state) : Prop := {
  ra_database : show_tests a = true \/ is_given (r_database a) /\ (is_given (database_file a) \/ is_given (ts_ip a));
  ra_one : ~ (is_given (database_file a) /\ is_given (ts_ip a));
  ra_worksheet : is_given (worksheet_file a) -> file_exists st (text (worksheet_file a));
  ra_config : is_given (config_file a) -> file_exists st (text (config_file a)) }.
(** the complaint [m] applies *)
Inductive review_complaint (a : review_args) (st : state) (m : str) : Prop :=
  | rc_name : m = $"A database name must be provided." -> show_tests a = false -> ~ is_given (r_database a) -> review_complaint a st m
  | rc_source : m = $"Either a database file or ThoughtSpot IP must be provided." -> show_tests a = false ->
      ~ is_given (database_file a) -> ~ is_given (ts_ip a) -> review_complaint a st m
  | rc_both : m = $"Only database_file or ts_ip can be provided." -> is_given (database_file a) -> is_given (ts_ip a) -> review_complaint a st m
  | rc_worksheet : m = $"Worksheet file " ++ text (worksheet_file a) ++ $" doesn't exist." -> is_given (worksheet_file a) ->
      ~ file_exists st (text (worksheet_file a)) -> review_complaint a st m
  | rc_config : m = $"Configuration file " ++ text (config_file a) ++ $" doesn't exist." -> is_given (config_file a) ->
      ~ file_exists st (text (config_file a)) -> review_complaint a st m.

(** the model that is reviewed, of a file or of a cluster, and what the parser says about it *)
Inductive review_reads (H : host) (a : review_args) (st : state) : database -> list str -> Prop :=
  | rr_file t d : ~ is_given (ts_ip a) -> is_given (database_file a) -> files st (text (database_file a)) = Some (Text t) ->
      parse_text (text (r_database a)) ($"falcon_default_schema") t = Ok d ->
      review_reads H a st d (complaints H (text (r_database a)) ($"falcon_default_schema") t)
  | rr_cluster lines d : is_given (ts_ip a) -> h_run H (sent st) (script_command (text (ts_ip a)) (r_username a) (r_password a) (text (r_database a))) = Ok lines ->
      parse_text (text (r_database a)) ($"falcon_default_schema") (flat_map line lines) = Ok d ->
      review_reads H a st d (complaints H (text (r_database a)) ($"falcon_default_schema") (flat_map line lines)).
(** the worksheet, if one is named *)
Definition review_worksheet (safe_load : str -> result yaml) (a : review_args) (st : state) (ws : option worksheet) : Prop :=
  match text (worksheet_file a) with
  | [] => ws = None
  | f => (is_given (ts_ip a) -> f <> text (r_database a) ++ $".tmp")
         /\ exists t w, files st f = Some (Text t) /\ read_worksheet safe_load t = Ok w /\ ws = Some w
  end.
(** a heading with indented lines *)
Definition section_lines (kv : str * list str) : list output := says (fst kv ++ $":") :: map (fun s => says ([chr 9] ++ s)) (snd kv).
Definition description_lines (ds : dict (list str)) : list output :=
  says ($"Found " ++ n_to_str (N.of_nat (length ds)) ++ $" tests.") :: flat_map (fun kv => says [] :: section_lines kv) ds ++ [says []].
(** the parameters of the reviews, as skipping them shows them *)
Definition skipped_line (n : str) : str :=
  $"Skipping " ++ n ++ (if str_eqb n ($"review_sharding") then $"(database, rtql, config_file)"
                        else if str_eqb n ($"review_table_joins") then $"(database, rtql)"
                        else if str_eqb n ($"review_worksheet_joins") then $"(database, rtql, worksheet)"
                        else if str_eqb n ($"review_long_chain_relationships") then $"(database, config_file)" else $"(database)").
Definition skipped (evs : list Reviewer.event) : list str := flat_map (fun e => match e with Reviewer.Skipped n => [n] | Reviewer.Called _ => [] end) evs.
(** the connection reviews can ask *)
Definition connection (queries : str -> str -> str -> oracle) (a : review_args) : option oracle :=
  match text (ts_ip a) with [] => None | ip => Some (queries ip (r_username a) (r_password a)) end.
(** the lines of the reviews on the two streams *)
Definition shown (vs : list voice) : list str := flat_map (fun v => match v with Shown s => [s] | Warned _ => [] end) vs.
Definition warned (vs : list voice) : list str := flat_map (fun v => match v with Shown _ => [] | Warned s => [s] end) vs.
(** what is printed about the reviews *)
Definition review_lines (results : result (dict (list str))) (vs : list voice) : list output :=
  map says (shown vs) ++ match results with Ok r => flat_map section_lines r | Err _ => [] end.
(** the queries as commands for the cluster *)
Definition as_commands (a : review_args) (h : list str) : list command :=
  if_given (ts_ip a) (map (fun q => {| c_host := text (ts_ip a); c_user := r_username a; c_password := r_password a; c_text := q |}) h).
(** the temporary file of a cluster is gone *)
Definition review_files (a : review_args) (st : state) (n : str) : option content :=
  match text (ts_ip a) with [] => files st n | _ => if str_eqb n (text (r_database a) ++ $".tmp") then None else files st n end.
