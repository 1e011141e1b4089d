(** * ddltools/review_model.py

    As in [Cli.v], without --debug, for which see [DebugReview]. *)
From Verif Require Export ReviewTalk.
From Verif Require Export Cli.

(** ddltools/review_model.py:104-142 the arguments *)
Record review_args := {
  r_version : bool; show_tests : bool; database_file : option str; worksheet_file : option str; ts_ip : option str;
  r_username : str; r_password : str; r_database : option str; r_debug : bool; config_file : option str }.
Definition review_namespace (a : review_args) : list (str * arg) :=
  [($"version", AFlag (r_version a)); ($"show_tests", AFlag (show_tests a)); ($"database_file", show_text (database_file a));
   ($"worksheet_file", show_text (worksheet_file a)); ($"ts_ip", show_text (ts_ip a)); ($"username", AText (r_username a));
   ($"password", AText (r_password a)); ($"database", show_text (r_database a)); ($"debug", AFlag (r_debug a));
   ($"config_file", show_text (config_file a))].

Definition complain (b : bool) (s : str) : cli unit := when b (eprint s).
Definition missing_file (o : option str) (st : state) : bool := given o && negb (exists_ st (py_text o)).
(** ddltools/review_model.py:145-178 [valid_args] *)
Definition review_valid_args (a : review_args) : cli bool := fun st =>
  let no_name := negb (show_tests a) && negb (given (r_database a)) in
  let no_source := negb (show_tests a) && negb (given (database_file a)) && negb (given (ts_ip a)) in
  let both := given (database_file a) && given (ts_ip a) in
  let no_worksheet := missing_file (worksheet_file a) st in
  let no_config := missing_file (config_file a) st in
  (_ <-- complain no_name ($"A database name must be provided.") ;;
   _ <-- complain no_source ($"Either a database file or ThoughtSpot IP must be provided.") ;;
   _ <-- complain both ($"Only database_file or ts_ip can be provided.") ;;
   _ <-- complain no_worksheet ($"Worksheet file " ++ py_text (worksheet_file a) ++ $" doesn't exist.") ;;
   _ <-- complain no_config ($"Configuration file " ++ py_text (config_file a) ++ $" doesn't exist.") ;;
   done (negb no_name && negb no_source && negb both && negb no_worksheet && negb no_config)) st.

Section ReviewTool.
Variable H : host.
(** what the reviews leave open (see [Reviewer.v]) *)
Variable order : list str -> list str.
Variable rnd : Q -> Q.
Variable commas : setting -> str.
Variable float_str : Q -> str.
Variable fuel : nat.
(** the YAML library, the answers to queries of a cluster, the help text, the documented reviews *)
Variable safe_load : str -> result yaml.
Variable queries : str -> str -> str -> oracle.
Variable help : str.
Variable documented : list (str * list str * option str).

(** ddltools/review_model.py:64-72 *)
Definition show_descriptions : cli unit :=
  descriptions <-- lift (get_test_descriptions documented) ;;
  _ <-- print ($"Found " ++ n_to_str (N.of_nat (length descriptions)) ++ $" tests.") ;;
  _ <-- Cli.each (fun kv => _ <-- print [] ;; _ <-- print (fst kv ++ $":") ;; Cli.each (fun s => print ([tab] ++ s)) (snd kv)) descriptions ;;
  print [].

(** dt/io.py:1336-1349 [read_from_file] *)
Definition read_worksheet_file (n : str) : cli worksheet :=
  text <-- read_text H n ;; lift (read_worksheet safe_load text).

(** a line of a review *)
Definition speak (v : voice) : cli unit := match v with Shown s => print s | Warned s => eprint s end.
(** the queries that reviews have sent through the connection of these arguments *)
Definition record_queries (a : review_args) (h : list str) : cli unit := fun st =>
  ({| files := files st; out := out st; err := err st;
      sent := sent st ++ map (fun q => {| c_host := py_text (ts_ip a); c_user := r_username a; c_password := r_password a; c_text := q |}) h;
      objects := objects st |}, Ok tt).
(** dt/review/review.py:36-106 a new reviewer without a configuration file, and its [review_model] *)
Definition run_reviews (a : review_args) (d : option database) (ws : option worksheet) (rtql : option oracle) : cli (dict (list str)) :=
  match d with
  | None => fails AssertionError
  | Some d =>
      let '(r, h, vs) := review_aloud (h_query_error H) (h_yaml_text H) order rnd commas float_str fuel
                                      (reviewer_settings (fun _ => None) None) d [] ws rtql in
      _ <-- Cli.each speak vs ;;
      _ <-- record_queries a h ;;
      lift r
  end.

(** ddltools/review_model.py:40-101 [main] *)
Definition review_tool (a : review_args) : cli unit :=
  ok <-- review_valid_args a ;;
  if negb ok then (fun st => (emit (Printed help) st, Ok tt))
  else
    _ <-- (fun st => (emit (Namespace (review_namespace a)) st, Ok tt)) ;;
    if r_version a then print ($"convert_ddl (v1.0):  " ++ h_path H ++ $"/convert_ddl")
    else
      _ <-- when (show_tests a) show_descriptions ;;
      if given (ts_ip a) || given (database_file a) then
        d <-- (if given (ts_ip a)
               then read_from_cluster H (py_text (ts_ip a)) (r_username a) (r_password a) (r_database a)
               else parse_file H (r_database a) DEFAULT_SCHEMA (py_text (database_file a))) ;;
        ws <-- (if given (worksheet_file a) then w <-- read_worksheet_file (py_text (worksheet_file a)) ;; done (Some w) else done None) ;;
        let rtql := if given (ts_ip a) then Some (queries (py_text (ts_ip a)) (r_username a) (r_password a)) else None in
        results <-- run_reviews a d ws rtql ;;
        Cli.each (fun kv => _ <-- print (fst kv ++ $":") ;; Cli.each (fun s => print ([tab] ++ s)) (snd kv)) results
      else done tt.
End ReviewTool.
