(** * ddltools/review_model.py with --debug (lines 62-63)

    As in [Debug], lines that the libraries log themselves are left out. *)
From Verif Require Export Debug CliReview.

(** ddltools/review_model.py:40-101 [main]; compare [review_tool] *)
Definition review_debug (H : host) (order : list str -> list str) (rnd : Q -> Q) (commas : setting -> str) (float_str : Q -> str) (fuel : nat)
  (safe_load : str -> result yaml) (queries : str -> str -> str -> oracle) (help : str) (documented : list (str * list str * option str))
  (a : review_args) : cli unit :=
  ok <-- review_valid_args a ;;
  if negb ok then (fun st => (emit (Printed help) st, Ok tt))
  else
    _ <-- (fun st => (emit (Namespace (review_namespace a)) st, Ok tt)) ;;
    if r_version a then print ($"convert_ddl (v1.0):  " ++ h_path H ++ $"/convert_ddl")
    else
      _ <-- Cli.when (show_tests a) (show_descriptions documented) ;;
      if given (ts_ip a) || given (database_file a) then
        d <-- (if given (ts_ip a)
               then read_from_cluster_debug H (py_text (ts_ip a)) (r_username a) (r_password a) (r_database a)
               else parse_file_debug H (r_database a) DEFAULT_SCHEMA (py_text (database_file a))) ;;
        ws <-- (if given (worksheet_file a) then w <-- read_worksheet_file H safe_load (py_text (worksheet_file a)) ;; done (Some w) else done None) ;;
        let rtql := if given (ts_ip a) then Some (queries (py_text (ts_ip a)) (r_username a) (r_password a)) else None in
        results <-- run_reviews H order rnd commas float_str fuel a d ws rtql ;;
        Cli.each (fun kv => _ <-- print (fst kv ++ $":") ;; Cli.each (fun s => print ([tab] ++ s)) (snd kv)) results
      else done tt.
