(** * What the tools return to the shell *)
From Verif Require Export Args.

(** The exit status.  argparse ends the program with 2 when it refuses the command line
    ([ArgumentParser.error]) and with 0 after --help ([_HelpAction]); Python ends it with 1 after an
    exception that nobody caught, and with 0 when [main] returns (ddltools/convert_ddl.py:297,
    ddltools/ddldiff.py:142, ddltools/review_model.py:204: its value is not used). *)
Definition exit_status (p : list option_) (ws : list str) (r : result unit) : nat :=
  match parse_args p ws with
  | Helped => 0
  | Refused _ => 2
  | Crashed _ => 1
  | Parsed _ => match r with Ok _ => 0 | Err _ => 1 end
  end.
Definition convert_status (H : host) (message : xls_message -> str) (help : str) (usage : refusal -> str) (ws : list str) (st : state) : nat :=
  exit_status convert_parser ws (snd (convert_main H message help usage ws st)).
Definition diff_status (H : host) (help : str) (usage : refusal -> str) (ws : list str) (st : state) : nat :=
  exit_status diff_parser ws (snd (diff_main H help usage ws st)).
Definition review_status (H : host) (order : list str -> list str) (rnd : Q -> Q) (commas : setting -> str) (float_str : Q -> str) (fuel : nat)
    (safe_load : str -> result yaml) (queries : str -> str -> str -> oracle) (help : str) (documented : list (str * list str * option str))
    (usage : refusal -> str) (ws : list str) (st : state) : nat :=
  exit_status review_parser ws (snd (review_main H order rnd commas float_str fuel safe_load queries help documented usage ws st)).
