(** * The command lines of the tools

    ddltools/convert_ddl.py:88-157, ddltools/ddldiff.py:74-114 and ddltools/review_model.py:104-142 declare
    options and leave the rest to argparse.  [argparse] is modelled as it is in Python 3.11 (the line numbers
    below are of its argparse.py), for parsers without positional arguments whose options are flags or take
    one text.  The texts of the usage and of the help are not modelled. *)
From Verif Require Export Cli CliReview.

(** ** Options *)
(** [store_true], the usual action with one argument and its default, and the help every parser has *)
Inductive kind := Flag | Takes (default : arg) | Help.
Record option_ := { o_names : list str; o_dest : str; o_kind : kind }.
(** [_option_string_actions]: every name with its option, in order *)
Definition actions (p : list option_) : dict option_ := flat_map (fun o => map (fun n => (n, o)) (o_names o)) p.

(** the help option of [ArgumentParser.__init__] *)
Definition help_option : option_ := {| o_names := [$"-h"; $"--help"]; o_dest := $"help"; o_kind := Help |}.
(** [add_argument]: without [dest], it is the first long name without its dashes *)
Definition flag (names : list str) (long : str) : option_ := {| o_names := names ++ [$"--" ++ long]; o_dest := long; o_kind := Flag |}.
Definition takes (names : list str) (long : str) (default : arg) : option_ :=
  {| o_names := names ++ [$"--" ++ long]; o_dest := long; o_kind := Takes default |}.
(** ddltools/convert_ddl.py:90-154 *)
Definition convert_parser : list option_ :=
  [help_option; flag [] ($"version"); flag [] ($"empty"); takes [] ($"from_ddl") ANone; takes [] ($"to_tql") ANone;
   takes [] ($"from_ts") ANone; takes [] ($"to_ts") ANone; takes [] ($"username") (AText ($"admin"));
   takes [] ($"password") (AText ($"th0ughtSp0t")); takes [] ($"from_excel") ANone; takes [] ($"to_excel") ANone;
   takes [$"-d"] ($"database") ANone; takes [$"-s"] ($"schema") (AText ($"falcon_default_schema")); flag [$"-c"] ($"create_db");
   flag [$"-l"] ($"lowercase"); flag [$"-u"] ($"uppercase"); flag [] ($"camelcase"); flag [$"-v"] ($"validate"); flag [] ($"debug")].
(** ddltools/ddldiff.py:76-111 *)
Definition diff_parser : list option_ :=
  [help_option; takes [] ($"ddl1") ANone; takes [] ($"ddl2") ANone; takes [] ($"database") (AText ($"MY_DATABASE"));
   takes [] ($"schema") (AText ($"falcon_default_schema")); flag [] ($"alter1"); flag [] ($"alter2"); flag [] ($"ignore_case")].
(** ddltools/review_model.py:109-140 *)
Definition review_parser : list option_ :=
  [help_option; flag [] ($"version"); flag [] ($"show_tests"); takes [] ($"database_file") ANone; takes [] ($"worksheet_file") ANone;
   takes [] ($"ts_ip") ANone; takes [] ($"username") (AText ($"admin")); takes [] ($"password") (AText ($"th0ughtSp0t"));
   takes [$"-d"] ($"database") ANone; flag [] ($"debug"); takes [] ($"config_file") ANone].

(** ** argparse *)
(** Why a command line is refused: [parser.error] prints the usage and the reason and exits with 2. *)
Inductive refusal :=
| AmbiguousOption (word : str) (matches : list str)
| ExpectedOneArgument (o : option_)
| IgnoredExplicitArgument (o : option_) (value : str)
| Unrecognized (words : list str).

(** [_negative_number_matcher]: a dash and digits, or a dash, maybe digits, a point and digits.  The dollar
    sign also accepts a newline at the end. *)
Definition digits (s : str) : bool := forallb is_digit s && negb (str_eqb s []).
Definition no_newline (s : str) : str := match rev s with c :: r => if Ascii.eqb c newline then rev r else s | [] => s end.
Definition negative_number (s : str) : bool :=
  match no_newline s with
  | c :: r => Ascii.eqb c "-" && (digits r || (let '(a, point, b) := partition_char "." r in point && forallb is_digit a && digits b))
  | [] => false
  end.

(** What [_parse_optional] says about a word: it is an argument ([None]); it may be several options (an
    error); it is an option with the name found and, if there is one, what separates it from its value and
    the value; or it is an unknown option. *)
Inductive reading :=
| Argument
| Ambiguous (matches : list str)
| Option (o : option_) (name : str) (explicit : option (bool * str))
| Unknown.
(** [_get_option_tuples], 2233-2275 *)
Definition option_tuples (p : list option_) (s : str) : list (option_ * str * option (bool * str)) :=
  match s with
  | _ :: c :: value =>
      if Ascii.eqb c "-" then
        let '(prefix, sep, v) := partition_char "=" s in
        flat_map (fun no => if starts_with prefix (fst no) then [(snd no, fst no, if sep then Some (true, v) else None)] else []) (actions p)
      else
        flat_map (fun no => if str_eqb (fst no) ["-"%char; c] then [(snd no, fst no, Some (false, value))]
                            else if starts_with s (fst no) then [(snd no, fst no, None)] else []) (actions p)
  | _ => []
  end.
(** [_parse_optional], 2180-2231; no option looks like a negative number *)
Definition parse_optional (p : list option_) (s : str) : reading :=
  match s with
  | [] => Argument
  | c :: _ =>
      if negb (Ascii.eqb c "-") then Argument
      else match dget s (actions p) with
      | Some o => Option o s None
      | None =>
          if Nat.eqb (length s) 1 then Argument
          else
            let '(name, sep, v) := partition_char "=" s in
            match (if sep then dget name (actions p) else None) with
            | Some o => Option o name (Some (true, v))
            | None =>
                match option_tuples p s with
                | [(o, name, explicit)] => Option o name explicit
                | (_ :: _) as l => Ambiguous (map (fun t => snd (fst t)) l)
                | [] => if negative_number s || contains ($" ") s then Argument else Unknown
                end
            end
      end
  end.

(** A word of the command line and its reading; [None] for the double dash *)
Definition word_ := (str * option reading)%type.
(** [_parse_known_args], 1938-1960: everything after a double dash is an argument *)
Fixpoint classify (p : list option_) (ws : list str) : list word_ + refusal :=
  match ws with
  | [] => inl []
  | w :: ws' =>
      if str_eqb w ($"--") then inl ((w, None) :: map (fun x => (x, Some Argument)) ws')
      else match parse_optional p w with
      | Ambiguous l => inr (AmbiguousOption w l)
      | r => match classify p ws' with inl l => inl ((w, Some r) :: l) | inr e => inr e end
      end
  end.

Inductive outcome := Parsed (ns : dict arg) | Helped | Refused (r : refusal) | Crashed (e : exn).
(** what one option string with its arguments leads to *)
Inductive step := Next (ns : dict arg) (extras : list str) (rest : list word_) | Stop (o : outcome).

(** 1966-1986 [take_action]; an option that takes a text always has one here *)
Definition take_action (o : option_) (value : option str) (ns : dict arg) : dict arg + outcome :=
  match o_kind o, value with
  | Flag, _ => inl (dset (o_dest o) (AFlag true) ns)
  | Help, _ => inr Helped
  | Takes _, Some v => inl (dset (o_dest o) (AText v) ns)
  | Takes _, None => inr (Crashed ValueError)
  end.
Fixpoint take_actions (l : list (option_ * option str)) (ns : dict arg) : dict arg + outcome :=
  match l with
  | [] => inl ns
  | (o, v) :: l' => match take_action o v ns with inl ns' => take_actions l' ns' | inr e => inr e end
  end.
(** 2046-2068: the option takes the next word, or nothing *)
Definition from_words (o : option_) (rest : list word_) : (list (option_ * option str) * list word_) + refusal :=
  match o_kind o with
  | Takes _ => match rest with
               | (v, Some Argument) :: rest' => inl ([(o, Some v)], rest')
               | _ => inr (ExpectedOneArgument o)
               end
  | _ => inl ([(o, None)], rest)
  end.
(** 2002-2053 the loop of [consume_optional] for a value in the same word: the actions, a word nobody knows *)
Fixpoint from_value (p : list option_) (rest : list word_) (o : option_) (name : str) (sep : bool) (value : str)
    : (list (option_ * option str) * list str * list word_) + refusal :=
  match o_kind o with
  | Takes _ => inl ([(o, Some value)], [], rest)
  | _ =>
      match value with
      | c :: value' =>
          if Ascii.eqb (nth 1 name "-"%char) "-" then inr (IgnoredExplicitArgument o value)
          else if sep || Ascii.eqb c "-" then inr (IgnoredExplicitArgument o value)
          else match dget ["-"%char; c] (actions p) with
          | Some o' =>
              match (match value' with
                     | [] => match from_words o' rest with inl (l, rest') => inl (l, [], rest') | inr e => inr e end
                     | e :: value'' =>
                         if Ascii.eqb e "=" then from_value p rest o' ["-"%char; c] true value''
                         else from_value p rest o' ["-"%char; c] false value'
                     end) with
              | inl (l, extras, rest') => inl ((o, None) :: l, extras, rest')
              | inr e => inr e
              end
          | None => inl ([(o, None)], ["-"%char :: value], rest)
          end
      | [] => inr (IgnoredExplicitArgument o value)
      end
  end.
(** 1989-2075 [consume_optional] *)
Definition consume_optional (p : list option_) (o : option_) (name : str) (explicit : option (bool * str)) (ns : dict arg) (extras : list str) (rest : list word_) : step :=
  match (match explicit with
         | Some (sep, v) => from_value p rest o name sep v
         | None => match from_words o rest with inl (l, rest') => inl (l, [], rest') | inr e => inr e end
         end) with
  | inr e => Stop (Refused e)
  | inl (l, more, rest') => match take_actions l ns with inl ns' => Next ns' (extras ++ more) rest' | inr e => Stop e end
  end.
(** 2098-2140 the loop; there are no positional arguments, so other words are left over *)
Fixpoint consume (fuel : nat) (p : list option_) (ns : dict arg) (extras : list str) (ws : list word_) : outcome :=
  match fuel, ws with
  | _, [] => match extras with [] => Parsed ns | _ => Refused (Unrecognized extras) end
  | 0, _ => Crashed OutOfFuel
  | S fuel', (w, r) :: ws' =>
      match r with
      | Some (Option o name explicit) =>
          match consume_optional p o name explicit ns extras ws' with
          | Next ns' extras' ws'' => consume fuel' p ns' extras' ws''
          | Stop e => e
          end
      | _ => consume fuel' p ns (extras ++ [w]) ws'
      end
  end.
(** 1883-1890 the namespace at the beginning *)
Definition defaults (p : list option_) : dict arg :=
  flat_map (fun o => match o_kind o with Flag => [(o_dest o, AFlag false)] | Takes v => [(o_dest o, v)] | Help => [] end) p.
(** 1862-1916 [parse_args]: a word is read once, so as many rounds as there are words are enough *)
Definition parse_args (p : list option_) (ws : list str) : outcome :=
  match classify p ws with
  | inr e => Refused e
  | inl l => consume (length l) p (defaults p) [] l
  end.

(** ** The tools with their command lines *)
(** [args.name] *)
Definition text_at (ns : dict arg) (n : str) : option str := match dget n ns with Some (AText s) => Some s | _ => None end.
Definition flag_at (ns : dict arg) (n : str) : bool := match dget n ns with Some (AFlag b) => b | _ => false end.
Definition convert_args_of (ns : dict arg) : convert_args :=
  {| version := flag_at ns ($"version"); empty := flag_at ns ($"empty"); from_ddl := text_at ns ($"from_ddl"); to_tql := text_at ns ($"to_tql");
     from_ts := text_at ns ($"from_ts"); to_ts := text_at ns ($"to_ts"); username := py_text (text_at ns ($"username"));
     password := py_text (text_at ns ($"password")); from_excel := text_at ns ($"from_excel"); to_excel := text_at ns ($"to_excel");
     db_option := text_at ns ($"database"); schema_option := py_text (text_at ns ($"schema")); create_db := flag_at ns ($"create_db");
     lower_option := flag_at ns ($"lowercase"); upper_option := flag_at ns ($"uppercase"); camel_option := flag_at ns ($"camelcase");
     validate_option := flag_at ns ($"validate"); debug := flag_at ns ($"debug") |}.
Definition diff_args_of (ns : dict arg) : diff_args :=
  {| ddl1 := text_at ns ($"ddl1"); ddl2 := text_at ns ($"ddl2"); database1 := py_text (text_at ns ($"database")); schema1 := py_text (text_at ns ($"schema"));
     alter1 := flag_at ns ($"alter1"); alter2 := flag_at ns ($"alter2"); ignore_case := flag_at ns ($"ignore_case") |}.
Definition review_args_of (ns : dict arg) : review_args :=
  {| r_version := flag_at ns ($"version"); show_tests := flag_at ns ($"show_tests"); database_file := text_at ns ($"database_file");
     worksheet_file := text_at ns ($"worksheet_file"); ts_ip := text_at ns ($"ts_ip"); r_username := py_text (text_at ns ($"username"));
     r_password := py_text (text_at ns ($"password")); r_database := text_at ns ($"database"); r_debug := flag_at ns ($"debug");
     config_file := text_at ns ($"config_file") |}.
(** [main] with [parse_args]: [--help] and refusals end the tool *)
Definition with_args (p : list option_) (help : str) (usage : refusal -> str) (main : dict arg -> cli unit) (ws : list str) : cli unit :=
  match parse_args p ws with
  | Parsed ns => main ns
  | Helped => print help
  | Refused r => eprint (usage r)
  | Crashed e => fails e
  end.
Definition convert_main (H : host) (message : xls_message -> str) (help : str) (usage : refusal -> str) : list str -> cli unit :=
  with_args convert_parser help usage (fun ns => convert H message (convert_args_of ns)).
Definition diff_main (H : host) (help : str) (usage : refusal -> str) : list str -> cli unit :=
  with_args diff_parser help usage (fun ns => ddldiff H (diff_args_of ns)).
(** ddltools/review_model.py:40-46 [main]; [print_help] and [--help] print the same text *)
Definition review_main (H : host) (order : list str -> list str) (rnd : Q -> Q) (commas : setting -> str) (float_str : Q -> str) (fuel : nat)
    (safe_load : str -> result yaml) (queries : str -> str -> str -> oracle) (help : str) (documented : list (str * list str * option str))
    (usage : refusal -> str) : list str -> cli unit :=
  with_args review_parser help usage (fun ns => review_tool H order rnd commas float_str fuel safe_load queries help documented (review_args_of ns)).
