(** * What a command line means

    Only the types of [Args.v] are used ([option_], [kind], [arg]), none of its functions. *)
From Verif Require Import Args.

(** ** The options that can be declared *)
(** A name is a dash and a letter, or two dashes and a text.  Names and destinations are different, and
    there are at least two long names. *)
Definition short_name (n : str) : Prop := exists c, n = ["-"%char; c] /\ c <> "-"%char /\ c <> "="%char.
Definition long_name (n : str) : Prop := exists x, n = $"--" ++ x /\ x <> [] /\ ~ In "="%char x.
Definition all_names (p : list option_) : list str := flat_map o_names p.
Record declared (p : list option_) : Prop := {
  dp_names : NoDup (all_names p);
  dp_dests : NoDup (map o_dest p);
  dp_forms : forall n, In n (all_names p) -> short_name n \/ long_name n;
  dp_two : exists n m, In n (all_names p) /\ In m (all_names p) /\ long_name n /\ long_name m /\ n <> m }.

Definition is_flag (o : option_) : Prop := o_kind o = Flag.
Definition takes_text (o : option_) : Prop := exists d, o_kind o = Takes d.
Definition is_help (o : option_) : Prop := o_kind o = Help.

(** ** Words *)
Definition begins (w n : str) : Prop := exists x, n = w ++ x.
(** the long word [w] names [o]: exactly, or as the beginning of only one name *)
Definition names_long (p : list option_) (w : str) (o : option_) : Prop :=
  begins ($"--") w /\ w <> $"--" /\ In o p
  /\ (In w (o_names o)
      \/ (~ In w (all_names p)
          /\ exists n, In n (o_names o) /\ begins w n /\ forall m, In m (all_names p) -> begins w m -> m = n)).
Definition names_short (p : list option_) (c : ascii) (o : option_) : Prop := In o p /\ In ["-"%char; c] (o_names o).

Definition digit (c : ascii) : Prop := 48 <= nat_of_ascii c <= 57.
(** a negative number, for argparse: it may end with a line break *)
Definition number (s : str) : Prop :=
  exists a e, (e = [] \/ e = [newline]) /\ s = "-"%char :: a ++ e
    /\ ((a <> [] /\ Forall digit a) \/ exists b c, a = b ++ $"." ++ c /\ Forall digit b /\ c <> [] /\ Forall digit c).
(** The words that can be the text of an option in a word of its own: those without a dash in front, a dash
    alone, and numbers and words with a blank that are not taken for an option. *)
Definition looks_like_option (p : list option_) (w : str) : Prop :=
  (exists c x o, w = "-"%char :: c :: x /\ names_short p c o)
  \/ (exists x, begins ($"--") w /\ (w = x \/ exists v, w = x ++ $"=" ++ v) /\ ~ In "="%char x /\ exists n, In n (all_names p) /\ begins x n).
Definition text_word (p : list option_) (w : str) : Prop :=
  ~ begins ($"-") w \/ w = $"-" \/ ((number w \/ In " "%char w) /\ ~ looks_like_option p w).

(** what a part of a command line sets: an option, and its text unless it is a flag *)
Definition setting_ := (option_ * option str)%type.
(** the letters after a single dash: flags, the last letter may be an option with its text after it, after
    an equals sign, or in the next word *)
Inductive letters (p : list option_) : str -> list str -> list setting_ -> Prop :=
| let_flag c o : names_short p c o -> is_flag o -> letters p [c] [] [(o, None)]
| let_more c o s ws l : names_short p c o -> is_flag o -> letters p s ws l -> letters p (c :: s) ws ((o, None) :: l)
| let_next c o v : names_short p c o -> takes_text o -> text_word p v -> letters p [c] [v] [(o, Some v)]
| let_equals c o v : names_short p c o -> takes_text o -> letters p (c :: "="%char :: v) [] [(o, Some v)]
| let_joined c o v : names_short p c o -> takes_text o -> v <> [] -> ~ begins ($"=") v -> letters p (c :: v) [] [(o, Some v)].
Inductive item (p : list option_) : list str -> list setting_ -> Prop :=
| it_letters s ws l : letters p s ws l -> item p (("-"%char :: s) :: ws) l
| it_flag w o : names_long p w o -> is_flag o -> item p [w] [(o, None)]
| it_text w o v : names_long p w o -> takes_text o -> text_word p v -> item p [w; v] [(o, Some v)]
| it_equals w o v : names_long p w o -> takes_text o -> item p [w ++ $"=" ++ v] [(o, Some v)].
(** a command line and what it sets, from left to right *)
Inductive line (p : list option_) : list str -> list setting_ -> Prop :=
| li_none : line p [] []
| li_more ws l ws' l' : item p ws l -> line p ws' l' -> line p (ws ++ ws') (l ++ l').

(** ** The values *)
(** Every option has its last text, or its default; a flag is on if it is set. *)
Definition last_text (l : list setting_) (dest : str) : option str :=
  fold_left (fun r s => if str_eqb (o_dest (fst s)) dest then snd s else r) l None.
Definition value_of (o : option_) (l : list setting_) : list (str * arg) :=
  match o_kind o with
  | Flag => [(o_dest o, AFlag (existsb (fun s => str_eqb (o_dest (fst s)) (o_dest o)) l))]
  | Takes d => [(o_dest o, match last_text l (o_dest o) with Some v => AText v | None => d end)]
  | Help => []
  end.
Definition values (p : list option_) (l : list setting_) : list (str * arg) := flat_map (fun o => value_of o l) p.

(** the options that are given a text, as often as they are *)
Definition texts (l : list setting_) : list str :=
  flat_map (fun s => match snd s with Some _ => [o_dest (fst s)] | None => [] end) l.

(** ** Words that are never accepted *)
(** [w], or what is before its equals sign, is the beginning of several names and not a name itself *)
Definition ambiguous (p : list option_) (w : str) : Prop :=
  w <> $"--" /\ exists x, (w = x \/ exists v, w = x ++ $"=" ++ v) /\ ~ In "="%char x /\ begins ($"--") x /\ ~ In x (all_names p)
    /\ exists n m, In n (all_names p) /\ In m (all_names p) /\ n <> m /\ begins x n /\ begins x m.
(** the elements of a list in their order, some left out *)
Inductive left_out : list str -> list str -> Prop :=
| lo_none : left_out [] []
| lo_keep n l m : left_out l m -> left_out (n :: l) (n :: m)
| lo_drop n l m : left_out l m -> left_out l (n :: m).
(** a word with a dash in front that is neither a text nor looks like an option *)
Definition unknown (p : list option_) (w : str) : Prop := ~ text_word p w /\ ~ looks_like_option p w.

(** ** The values of the tools *)
Definition on (l : list setting_) (dest : string) : bool := existsb (fun s => str_eqb (o_dest (fst s)) ($dest)) l.
Definition text (l : list setting_) (dest : string) : option str := last_text l ($dest).
Definition text_or (l : list setting_) (dest default : string) : str := match text l dest with Some v => v | None => $default end.
Definition convert_values (l : list setting_) : convert_args :=
  {| version := on l "version"; empty := on l "empty"; from_ddl := text l "from_ddl"; to_tql := text l "to_tql"; from_ts := text l "from_ts"; to_ts := text l "to_ts";
     username := text_or l "username" "admin"; password := text_or l "password" "th0ughtSp0t"; from_excel := text l "from_excel"; to_excel := text l "to_excel";
     db_option := text l "database"; schema_option := text_or l "schema" "falcon_default_schema"; create_db := on l "create_db"; lower_option := on l "lowercase";
     upper_option := on l "uppercase"; camel_option := on l "camelcase"; validate_option := on l "validate"; debug := on l "debug" |}.
Definition diff_values (l : list setting_) : diff_args :=
  {| ddl1 := text l "ddl1"; ddl2 := text l "ddl2"; database1 := text_or l "database" "MY_DATABASE"; schema1 := text_or l "schema" "falcon_default_schema";
     alter1 := on l "alter1"; alter2 := on l "alter2"; ignore_case := on l "ignore_case" |}.
Definition review_values (l : list setting_) : review_args :=
  {| r_version := on l "version"; show_tests := on l "show_tests"; database_file := text l "database_file"; worksheet_file := text l "worksheet_file"; ts_ip := text l "ts_ip";
     r_username := text_or l "username" "admin"; r_password := text_or l "password" "th0ughtSp0t"; r_database := text l "database"; r_debug := on l "debug";
     config_file := text l "config_file" |}.

(** ** The documentation *)
(** The usage in README.md:31-36 and 71-73 (with the long forms of lines 38-63), and the list of
    README.md:173-188: the names of the options and whether a text follows *)
Definition readme_convert : list (list str * bool) :=
  [([$"-h"; $"--help"], false); ([$"--version"], false); ([$"--empty"], false); ([$"--from_ddl"], true); ([$"--to_tql"], true); ([$"--from_ts"], true);
   ([$"--to_ts"], true); ([$"--username"], true); ([$"--password"], true); ([$"--from_excel"], true); ([$"--to_excel"], true); ([$"-d"; $"--database"], true);
   ([$"-s"; $"--schema"], true); ([$"-c"; $"--create_db"], false); ([$"-l"; $"--lowercase"], false); ([$"-u"; $"--uppercase"], false); ([$"--camelcase"], false);
   ([$"-v"; $"--validate"], false); ([$"--debug"], false)].
Definition readme_diff : list (list str * bool) :=
  [([$"-h"; $"--help"], false); ([$"--ddl1"], true); ([$"--ddl2"], true); ([$"--database"], true); ([$"--schema"], true); ([$"--alter1"], false);
   ([$"--alter2"], false); ([$"--ignore_case"], false)].
Definition readme_review : list (list str * bool) :=
  [([$"-h"; $"--help"], false); ([$"--version"], false); ([$"--show_tests"], false); ([$"--database_file"], true); ([$"--worksheet_file"], true); ([$"--ts_ip"], true);
   ([$"--username"], true); ([$"--password"], true); ([$"-d"; $"--database"], true); ([$"--debug"], false)].
Definition usage_of (o : option_) : list str * bool := (o_names o, match o_kind o with Takes _ => true | _ => false end).
(** README.md:254 the sample command for a model in a cluster *)
Definition readme_sample (ip user password database : str) : list str :=
  [$"--ts_url"; ip; $"--username"; user; $"--password"; password; $"--database"; database].
