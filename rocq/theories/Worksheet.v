(** * dt/model.py: worksheets, and dt/io.py: YAMLWorksheetReader

    [yaml.safe_load] is not modelled: the reader is given the value it returns.  Keys of maps are
    texts; dates and other YAML types do not occur. *)
From Coq Require Export QArith.
From Verif Require Export Parser.
Open Scope nat_scope.

Inductive yaml :=
| YNull | YBool (b : bool) | YNum (q : Q) | YStr (s : str) | YList (l : list yaml) | YMap (m : dict yaml).

(** [if v:] *)
Definition truthy (v : yaml) : bool :=
  match v with
  | YNull => false
  | YBool b => b
  | YNum q => negb (Qeq_bool q 0)
  | YStr s => negb (str_eqb s [])
  | YList l => match l with [] => false | _ => true end
  | YMap m => match m with [] => false | _ => true end
  end.
(** [v[key]] *)
Definition item (v : yaml) (key : str) : result yaml :=
  match v with
  | YMap m => match dget key m with Some x => Ok x | None => Err KeyError end
  | _ => Err TypeError
  end.
(** [v.get(key, default)] *)
Definition get_item (v : yaml) (key : str) (default : yaml) : result yaml :=
  match v with
  | YMap m => Ok (match dget key m with Some x => x | None => default end)
  | _ => Err AttributeError
  end.
(** [for x in v] *)
Definition elements (v : yaml) : result (list yaml) :=
  match v with
  | YList l => Ok l
  | YMap m => Ok (map YStr (dkeys m))
  | YStr s => Ok (map (fun c => YStr [c]) s)
  | _ => Err TypeError
  end.

(** dt/model.py:913-928 [WorksheetTable] *)
Record ws_table := { wt_name : yaml; wt_type : yaml }.
Definition mk_ws_table (name type : yaml) : result ws_table :=
  if negb (truthy name) then Err AssertionError
  else match type with
       | YStr s => if str_in s [$"table"; $"alias"; $"fqn"] then Ok {| wt_name := name; wt_type := type |} else Err AssertionError
       | _ => Err AssertionError
       end.
(** dt/model.py:931-952 [WorksheetJoin] *)
Record ws_join := { wj_name : yaml; wj_source : yaml; wj_destination : yaml; wj_type : yaml; wj_one_to_one : yaml }.
(** dt/model.py:955-975 [WorksheetTablePath] *)
Record ws_path := { wp_id : yaml; wp_table : yaml; wp_joins : list yaml }.
(** dt/model.py:978-996 [WorksheetFormula] *)
Record ws_formula := { wf_name : yaml; wf_expression : yaml; wf_id : yaml }.
Definition mk_ws_formula (name expression formula_id : yaml) : result ws_formula :=
  if negb (truthy name) then Err AssertionError
  else if negb (truthy expression) then Err AssertionError
  else Ok {| wf_name := name; wf_expression := expression; wf_id := formula_id |}.
(** dt/model.py:999-1051 [WorksheetColumn] *)
Record ws_column := { wc_name : yaml; wc_id : yaml; wc_properties : dict yaml; wc_is_formula : bool }.
Definition mk_ws_column (name column_id : yaml) (properties : dict yaml) (is_formula : bool) : result ws_column :=
  if negb (truthy name) then Err AssertionError
  else Ok {| wc_name := name; wc_id := column_id; wc_properties := properties; wc_is_formula := is_formula |}.

(** [s.split(p)] for a [p] that is not empty *)
Fixpoint split_fuel (fuel : nat) (p s : str) : list str :=
  match fuel, find_opt p s with
  | S fuel', Some n => firstn n s :: split_fuel fuel' p (skipn (n + length p) s)
  | _, _ => [s]
  end.
Definition split_text (p s : str) : list str := split_fuel (length s) p s.

(** dt/model.py:1022-1040 [get_path] and [get_source]: the part with the given number *)
Definition id_part (c : ws_column) (n : nat) : result (option str) :=
  if wc_is_formula c then Ok None
  else match wc_id c with
       | YStr s => match nth_error (split_text ($"::") s) n with Some x => Ok (Some x) | None => Err IndexError end
       | _ => Err AttributeError
       end.
Definition get_path (c : ws_column) : result (option str) := id_part c 0.
Definition get_source (c : ws_column) : result (option str) := id_part c 1.
(** dt/model.py:1042-1051 [get_property] *)
Definition get_property (c : ws_column) (name : str) : option yaml := dget name (wc_properties c).

(** dt/model.py:1054-1077 [Worksheet] *)
Record worksheet := {
  ws_name : yaml; ws_description : yaml; ws_properties : dict yaml;
  ws_tables : list ws_table; ws_joins : list ws_join; ws_paths : list ws_path;
  ws_formulas : list ws_formula; ws_columns : list ws_column }.
(** dt/model.py:1057-1077 [Worksheet.__init__]; properties that are no map are refused, which simplifies
    what [dict] accepts *)
Definition mk_worksheet (name description properties : yaml) : result worksheet :=
  if negb (truthy name) then Err AssertionError
  else
    p <- (if truthy properties then match properties with YMap m => Ok m | _ => Err TypeError end else Ok []) ;;
    Ok {| ws_name := name; ws_description := if truthy description then description else YStr [];
          ws_properties := p; ws_tables := []; ws_joins := []; ws_paths := []; ws_formulas := []; ws_columns := [] |}.
(** dt/model.py:1079-1087, 1111-1119, 1129-1157 [add_table] and so on *)
Definition ws_add_table (w : worksheet) (t : ws_table) : worksheet :=
  {| ws_name := ws_name w; ws_description := ws_description w; ws_properties := ws_properties w; ws_tables := ws_tables w ++ [t];
     ws_joins := ws_joins w; ws_paths := ws_paths w; ws_formulas := ws_formulas w; ws_columns := ws_columns w |}.
Definition ws_add_join (w : worksheet) (j : ws_join) : worksheet :=
  {| ws_name := ws_name w; ws_description := ws_description w; ws_properties := ws_properties w; ws_tables := ws_tables w;
     ws_joins := ws_joins w ++ [j]; ws_paths := ws_paths w; ws_formulas := ws_formulas w; ws_columns := ws_columns w |}.
Definition ws_add_table_path (w : worksheet) (p : ws_path) : worksheet :=
  {| ws_name := ws_name w; ws_description := ws_description w; ws_properties := ws_properties w; ws_tables := ws_tables w;
     ws_joins := ws_joins w; ws_paths := ws_paths w ++ [p]; ws_formulas := ws_formulas w; ws_columns := ws_columns w |}.
Definition ws_add_formula (w : worksheet) (f : ws_formula) : worksheet :=
  {| ws_name := ws_name w; ws_description := ws_description w; ws_properties := ws_properties w; ws_tables := ws_tables w;
     ws_joins := ws_joins w; ws_paths := ws_paths w; ws_formulas := ws_formulas w ++ [f]; ws_columns := ws_columns w |}.
Definition ws_add_column (w : worksheet) (c : ws_column) : worksheet :=
  {| ws_name := ws_name w; ws_description := ws_description w; ws_properties := ws_properties w; ws_tables := ws_tables w;
     ws_joins := ws_joins w; ws_paths := ws_paths w; ws_formulas := ws_formulas w; ws_columns := ws_columns w ++ [c] |}.
(** dt/model.py:1097-1109 [get_table], asked for a text *)
Definition ws_get_table (w : worksheet) (name : str) : result (option ws_table) :=
  if str_eqb name [] then Err AssertionError
  else Ok (List.find (fun t => match wt_name t with YStr s => str_eqb s name | _ => false end) (ws_tables w)).

(** the loops of the reader *)
Fixpoint each (f : worksheet -> yaml -> result worksheet) (w : worksheet) (l : list yaml) : result worksheet :=
  match l with
  | [] => Ok w
  | v :: l' => w' <- f w v ;; each f w' l'
  end.

(** dt/io.py:1365-1366 *)
Definition read_ws_table (w : worksheet) (t : yaml) : result worksheet :=
  name <- item t ($"name") ;;
  type <- get_item t ($"type") (YStr ($"table")) ;;
  r <- mk_ws_table name type ;;
  Ok (ws_add_table w r).
(** dt/io.py:1368-1370 *)
Definition read_ws_join (w : worksheet) (j : yaml) : result worksheet :=
  name <- item j ($"name") ;;
  source <- item j ($"source") ;;
  destination <- item j ($"destination") ;;
  type <- item j ($"type") ;;
  one <- item j ($"is_one_to_one") ;;
  Ok (ws_add_join w {| wj_name := name; wj_source := source; wj_destination := destination; wj_type := type; wj_one_to_one := one |}).
(** dt/io.py:1374-1377 *)
Fixpoint read_join_path (acc : list yaml) (l : list yaml) : result (list yaml) :=
  match l with
  | [] => Ok acc
  | jp :: l' =>
      joins <- get_item jp ($"join") YNull ;;
      if truthy joins then e <- elements joins ;; read_join_path (acc ++ e) l' else read_join_path acc l'
  end.
(** dt/io.py:1372-1379 *)
Definition read_ws_path (w : worksheet) (tp : yaml) : result worksheet :=
  jps <- item tp ($"join_path") ;;
  l <- elements jps ;;
  joins <- read_join_path [] l ;;
  id <- item tp ($"id") ;;
  table <- item tp ($"table") ;;
  Ok (ws_add_table_path w {| wp_id := id; wp_table := table; wp_joins := joins |}).
(** dt/io.py:1383-1384 *)
Definition read_ws_formula (w : worksheet) (f : yaml) : result worksheet :=
  name <- item f ($"name") ;;
  expr <- item f ($"expr") ;;
  id <- get_item f ($"id") YNull ;;
  r <- mk_ws_formula name expr id ;;
  Ok (ws_add_formula w r).
(** dt/io.py:1381-1386: a [KeyError] ends the loop and is ignored *)
Fixpoint read_formulas (w : worksheet) (l : list yaml) : result worksheet :=
  match l with
  | [] => Ok w
  | f :: l' => match read_ws_formula w f with
               | Ok w' => read_formulas w' l'
               | Err KeyError => Ok w
               | Err e => Err e
               end
  end.
Definition read_ws_formulas (w : worksheet) (ws_yaml : yaml) : result worksheet :=
  match item ws_yaml ($"formulas") with
  | Ok v => l <- elements v ;; read_formulas w l
  | Err KeyError => Ok w
  | Err e => Err e
  end.
(** dt/io.py:1388-1402 *)
Definition read_ws_column (w : worksheet) (c : yaml) : result worksheet :=
  p <- item c ($"properties") ;;
  props <- match p with YMap m => Ok (fold_left (fun d kv => dset (fst kv) (snd kv) d) m []) | _ => Err AttributeError end ;;
  cid <- get_item c ($"column_id") YNull ;;
  ' (id, is_formula) <-
    (if truthy cid then Ok (cid, false)
     else fid <- get_item c ($"formula_id") YNull ;; Ok (fid, truthy fid)) ;;
  name <- item c ($"name") ;;
  r <- mk_ws_column name id props is_formula ;;
  Ok (ws_add_column w r).

(** dt/io.py:1351-1404 [YAMLWorksheetReader.create_worksheet] *)
Definition create_worksheet (doc : yaml) : result worksheet :=
  ws_yaml <- item doc ($"worksheet") ;;
  name <- item ws_yaml ($"name") ;;
  description <- get_item ws_yaml ($"description") YNull ;;
  properties <- item ws_yaml ($"properties") ;;
  w <- mk_worksheet name description properties ;;
  tables <- item ws_yaml ($"tables") ;;
  lt <- elements tables ;;
  w <- each read_ws_table w lt ;;
  joins <- item ws_yaml ($"joins") ;;
  lj <- elements joins ;;
  w <- each read_ws_join w lj ;;
  paths <- item ws_yaml ($"table_paths") ;;
  lp <- elements paths ;;
  w <- each read_ws_path w lp ;;
  w <- read_ws_formulas w ws_yaml ;;
  columns <- item ws_yaml ($"worksheet_columns") ;;
  lc <- elements columns ;;
  each read_ws_column w lc.
(** dt/io.py:1345-1347: the text of a file as it is handed to [yaml.safe_load] *)
Definition worksheet_text (content : str) : str := join ($" ") (file_lines (universal_newlines content)).
(** dt/io.py:1336-1349 [read_from_file] for the content of a file that can be read; [safe_load] is
    arbitrary *)
Definition read_worksheet (safe_load : str -> result yaml) (content : str) : result worksheet :=
  doc <- safe_load (worksheet_text content) ;; create_worksheet doc.
