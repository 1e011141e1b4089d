(** * dt/review/review_tests.py: reviews that ask the data

    The remote TQL connection (pytql) is an arbitrary answering machine. *)
From Verif Require Export ReviewGraph Worksheet Generator.

(** a row of an answer: [row.get_column(name)]; columns are texts or fail *)
Definition row := str -> result str.
(** [rtql.execute_tql_query(query)], which may depend on the queries before *)
Definition oracle := list str -> str -> result (list row).
(** An action: given the queries asked so far, its result and the queries asked then *)
Definition act (A : Type) := list str -> result A * list str.
Definition ret {A} (r : result A) : act A := fun h => (r, h).
Definition abind {A B} (a : act A) (f : A -> act B) : act B :=
  fun h => match a h with (Ok x, h') => f x h' | (Err e, h') => (Err e, h') end.
Notation "x <~ e1 ;; e2" := (abind e1 (fun x => e2)) (at level 61, e1 at next level, right associativity).

(** [issues.append] where [b] *)
Definition when (b : bool) (issue : str) : list str := if b then [issue] else [].

(** dt/review/review_tests.py:201-203; the ratio is the double nearest to 0.01 *)
Definition MAX_ROWS_PER_SHARD : Q := 50000000.
Definition MIN_ROWS_PER_SHARD : Q := 20000000.
Definition MIN_SKEW_RATIO : Q := 5764607523034235 # 576460752303423488.

Section Data.
Variable ask : oracle.
(** [rtql.execute_tql_query(query)] *)
Definition query (q : str) : act (list row) := fun h => (ask h q, h ++ [q]).

Section Sharding.
(** Floating point numbers are rationals; [rnd] rounds to one ([OverflowError] is not modelled).
    [commas] and [float_str] format a number with [:,] and by default. *)
Variable rnd : Q -> Q.
Variable commas : setting -> str.
Variable float_str : Q -> str.

(** [a / b] on integers *)
Definition rows_per_shard (rows shards : Z) : result Q :=
  if (shards =? 0)%Z then Err ZeroDivisionError else Ok (rnd (inject_Z rows / inject_Z shards)%Q).
(** dt/review/review_tests.py:252 *)
Definition skew_ratio (skew rows shards : Z) : result Q :=
  if (0 <? rows)%Z then
    per <- rows_per_shard rows shards ;;
    if Qeq_bool per 0 then Err ZeroDivisionError else Ok (rnd (rnd (inject_Z skew) / per)%Q)
  else Ok 0%Q.

(** dt/review/review_tests.py:237-254; [name] is the full name of the table *)
Definition shard_issues (max min skew_limit : setting) (name : str) (rows shards skew : Z) : result (list str) :=
  if (shards =? 1)%Z then
    big <- above (inject_Z rows) max ;;
    Ok (when big (name ++ $" is not sharded and has more than " ++ commas max ++ $" rows total"))
  else
    per <- rows_per_shard rows shards ;;
    few <- below per min ;;
    many <- (if few then Ok false else above per max) ;;
    ratio <- skew_ratio skew rows shards ;;
    high <- above ratio skew_limit ;;
    Ok (when few (name ++ $" is sharded and has less than " ++ commas min ++ $" rows per shard")
        ++ when many (name ++ $" is sharded and has more than " ++ commas max ++ $" rows per shard")
        ++ when high (name ++ $" has a high skew of " ++ float_str ratio)).
(** [int(row.get_column(name))] *)
Definition int_column (r : row) (name : str) : result Z := s <- r name ;; py_int s.
(** dt/review/review_tests.py:229-254 *)
Fixpoint shard_rows (max min skew_limit : setting) (database_name : str) (rows : list row) : result (list str) :=
  match rows with
  | [] => Ok []
  | r :: rows' =>
      dbn <- r ($"Database Name") ;;
      issues <- (if str_eqb dbn database_name then
                   schema <- r ($"Schema Name") ;;
                   table <- r ($"Table Name") ;;
                   total <- int_column r ($"Total Row Count") ;;
                   shards <- int_column r ($"Total Shards") ;;
                   skew <- int_column r ($"Row Count Skew") ;;
                   shard_issues max min skew_limit (database_name ++ $"." ++ schema ++ $"." ++ table) total shards skew
                 else Ok []) ;;
      rest <- shard_rows max min skew_limit database_name rows' ;;
      Ok (issues ++ rest)
  end.
(** dt/review/review_tests.py:206-256 [review_sharding] *)
Definition review_sharding (d : database) (c : settings) : act (list str) :=
  rows <~ query ($"show statistics for server;") ;;
  ret (shard_rows (limit c ($"max_rows_per_shard") MAX_ROWS_PER_SHARD) (limit c ($"min_rows_per_shard") MIN_ROWS_PER_SHARD)
                  (limit c ($"min_skew_ratio") MIN_SKEW_RATIO) (db_name d) rows).
End Sharding.

(** dt/review/review_tests.py:277-287 [QueryParts] *)
Record query_parts := {
  q_name : str; q_from_db : str; q_from_schema : str; q_from_table : str; q_to_db : str; q_to_schema : str; q_to_table : str;
  q_from_cols : list str; q_to_cols : list str; q_condition : str }.

(** dt/review/review_tests.py:368-373 *)
Fixpoint fk_condition (first : bool) (from_table to_table : str) (from_keys to_keys : list str) : result str :=
  match from_keys with
  | [] => Ok []
  | a :: from_keys' =>
      match to_keys with
      | [] => Err IndexError
      | b :: to_keys' =>
          rest <- fk_condition false from_table to_table from_keys' to_keys' ;;
          Ok ((if first then [] else $" AND ") ++ quoted from_table ++ $"." ++ quoted a ++ $" = "
              ++ quoted to_table ++ $"." ++ quoted b ++ $")" ++ rest)
      end
  end.
(** dt/review/review_tests.py:375-381, 426-432 *)
Definition probe_columns (t : table) : list str := match t_pk t with [] => dkeys (t_cols t) | pk => pk end.
(** dt/review/review_tests.py:383-394, 434-451 *)
Definition make_parts (d : database) (name : str) (from_table to_table : table) (condition : str) : query_parts :=
  {| q_name := name; q_from_db := db_name d; q_from_schema := t_schema from_table; q_from_table := t_name from_table;
     q_to_db := db_name d; q_to_schema := t_schema to_table; q_to_table := t_name to_table;
     q_from_cols := probe_columns from_table; q_to_cols := probe_columns to_table; q_condition := condition |}.
(** dt/review/review_tests.py:359-394 [get_fk_join_parts] *)
Definition get_fk_join_parts (d : database) (from_table : table) (fk : foreign_key) : result query_parts :=
  match get_table d (fk_to_table fk) with
  | None => Err AttributeError
  | Some to_table =>
      c <- fk_condition true (t_name from_table) (t_name to_table) (fk_from_keys fk) (fk_to_keys fk) ;;
      Ok (make_parts d (fk_name fk) from_table to_table (repeat "("%char (length (fk_from_keys fk)) ++ c))
  end.
(** dt/review/review_tests.py:397-451 [get_rel_join_parts] *)
Definition get_rel_join_parts (d : database) (from_table : table) (r : relationship) : result query_parts :=
  match get_table d (rel_to_table r) with
  | None => Err AttributeError
  | Some to_table => Ok (make_parts d (rel_name r) from_table to_table (rel_conditions r))
  end.

(** dt/review/review_tests.py:454-488, 510-543: the query for the group table [g] (with its database and
    schema), grouped by [cols], that counts [counted] in the other table [o] *)
Definition cardinality_query (g_db g_schema g : str) (cols : list str) (o_db o_schema o : str) (counted : list str) (condition : str) : result str :=
  let group_db := quoted g_db ++ $"." ++ quoted g_schema in
  let other_db := quoted o_db ++ $"." ++ quoted o_schema in
  let table_columns := join ($",") (map (fun c => group_db ++ $"." ++ quoted g ++ $"." ++ quoted c) cols) in
  let group_columns := join ($",") (map (fun c => quoted g ++ $"." ++ quoted c) cols) in
  match counted with
  | [] => Err IndexError
  | c0 :: _ =>
      let count_column := other_db ++ $"." ++ quoted o ++ $"." ++ quoted c0 in
      Ok ($"select " ++ table_columns ++ $", " ++ $"count(" ++ count_column ++ $") as c1 "
          ++ $"from " ++ group_db ++ $"." ++ quoted g ++ $", " ++ other_db ++ $"." ++ quoted o ++ $" "
          ++ $"where " ++ condition ++ $" " ++ $"group by " ++ group_columns ++ $" " ++ $"order by c1 desc limit 1" ++ $";")
  end.
(** dt/review/review_tests.py:454-488 [get_to_table_cardinality_query] *)
Definition get_to_table_cardinality_query (p : query_parts) : result str :=
  cardinality_query (q_from_db p) (q_from_schema p) (q_from_table p) (q_from_cols p)
                    (q_to_db p) (q_to_schema p) (q_to_table p) (q_to_cols p) (q_condition p).
(** dt/review/review_tests.py:510-543 [get_from_table_cardinality_query] *)
Definition get_from_table_cardinality_query (p : query_parts) : result str :=
  cardinality_query (q_to_db p) (q_to_schema p) (q_to_table p) (q_to_cols p)
                    (q_from_db p) (q_from_schema p) (q_from_table p) (q_from_cols p) (q_condition p).

(** dt/review/review_tests.py:491-507 [query_for_cardinality]: no exception gets out *)
Definition query_for_cardinality (q : str) : act Z := fun h =>
  let count := match ask h q with
               | Ok (r :: _) => match int_column r ($"c1") with Ok z => z | Err _ => (-1)%Z end
               | _ => (-1)%Z
               end in
  (Ok count, h ++ [q]).

(** dt/review/review_tests.py:336-343 *)
Definition join_verdict (name : str) (count_to count_from : Z) : list str :=
  if (count_from <=? 0)%Z || (count_to <=? 0)%Z then [name ++ $" didn't return data."]
  else if (1 <? count_to)%Z then
    if (count_from =? 1)%Z then [name ++ $" is a 1:M join."] else [name ++ $" is a M:M join."]
  else [].
(** dt/review/review_tests.py:327-344 *)
Fixpoint test_joins (l : list query_parts) : act (list str) :=
  match l with
  | [] => ret (Ok [])
  | p :: l' =>
      q1 <~ ret (get_to_table_cardinality_query p) ;;
      count_to <~ query_for_cardinality q1 ;;
      q2 <~ ret (get_from_table_cardinality_query p) ;;
      count_from <~ query_for_cardinality q2 ;;
      rest <~ test_joins l' ;;
      ret (Ok (join_verdict (q_name p) count_to count_from ++ rest))
  end.
Fixpoint all_parts {A} (f : A -> result query_parts) (l : list A) : result (list query_parts) :=
  match l with
  | [] => Ok []
  | x :: l' => p <- f x ;; rest <- all_parts f l' ;; Ok (p :: rest)
  end.
(** dt/review/review_tests.py:310-320 *)
Definition joins_to_test (d : database) (t : table) : result (list query_parts) :=
  fks <- all_parts (get_fk_join_parts d t) (dvals (t_fks t)) ;;
  rels <- all_parts (get_rel_join_parts d t) (dvals (t_rels t)) ;;
  Ok (fks ++ rels).
Fixpoint table_joins (d : database) (ts : list table) : act (list str) :=
  match ts with
  | [] => ret (Ok [])
  | t :: ts' =>
      joins <~ ret (joins_to_test d t) ;;
      issues <~ test_joins joins ;;
      rest <~ table_joins d ts' ;;
      ret (Ok (issues ++ rest))
  end.
(** dt/review/review_tests.py:290-356 [review_table_joins] *)
Definition review_table_joins (d : database) : act (list str) := table_joins d (db_iter d).

(** dt/review/review_tests.py:598-603 *)
Fixpoint ws_condition (first : bool) (source destination : str) (from_keys to_keys : list str) : result str :=
  match from_keys with
  | [] => Ok []
  | a :: from_keys' =>
      match to_keys with
      | [] => Err IndexError
      | b :: to_keys' =>
          rest <- ws_condition false source destination from_keys' to_keys' ;;
          Ok ((if first then [] else $" AND ") ++ $"(" ++ source ++ $"." ++ quoted a ++ $" = " ++ destination ++ $"." ++ quoted b ++ $")" ++ rest)
      end
  end.
(** a field of a join used as a text; other values are outside the model *)
Definition as_text (v : yaml) : result str := match v with YStr s => Ok s | _ => Err TypeError end.
(** [worksheet.get_table(table_name=name).table_type] *)
Definition table_type (w : worksheet) (name : str) : result yaml :=
  t <- ws_get_table w name ;; match t with Some t => Ok (wt_type t) | None => Err AttributeError end.
Definition is_table (v : yaml) : bool := match v with YStr s => str_eqb s ($"table") | _ => false end.
(** dt/review/review_tests.py:613-622, 629-638 *)
Definition ws_probe (columns source destination condition table column : str) : str :=
  $"select " ++ columns ++ $" FROM " ++ source ++ $" full outer join " ++ destination ++ $" ON " ++ condition
  ++ $" WHERE " ++ quoted table ++ $"." ++ quoted column ++ $" = NULL;".
(** dt/review/review_tests.py:643-649 *)
Definition suggested_join (left right : bool) : str :=
  if right && left then $"OUTER" else if right then $"RIGHT_OUTER" else if left then $"LEFT_OUTER" else $"INNER".
(** dt/review/review_tests.py:572-653 one join *)
Definition review_ws_join (d : database) (w : worksheet) (j : ws_join) : act (list str) :=
  source <~ ret (as_text (wj_source j)) ;;
  source_type <~ ret (table_type w source) ;;
  if negb (is_table source_type) then ret (Ok [])
  else
    source_table <~ ret (match get_table d source with Some t => Ok t | None => Err AttributeError end) ;;
    destination <~ ret (as_text (wj_destination j)) ;;
    destination_type <~ ret (table_type w destination) ;;
    if negb (is_table destination_type) then ret (Ok [])
    else
      destination_table <~ ret (match get_table d destination with Some t => Ok t | None => Err AttributeError end) ;;
      name <~ ret (as_text (wj_name j)) ;;
      match get_foreign_key source_table name with
      | None => ret (Ok [])
      | Some fk =>
          let from := quoted (db_name d) ++ $"." ++ quoted (t_schema source_table) ++ $"." ++ quoted source in
          let to := quoted (db_name d) ++ $"." ++ quoted (t_schema destination_table) ++ $"." ++ quoted destination in
          join_on <~ ret (ws_condition true from to (fk_from_keys fk) (fk_to_keys fk)) ;;
          left_fk <~ ret (match fk_from_keys fk with k :: _ => Ok k | [] => Err IndexError end) ;;
          right_pk <~ ret (match fk_to_keys fk with k :: _ => Ok k | [] => Err IndexError end) ;;
          let columns := join ($",") (map (fun k => from ++ $"." ++ quoted k) (fk_from_keys fk)) ++ $", "
                         ++ join ($",") (map (fun k => to ++ $"." ++ quoted k) (fk_to_keys fk)) in
          missing_fks <~ query (ws_probe columns from to join_on destination left_fk) ;;
          missing_pks <~ query (ws_probe columns from to join_on source right_pk) ;;
          let should_be := suggested_join (match missing_fks with [] => false | _ => true end) (match missing_pks with [] => false | _ => true end) in
          type <~ ret (as_text (wj_type j)) ;;
          ret (Ok (when (negb (str_eqb type should_be))
                        ($"Join " ++ name ++ $" is type " ++ type ++ $", but should probably be " ++ should_be ++ $".")))
      end.
Fixpoint ws_joins_review (d : database) (w : worksheet) (js : list ws_join) : act (list str) :=
  match js with
  | [] => ret (Ok [])
  | j :: js' =>
      issues <~ review_ws_join d w j ;;
      rest <~ ws_joins_review d w js' ;;
      ret (Ok (issues ++ rest))
  end.
(** dt/review/review_tests.py:546-657 [review_worksheet_joins] *)
Definition review_worksheet_joins (d : database) (w : worksheet) : act (list str) := ws_joins_review d w (ws_joins w).
End Data.
