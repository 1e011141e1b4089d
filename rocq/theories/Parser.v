(** * dt/io.py: DDLParser *)
From Verif Require Export Regex Model.

Definition tab : ascii := chr 9.
Definition newline : ascii := chr 10.
Definition squote : ascii := chr 39.
Definition backquote : ascii := chr 96.

(** [s.partition(p)] for a non-empty separator: what is before, whether found, what is after *)
Definition py_partition (p s : str) : str * bool * str :=
  match find_opt p s with
  | Some n => (firstn n s, true, skipn (n + length p) s)
  | None => (s, false, [])
  end.
Definition before (p s : str) : str := fst (fst (py_partition p s)).
Definition after (p s : str) : str := snd (py_partition p s).

(** [s.find(p, i)] for [0 <= i] *)
Definition find_from (p : str) (i : nat) (s : str) : Z :=
  if Nat.ltb (length s) i then (-1)%Z
  else match find_opt p (skipn i s) with Some n => Z.of_nat (i + n) | None => (-1)%Z end.

(** [l[-1]] of a non-empty list, as [split] returns *)
Definition last_of (l : list str) : str := last l [].

(** Text mode reading (universal newlines): carriage returns, alone or before a newline, become
    newlines. *)
Fixpoint universal_newlines (s : str) : str :=
  match s with
  | [] => []
  | c :: s' =>
      if Ascii.eqb c (chr 13)
      then match s' with
           | d :: s'' => if Ascii.eqb d newline then newline :: universal_newlines s''
                         else newline :: universal_newlines s'
           | [] => [newline]
           end
      else c :: universal_newlines s'
  end.
(** The lines a text file yields, with their newlines; no empty last line. *)
Fixpoint file_lines (s : str) : list str :=
  match s with
  | [] => []
  | c :: s' =>
      if Ascii.eqb c newline then [newline] :: file_lines s'
      else match file_lines s' with
           | w :: ws => (c :: w) :: ws
           | [] => [[c]]
           end
  end.

(** dt/io.py:430-441 [_clean_line] *)
Definition clean_line (line : str) : str := sub_runs tab (sub_runs " " (strip line)).

(** dt/io.py:193-206 [_should_ignore_line] *)
Definition should_ignore_line (line : str) : bool := starts_with ($"GO") line.

(** dt/io.py:146-148 the state of the loop of [_get_statements] *)
Record reading := { r_statements : list str; r_buffer : str; r_in_comment : bool }.

(** dt/io.py:157-176 what the line does to the buffer and the comment flag *)
Definition feed (line : str) (buffer : str) (in_comment : bool) : str * bool :=
  if in_comment then
    if contains ($"*/") line then (buffer ++ after ($"*/") line, false) else (buffer, true)
  else if contains ($"/*") line then
    let after_comment := after ($"/*") line in
    let buffer := buffer ++ before ($"/*") line in
    if contains ($"*/") after_comment then (buffer ++ after ($"*/") after_comment, false)
    else (buffer, true)
  else (buffer ++ $" " ++ line, false).

(** dt/io.py:149-183 one iteration *)
Definition read_line (st : reading) (raw : str) : reading :=
  let line := before ($"--") (clean_line raw) in
  if should_ignore_line line then st
  else
    let '(buffer, in_comment) := feed line (r_buffer st) (r_in_comment st) in
    if contains ($";") buffer
    then {| r_statements := r_statements st ++ [strip (before ($";") buffer)];
            r_buffer := after ($";") buffer; r_in_comment := in_comment |}
    else {| r_statements := r_statements st; r_buffer := buffer; r_in_comment := in_comment |}.

Definition start_reading : reading := {| r_statements := []; r_buffer := []; r_in_comment := false |}.

(** dt/io.py:131-190 [_get_statements], given the content of the file.  Undecodable input (the
    [except] on line 184) is excluded: the text is 7-bit.  [ReadStop] has files that cannot be read to
    their end. *)
Definition read_lines (lines : list str) : reading := fold_left read_line lines start_reading.
Definition get_statements (text : str) : list str :=
  map (sub_runs " ") (r_statements (read_lines (file_lines (universal_newlines text)))).

(** dt/io.py:247-255 [_strip_quotes] *)
Definition strip_quotes (s : str) : str :=
  replace_char dquote [] (replace_char backquote [] (replace_char squote [] s)).

(** dt/io.py:226-244 [_get_table_name] *)
Definition get_table_name (statement : str) : str :=
  let tn := rstrip (slice 0 (find ($"(") statement) statement) in
  let strip_left_len :=
    if contains ($"or replace") (lower tn) then length ($"create or replace table ")
    else length ($"create table ") in
  let tn := skipn strip_left_len tn in
  strip_quotes (last_of (split_char "." tn)).

(** dt/io.py:277-293 the loop over the characters of the column list *)
Fixpoint raw_fields_loop (s field : str) (open_paren : bool) (acc : list str) : list str :=
  match s with
  | [] => if negb (str_eqb field []) then acc ++ [strip field] else acc
  | c :: s' =>
      if open_paren then
        raw_fields_loop s' (field ++ [c]) (negb (Ascii.eqb c ")")) acc
      else if Ascii.eqb c "(" then raw_fields_loop s' (field ++ [c]) true acc
      else if Ascii.eqb c "," then raw_fields_loop s' [] false (acc ++ [strip field])
      else raw_fields_loop s' (field ++ [c]) false acc
  end.
Definition raw_fields (s : str) : list str := raw_fields_loop s [] false [].

(** dt/io.py:267-269 the text between the outer parentheses *)
Definition column_text (statement : str) : str :=
  strip (slice (find ($"(") statement + 1) (rfind_char ")" statement) statement).

(** dt/io.py:353-374 [_convert_type], the text that is looked at *)
Definition type_text (data_type : str) : str :=
  lower (if contains ($")") data_type then slice 0 (find ($")") data_type + 1) data_type
         else if contains ($" ") data_type then slice 0 (find ($" ") data_type + 1) data_type
         else data_type).

(** dt/io.py:376-391 the branch for NUMBER *)
Definition convert_number (t : str) : result str :=
  if contains ($")") t then
    let numsize := slice (find ($"(") t + 1) (find ($")") t) t in
    if contains ($",") numsize then
      match split_char "," numsize with
      | [first_num; second_num] =>
          if str_eqb (strip second_num) ($"0") then
            if str_eqb first_num ($"*") then Ok ($"BIGINT")
            else n <- py_int first_num ;; Ok (if (n >? 9)%Z then $"BIGINT" else $"INT")
          else Ok ($"DOUBLE")
      | _ => Err ValueError
      end
    else Ok ($"INT")
  else Ok ($"BIGINT").

(** dt/io.py:346-427 [_convert_type] *)
Definition convert_type (data_type : str) : result str :=
  let t := type_text data_type in
  let has (w : str) := contains w t in
  if has ($"int") then Ok ($"BIGINT")
  else if has ($"rowversion") then Ok ($"INT")
  else if has ($"uniqueidentifier") then Ok ($"VARCHAR(0)")
  else if has ($"sysname") then Ok ($"VARCHAR(0)")
  else if has ($"serial") then Ok ($"INT")
  else if has ($"bit") then Ok ($"BOOL")
  else if has ($"blob") || has ($"binary") then Ok ($"UNKNOWN")
  else if has ($"number") then convert_number t
  else if has ($"decimal") || has ($"numeric") || has ($"float") || has ($"double")
          || has ($"money") || has ($"real") then Ok ($"DOUBLE")
  else if has ($"datetime") then Ok ($"DATETIME")
  else if has ($"timestamp") then Ok ($"DATETIME")
  else if has ($"time") then Ok ($"TIME")
  else if has ($"date") then Ok ($"DATE")
  else if has ($"bool") then Ok ($"BOOL")
  else if has ($"text") then Ok ($"VARCHAR(0)")
  else if has ($"long") then Ok ($"VARCHAR(0)")
  else if has ($"enum") then Ok ($"VARCHAR(0)")
  else if has ($"xml") then Ok ($"VARCHAR(0)")
  else if has ($"char") then Ok ($"VARCHAR(0)")
  else Ok ($"UNKNOWN").

(** dt/io.py:305-312 the name of a column and whether it was quoted *)
Definition field_name (rf : str) : result (str * bool) :=
  match rf with
  | [] => Err IndexError
  | q :: _ =>
      if existsb (Ascii.eqb q) [dquote; squote; backquote]
      then Ok (slice 1 (find_from [q] 1 rf) rf, true)
      else Ok (slice 0 (find ($" ") rf) rf, false)
  end.

(** dt/io.py:314-334 the type text of a column *)
Definition field_type (rf name : str) (had_quote : bool) : str :=
  let start_idx := length name + (if had_quote then 3 else 1) in
  let close_paren_idx := find_from ($")") start_idx (lower rf) in
  if (close_paren_idx >? 0)%Z then slice (Z.of_nat start_idx) (close_paren_idx + 1) rf
  else
    let space_end_idx := find_from ($" ") start_idx rf in
    let comma_end_idx := find_from ($",") start_idx rf in
    let end_idx :=
      if (space_end_idx =? -1)%Z then
        if (comma_end_idx =? -1)%Z then Z.of_nat (length rf) else comma_end_idx
      else if (comma_end_idx =? -1)%Z then space_end_idx
      else Z.min space_end_idx comma_end_idx in
    slice (Z.of_nat start_idx) end_idx rf.

(** dt/io.py:302 the columns of a PRIMARY KEY field *)
Definition field_pk (rf : str) : list str :=
  split_char "," (replace_char dquote [] (replace_char " " [] (before ($")") (after ($"(") rf)))).

(** dt/io.py:295-341 the loop over the fields *)
Fixpoint fields_loop (rfs : list str) (t : table) (columns : list column) : result (table * list column) :=
  match rfs with
  | [] => Ok (t, columns)
  | rf :: rfs' =>
      let rfl := lower rf in
      if contains ($"key ") rfl then
        if contains ($"primary") rfl
        then t' <- set_primary_key t (Some (KeyList (field_pk rf))) ;; fields_loop rfs' t' columns
        else fields_loop rfs' t columns
      else
        ' (name, had_quote) <- field_name rf ;;
        ty <- convert_type (field_type rf name had_quote) ;;
        c <- mk_column (Some name) (Some ty) ;;
        fields_loop rfs' t (columns ++ [c])
  end.

(** dt/io.py:257-343 [_add_columns] *)
Definition parse_columns (t : table) (statement : str) : result table :=
  ' (t', columns) <- fields_loop (raw_fields (column_text statement)) t [] ;;
  Ok (add_columns t' columns).

(** dt/io.py:444-459 [_clean_name] *)
Definition clean_name (name : str) : str :=
  replace_char "]" [] (replace_char "[" [] (replace_char squote [] (replace_char dquote []
    (replace_char tab [] (strip (last_of (split_char "." name))))))).

(** dt/io.py:471 *)
Definition hash_pattern : regex :=
  [RLit ($"create table"); RAny; RLit ($"partition by hash"); RAny; RLit ($"("); RGroup;
   RLit ($") key"); RAny; RLit ($"("); RGroup; RLit ($")")].

(** dt/io.py:462-479 [_add_hashkey]; [id] is the identity of the new [ShardKey].  Exceptions are
    caught there. *)
Definition add_hashkey (id : nat) (t : table) (statement : str) : table :=
  match rsearch hash_pattern statement with
  | Some [g1; g2] =>
      match py_int g1 with
      | Ok n => with_shard t (Some {| sk_id := id; sk_keys := map clean_name (split_char "," g2);
                                      sk_shards := n |})
      | Err _ => t
      end
  | _ => t
  end.

(** dt/io.py:208-224 [_parse_create_table] *)
Definition parse_create_table (schema : str) (id : nat) (d : database) (statement : str) : result database :=
  let statement := replace_char "]" [dquote] (replace_char "[" [dquote] statement) in
  let t := mk_table (get_table_name statement) schema None None in
  t <- parse_columns t statement ;;
  let t := if contains ($"partition by hash") (lower statement) then add_hashkey id t statement else t in
  Ok (add_table d t).

(** dt/io.py:495-510 [_extract_name] *)
Definition extract_name (s : str) : result str :=
  match s with
  | [] => Err IndexError
  | c :: s' =>
      if Ascii.eqb c dquote then Ok (hd [] (split_char dquote s'))
      else if Ascii.eqb c squote then Ok (hd [] (split_char squote s'))
      else Ok (hd [] (split_char " " s))
  end.

(** dt/io.py:483-493 [_extract_table_name] *)
Definition extract_table_name (s : str) : result str :=
  n <- extract_name (last_of (split_char "." s)) ;; Ok (clean_name n).

(** The columns of a key clause: [[_clean_name(k) for k in text.split(",")]] *)
Definition key_columns_of (s : str) : list str := map clean_name (split_char "," s).

(** Changing the [Table] object the database holds under a name *)
Definition store_table (d : database) (n : str) (t : table) : database :=
  {| db_name := db_name d; db_tables := dset n t (db_tables d); db_schemas := db_schemas d |}.

(** dt/io.py:513-532 [_get_matches] is called with one pattern whose number of groups is the
    expected one, so it is [rmatch]. *)

(** dt/io.py:546 *)
Definition pk_pattern : regex :=
  [RLit ($"alter table "); RGroup; RLit ($" "); RAny; RLit ($"primary key"); RAny; RLit ($"(");
   RGroup; RLit ($")")].

(** dt/io.py:534-561 [_add_primary_key]; exceptions are caught there *)
Definition parse_primary_key (d : database) (statement : str) : database :=
  match rmatch pk_pattern statement with
  | Some [g1; g2] =>
      match extract_table_name g1 with
      | Ok n =>
          match get_table d n with
          | Some t =>
              match set_primary_key t (Some (KeyList (key_columns_of g2))) with
              | Ok t' => store_table d n t'
              | Err _ => d
              end
          | None => d
          end
      | Err _ => d
      end
  | _ => d
  end.

(** dt/io.py:580 *)
Definition add_pattern : regex := [RLit ($"alter table "); RGroup; RLit ($" add"); RAny].
(** dt/io.py:588 *)
Definition named_fk_pattern : regex :=
  [RGroup; RLit ($" foreign key"); RBlanks; RLit ($"("); RGroup; RLit ($") references"); RBlanks;
   RGroup; RLit ($" ("); RGroup; RLit ($")")].
(** dt/io.py:596 *)
Definition unnamed_fk_pattern : regex :=
  [RLit ($"foreign key"); RBlanks; RLit ($"("); RGroup; RLit ($") references"); RBlanks;
   RGroup; RLit ($" ("); RGroup; RLit ($")")].

(** dt/io.py:588-606 the parts of one constraint; [None] when neither pattern matches *)
Definition fk_parts (constraint : str) : option (option str * list str * result str * list str) :=
  match rmatch named_fk_pattern constraint with
  | Some [g1; g2; g3; g4] =>
      Some (Some (clean_name g1), key_columns_of g2, extract_table_name g3, key_columns_of g4)
  | _ =>
      match rmatch unnamed_fk_pattern constraint with
      | Some [g1; g2; g3] => Some (None, key_columns_of g1, extract_table_name g2, key_columns_of g3)
      | _ => None
      end
  end.

(** dt/io.py:583-613 the loop over the constraints; it ends at the first one that is not understood
    (lines 598-600) or raises (caught on line 614) *)
Fixpoint fk_loop (table_name : str) (constraints : list str) (d : database) : database :=
  match constraints with
  | [] => d
  | c :: cs =>
      let constraint := strip (strip_char ";" (strip_char "," (strip c))) in
      match fk_parts constraint with
      | Some (name, from_columns, Ok to_table, to_columns) =>
          match get_table d table_name with
          | Some t =>
              match add_fk_parts t (Some (KeyList from_columns)) (Some to_table)
                                 (Some (KeyList to_columns)) name with
              | Ok t' => fk_loop table_name cs (store_table d table_name t')
              | Err _ => d
              end
          | None => fk_loop table_name cs d
          end
      | _ => d
      end
  end.

(** dt/io.py:563-615 [_add_foreign_key].  When line 581 finds no match, [matches[0]] raises a
    [TypeError], which is caught. *)
Definition parse_foreign_key (d : database) (statement : str) : database :=
  match rmatch add_pattern statement with
  | Some [g] => fk_loop (clean_name g) (tl (resplit ($"constraint") statement)) d
  | _ => d
  end.

(** dt/io.py:628 *)
Definition named_rel_pattern : regex :=
  [RLit ($"alter table "); RGroup; RLit ($" add relationship "); RGroup; RLit ($" with "); RGroup;
   RLit ($" as "); RGroup].
(** dt/io.py:636 *)
Definition unnamed_rel_pattern : regex :=
  [RLit ($"alter table "); RGroup; RLit ($" add relationship with "); RGroup; RLit ($" as "); RGroup].

(** dt/io.py:626-646 *)
Definition rel_parts (statement : str) : option (result str * option str * result str * str) :=
  match rmatch named_rel_pattern statement with
  | Some [g1; g2; g3; g4] => Some (extract_table_name g1, Some (clean_name g2), extract_table_name g3, g4)
  | _ =>
      match rmatch unnamed_rel_pattern statement with
      | Some [g1; g2; g3] => Some (extract_table_name g1, None, extract_table_name g2, g3)
      | _ => None
      end
  end.

(** dt/io.py:617-653 [_add_generic_relationship]; exceptions are caught there *)
Definition parse_relationship (d : database) (statement : str) : database :=
  match rel_parts statement with
  | Some (Ok n, name, Ok to_table, conditions) =>
      match get_table d n with
      | Some t =>
          match add_rel_parts t (Some to_table) name (Some conditions) with
          | Ok t' => store_table d n t'
          | Err _ => d
          end
      | None => d
      end
  | _ => d
  end.

(** dt/io.py:103-127 one statement; [id] identifies the [ShardKey] it may create.  Line 122 calls
    [_add_shard_key] (655-671), which does nothing. *)
Definition parse_statement (schema : str) (id : nat) (d : database) (stmt : str) : result database :=
  let l := lower stmt in
  if contains ($"create database") l then Ok d
  else if contains ($"create table") l || contains ($"create or replace table") l
  then parse_create_table schema id d stmt
  else if contains ($"alter table") l then
    if contains ($"primary key") l then Ok (parse_primary_key d stmt)
    else if contains ($"foreign") l then Ok (parse_foreign_key d stmt)
    else if contains ($"relationship") l then Ok (parse_relationship d stmt)
    else Ok d
  else Ok d.

(** dt/io.py:102-127 the loop; the statement's position serves as the identity of its shard key *)
Fixpoint parse_statements (schema : str) (id : nat) (stmts : list str) (d : database) : result database :=
  match stmts with
  | [] => Ok d
  | x :: l => d' <- parse_statement schema id d x ;; parse_statements schema (S id) l d'
  end.

(** dt/io.py:84-129 [parse_ddl] on the content of an existing file *)
Definition parse_text (name schema text : str) : result database :=
  parse_statements schema 0 (get_statements text) (empty_database name).

(** dt/io.py:84-129 [parse_ddl]: [files] is the file system.  A missing file gives [None]
    (lines 92-95); without a file name line 139 raises [TypeError]. *)
Definition parse_ddl (files : str -> option str) (name schema : str) (filename : option str)
  : result (option database) :=
  match filename with
  | Some ((_ :: _) as f) =>
      match files f with
      | None => Ok None
      | Some text => d <- parse_text name schema text ;; Ok (Some d)
      end
  | _ => Err TypeError
  end.
