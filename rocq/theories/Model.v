(** * dt/model.py: columns, keys, relationships, tables and databases

    Python objects are values here: [Objects] has them with identity, and C110 relates the two.
    Assigning to an attribute of a [ForeignKey] after adding it to a table is not modelled.
    [None] arguments are [option]s wherever the Python signature admits them. *)
From Verif Require Export PyRepr.

(** dt/model.py:32 [DatamodelConstants.DEFAULT_SCHEMA] *)
Definition DEFAULT_SCHEMA : str := $"falcon_default_schema".

(** dt/model.py:44-56 [Column.VALID_TYPES] *)
Definition VALID_TYPES : list str :=
  [ $"VARCHAR"; $"DOUBLE"; $"FLOAT"; $"BOOL"; $"INT"; $"BIGINT"; $"DATE"; $"DATETIME";
    $"TIMESTAMP"; $"TIME"; $"UNKNOWN" ].

(** dt/model.py:38-75 [Column] *)
Record column := { column_name : str; column_type : str }.

(** dt/model.py:58-75 [Column.__init__] *)
Definition mk_column (name type : option str) : result column :=
  match name, type with
  | None, _ => Err AssertionError
  | _, None => Err AssertionError
  | Some n, Some ty =>
      if negb (str_in ty VALID_TYPES) && negb (starts_with ($"VARCHAR") ty)
      then Err ValueError
      else Ok {| column_name := n; column_type := ty |}
  end.

(** A parameter that may be one column name or a list of them
    (dt/model.py:102-112, 198-201, 239-242). *)
Inductive keys := OneKey (k : str) | KeyList (l : list str).
Definition keys_list (k : keys) : list str :=
  match k with OneKey s => [s] | KeyList l => l end.

(** dt/model.py:81-132 [ForeignKey] *)
Record foreign_key := {
  fk_name : str; fk_from_table : str; fk_from_keys : list str;
  fk_to_table : str; fk_to_keys : list str }.

(** dt/model.py:119 the default name *)
Definition default_fk_name (from to : str) : str := $"FK_" ++ from ++ $"_to_" ++ to.

(** dt/model.py:86-121 [ForeignKey.__init__] *)
Definition mk_foreign_key (from_table : option str) (from_keys : option keys)
           (to_table : option str) (to_keys : option keys) (name : option str) : result foreign_key :=
  match from_table, from_keys, to_table, to_keys with
  | Some ft, Some fk, Some tot, Some tk =>
      if negb (Nat.eqb (length (keys_list fk)) (length (keys_list tk))) then Err ValueError
      else Ok {| fk_name := match name with None => default_fk_name ft tot | Some n => n end;
                 fk_from_table := ft; fk_from_keys := keys_list fk;
                 fk_to_table := tot; fk_to_keys := keys_list tk |}
  | _, _, _, _ => Err AssertionError
  end.

(** dt/model.py:123-132 [ForeignKey.__eq__]: as written, both key comparisons are about [self] *)
Definition fk_eqb (self other : foreign_key) : bool :=
  str_eqb (fk_name self) (fk_name other)
  && str_eqb (fk_from_table self) (fk_from_table other)
  && strs_eqb (sorted (fk_from_keys self)) (sorted (fk_to_keys self))
  && str_eqb (fk_to_table self) (fk_to_table other)
  && strs_eqb (sorted (fk_to_keys self)) (sorted (fk_to_keys self)).

(** dt/model.py:137-176 [GenericRelationship] *)
Record relationship := {
  rel_name : str; rel_from_table : str; rel_to_table : str; rel_conditions : str }.

(** dt/model.py:157 the default name *)
Definition default_rel_name (from to : str) : str := $"REL_" ++ from ++ $"_to_" ++ to.

(** dt/model.py:142-164 [GenericRelationship.__init__] *)
Definition mk_relationship (from_table to_table conditions name : option str) : result relationship :=
  match from_table, to_table, conditions with
  | Some ft, Some tot, Some c =>
      Ok {| rel_name := match name with None => default_rel_name ft tot | Some n => n end;
            rel_from_table := ft; rel_to_table := tot; rel_conditions := c |}
  | _, _, _ => Err AssertionError
  end.

(** dt/model.py:166-176 [GenericRelationship.__eq__] *)
Definition rel_eqb (self other : relationship) : bool :=
  str_eqb (rel_name self) (rel_name other)
  && str_eqb (rel_from_table self) (rel_from_table other)
  && str_eqb (rel_to_table self) (rel_to_table other)
  && str_eqb (rel_conditions self) (rel_conditions other).

(** dt/model.py:181-203 [ShardKey].  The class defines no [__eq__], so Python compares identities;
    [sk_id] is the object's identity. *)
Record shard_key := { sk_id : nat; sk_keys : list str; sk_shards : Z }.

(** [==] on [ShardKey | None] *)
Definition shard_eqb (a b : option shard_key) : bool :=
  match a, b with
  | None, None => true
  | Some x, Some y => Nat.eqb (sk_id x) (sk_id y)
  | _, _ => false
  end.

(** dt/model.py:209-249 [Table] *)
Record table := {
  t_name : str; t_schema : str; t_pk : list str; t_shard : option shard_key;
  t_cols : dict column; t_fks : dict foreign_key; t_rels : dict relationship }.

(** dt/model.py:214-249 [Table.__init__].  The assertion on line 244 (a shard key must be a
    [ShardKey]) holds by typing. *)
Definition mk_table (name schema : str) (pk : option keys) (shard : option shard_key) : table :=
  {| t_name := name; t_schema := schema;
     t_pk := match pk with None => [] | Some k => keys_list k end;
     t_shard := shard; t_cols := []; t_fks := []; t_rels := [] |}.

Definition with_cols (t : table) (c : dict column) : table :=
  {| t_name := t_name t; t_schema := t_schema t; t_pk := t_pk t; t_shard := t_shard t;
     t_cols := c; t_fks := t_fks t; t_rels := t_rels t |}.
Definition with_fks (t : table) (f : dict foreign_key) : table :=
  {| t_name := t_name t; t_schema := t_schema t; t_pk := t_pk t; t_shard := t_shard t;
     t_cols := t_cols t; t_fks := f; t_rels := t_rels t |}.
Definition with_rels (t : table) (r : dict relationship) : table :=
  {| t_name := t_name t; t_schema := t_schema t; t_pk := t_pk t; t_shard := t_shard t;
     t_cols := t_cols t; t_fks := t_fks t; t_rels := r |}.
Definition with_pk (t : table) (pk : list str) : table :=
  {| t_name := t_name t; t_schema := t_schema t; t_pk := pk; t_shard := t_shard t;
     t_cols := t_cols t; t_fks := t_fks t; t_rels := t_rels t |}.
(** [table.shard_key = sk] *)
Definition with_shard (t : table) (sk : option shard_key) : table :=
  {| t_name := t_name t; t_schema := t_schema t; t_pk := t_pk t; t_shard := sk;
     t_cols := t_cols t; t_fks := t_fks t; t_rels := t_rels t |}.

(** dt/model.py:251-257 [Table.add_column] *)
Definition add_column (t : table) (c : column) : table :=
  with_cols t (dset (column_name c) c (t_cols t)).

(** dt/model.py:259-266 [Table.add_columns] *)
Definition add_columns (t : table) (cs : list column) : table := fold_left add_column cs t.

(** dt/model.py:268-276 [Table.drop_column] *)
Definition drop_column (t : table) (n : str) : table * option column :=
  (with_cols t (ddel n (t_cols t)), dget n (t_cols t)).

(** dt/model.py:278-285 [Table.has_column] *)
Definition has_column (t : table) (n : str) : bool := dmem n (t_cols t).
(** dt/model.py:287-296 [Table.get_column] *)
Definition get_column (t : table) (n : str) : option column := dget n (t_cols t).
(** dt/model.py:298-307 [Table.get_column_names] *)
Definition get_column_names (t : table) : list str := dkeys (t_cols t).
(** dt/model.py:309-315 [Table.number_columns] *)
Definition number_columns (t : table) : nat := length (t_cols t).
(** dt/model.py:317-322 [Table.__iter__] *)
Definition table_iter (t : table) : list column := dvals (t_cols t).

(** dt/model.py:324-339 [Table.set_primary_key]; the [ValueError] for other types is excluded by
    typing. *)
Definition set_primary_key (t : table) (k : option keys) : result table :=
  match k with None => Err AssertionError | Some k => Ok (with_pk t (keys_list k)) end.

(** dt/model.py:341-376 [Table.add_foreign_key] with a ready object (lines 359-361) *)
Definition add_fk_obj (t : table) (fk : foreign_key) : table :=
  with_fks t (dset (fk_name fk) fk (t_fks t)).
(** dt/model.py:368-376 [Table.add_foreign_key] with the parts *)
Definition add_fk_parts (t : table) (from_keys : option keys) (to_table : option str)
           (to_keys : option keys) (name : option str) : result table :=
  fk <- mk_foreign_key (Some (t_name t)) from_keys to_table to_keys name ;;
  Ok (add_fk_obj t fk).
(** dt/model.py:378-386 [Table.get_foreign_key] *)
Definition get_foreign_key (t : table) (n : str) : option foreign_key := dget n (t_fks t).
(** dt/model.py:388-394 [Table.foreign_keys_iter] *)
Definition foreign_keys_iter (t : table) : list foreign_key := dvals (t_fks t).

(** dt/model.py:398-426 [Table.add_relationship] with a ready object (lines 410-412) *)
Definition add_rel_obj (t : table) (r : relationship) : table :=
  with_rels t (dset (rel_name r) r (t_rels t)).
(** dt/model.py:419-426 [Table.add_relationship] with the parts *)
Definition add_rel_parts (t : table) (to_table name conditions : option str) : result table :=
  r <- mk_relationship (Some (t_name t)) to_table conditions name ;;
  Ok (add_rel_obj t r).
(** dt/model.py:428-436 [Table.get_relationship] *)
Definition get_relationship (t : table) (n : str) : option relationship := dget n (t_rels t).
(** dt/model.py:438-444 [Table.relationships_iter] *)
Definition relationships_iter (t : table) : list relationship := dvals (t_rels t).

(** dt/model.py:446-454 [Table.get_shard_key_columns] *)
Definition get_shard_key_columns (t : table) : option (list str) :=
  match t_shard t with Some s => Some (sk_keys s) | None => None end.
(** dt/model.py:456-464 [Table.get_number_shards] *)
Definition get_number_shards (t : table) : option Z :=
  match t_shard t with Some s => Some (sk_shards s) | None => None end.
(** dt/model.py:466-475 [Table.get_all_related_tables] *)
Definition get_all_related_tables (t : table) : list str :=
  map fk_to_table (foreign_keys_iter t) ++ map rel_to_table (relationships_iter t).

(** dt/model.py:546-562 [Database] *)
Record database := { db_name : str; db_tables : dict table; db_schemas : dict Z }.

(** dt/model.py:553-562 [Database.__init__] *)
Definition mk_database (name : option str) : result database :=
  match name with
  | None => Err AssertionError
  | Some n => Ok {| db_name := n; db_tables := []; db_schemas := [] |}
  end.
Definition empty_database (n : str) : database :=
  {| db_name := n; db_tables := []; db_schemas := [] |}.

(** dt/model.py:564-575 [Database.add_table] *)
Definition add_table (d : database) (t : table) : database :=
  let nbr := match dget (t_schema t) (db_schemas d) with Some n => n | None => 0%Z end in
  {| db_name := db_name d;
     db_tables := dset (t_name t) t (db_tables d);
     db_schemas := dset (t_schema t) (nbr + 1)%Z (db_schemas d) |}.

(** dt/model.py:577-584 [Database.get_table] *)
Definition get_table (d : database) (n : str) : option table := dget n (db_tables d).
(** dt/model.py:586-592 [Database.get_table_names] *)
Definition get_table_names (d : database) : list str := dkeys (db_tables d).
(** dt/model.py:594-600 [Database.number_tables] *)
Definition number_tables (d : database) : nat := length (dkeys (db_tables d)).
(** dt/model.py:602-607 [Database.__iter__] *)
Definition db_iter (d : database) : list table := dvals (db_tables d).

(** dt/model.py:609-627 [Database.drop_table]: the new state and the returned table *)
Definition drop_table (d : database) (n : str) : result (database * option table) :=
  match dget n (db_tables d) with
  | None => Ok (d, None)
  | Some t =>
      let tables' := ddel n (db_tables d) in
      match dget (t_schema t) (db_schemas d) with
      | None => Err KeyError
      | Some nbr =>
          let nbr' := (nbr - 1)%Z in
          let schemas' := if (nbr' =? 0)%Z then ddel (t_schema t) (db_schemas d)
                          else dset (t_schema t) nbr' (db_schemas d) in
          Ok ({| db_name := db_name d; db_tables := tables'; db_schemas := schemas' |}, Some t)
      end
  end.

(** dt/model.py:629-635 [Database.get_schema_names] *)
Definition get_schema_names (d : database) : list str := dkeys (db_schemas d).

(** dt/model.py:645-656 [Database.get_number_relationships_from_table] *)
Definition get_number_relationships_from_table (d : database) (n : str) : result nat :=
  match get_table d n with
  | Some t => Ok (length (dvals (t_fks t)) + length (dvals (t_rels t)))
  | None => Err ValueError
  end.

(** dt/model.py:658-678 [Database.get_number_relationships_to_table] *)
Definition get_number_relationships_to_table (d : database) (n : str) : result nat :=
  if negb (str_in n (get_table_names d)) then Err ValueError
  else
    Ok (fold_left
          (fun acc t =>
             let acc1 := fold_left (fun a fk => if str_eqb (fk_to_table fk) n then S a else a)
                                   (dvals (t_fks t)) acc in
             fold_left (fun a r => if str_eqb (rel_to_table r) n then S a else a)
                       (dvals (t_rels t)) acc1)
          (dvals (db_tables d)) 0).
