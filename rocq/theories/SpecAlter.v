(** * Specification: running an ALTER script on the database in use (C95)

    The statements of [SpecTql] that only occur in ALTER scripts, executed on one database.  [cs] is the
    schema in which table names without schema are looked up.  [None] is an error: the statement names
    something that is not there, adds something that is there already, drops a column that a key, the
    shard key or a foreign key still uses, or drops a constraint under a name that two constraints have. *)
From Verif Require Export SpecDiff.

Definition alter_cols (f : list column_def -> list column_def) (x : ctable) : ctable :=
  {| ct_schema := ct_schema x; ct_name := ct_name x; ct_cols := f (ct_cols x); ct_pk := ct_pk x; ct_shard := ct_shard x; ct_fks := ct_fks x; ct_rels := ct_rels x |}.
Definition alter_pk (pk : list str) (x : ctable) : ctable :=
  {| ct_schema := ct_schema x; ct_name := ct_name x; ct_cols := ct_cols x; ct_pk := pk; ct_shard := ct_shard x; ct_fks := ct_fks x; ct_rels := ct_rels x |}.
Definition alter_shard (sh : option (Z * list str)) (x : ctable) : ctable :=
  {| ct_schema := ct_schema x; ct_name := ct_name x; ct_cols := ct_cols x; ct_pk := ct_pk x; ct_shard := sh; ct_fks := ct_fks x; ct_rels := ct_rels x |}.
Definition alter_fks (f : list cfk -> list cfk) (x : ctable) : ctable :=
  {| ct_schema := ct_schema x; ct_name := ct_name x; ct_cols := ct_cols x; ct_pk := ct_pk x; ct_shard := ct_shard x; ct_fks := f (ct_fks x); ct_rels := ct_rels x |}.
Definition alter_rels (f : list crel -> list crel) (x : ctable) : ctable :=
  {| ct_schema := ct_schema x; ct_name := ct_name x; ct_cols := ct_cols x; ct_pk := ct_pk x; ct_shard := ct_shard x; ct_fks := ct_fks x; ct_rels := f (ct_rels x) |}.

(** the key, the shard key or a foreign key of the table uses the column *)
Definition uses_column (n : str) (x : ctable) : bool :=
  str_in n (ct_pk x) || (match ct_shard x with Some (_, l) => str_in n l | None => false end)
  || existsb (fun f => str_in n (cf_cols f)) (ct_fks x).
(** some table references the column *)
Definition referenced (s t n : str) (c : cdb) : bool :=
  existsb (fun y => existsb (fun f => str_eqb (cf_schema f) s && str_eqb (cf_table f) t && str_in n (cf_to_cols f)) (ct_fks y)) (cd_tables c).

Definition exec_alter (cs : str) (c : cdb) (x : stmt) : option cdb :=
  match x with
  | SAlterAddFk s t n fc tn tc => exec_db c (SAddFk s t n fc cs tn tc)
  | SAlterAddRel s t n tn cond => exec_db c (SAddRel s t n cs tn cond)
  | SDropPk s t =>
      match find_table s t c with
      | Some a => match ct_pk a with [] => None | _ => Some (update_table s t (alter_pk []) c) end
      | None => None
      end
  | SDropConstraint s t n =>
      match find_table s t c with
      | Some a =>
          match str_in n (map cf_name (ct_fks a)), str_in n (map cr_name (ct_rels a)) with
          | true, false => Some (update_table s t (alter_fks (filter (fun f => negb (str_eqb (cf_name f) n)))) c)
          | false, true => Some (update_table s t (alter_rels (filter (fun r => negb (str_eqb (cr_name r) n)))) c)
          | _, _ => None
          end
      | None => None
      end
  | SSetPartition s t z l =>
      match find_table s t c with
      | Some a => guard (has_cols a l) (update_table s t (alter_shard (Some (z, l))) c)
      | None => None
      end
  | SSetDimension s t =>
      match find_table s t c with Some _ => Some (update_table s t (alter_shard None) c) | None => None end
  | SAddColumn s t n ty _ =>
      match find_table s t c with
      | Some a => guard (negb (str_in n (map fst (ct_cols a)))) (update_table s t (alter_cols (fun l => l ++ [(n, ty)])) c)
      | None => None
      end
  | SModifyColumn s t n ty =>
      match find_table s t c with
      | Some a => guard (str_in n (map fst (ct_cols a)))
                    (update_table s t (alter_cols (map (fun p => if str_eqb (fst p) n then (n, ty) else p))) c)
      | None => None
      end
  | SDropColumn s t n =>
      match find_table s t c with
      | Some a => guard (str_in n (map fst (ct_cols a)) && negb (uses_column n a) && negb (referenced s t n c))
                    (update_table s t (alter_cols (filter (fun p => negb (str_eqb (fst p) n)))) c)
      | None => None
      end
  | _ => exec_db c x
  end.
Fixpoint exec_alters (cs : str) (c : cdb) (l : list stmt) : option cdb :=
  match l with
  | [] => Some c
  | x :: l' => match exec_alter cs c x with Some c' => exec_alters cs c' l' | None => None end
  end.
Definition run_alters (cs : str) (c : cdb) (text : str) : option cdb :=
  match read_script text with Some l => exec_alters cs c l | None => None end.

(** ** A database of the cluster that holds a model, all in schema [cs]; lists in any order *)
Record same_entry (x y : ctable) : Prop := {
  se_schema : ct_schema x = ct_schema y; se_name : ct_name x = ct_name y;
  se_cols : Permutation (ct_cols x) (ct_cols y); se_pk : ct_pk x = ct_pk y; se_shard : ct_shard x = ct_shard y;
  se_fks : Permutation (ct_fks x) (ct_fks y); se_rels : Permutation (ct_rels x) (ct_rels y) }.
Definition all_in (cs : str) (d : database) : Prop := forall t, In t (db_iter d) -> t_schema t = cs.
Record holds (cs : str) (c : cdb) (d : database) : Prop := {
  ho_schema : In cs (cd_schemas c);
  ho_only : forall x, In x (cd_tables c) -> ct_schema x = cs /\ find_table cs (ct_name x) c = Some x;
  ho_tables : forall n, match get_table d n with
                        | Some t => exists x, find_table cs n c = Some x /\ same_entry x (entry_of t)
                        | None => find_table cs n c = None
                        end }.

(** ** When a change can be made, the database being [v] *)
Definition has_col (w : tview) (k : str) : Prop := v_col w k <> None.
Definition possible (v : dview) (ch : change) : Prop :=
  let n := t_name (change_table ch) in
  match ch with
  | TableCreated t =>
      v n = None /\ NoDup (map column_name (table_iter t)) /\ incl (t_pk t) (map column_name (table_iter t))
      /\ forall z l, shard_of t = Some (z, l) -> incl l (map column_name (table_iter t))
  | TableDropped _ => True
  | PrimaryKeyAdded _ _ => False (* no statement is written for it: get_alter raises (C34) *)
  | PrimaryKeyDropped _ => exists w, v n = Some w /\ v_pk w <> []
  | ShardKeyAdded _ _ l => exists w, v n = Some w /\ forall k, In k l -> has_col w k
  | ShardKeyDropped _ => v n <> None
  | ForeignKeyAdded _ f =>
      exists w u, v n = Some w /\ v (fk_to_table f) = Some u /\ (forall k, In k (fk_from_keys f) -> has_col w k)
        /\ (forall k, In k (fk_to_keys f) -> has_col u k) /\ length (fk_from_keys f) = length (fk_to_keys f) /\ v_fk w (fk_name f) = None
  | ForeignKeyDropped _ k => exists w, v n = Some w /\ v_fk w k <> None /\ v_rel w k = None
  | RelationshipAdded _ r => exists w, v n = Some w /\ v (rel_to_table r) <> None /\ v_rel w (rel_name r) = None
  | RelationshipDropped _ k => exists w, v n = Some w /\ v_rel w k <> None /\ v_fk w k = None
  | ColumnAdded _ c => exists w, v n = Some w /\ v_col w (column_name c) = None
  | ColumnModified _ c => exists w, v n = Some w /\ has_col w (column_name c)
  | ColumnDropped _ c =>
      exists w, v n = Some w /\ has_col w (column_name c) /\ ~ In (column_name c) (v_pk w)
        /\ (forall z l, v_shard w = Some (z, l) -> ~ In (column_name c) l)
        /\ (forall k f, v_fk w k = Some f -> ~ In (column_name c) (fk_from_keys f))
        /\ (forall m u k f, v m = Some u -> v_fk u k = Some f -> fk_to_table f = n -> ~ In (column_name c) (fk_to_keys f))
  end.
(** every change is possible when its turn comes *)
Fixpoint each_possible (v : dview) (l : list change) : Prop :=
  match l with [] => True | ch :: l' => possible v ch /\ each_possible (apply_change v ch) l' end.

(** ** Conditions on two models under which that is so.  Changes are made table by table in the order of
    their names, and in a table: keys, shard key, foreign keys, relationships, columns. *)
Record alterable (d1 d2 : database) : Prop := {
  (* no table gains or changes a primary key *)
  ab_pk : forall n t1 t2, get_table d1 n = Some t1 -> get_table d2 n = Some t2 -> t_pk t2 = [] \/ t_pk t1 = t_pk t2;
  (* a new shard key uses columns the table has already *)
  ab_shard : forall n t1 t2 z l k, get_table d1 n = Some t1 -> get_table d2 n = Some t2 ->
    shard_of t2 = Some (z, l) -> shard_of t1 <> shard_of t2 -> In k l -> get_column t1 k <> None;
  (* so does a new foreign key *)
  ab_from : forall n t1 t2 m f k, get_table d1 n = Some t1 -> get_table d2 n = Some t2 ->
    get_foreign_key t2 m = Some f -> get_foreign_key t1 m <> Some f -> In k (fk_from_keys f) -> get_column t1 k <> None;
  (* the referenced table was dealt with before, or has the columns already *)
  ab_to : forall n t1 t2 m f, get_table d1 n = Some t1 -> get_table d2 n = Some t2 ->
    get_foreign_key t2 m = Some f -> get_foreign_key t1 m <> Some f ->
    str_ltb (fk_to_table f) n = true \/ exists u, get_table d1 (fk_to_table f) = Some u /\ forall k, In k (fk_to_keys f) -> get_column u k <> None;
  ab_rel : forall n t1 t2 m r, get_table d1 n = Some t1 -> get_table d2 n = Some t2 ->
    get_relationship t2 m = Some r -> get_relationship t1 m <> Some r ->
    str_ltb (rel_to_table r) n = true \/ get_table d1 (rel_to_table r) <> None;
  (* foreign keys and relationships do not share names *)
  ab_names : forall n t1 t2 k, get_table d1 n = Some t1 -> get_table d2 n = Some t2 ->
    get_relationship t1 k <> None -> get_foreign_key t1 k = None /\ get_foreign_key t2 k = None;
  (* a dropped column is not referenced by a table that is dealt with later *)
  ab_drop : forall n t1 t2 k m u i f, get_table d1 n = Some t1 -> get_table d2 n = Some t2 ->
    get_column t1 k <> None -> get_column t2 k = None -> str_ltb n m = true -> get_table d1 m = Some u ->
    get_foreign_key u i = Some f -> fk_to_table f = n -> ~ In k (fk_to_keys f) }.
