(** * Specification: what a comparison of two databases should report, and what a change means *)
From Verif Require Export Diff SpecScript.
From Coq Require Export Permutation.

Definition eq_str : forall a b : str, {a = b} + {a <> b} := list_eq_dec Ascii.ascii_dec.
Definition rel_dec (a b : relationship) : {a = b} + {a <> b}.
Proof. decide equality; apply eq_str. Defined.

Definition changes (l : list difference) : list change := map diff_change l.

(** ** What a change is about *)
Definition about_table (n : str) (c : change) : bool :=
  match c with TableCreated t | TableDropped t => str_eqb (t_name t) n | _ => false end.
Definition about_pk (n : str) (c : change) : bool :=
  match c with PrimaryKeyAdded t _ | PrimaryKeyDropped t => str_eqb (t_name t) n | _ => false end.
Definition about_shard (n : str) (c : change) : bool :=
  match c with ShardKeyAdded t _ _ | ShardKeyDropped t => str_eqb (t_name t) n | _ => false end.
Definition about_fk (n k : str) (c : change) : bool :=
  match c with
  | ForeignKeyAdded t fk => str_eqb (t_name t) n && str_eqb (fk_name fk) k
  | ForeignKeyDropped t m => str_eqb (t_name t) n && str_eqb m k
  | _ => false
  end.
Definition about_rel (n k : str) (c : change) : bool :=
  match c with
  | RelationshipAdded t r => str_eqb (t_name t) n && str_eqb (rel_name r) k
  | RelationshipDropped t m => str_eqb (t_name t) n && str_eqb m k
  | _ => false
  end.
Definition about_column (n k : str) (c : change) : bool :=
  match c with
  | ColumnAdded t x | ColumnDropped t x | ColumnModified t x =>
      str_eqb (t_name t) n && str_eqb (column_name x) k
  | _ => false
  end.

(** ** The changes expected to bring the first side (mine) to the second (theirs) *)
Definition table_expected (mine theirs : option table) : list change :=
  match mine, theirs with
  | None, Some t => [TableCreated t]
  | Some t, None => [TableDropped t]
  | _, _ => []
  end.
Definition in_both (mine theirs : option table) (f : table -> table -> list change) : list change :=
  match mine, theirs with Some t1, Some t2 => f t1 t2 | _, _ => [] end.
Definition column_expected (k : str) (t1 t2 : table) : list change :=
  match get_column t1 k, get_column t2 k with
  | None, Some c => [ColumnAdded t1 c]
  | Some c, None => [ColumnDropped t1 c]
  | Some c1, Some c2 => if eq_str (column_type c1) (column_type c2) then [] else [ColumnModified t1 c2]
  | None, None => []
  end.
Definition pk_expected (t1 t2 : table) : list change :=
  if list_eq_dec eq_str (t_pk t1) (t_pk t2) then []
  else (match t_pk t1 with [] => [] | _ => [PrimaryKeyDropped t1] end)
       ++ (match t_pk t2 with [] => [] | _ => [PrimaryKeyAdded t1 (t_pk t2)] end).
Definition rel_expected (k : str) (t1 t2 : table) : list change :=
  match get_relationship t1 k, get_relationship t2 k with
  | None, Some r => [RelationshipAdded t1 r]
  | Some _, None => [RelationshipDropped t1 k]
  | Some r1, Some r2 => if rel_dec r1 r2 then [] else [RelationshipDropped t1 k; RelationshipAdded t1 r2]
  | None, None => []
  end.
(** [alike f1 f2]: the comparison takes the two foreign keys for the same; [f1] is always the key of
    the database compared first *)
Definition fk_expected (alike : foreign_key -> foreign_key -> bool) (k : str) (t1 t2 : table) : list change :=
  match get_foreign_key t1 k, get_foreign_key t2 k with
  | None, Some f => [ForeignKeyAdded t1 f]
  | Some _, None => [ForeignKeyDropped t1 k]
  | Some f1, Some f2 => if alike f1 f2 then [] else [ForeignKeyDropped t1 k; ForeignKeyAdded t1 f2]
  | None, None => []
  end.
Definition shard_expected (t1 t2 : table) : list change :=
  match t_shard t1, t_shard t2 with
  | None, Some s => [ShardKeyAdded t1 (sk_shards s) (sk_keys s)]
  | Some _, None => [ShardKeyDropped t1]
  | Some s1, Some s2 => if Nat.eq_dec (sk_id s1) (sk_id s2) then [] else [ShardKeyAdded t1 (sk_shards s2) (sk_keys s2)]
  | None, None => []
  end.

(** what the comparison of two foreign keys of one name goes by: the tables, and whether the first
    key references columns with the same names as its own *)
Definition taken_as_same (f1 f2 : foreign_key) : Prop :=
  fk_from_table f1 = fk_from_table f2 /\ fk_to_table f1 = fk_to_table f2
  /\ Permutation (fk_from_keys f1) (fk_to_keys f1).

(** a foreign key between columns of the same names *)
Definition same_names (f : foreign_key) : Prop := Permutation (fk_from_keys f) (fk_to_keys f).

(** ** What a change does to a database, seen as finite maps *)
Record tview := {
  v_col : str -> option column; v_pk : list str; v_shard : option (Z * list str);
  v_fk : str -> option foreign_key; v_rel : str -> option relationship }.
Definition dview := str -> option tview.

Definition view_table (t : table) : tview :=
  {| v_col := get_column t; v_pk := t_pk t; v_shard := shard_of t;
     v_fk := get_foreign_key t; v_rel := get_relationship t |}.
Definition view (d : database) : dview := fun n => option_map view_table (get_table d n).

Definition put {A} (k : str) (x : option A) (f : str -> option A) : str -> option A :=
  fun m => if str_eqb m k then x else f m.
Definition set_col k x v := {| v_col := put k x (v_col v); v_pk := v_pk v; v_shard := v_shard v; v_fk := v_fk v; v_rel := v_rel v |}.
Definition set_pk x v := {| v_col := v_col v; v_pk := x; v_shard := v_shard v; v_fk := v_fk v; v_rel := v_rel v |}.
Definition set_shard x v := {| v_col := v_col v; v_pk := v_pk v; v_shard := x; v_fk := v_fk v; v_rel := v_rel v |}.
Definition set_fk k x v := {| v_col := v_col v; v_pk := v_pk v; v_shard := v_shard v; v_fk := put k x (v_fk v); v_rel := v_rel v |}.
Definition set_rel k x v := {| v_col := v_col v; v_pk := v_pk v; v_shard := v_shard v; v_fk := v_fk v; v_rel := put k x (v_rel v) |}.

(** a created table starts without constraints, as CREATE TABLE leaves it *)
Definition created_view (t : table) : tview :=
  {| v_col := get_column t; v_pk := t_pk t; v_shard := shard_of t; v_fk := fun _ => None; v_rel := fun _ => None |}.

(** the effect on the table the change is about *)
Definition act (c : change) (v : option tview) : option tview :=
  match c with
  | TableCreated t => Some (created_view t)
  | TableDropped _ => None
  | PrimaryKeyAdded _ pk => option_map (set_pk pk) v
  | PrimaryKeyDropped _ => option_map (set_pk []) v
  | ShardKeyAdded _ n k => option_map (set_shard (Some (n, k))) v
  | ShardKeyDropped _ => option_map (set_shard None) v
  | ForeignKeyAdded _ fk => option_map (set_fk (fk_name fk) (Some fk)) v
  | ForeignKeyDropped _ n => option_map (set_fk n None) v
  | RelationshipAdded _ r => option_map (set_rel (rel_name r) (Some r)) v
  | RelationshipDropped _ n => option_map (set_rel n None) v
  | ColumnAdded _ c | ColumnModified _ c => option_map (set_col (column_name c) (Some c)) v
  | ColumnDropped _ c => option_map (set_col (column_name c) None) v
  end.
Definition apply_change (d : dview) (c : change) : dview :=
  put (t_name (change_table c)) (act c (d (t_name (change_table c)))) d.
Definition apply_changes (l : list change) (d : dview) : dview := fold_left apply_change l d.

Definition same_tview (v w : tview) : Prop :=
  (forall k, v_col v k = v_col w k) /\ v_pk v = v_pk w /\ v_shard v = v_shard w
  /\ (forall k, v_fk v k = v_fk w k) /\ (forall k, v_rel v k = v_rel w k).
Definition same_view (v w : dview) : Prop :=
  forall n, match v n, w n with Some a, Some b => same_tview a b | None, None => True | _, _ => False end.

(** ** The statement an ALTER text should read as *)
Definition default_text (ty : str) : str := if starts_with ($"VARCHAR") ty then $"''" else $"0".
Definition alter_stmt (c : change) : option stmt :=
  let s := t_schema (change_table c) in
  let n := t_name (change_table c) in
  match c with
  | TableCreated t =>
      Some (SCreateTable s n (map (fun c => (column_name c, column_type c)) (table_iter t)) (t_pk t) (shard_of t))
  | TableDropped _ => Some (SDropTable s n)
  | PrimaryKeyAdded _ _ => None
  | PrimaryKeyDropped _ => Some (SDropPk s n)
  | ShardKeyAdded _ z k => Some (SSetPartition s n z k)
  | ShardKeyDropped _ => Some (SSetDimension s n)
  | ForeignKeyAdded _ f => Some (SAlterAddFk s n (fk_name f) (fk_from_keys f) (fk_to_table f) (fk_to_keys f))
  | ForeignKeyDropped _ k | RelationshipDropped _ k => Some (SDropConstraint s n k)
  | RelationshipAdded _ r => Some (SAlterAddRel s n (rel_name r) (rel_to_table r) (rel_conditions r))
  | ColumnAdded _ c => Some (SAddColumn s n (column_name c) (column_type c) (default_text (column_type c)))
  | ColumnDropped _ c => Some (SDropColumn s n (column_name c))
  | ColumnModified _ c => Some (SModifyColumn s n (column_name c) (column_type c))
  end.

(** ** When a comparison has nothing to report about two tables *)
Record indistinct (t1 t2 : table) : Prop := {
  in_cols : forall k, get_column t1 k = get_column t2 k;
  in_pk : t_pk t1 = t_pk t2;
  in_rels : forall k, get_relationship t1 k = get_relationship t2 k;
  in_fks : forall k, match get_foreign_key t1 k, get_foreign_key t2 k with
                     | Some f1, Some f2 => taken_as_same f1 f2
                     | None, None => True
                     | _, _ => False
                     end;
  in_shard : match t_shard t1, t_shard t2 with
             | Some s1, Some s2 => sk_id s1 = sk_id s2
             | None, None => True
             | _, _ => False
             end }.
Definition indistinct_dbs (d1 d2 : database) : Prop :=
  forall n, match get_table d1 n, get_table d2 n with
            | Some t1, Some t2 => indistinct t1 t2
            | None, None => True
            | _, _ => False
            end.

(** for every name under which both databases have a foreign key of a table *)
Definition common_fks (d1 d2 : database) (P : foreign_key -> foreign_key -> Prop) : Prop :=
  forall n k t1 t2 f1 f2, get_table d1 n = Some t1 -> get_table d2 n = Some t2 ->
    get_foreign_key t1 k = Some f1 -> get_foreign_key t2 k = Some f2 -> P f1 f2.
(** the same shard key object has the same contents on both sides *)
Definition shard_objects (d1 d2 : database) : Prop :=
  forall n t1 t2 s1 s2, get_table d1 n = Some t1 -> get_table d2 n = Some t2 ->
    t_shard t1 = Some s1 -> t_shard t2 = Some s2 -> sk_id s1 = sk_id s2 -> s1 = s2.

(** ** Changes whose ALTER text can be read back *)
Definition writable_change (c : change) : Prop :=
  quote_free (t_schema (change_table c)) /\ quote_free (t_name (change_table c))
  /\ match c with
     | TableCreated t => writable_table t
     | ShardKeyAdded _ _ k => Forall quote_free k
     | ForeignKeyAdded _ f => quote_free (fk_name f) /\ quote_free (fk_to_table f)
                              /\ Forall quote_free (fk_from_keys f) /\ Forall quote_free (fk_to_keys f)
     | RelationshipAdded _ r => quote_free (rel_name r) /\ quote_free (rel_to_table r) /\ plain_condition (rel_conditions r)
     | ForeignKeyDropped _ k | RelationshipDropped _ k => quote_free k
     | ColumnAdded _ c | ColumnModified _ c => quote_free (column_name c) /\ plain_type (column_type c)
     | ColumnDropped _ c => quote_free (column_name c)
     | _ => True
     end.
(** the statement adds a foreign key or a relationship *)
Definition adds_constraint (x : stmt) : bool :=
  match x with SAddFk _ _ _ _ _ _ _ | SAddRel _ _ _ _ _ _ | SAlterAddFk _ _ _ _ _ _ | SAlterAddRel _ _ _ _ _ => true | _ => false end.
