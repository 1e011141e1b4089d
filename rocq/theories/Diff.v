(** * dt/diff.py: comparing databases *)
From Verif Require Export Generator.

(** dt/diff.py:120-533, the subclasses of [DatabaseDifference], with their attributes *)
Inductive change :=
| TableCreated (t : table)
| TableDropped (t : table)
| PrimaryKeyAdded (t : table) (pk : list str)
| PrimaryKeyDropped (t : table)
| ShardKeyAdded (t : table) (number_shards : Z) (hash_key : list str)
| ShardKeyDropped (t : table)
| ForeignKeyAdded (t : table) (fk : foreign_key)
| ForeignKeyDropped (t : table) (name : str)
| RelationshipAdded (t : table) (r : relationship)
| RelationshipDropped (t : table) (name : str)
| ColumnAdded (t : table) (c : column)
| ColumnDropped (t : table) (c : column)
| ColumnModified (t : table) (c : column).

(** dt/diff.py:25-100 [DatabaseDifference].  The reference to the database object is represented by
    the database's name, the only attribute of it that is used (line 108). *)
Record difference := { diff_db : str; diff_change : change }.

(** The table attribute all differences carry *)
Definition change_table (c : change) : table :=
  match c with
  | TableCreated t | TableDropped t | PrimaryKeyAdded t _ | PrimaryKeyDropped t
  | ShardKeyAdded t _ _ | ShardKeyDropped t | ForeignKeyAdded t _ | ForeignKeyDropped t _
  | RelationshipAdded t _ | RelationshipDropped t _ | ColumnAdded t _ | ColumnDropped t _
  | ColumnModified t _ => t
  end.

(** dt/diff.py:37-75 [diff_type] *)
Definition diff_type (c : change) : Z :=
  match c with
  | TableCreated _ => 0 | TableDropped _ => 1
  | ColumnAdded _ _ => 10 | ColumnDropped _ _ => 11 | ColumnModified _ _ => 12
  | PrimaryKeyAdded _ _ => 20 | PrimaryKeyDropped _ => 21
  | ShardKeyAdded _ _ _ => 30 | ShardKeyDropped _ => 31
  | ForeignKeyAdded _ _ => 40 | ForeignKeyDropped _ _ => 41
  | RelationshipAdded _ _ => 50 | RelationshipDropped _ _ => 51
  end%Z.

(** dt/diff.py:35-75 [DIFFERENCE_DESCRIPTION] at the types that occur *)
Definition diff_description (c : change) : str :=
  match c with
  | TableCreated _ => $"Table Created" | TableDropped _ => $"Table Dropped"
  | ColumnAdded _ _ => $"Column Added" | ColumnDropped _ _ => $"Column Dropped"
  | ColumnModified _ _ => $"Column Modified"
  | PrimaryKeyAdded _ _ => $"Primary Key Added" | PrimaryKeyDropped _ => $"Primary Key Dropped"
  | ShardKeyAdded _ _ _ => $"Hash Key Added" | ShardKeyDropped _ => $"Hash Key Dropped"
  | ForeignKeyAdded _ _ => $"Foreign Key Added" | ForeignKeyDropped _ _ => $"Foreign Key Dropped"
  | RelationshipAdded _ _ => $"Generic Relationship Added"
  | RelationshipDropped _ _ => $"Generic Relationship Dropped"
  end.

(** dt/diff.py:102-109 [__repr__] *)
Definition diff_repr (d : difference) : str :=
  let t := change_table (diff_change d) in
  diff_db d ++ $"." ++ t_schema t ++ $"." ++ t_name t ++ $" (" ++ z_to_str (diff_type (diff_change d))
  ++ $"): " ++ diff_description (diff_change d).

(** dt/diff.py:143-149, 175-181, 204-211, 233-239, 267-275, 297-303, 328-335, 358-364, 390-397,
    421-427, 456-463, 492-498, 527-533 [get_alter]; the generator has no case option (line 100) *)
Definition get_alter (d : difference) : result str :=
  match diff_change d with
  | TableCreated t => gen_create_table no_case t
  | TableDropped t => gen_drop_table no_case t
  | PrimaryKeyAdded t pk => gen_add_primary_key no_case t pk
  | PrimaryKeyDropped t => gen_drop_primary_key no_case t
  | ShardKeyAdded t n k => gen_add_hash_key no_case t n k
  | ShardKeyDropped t => gen_drop_hash_key no_case t
  | ForeignKeyAdded t fk => gen_add_foreign_key no_case t fk
  | ForeignKeyDropped t n => gen_drop_constraint no_case t n
  | RelationshipAdded t r => gen_add_relationship no_case t r
  | RelationshipDropped t n => gen_drop_constraint no_case t n
  | ColumnAdded t c => gen_add_column no_case t c
  | ColumnDropped t c => gen_drop_column no_case t c
  | ColumnModified t c => gen_modify_column no_case t c
  end.

(** The pair of difference lists threaded through the comparison *)
Definition diffs := (list difference * list difference)%type.

Definition app1 (db : str) (c : change) (s : diffs) : diffs :=
  (fst s ++ [{| diff_db := db; diff_change := c |}], snd s).
Definition app2 (db : str) (c : change) (s : diffs) : diffs :=
  (fst s, snd s ++ [{| diff_db := db; diff_change := c |}]).

(** The four [while] loops over two sorted name lists share one shape
    (dt/diff.py:568-598, 724-757, 780-821, 845-876): [left] handles a name only in the first list,
    [right] one only in the second, [both] a common one. *)
Section MergeLoop.
Variables left right both : str -> diffs -> result diffs.

(** the two trailing loops, e.g. dt/diff.py:588-592 and 594-598 *)
Fixpoint rest_loop (h : str -> diffs -> result diffs) (l : list str) (s : diffs) : result diffs :=
  match l with
  | [] => Ok s
  | n :: l' => s' <- h n s ;; rest_loop h l' s'
  end.

(** the main loop, e.g. dt/diff.py:569-586, followed by the trailing loops *)
Fixpoint merge_loop (l1 : list str) : list str -> diffs -> result diffs :=
  match l1 with
  | [] => fun l2 s => rest_loop right l2 s
  | n1 :: l1' =>
      fix inner (l2 : list str) (s : diffs) : result diffs :=
        match l2 with
        | [] => rest_loop left (n1 :: l1') s
        | n2 :: l2' =>
            if str_ltb n1 n2 then s' <- left n1 s ;; merge_loop l1' (n2 :: l2') s'
            else if str_ltb n2 n1 then s' <- right n2 s ;; inner l2' s'
            else s' <- both n1 s ;; merge_loop l1' l2' s'
        end
  end.
End MergeLoop.

(** A name looked up with [get_*]; using the [None] that a missing name gives raises
    [AttributeError]. *)
Definition some_or_attr {A} (o : option A) : result A :=
  match o with Some a => Ok a | None => Err AttributeError end.

Definition is_nil {A} (l : list A) : bool := match l with [] => true | _ => false end.

(** dt/diff.py:627-661 [_compare_primary_keys] *)
Definition compare_primary_keys (n1 n2 : str) (t1 t2 : table) (s : diffs) : diffs :=
  let pk1 := t_pk t1 in
  let pk2 := t_pk t2 in
  if negb (strs_eqb pk1 pk2) then
    if is_nil pk1 && negb (is_nil pk2) then
      app2 n2 (PrimaryKeyDropped t2) (app1 n1 (PrimaryKeyAdded t1 pk2) s)
    else if negb (is_nil pk1) && is_nil pk2 then
      app1 n1 (PrimaryKeyDropped t1) (app2 n2 (PrimaryKeyAdded t2 pk1) s)
    else
      app2 n2 (PrimaryKeyAdded t2 pk1) (app2 n2 (PrimaryKeyDropped t2)
        (app1 n1 (PrimaryKeyAdded t1 pk2) (app1 n1 (PrimaryKeyDropped t1) s)))
  else s.

(** dt/diff.py:664-701 [_compare_shard_keys] *)
Definition compare_shard_keys (n1 n2 : str) (t1 t2 : table) (s : diffs) : diffs :=
  if negb (shard_eqb (t_shard t1) (t_shard t2)) then
    match t_shard t1, t_shard t2 with
    | None, Some sk2 =>
        app2 n2 (ShardKeyDropped t2) (app1 n1 (ShardKeyAdded t1 (sk_shards sk2) (sk_keys sk2)) s)
    | Some sk1, None =>
        app1 n1 (ShardKeyDropped t1) (app2 n2 (ShardKeyAdded t2 (sk_shards sk1) (sk_keys sk1)) s)
    | Some sk1, Some sk2 =>
        app2 n2 (ShardKeyAdded t2 (sk_shards sk1) (sk_keys sk1))
          (app1 n1 (ShardKeyAdded t1 (sk_shards sk2) (sk_keys sk2)) s)
    | None, None => s  (* unreachable: the two are equal *)
    end
  else s.

(** dt/diff.py:704-757 [_compare_foreign_keys] *)
Definition compare_foreign_keys (n1 n2 : str) (t1 t2 : table) (s : diffs) : result diffs :=
  merge_loop
    (fun n s => fk <- some_or_attr (get_foreign_key t1 n) ;;
       Ok (app1 n1 (ForeignKeyDropped t1 (fk_name fk)) (app2 n2 (ForeignKeyAdded t2 fk) s)))
    (fun n s => fk <- some_or_attr (get_foreign_key t2 n) ;;
       Ok (app2 n2 (ForeignKeyDropped t2 (fk_name fk)) (app1 n1 (ForeignKeyAdded t1 fk) s)))
    (fun n s =>
       fk1 <- some_or_attr (get_foreign_key t1 n) ;;
       fk2 <- some_or_attr (get_foreign_key t2 n) ;;
       if negb (fk_eqb fk1 fk2) then
         Ok (app2 n2 (ForeignKeyAdded t2 fk1) (app2 n2 (ForeignKeyDropped t2 (fk_name fk2))
              (app1 n1 (ForeignKeyAdded t1 fk2) (app1 n1 (ForeignKeyDropped t1 (fk_name fk1)) s))))
       else Ok s)
    (sorted (dkeys (t_fks t1))) (sorted (dkeys (t_fks t2))) s.

(** dt/diff.py:760-821 [_compare_relationships] *)
Definition compare_relationships (n1 n2 : str) (t1 t2 : table) (s : diffs) : result diffs :=
  merge_loop
    (fun n s => r <- some_or_attr (get_relationship t1 n) ;;
       Ok (app1 n1 (RelationshipDropped t1 (rel_name r)) (app2 n2 (RelationshipAdded t2 r) s)))
    (fun n s => r <- some_or_attr (get_relationship t2 n) ;;
       Ok (app2 n2 (RelationshipDropped t2 (rel_name r)) (app1 n1 (RelationshipAdded t1 r) s)))
    (fun n s =>
       r1 <- some_or_attr (get_relationship t1 n) ;;
       r2 <- some_or_attr (get_relationship t2 n) ;;
       if negb (rel_eqb r1 r2) then
         Ok (app2 n2 (RelationshipAdded t2 r1) (app2 n2 (RelationshipDropped t2 (rel_name r2))
              (app1 n1 (RelationshipAdded t1 r2) (app1 n1 (RelationshipDropped t1 (rel_name r1)) s))))
       else Ok s)
    (sorted (dkeys (t_rels t1))) (sorted (dkeys (t_rels t2))) s.

(** dt/diff.py:824-876 [_compare_columns] *)
Definition compare_columns (n1 n2 : str) (t1 t2 : table) (s : diffs) : result diffs :=
  merge_loop
    (fun n s => c <- some_or_attr (get_column t1 n) ;;
       Ok (app1 n1 (ColumnDropped t1 c) (app2 n2 (ColumnAdded t2 c) s)))
    (fun n s => c <- some_or_attr (get_column t2 n) ;;
       Ok (app2 n2 (ColumnDropped t2 c) (app1 n1 (ColumnAdded t1 c) s)))
    (fun n s =>
       c1 <- some_or_attr (get_column t1 n) ;;
       c2 <- some_or_attr (get_column t2 n) ;;
       if negb (str_eqb (column_type c1) (column_type c2)) then
         Ok (app2 n2 (ColumnModified t2 c1) (app1 n1 (ColumnModified t1 c2) s))
       else Ok s)
    (sorted (get_column_names t1)) (sorted (get_column_names t2)) s.

(** dt/diff.py:603-624 [_compare_tables] *)
Definition compare_tables (n1 n2 : str) (t1 t2 : table) (s : diffs) : result diffs :=
  let s := compare_primary_keys n1 n2 t1 t2 s in
  let s := compare_shard_keys n1 n2 t1 t2 s in
  s <- compare_foreign_keys n1 n2 t1 t2 s ;;
  s <- compare_relationships n1 n2 t1 t2 s ;;
  compare_columns n1 n2 t1 t2 s.

(** dt/diff.py:547-600 [compare_databases] *)
Definition compare_databases (db1 db2 : database) : result diffs :=
  merge_loop
    (fun n s => t <- some_or_attr (get_table db1 n) ;;
       Ok (app1 (db_name db1) (TableDropped t) (app2 (db_name db2) (TableCreated t) s)))
    (fun n s => t <- some_or_attr (get_table db2 n) ;;
       Ok (app1 (db_name db1) (TableCreated t) (app2 (db_name db2) (TableDropped t) s)))
    (fun n s =>
       t1 <- some_or_attr (get_table db1 n) ;;
       t2 <- some_or_attr (get_table db2 n) ;;
       compare_tables (db_name db1) (db_name db2) t1 t2 s)
    (sorted (get_table_names db1)) (sorted (get_table_names db2)) ([], []).
