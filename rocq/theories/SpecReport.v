(** * Specification: the lines a comparison reports (C97) *)
From Verif Require Export SpecDiff.

(** what a line can report about a table *)
Inductive report :=
| IsCreated | IsDropped | ColumnsAdded | ColumnsDropped | ColumnsModified | KeyAdded | KeyDropped
| HashAdded | HashDropped | ForeignAdded | ForeignDropped | GenericAdded | GenericDropped.
Definition wording (r : report) : str :=
  match r with
  | IsCreated => $"(0): Table Created" | IsDropped => $"(1): Table Dropped"
  | ColumnsAdded => $"(10): Column Added" | ColumnsDropped => $"(11): Column Dropped" | ColumnsModified => $"(12): Column Modified"
  | KeyAdded => $"(20): Primary Key Added" | KeyDropped => $"(21): Primary Key Dropped"
  | HashAdded => $"(30): Hash Key Added" | HashDropped => $"(31): Hash Key Dropped"
  | ForeignAdded => $"(40): Foreign Key Added" | ForeignDropped => $"(41): Foreign Key Dropped"
  | GenericAdded => $"(50): Generic Relationship Added" | GenericDropped => $"(51): Generic Relationship Dropped"
  end.
Definition report_line (db schema name : str) (r : report) : str :=
  db ++ $"." ++ schema ++ $"." ++ name ++ $" " ++ wording r.

Definition how_many (p : str -> bool) (l : list str) : nat := length (filter p l).
Definition once (b : bool) : nat := if b then 1 else 0.
Definition empty {A} (l : list A) : bool := match l with [] => true | _ => false end.
Definition same_pk (t1 t2 : table) : bool := if list_eq_dec eq_str (t_pk t1) (t_pk t2) then true else false.
(** a column of both tables, with another type *)
Definition retyped (t1 t2 : table) (k : str) : bool :=
  match get_column t1 k, get_column t2 k with
  | Some c1, Some c2 => if eq_str (column_type c1) (column_type c2) then false else true
  | _, _ => false
  end.

Section Count.
(** [alike f1 f2]: two foreign keys of one name, mine and theirs, are taken for the same; [one s1 s2]:
    two shard keys are *)
Variable alike : foreign_key -> foreign_key -> bool.
Variable one : shard_key -> shard_key -> bool.

(** the foreign keys and relationships of [t2] that [t1] does not have like that *)
Definition lacks_fk (t1 t2 : table) (k : str) : bool :=
  match get_foreign_key t1 k, get_foreign_key t2 k with
  | _, None => false | None, Some _ => true | Some f1, Some f2 => negb (alike f1 f2)
  end.
Definition loses_fk (t1 t2 : table) (k : str) : bool :=
  match get_foreign_key t1 k, get_foreign_key t2 k with
  | None, _ => false | Some _, None => true | Some f1, Some f2 => negb (alike f1 f2)
  end.
Definition lacks_rel (t1 t2 : table) (k : str) : bool :=
  match get_relationship t1 k, get_relationship t2 k with
  | _, None => false | None, Some _ => true | Some r1, Some r2 => if rel_dec r1 r2 then false else true
  end.

(** how often a report about a table, [mine] in the database reported on and [theirs] in the other, is
    to be made: once for each object concerned *)
Definition reports_due (r : report) (mine theirs : option table) : nat :=
  match mine, theirs with
  | None, None => 0
  | None, Some _ => match r with IsCreated => 1 | _ => 0 end
  | Some _, None => match r with IsDropped => 1 | _ => 0 end
  | Some t1, Some t2 =>
      match r with
      | IsCreated | IsDropped => 0
      | ColumnsAdded => how_many (fun k => negb (has_column t1 k)) (get_column_names t2)
      | ColumnsDropped => how_many (fun k => negb (has_column t2 k)) (get_column_names t1)
      | ColumnsModified => how_many (retyped t1 t2) (get_column_names t1)
      | KeyAdded => once (negb (same_pk t1 t2) && negb (empty (t_pk t2)))
      | KeyDropped => once (negb (same_pk t1 t2) && negb (empty (t_pk t1)))
      | HashAdded => match t_shard t1, t_shard t2 with
                     | _, None => 0 | None, Some _ => 1 | Some s1, Some s2 => once (negb (one s1 s2)) end
      | HashDropped => match t_shard t1, t_shard t2 with Some _, None => 1 | _, _ => 0 end
      | ForeignAdded => how_many (lacks_fk t1 t2) (map fk_name (foreign_keys_iter t2))
      | ForeignDropped => how_many (loses_fk t1 t2) (map fk_name (foreign_keys_iter t1))
      | GenericAdded => how_many (lacks_rel t1 t2) (map rel_name (relationships_iter t2))
      | GenericDropped => how_many (lacks_rel t2 t1) (map rel_name (relationships_iter t1))
      end
  end.
(** a line gives the schema the table has in the database reported on, if it is there *)
Definition lines_due (schema : str) (r : report) (mine theirs : option table) : nat :=
  match mine, theirs with
  | Some t, _ | None, Some t => if eq_str (t_schema t) schema then reports_due r mine theirs else 0
  | None, None => 0
  end.
End Count.
Definition times (x : str) (l : list str) : nat := count_occ eq_str l x.
(** the shard key objects are the same *)
Definition same_object (s1 s2 : shard_key) : bool := if Nat.eq_dec (sk_id s1) (sk_id s2) then true else false.
Definition dotless (s : str) : Prop := ~ In "."%char s.
Definition dotless_schemas (d : database) : Prop := forall t, In t (db_iter d) -> dotless (t_schema t).
