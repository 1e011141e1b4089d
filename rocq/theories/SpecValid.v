(** * Specification: when a database model is consistent *)
From Verif Require Export Validate.

(** [s] begins with VARCHAR *)
Definition varchar_like (s : str) : Prop := exists rest, s = $"VARCHAR" ++ rest.
(** two column types can be joined *)
Definition same_kind (a b : str) : Prop := a = b \/ (varchar_like a /\ varchar_like b).

(** column [f] of [t] may reference column [k] of [tt] *)
Definition pair_ok (t tt : table) (f k : str) : Prop :=
  exists fc tc, get_column t f = Some fc /\ get_column tt k = Some tc
                /\ In k (t_pk tt) /\ same_kind (column_type fc) (column_type tc).

Definition fk_ok (d : database) (t : table) (fk : foreign_key) : Prop :=
  exists tt, get_table d (fk_to_table fk) = Some tt
             /\ length (fk_to_keys fk) = length (t_pk tt)
             /\ Forall2 (pair_ok t tt) (fk_from_keys fk) (fk_to_keys fk).

Definition rel_ok (d : database) (t : table) (r : relationship) : Prop :=
  rel_from_table r = t_name t /\ In (rel_to_table r) (get_table_names d).

Record consistent (d : database) (t : table) : Prop := {
  ok_types : forall c, In c (table_iter t) -> column_type c <> $"UNKNOWN";
  ok_pk : forall k, In k (t_pk t) -> In k (get_column_names t);
  ok_shard : forall sk, t_shard t = Some sk -> forall k, In k (sk_keys sk) ->
               In k (get_column_names t) /\ (t_pk t <> [] -> In k (t_pk t));
  ok_fks : forall fk, In fk (foreign_keys_iter t) -> fk_ok d t fk;
  ok_rels : forall r, In r (relationships_iter t) -> rel_ok d t r }.

Definition consistent_db (d : database) : Prop := forall t, In t (db_iter d) -> consistent d t.

(** every foreign key pairs its columns (guaranteed by the constructor, see C02) *)
Definition paired_db (d : database) : Prop :=
  forall t fk, In t (db_iter d) -> In fk (foreign_keys_iter t) ->
               length (fk_from_keys fk) = length (fk_to_keys fk).

(** the texts of the warnings one expects *)
Definition unknown_columns (t : table) : list column :=
  filter (fun c => str_eqb (column_type c) ($"UNKNOWN")) (table_iter t).
Definition warning_text (d : database) (t : table) (c : column) : str :=
  $"database " ++ db_name d ++ $", table " ++ t_name t ++ $":  column " ++ column_name c
  ++ $" is of type UNKNOWN.".
Definition is_warning (i : str * level) : bool := match snd i with WARNING => true | _ => false end.
