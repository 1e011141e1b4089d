(** * Specification: whole client programs over the model's API *)
From Verif Require Export SpecModel SpecScript.

(** one call on a table *)
Inductive table_op :=
| OnColumns (o : col_op)
| OnConstraints (o : con_op)
| SetPrimaryKey (k : option keys)
| SetShardKey (sk : option shard_key).
(** the table afterwards; a call that raises changes nothing *)
Definition run_table_op (t : table) (o : table_op) : table :=
  match o with
  | OnColumns c => run_col_op t c
  | OnConstraints c => fst (run_con_op t c)
  | SetPrimaryKey k => match set_primary_key t k with Ok t' => t' | Err _ => t end
  | SetShardKey sk => with_shard t sk
  end.
(** [Table(...)] followed by calls *)
Definition build_table (name schema : str) (pk : option keys) (sk : option shard_key) (ops : list table_op) : table :=
  fold_left run_table_op ops (mk_table name schema pk sk).

(** one call on a database, or on a table obtained from it *)
Inductive api_op :=
| ApiAddTable (name schema : str) (pk : option keys) (sk : option shard_key) (ops : list table_op)
| ApiDropTable (n : str)
| ApiOnTable (n : str) (o : table_op).
Definition run_api_op (d : database) (o : api_op) : result database :=
  match o with
  | ApiAddTable n s pk sk ops => Ok (add_table d (build_table n s pk sk ops))
  | ApiDropTable n => ' (d', _) <- drop_table d n ;; Ok d'
  | ApiOnTable n o =>
      match get_table d n with
      | Some t => Ok {| db_name := db_name d; db_tables := dset n (run_table_op t o) (db_tables d);
                        db_schemas := db_schemas d |}
      | None => Err AttributeError
      end
  end.
Fixpoint run_api (ops : list api_op) (d : database) : result database :=
  match ops with [] => Ok d | o :: ops' => d' <- run_api_op d o ;; run_api ops' d' end.
