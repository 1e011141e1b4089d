(** * Specification: the texts of a model and the statements of reviews (C105) *)
From Verif Require Export SpecCliReview.

Definition key_texts (fk : foreign_key) : list str := [fk_name fk; fk_from_table fk; fk_to_table fk] ++ fk_from_keys fk ++ fk_to_keys fk.
Definition relation_texts (r : relationship) : list str := [rel_name r; rel_from_table r; rel_to_table r; rel_conditions r].
(** every text the model holds about a table, but the types of its columns (C39) *)
Definition texts_of_table (t : table) : list str :=
  t_name t :: t_schema t :: t_pk t ++ get_column_names t ++ map column_name (table_iter t) ++ match t_shard t with Some s => sk_keys s | None => [] end
  ++ flat_map key_texts (foreign_keys_iter t) ++ flat_map relation_texts (relationships_iter t).
Definition texts_of (d : database) : list str := db_name d :: get_table_names d ++ flat_map texts_of_table (db_iter d).

(** a statement for the cluster that reads: one SELECT, or the one for statistics *)
Definition reads_only (q : str) : Prop :=
  q = $"show statistics for server;" \/ exists body, q = $"select " ++ body ++ $";" /\ ~ In ";"%char body.
