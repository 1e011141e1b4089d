(** * Specification: what parsed databases look like *)
From Verif Require Export SpecParse SpecScript.

Record parsed_fk (t : table) (fk : foreign_key) : Prop := {
  pf_from : fk_from_table fk = t_name t;
  pf_name : free_of common_marks (fk_name fk);
  pf_to : free_of alter_marks (fk_to_table fk);
  pf_keys : forall k, In k (fk_from_keys fk ++ fk_to_keys fk) -> free_of (","%char :: alter_marks) k }.
Record parsed_rel (t : table) (r : relationship) : Prop := {
  pr_from : rel_from_table r = t_name t;
  pr_name : free_of common_marks (rel_name r);
  pr_to : free_of alter_marks (rel_to_table r) }.
Record parsed_table (schema : str) (t : table) : Prop := {
  pt_schema : t_schema t = schema;
  pt_name : free_of create_marks (t_name t);
  pt_types : forall c, In c (table_iter t) -> In (column_type c) target_types;
  pt_pk : forall k, In k (t_pk t) -> free_of [","; dq; "["; "]"]%char k;
  pt_shard : forall sk, t_shard t = Some sk -> forall k, In k (sk_keys sk) -> free_of (","%char :: alter_marks) k;
  pt_fks : forall fk, In fk (foreign_keys_iter t) -> parsed_fk t fk;
  pt_rels : forall r, In r (relationships_iter t) -> parsed_rel t r }.

(** two databases with the same tables and columns: only keys and relationships may differ *)
Definition same_columns (d d' : database) : Prop :=
  db_name d' = db_name d /\ get_table_names d' = get_table_names d /\ get_schema_names d' = get_schema_names d
  /\ forall n, match get_table d n, get_table d' n with
               | Some t, Some t' => t_name t' = t_name t /\ t_schema t' = t_schema t /\ t_cols t' = t_cols t /\ t_shard t' = t_shard t
               | None, None => True
               | _, _ => False
               end.
(** two databases that agree on some part of every table *)
Definition same_part {A} (part : table -> A) (d d' : database) : Prop :=
  forall n t t', get_table d n = Some t -> get_table d' n = Some t' -> part t' = part t.
