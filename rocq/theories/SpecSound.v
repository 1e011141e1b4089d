(** * Specification: what every database of an Excel reader is like (C114) *)
From Verif Require Export SpecScript SpecExcel SpecAgain.
From Coq Require Import List ZArith. Import ListNotations.

(** names as they come from one cell: separated by commas, without white space around them *)
Definition listed_names (l : list str) : Prop := forall k, In k l -> trimmed k /\ ~ In ","%char k.

Record sound_table (t : table) : Prop := {
  sd_pk : listed_names (t_pk t);
  sd_shard : forall sk, t_shard t = Some sk -> sk_keys sk <> [] /\ listed_names (sk_keys sk) /\ sk_shards sk <> 0%Z;
  sd_cols : forall c, In c (table_iter t) -> valid_type (column_type c);
  sd_fks : forall fk, In fk (foreign_keys_iter t) -> fk_from_table fk = t_name t /\ fk_from_keys fk <> [] /\ length (fk_from_keys fk) = length (fk_to_keys fk)
    /\ listed_names (fk_from_keys fk) /\ listed_names (fk_to_keys fk);
  sd_rels : forall r, In r (relationships_iter t) -> rel_from_table r = t_name t /\ rel_name r = usual_name r }.
(** the database filed under [n] *)
Record sound_db (n : str) (d : database) : Prop := {
  sd_name : db_name d = n /\ n <> [];
  sd_formed : well_formed d;
  sd_tables : forall t, In t (db_iter d) -> sound_table t }.

(** texts that fit into cells (see [cell_text]); no name in a list of columns is empty *)
Definition fits_list (l : list str) : Prop := ~ In [] l /\ cell_text (join ($", ") l).
Record fits_table (t : table) : Prop := {
  ft_names : cell_text (t_name t) /\ cell_text (t_schema t);
  ft_cols : forall c, In c (table_iter t) -> cell_text (column_name c) /\ cell_text (column_type c);
  ft_pk : fits_list (t_pk t);
  ft_shard : forall sk, t_shard t = Some sk -> fits_list (sk_keys sk) /\ (Z.abs (sk_shards sk) <= 2 ^ 53)%Z;
  ft_fks : forall fk, In fk (foreign_keys_iter t) -> cell_text (fk_name fk) /\ cell_text (fk_to_table fk) /\ fits_list (fk_from_keys fk) /\ fits_list (fk_to_keys fk);
  ft_rels : forall r, In r (relationships_iter t) -> cell_text (rel_name r) /\ cell_text (rel_to_table r) /\ cell_text (rel_conditions r) }.
Definition fits_db (d : database) : Prop := cell_text (db_name d) /\ db_iter d <> [] /\ forall t, In t (db_iter d) -> fits_table t.
