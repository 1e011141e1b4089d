(** * Specification: creating a database from one file and altering it to another (C98) *)
From Verif Require Export SpecAlter SpecCliDiff SpecCliFlow.

(** ddldiff --ddl1 [f] --ddl2 [g] --database [n] --schema [s] --alter1 *)
Definition alter_diff (f g n s : str) : diff_args :=
  {| ddl1 := Some f; ddl2 := Some g; database1 := n; schema1 := s; alter1 := true; alter2 := false; ignore_case := false |}.
(** tables only the second model has come without foreign keys and relationships (for others the script is
    incomplete, C33) *)
Definition new_tables_bare (d1 d2 : database) : Prop :=
  forall n t, get_table d1 n = None -> get_table d2 n = Some t -> t_fks t = [] /\ t_rels t = [].
(** foreign keys of the same name that the comparison does not tell apart are the same (others are missed,
    C27) *)
Definition fks_told_apart (d1 d2 : database) : Prop := common_fks d1 d2 (fun f1 f2 => taken_as_same f1 f2 -> f1 = f2).
