(** * Specification: relationships that can be replaced with foreign keys (C125) *)
From Verif Require Export Model.

(** the relationship says that a column of its table equals the primary key of the other table *)
Definition replaceable (d : database) (r : relationship) : Prop :=
  exists t u a p, get_table d (rel_from_table r) = Some t /\ get_table d (rel_to_table r) = Some u /\ In r (dvals (t_rels t))
    /\ In a (dkeys (t_cols t)) /\ t_pk u = [p]
    /\ rel_conditions r = $"""" ++ t_name t ++ $""".""" ++ a ++ $""" = """ ++ t_name u ++ $""".""" ++ p ++ $"""".
(** the results of a review recommend to replace some relationship *)
Definition recommended (results : dict (list str)) : Prop := exists x l, dget ($"review_relationships") results = Some (x :: l).
