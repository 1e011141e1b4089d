(** * Specification: which histories leak a schema (C07), which names camel case changes twice (C14) *)
From Verif Require Export SpecModel SpecGen.

(** at some moment a table was added while another one, of schema [s], was live under the same name *)
Definition replaced (ops : list db_op) (s : str) : Prop :=
  exists ops1 t ops2 old, ops = ops1 ++ AddTable t :: ops2
    /\ Holds (db_history ops1) (t_name t) old /\ t_schema old = s.

(** two underscores stand side by side, with other characters somewhere before and after them *)
Definition inner_pair (v : str) : Prop :=
  exists a x b c y d, v = (a ++ x :: b) ++ ["_"%char; "_"%char] ++ (c ++ y :: d)
    /\ x <> "_"%char /\ y <> "_"%char.
