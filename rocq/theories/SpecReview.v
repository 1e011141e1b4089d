(** * Specification vocabulary for the model reviews *)
From Coq Require Export Relations.
From Coq Require Export Permutation.
From Verif Require Export Model.

(** tables are filed under their names *)
Definition filed (d : database) : Prop := NoDup (get_table_names d) /\ forall n t, get_table d n = Some t -> t_name t = n.

(** table [a] has a foreign key or relationship to [b] *)
Definition related (d : database) (a b : str) : Prop :=
  exists t, get_table d a = Some t
            /\ ((exists fk, In fk (foreign_keys_iter t) /\ fk_to_table fk = b)
                \/ (exists r, In r (relationships_iter t) /\ rel_to_table r = b)).
(** [b] can be reached from [a] in one or more steps *)
Definition reaches (d : database) : str -> str -> Prop := clos_trans str (related d).
(** every constraint points to a table of the database *)
Definition no_dangling (d : database) : Prop := forall a b, related d a b -> In b (get_table_names d).

(** a way along constraints that visits no table twice *)
Fixpoint linked (R : str -> str -> Prop) (p : list str) : Prop :=
  match p with
  | a :: ((b :: _) as q) => R a b /\ linked R q
  | _ => True
  end.
Definition simple_path (d : database) (p : list str) : Prop := 2 <= length p /\ linked (related d) p /\ NoDup p.

(** the same for a map from tables to related tables *)
Definition map_related (m : list (str * list str)) (a b : str) : Prop := exists l, In (a, l) m /\ In b l.
Definition map_reaches (m : list (str * list str)) : str -> str -> Prop := clos_trans str (map_related m).
(** every table mentioned has an entry, and only one *)
Definition complete_map (m : list (str * list str)) : Prop :=
  NoDup (map fst m) /\ forall a b, map_related m a b -> In b (map fst m).

(** an order in which Python may iterate sets *)
Definition iteration_order (order : list str -> list str) : Prop := forall l, NoDup l -> Permutation (order l) l.

(** A computation that is given more and more time ([fuel]): it ends with [r], or it never ends. *)
Definition ends_as {A} (run : nat -> result A) (r : result A) : Prop := exists n, forall fuel, n <= fuel -> run fuel = r.
Definition never_ends {A} (run : nat -> result A) : Prop := forall fuel, run fuel = Err OutOfFuel.
