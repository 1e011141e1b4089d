(** * Specification: the sharding review (C55, C58) *)
From Verif Require Export ReviewData.
Open Scope Z_scope.

(** What is assumed of rounding to floating point numbers: it keeps the order and does not change
    fractions [n / 2 ^ k] whose numerator has at most 53 bits. *)
Record rounding (rnd : Q -> Q) : Prop := {
  rd_order : forall x y, (x <= y)%Q -> (rnd x <= rnd y)%Q;
  rd_exact : forall n k, Z.abs n <= 2 ^ 53 -> 0 <= k <= 1000 -> (rnd (n # Z.to_pos (2 ^ k)) == n # Z.to_pos (2 ^ k))%Q }.

(** what a row of the statistics says about a table *)
Record stat := { st_db : str; st_schema : str; st_table : str; st_rows : Z; st_shards : Z; st_skew : Z }.
Definition number_in (r : row) (column : str) (z : Z) : Prop := exists s, r column = Ok s /\ py_int s = Ok z.
(** of rows about other databases only the name of the database matters *)
Record tells (reviewed : str) (r : row) (s : stat) : Prop := {
  te_db : r ($"Database Name") = Ok (st_db s);
  te_names : st_db s = reviewed -> r ($"Schema Name") = Ok (st_schema s) /\ r ($"Table Name") = Ok (st_table s);
  te_numbers : st_db s = reviewed -> number_in r ($"Total Row Count") (st_rows s)
                 /\ number_in r ($"Total Shards") (st_shards s) /\ number_in r ($"Row Count Skew") (st_skew s) }.

(** [msg] exactly if [P] *)
Definition flagged (P : Prop) (msg : str) (l : list str) : Prop := (P /\ l = [msg]) \/ (~ P /\ l = []).

Section Judged.
Variable rnd : Q -> Q.
Variable commas : setting -> str.
Variable float_str : Q -> str.
(** the skew in units of the rows of an average shard, computed with floating point numbers *)
Definition skew_of (s : stat) : Q :=
  rnd (rnd (inject_Z (st_skew s)) / rnd (inject_Z (st_rows s) / inject_Z (st_shards s)))%Q.
(** the messages [l] about a table, given limits for the rows per shard and for the skew *)
Definition judged (max min : Z) (skew_limit : Q) (s : stat) (l : list str) : Prop :=
  let name := st_db s ++ $"." ++ st_schema s ++ $"." ++ st_table s in
  let few := st_rows s < min * st_shards s in
  let many := max * st_shards s < st_rows s in
  exists l1 l2 l3 l4, l = l1 ++ l2 ++ l3 ++ l4
    /\ flagged (st_shards s = 1 /\ many) (name ++ $" is not sharded and has more than " ++ commas (SNum (inject_Z max)) ++ $" rows total") l1
    /\ flagged (st_shards s <> 1 /\ few) (name ++ $" is sharded and has less than " ++ commas (SNum (inject_Z min)) ++ $" rows per shard") l2
    /\ flagged (st_shards s <> 1 /\ ~ few /\ many) (name ++ $" is sharded and has more than " ++ commas (SNum (inject_Z max)) ++ $" rows per shard") l3
    /\ flagged (st_shards s <> 1 /\ 0 < st_rows s /\ (skew_limit < skew_of s)%Q) (name ++ $" has a high skew of " ++ float_str (skew_of s)) l4.
End Judged.
