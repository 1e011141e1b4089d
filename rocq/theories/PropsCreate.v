(** * Properties C73, C74: CREATE TABLE and CREATE OR REPLACE TABLE *)
From Verif Require Import CreateFacts.

(** C73: apart from shard keys, CREATE OR REPLACE TABLE is read like CREATE TABLE: same name, columns
    and keys, or the same failure.  [n] is all that stands between the keyword and the parenthesis. *)
Theorem C73_or_replace_partial : forall schema id d n rest,
  ~ In "("%char n -> ~ In ")"%char n -> ~ occurs ($"or replace") (lower n) ->
  ~ occurs ($"partition by hash") (lower (n ++ $"(" ++ rest)) -> ~ occurs ($"create database") (lower (n ++ $"(" ++ rest)) ->
  parse_statement schema id d ($"create or replace table " ++ n ++ $"(" ++ rest)
  = parse_statement schema id d ($"create table " ++ n ++ $"(" ++ rest).
Proof. intros schema id d n rest H1 H2 H3 H4 H5. symmetry. apply replace_statement; assumption. Qed.
Print Assumptions C73_or_replace_partial.
Example C73_case : exists d t, parse_statement ($"s") 0 (empty_database ($"d")) ($"create or replace table x.[my t] (a int, primary key (a))") = Ok d
  /\ get_table d ($"my t") = Some t /\ t_pk t = [$"a"] /\ get_column_names t = [$"a"].
Proof. eexists _, _. split; [vm_compute; reflexivity|]. split; [vm_compute; reflexivity|]. split; vm_compute; reflexivity. Qed.
(** With a shard clause it is not: the clause of CREATE OR REPLACE TABLE is never read. *)
Theorem C73_shard_refuted : forall schema id d s d',
  occurs ($"create or replace table") (lower s) -> ~ occurs ($"create table") (lower s) -> ~ occurs ($"create database") (lower s) ->
  parse_statement schema id d s = Ok d' -> exists t, d' = add_table d t /\ t_shard t = None.
Proof. intros schema id d s d' H1 H2 H3. apply replace_no_shard; assumption. Qed.
Print Assumptions C73_shard_refuted.
Example C73_shard_case : let rest := $"table t (a int) partition by hash (4) key (a)" in
  exists d1 d2, parse_statement ($"s") 0 (empty_database ($"d")) ($"create " ++ rest) = Ok d1
  /\ parse_statement ($"s") 0 (empty_database ($"d")) ($"create or replace " ++ rest) = Ok d2
  /\ map t_shard (db_iter d1) = [Some {| sk_id := 0; sk_keys := [$"a"]; sk_shards := 4 |}] /\ map t_shard (db_iter d2) = [None]
  /\ ~ occurs ($"create table") (lower ($"create or replace " ++ rest)).
Proof.
  eexists _, _. split; [vm_compute; reflexivity|]. split; [vm_compute; reflexivity|]. split; [vm_compute; reflexivity|]. split; [vm_compute; reflexivity|]. apply contains_false. vm_compute. reflexivity.
Qed.

(** C74: what a CREATE statement makes does not depend on the statements before it; a table of the same
    name that was there is replaced with all its columns and constraints, at its old place, and all other
    tables stay. *)
Theorem C74_replaces : forall schema id s, occurs ($"create table") (lower s) \/ occurs ($"create or replace table") (lower s) -> ~ occurs ($"create database") (lower s) ->
  (exists t, forall d, exists d', parse_statement schema id d s = Ok d' /\ get_table d' (t_name t) = Some t
     /\ t_fks t = [] /\ t_rels t = []
     /\ (forall n, n <> t_name t -> get_table d' n = get_table d n)
     /\ get_table_names d' = (if str_in (t_name t) (get_table_names d) then get_table_names d else get_table_names d ++ [t_name t]))
  \/ (exists e, forall d, parse_statement schema id d s = Err e).
Proof.
  intros schema id s C D. assert (E : forall d, parse_statement schema id d s = parse_create_table schema id d s).
  { intros d. unfold parse_statement. rewrite (proj2 (contains_false _ _) D). destruct C as [C|C]; rewrite (proj2 (contains_true _ _) C); [reflexivity|rewrite orb_true_r; reflexivity]. }
  destruct (created schema id s) as [t|e] eqn:K.
  - left. exists t. intros d. exists (add_table d t). rewrite E, created_ok, K. split; [reflexivity|]. split; [unfold get_table, add_table; cbn [db_tables]; rewrite dget_dset, str_eqb_refl; reflexivity|].
    destruct (create_bare _ _ _ _ K) as [F R]. split; [exact F|]. split; [exact R|]. split.
    + intros n N. unfold get_table, add_table. cbn [db_tables]. rewrite dget_dset. destruct (str_eqb_spec n (t_name t)) as [H|_]; [contradiction|reflexivity].
    + unfold get_table_names, add_table. cbn [db_tables]. destruct (str_in_spec (t_name t) (dkeys (db_tables d))) as [I|I]; [apply dkeys_dset_mem, I|apply dkeys_dset_new, I].
  - right. exists e. intros d. rewrite E, created_ok, K. reflexivity.
Qed.
Print Assumptions C74_replaces.
Example C74_case : let s := $"create table t (b int)" in
  exists d1 d2 t, parse_statement ($"s") 0 (empty_database ($"d")) ($"create table t (a int, c date, primary key (a))") = Ok d1
  /\ parse_statement ($"s") 1 d1 s = Ok d2 /\ get_table_names d1 = [$"t"] /\ get_table_names d2 = [$"t"]
  /\ get_table d2 ($"t") = Some t /\ get_column_names t = [$"b"] /\ t_pk t = [].
Proof. eexists _, _, _. split; [vm_compute; reflexivity|]. split; [vm_compute; reflexivity|]. split; [vm_compute; reflexivity|]. split; [vm_compute; reflexivity|]. split; [vm_compute; reflexivity|]. split; vm_compute; reflexivity. Qed.
