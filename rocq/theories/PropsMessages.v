(** * Property C96: no key or relationship statement is lost without a message *)
From Verif Require Import RoundDemo MessageFacts SpecMessages StrFacts.
From Coq Require Import List Lia. Import ListNotations.

(** The messages are part of the model that the other theorems are about: the database read is the same. *)
Theorem C96_same : forall name schema text, fst (heard_text name schema text) = parse_text name schema text.
Proof. intros name schema text. apply heard_statements_same. Qed.
Print Assumptions C96_same.

(** C96 for one statement met at any point of a file: it takes effect and nothing is said, or it is
    named (with the construct, or the table that is missing) and nothing changes.  Of a statement
    with several foreign keys the constraints before the first bad one are kept.  [partial]: a
    statement about a foreign key without the word "constraint" is not covered, see below. *)
Theorem C96_heard_partial : forall schema id d s r ms, heard_statement schema id d s = (r, ms) ->
  (about_primary_key s -> (ms = [] /\ exists d', r = Ok d' /\ key_set d d')
     \/ (r = Ok d /\ exists m, ms = [m] /\ concerns PrimaryKey s d m))
  /\ (about_relationship s -> (ms = [] /\ exists d', r = Ok d' /\ relationship_added d d')
     \/ (r = Ok d /\ exists m, ms = [m] /\ concerns Relationship s d m))
  /\ (about_foreign_key s -> 0 < constraints s ->
     (ms = [] /\ exists d', r = Ok d' /\ foreign_keys_added (constraints s) d d')
     \/ (r = Ok d /\ ms <> [] /\ forall m, In m ms -> concerns ForeignKey s d m)
     \/ (exists k m d', r = Ok d' /\ k < constraints s /\ foreign_keys_added k d d' /\ ms = [m] /\ concerns ForeignKey s d m))
  /\ (about_shard_key s -> r = Ok d /\ (get_table d [] = None -> ms = [NoTable ShardKey []]))
  /\ (creates s -> forall d', r = Ok d' -> exists t, d' = add_table d t
     /\ (occurs ($"partition by hash") (lower s) -> (ms = [] /\ t_shard t <> None) \/ (t_shard t = None /\ exists e, ms = [Failed HashKey e (with_quotes s)]))
     /\ (~ occurs ($"partition by hash") (lower s) -> ms = [] /\ t_shard t = None))
  /\ (~ about_primary_key s -> ~ about_relationship s -> ~ about_foreign_key s -> ~ about_shard_key s -> ~ creates s -> r = Ok d /\ ms = []).
Proof.
  intros schema id d s r ms E. split; [|split; [|split; [|split; [|split]]]].
  - intros A. rewrite (heard_pk _ _ _ _ A) in E. destruct (heard_primary_key d s) as [d' ms'] eqn:H. apply pair_equal_spec in E. destruct E as [<- <-].
    destruct (pk_heard _ _ _ _ H) as [[-> K]|[-> K]]; [left; split; [reflexivity|]; exists d'; auto | right; auto].
  - intros A. rewrite (heard_rel _ _ _ _ A) in E. destruct (heard_relationship d s) as [d' ms'] eqn:H. apply pair_equal_spec in E. destruct E as [<- <-].
    destruct (rel_heard _ _ _ _ H) as [[-> K]|[-> K]]; [left; split; [reflexivity|]; exists d'; auto | right; auto].
  - intros A P. rewrite (heard_fk _ _ _ _ A) in E. destruct (heard_foreign_key d s) as [d' ms'] eqn:H. apply pair_equal_spec in E. destruct E as [<- <-].
    destruct (fk_heard _ _ _ _ H) as [[-> [K|[K _]]]|[(-> & K)|(k & m & K)]].
    + left. split; [reflexivity|]. exists d'. auto.
    + lia.
    + right. left. auto.
    + right. right. exists k, m, d'. auto.
  - intros A. rewrite (heard_shard _ _ _ _ A) in E. apply pair_equal_spec in E. destruct E as [<- <-]. split; [reflexivity|]. unfold heard_shard_key. intros ->. reflexivity.
  - intros A d' ->. exact (hash_heard _ _ _ _ _ _ A E).
  - intros A B C D F. rewrite (heard_other _ _ _ _ A C B D F) in E. apply pair_equal_spec in E. destruct E as [<- <-]. auto.
Qed.
Print Assumptions C96_heard_partial.

(** The full claim fails exactly for statements that add a foreign key without naming a constraint:
    nothing is added, and nothing is said whenever the statement begins like an addition to a table
    (statements delivered by the reader are single lines). *)
Theorem C96_unnamed_refuted : forall schema id d s, about_foreign_key s -> constraints s = 0 -> ~ In newline s ->
  fst (heard_statement schema id d s) = Ok d /\ (snd (heard_statement schema id d s) = [] <-> adds_to_table s).
Proof.
  intros schema id d s A C N. rewrite (heard_fk _ _ _ _ A). destruct (fk_silent d s) as [F S]; [apply noch_ok, N | exact C|].
  destruct (heard_foreign_key d s) as [d' ms]. cbn [fst snd] in *. rewrite F. auto.
Qed.
Print Assumptions C96_unnamed_refuted.
Example C96_unnamed_case : let s := $"ALTER TABLE ""a"" ADD FOREIGN KEY (x) REFERENCES ""b"" (y)" in
  about_foreign_key s /\ constraints s = 0 /\ ~ In newline s /\ adds_to_table s /\ In s (get_statements (s ++ $";")).
Proof.
  cbn zeta. split; [split; [constructor; first [apply contains_true; reflexivity | apply contains_false; reflexivity]|split; [apply contains_false; reflexivity | apply contains_true; reflexivity]]|].
  split; [vm_compute; reflexivity|]. split; [apply not_in_b; reflexivity|]. split; [|left; vm_compute; reflexivity].
  exists ($"""a"""), ($" foreign key (x) references ""b"" (y)"). reflexivity.
Qed.

(** Whole files: if nothing is said, every statement was handled without a message at its turn, so
    that [C96_heard_partial] tells its effect there. *)
Theorem C96_quiet_file : forall name schema text d, heard_text name schema text = (Ok d, []) ->
  forall l1 s l2, get_statements text = l1 ++ s :: l2 ->
  exists d1 d2, parse_statements schema 0 l1 (empty_database name) = Ok d1
    /\ heard_statement schema (length l1) d1 s = (Ok d2, []) /\ parse_statements schema (S (length l1)) l2 d2 = Ok d.
Proof.
  intros name schema text d E l1 s l2 S. destruct (quiet_file schema _ _ _ _ E l1 s l2 S) as (d1 & d2 & A & B & C). exists d1, d2.
  rewrite <- !heard_statements_same, A. cbn [Nat.add] in B, C. rewrite C. auto.
Qed.
Print Assumptions C96_quiet_file.

(** Scripts this program writes are read without a message. *)
Theorem C96_own_scripts : forall d create_db name schema, well_formed d -> plain_db d ->
  exists s d', tql_script no_case create_db d = Ok s /\ heard_text name schema s = (Ok d', [])
    /\ Forall2 (read_back schema) (db_iter d) (db_iter d').
Proof. intros d create_db name schema W P. destruct (round_heard d W P schema create_db name) as (s & d' & A & B & _ & _ & C). exists s, d'. auto. Qed.
Print Assumptions C96_own_scripts.

(** a file with one of each: a key on a missing table, two foreign keys of which the second is bad,
    a relationship that is kept, a shard key statement and a CREATE without number of shards *)
Definition messy : str :=
  $"create table a (x int, y int) partition by hash (many) key (x);" ++ [newline]
  ++ $"create table b (x int);" ++ [newline]
  ++ $"alter table c add primary key (x);" ++ [newline]
  ++ $"alter table a add constraint f foreign key (x) references b (x), constraint g foreign key x references b (x);" ++ [newline]
  ++ $"alter table a add relationship r with b as ""a"".""x"" = ""b"".""x"";" ++ [newline]
  ++ $"alter table a partition by hash (4) key (x);".
Example C96_own_case : well_formed shop /\ plain_db shop.
Proof. split; [exact (proj1 shop_usable) | exact shop_plain]. Qed.
Example C96_case : exists d, heard_text ($"d") ($"s") messy = (Ok d,
    [Failed HashKey ValueError ($"create table a (x int, y int) partition by hash (many) key (x)");
     NoTable PrimaryKey ($"c");
     Unable ForeignKey ($"alter table a add constraint f foreign key (x) references b (x), constraint g foreign key x references b (x)");
     NoTable ShardKey []])
  /\ map (fun t => (t_name t, t_pk t, t_shard t, dkeys (t_fks t), dkeys (t_rels t))) (db_iter d)
     = [($"a", [], None, [$"f"], [$"r"]); ($"b", [], None, [], [])].
Proof. eexists. split; vm_compute; reflexivity. Qed.
