(** * Specification: statements that say something about keys and relationships (C96) *)
From Verif Require Export Messages SpecParsed SpecParse.

(** the kinds of ALTER statements, told by the words in them *)
Record alters (s : str) : Prop := {
  al_words : occurs ($"alter table") (lower s);
  al_db : ~ occurs ($"create database") (lower s);
  al_table : ~ occurs ($"create table") (lower s);
  al_replace : ~ occurs ($"create or replace table") (lower s) }.
Definition about_primary_key (s : str) : Prop := alters s /\ occurs ($"primary key") (lower s).
Definition about_foreign_key (s : str) : Prop :=
  alters s /\ ~ occurs ($"primary key") (lower s) /\ occurs ($"foreign") (lower s).
Definition about_relationship (s : str) : Prop :=
  alters s /\ ~ occurs ($"primary key") (lower s) /\ ~ occurs ($"foreign") (lower s) /\ occurs ($"relationship") (lower s).
Definition about_shard_key (s : str) : Prop :=
  alters s /\ ~ occurs ($"primary key") (lower s) /\ ~ occurs ($"foreign") (lower s) /\ ~ occurs ($"relationship") (lower s)
  /\ occurs ($"hash") (lower s).

(** how often [w] begins in [s] *)
Fixpoint beginnings (w s : str) : nat :=
  match s with [] => 0 | _ :: s' => (if starts_with w s then 1 else 0) + beginnings w s' end.
(** the number of constraints in a statement *)
Definition constraints (s : str) : nat := beginnings ($"constraint") (lower s).

(** [d'] is [d] with the table [n], which was [t], now [t'] *)
Record one_changed (d d' : database) (n : str) (t t' : table) : Prop := {
  oc_was : get_table d n = Some t; oc_is : get_table d' n = Some t';
  oc_others : forall m, m <> n -> get_table d' m = get_table d m;
  oc_names : get_table_names d' = get_table_names d; oc_db : db_name d' = db_name d;
  oc_schemas : db_schemas d' = db_schemas d }.
Definition key_set (d d' : database) : Prop := exists n t l, l <> [] /\ one_changed d d' n t (with_pk t l).
Definition relationship_added (d d' : database) : Prop :=
  exists n t r, rel_from_table r = t_name t /\ one_changed d d' n t (add_rel_obj t r).
Definition foreign_keys_added (k : nat) (d d' : database) : Prop :=
  exists n t fs, length fs = k /\ (forall f, In f fs -> fk_from_table f = t_name t) /\ one_changed d d' n t (fold_left add_fk_obj fs t).

(** a message about the statement, or naming the table it cannot find *)
Definition concerns (k : construct) (s : str) (d : database) (m : message) : Prop :=
  m = Unable k s \/ (exists e, m = Failed k e s) \/ exists n, m = NoTable k n /\ get_table d n = None.

(** the beginning of a statement that [parse_ddl] takes for the addition of something to a table *)
Definition adds_to_table (s : str) : Prop := exists x y, lower s = $"alter table " ++ x ++ $" add" ++ y.
Definition creates (s : str) : Prop :=
  ~ occurs ($"create database") (lower s) /\ (occurs ($"create table") (lower s) \/ occurs ($"create or replace table") (lower s)).
(** the statement with quotes in place of brackets, as messages about CREATE TABLE show it *)
Definition with_quotes (s : str) : str := map (fun c => if Ascii.eqb c "[" then dquote else if Ascii.eqb c "]" then dquote else c) s.
