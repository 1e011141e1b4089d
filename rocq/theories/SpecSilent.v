(** * Specification: what the tools say about the DDL they read (C103) *)
From Verif Require Export SpecMessages SpecCliDiff SpecCliReview.

(** the statement [s], met when the model is [d], did what it says and made it [d'] *)
Record took_effect (d : database) (s : str) (d' : database) : Prop := {
  te_key : about_primary_key s -> key_set d d';
  te_relationship : about_relationship s -> relationship_added d d';
  te_foreign : about_foreign_key s -> 0 < constraints s -> foreign_keys_added (constraints s) d d';
  te_create : creates s -> exists t, d' = add_table d t /\ (t_shard t <> None <-> occurs ($"partition by hash") (lower s)) }.
(** every statement of the script [t] took effect at its turn, from the empty model to [d] *)
Definition all_took_effect (name schema t : str) (d : database) : Prop :=
  forall before s after, get_statements t = before ++ s :: after -> exists d1 d2,
    parse_statements schema 0 before (empty_database name) = Ok d1 /\ took_effect d1 s d2
    /\ parse_statements schema (S (length before)) after d2 = Ok d.
(** what a statement is said to be about *)
Inductive called (s : str) : str -> Prop :=
| called_primary : about_primary_key s -> called s ($"primary key")
| called_foreign : about_foreign_key s -> called s ($"foreign key")
| called_relationship : about_relationship s -> called s ($"relationship")
| called_hash : creates s -> called s ($"hash key").
Definition not_found (w n : str) : str := $"ERROR:root:Attempting to add a " ++ w ++ $" to table " ++ n ++ $", which is not in the database.".
(** a line that shows the statement, or the name of a table that is missing, and says what is lost *)
Inductive shows (s : str) (d : database) : str -> Prop :=
| shows_unable : forall w, called s w -> w <> $"relationship" -> shows s d ($"Possible parsing error: unable to extract " ++ w ++ $" from " ++ s ++ $".")
| shows_generic : called s ($"relationship") -> shows s d ($"Possible parsing error: unable to extract generic relationship from " ++ s ++ $".")
| shows_failed : forall w why, called s w -> ~ creates s -> shows s d ($"Error """ ++ why ++ $""" extracting " ++ w ++ $" from: " ++ s)
| shows_quoted : forall why, creates s -> shows s d ($"Error """ ++ why ++ $""" extracting hash key from: " ++ with_quotes s)
| shows_missing : forall w n, called s w -> get_table d n = None -> shows s d (not_found w n).
(** standard error has received these lines first *)
Definition told (ms : list str) (st st' : state) : Prop := exists more, err st' = err st ++ map line ms ++ more.
