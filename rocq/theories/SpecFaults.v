(** * Specification: what a validation message says (C122)

    One case for every kind of fault, with the sentence for it.  The text of a primary key is that of a
    Python list of names ([list_repr], see C54_lists). *)
From Verif Require Export SpecValid.

(** column [f] of a table is to refer to column [k] of another one by the foreign key [fk] *)
Definition refers (fk : foreign_key) (f k : str) : Prop := In (f, k) (combine (fk_from_keys fk) (fk_to_keys fk)).

Inductive fault (d : database) (t : table) : str -> level -> Prop :=
| unknown_type c : In c (table_iter t) -> column_type c = $"UNKNOWN" ->
    fault d t ($"column " ++ column_name c ++ $" is of type UNKNOWN.") WARNING
| no_key_column k : In k (t_pk t) -> ~ In k (get_column_names t) ->
    fault d t ($"column " ++ k ++ $" in primary key does not exist in the the table.") ERROR
| no_shard_column sk k : t_shard t = Some sk -> In k (sk_keys sk) -> ~ In k (get_column_names t) ->
    fault d t ($"column " ++ k ++ $" in shard key does not exist in the the table.") ERROR
| shard_outside sk k : t_shard t = Some sk -> In k (sk_keys sk) -> t_pk t <> [] -> ~ In k (t_pk t) ->
    fault d t ($"column " ++ k ++ $" in shard key not in primary key " ++ list_repr (t_pk t)) ERROR
| no_target fk : In fk (foreign_keys_iter t) -> ~ In (fk_to_table fk) (get_table_names d) ->
    fault d t ($"table " ++ fk_to_table fk ++ $" doesn't exist for foreign key " ++ fk_name fk) ERROR
| other_count fk tot : In fk (foreign_keys_iter t) -> get_table d (fk_to_table fk) = Some tot ->
    length (fk_to_keys fk) <> length (t_pk tot) ->
    fault d t ($"FK " ++ fk_name fk ++ $" doesn't match number of columns in primary key " ++ list_repr (t_pk tot)) ERROR
| not_key fk tot f k : In fk (foreign_keys_iter t) -> get_table d (fk_to_table fk) = Some tot -> refers fk f k ->
    ~ In k (t_pk tot) ->
    fault d t ($"foreign key " ++ fk_name fk ++ $" column " ++ k ++ $" isn't in primary key for " ++ t_name tot) ERROR
| no_from_column fk tot f k : In fk (foreign_keys_iter t) -> get_table d (fk_to_table fk) = Some tot -> refers fk f k ->
    ~ In f (get_column_names t) ->
    fault d t ($"foreign key " ++ fk_name fk ++ $" missing from_column " ++ f ++ $" from table " ++ t_name t) ERROR
(** this one names the table of the foreign key, not the one without the column *)
| no_to_column fk tot f k : In fk (foreign_keys_iter t) -> get_table d (fk_to_table fk) = Some tot -> refers fk f k ->
    ~ In k (get_column_names tot) ->
    fault d t ($"foreign key " ++ fk_name fk ++ $" missing to_column " ++ k ++ $" from table " ++ t_name t) ERROR
| other_type fk tot f k fc tc : In fk (foreign_keys_iter t) -> get_table d (fk_to_table fk) = Some tot -> refers fk f k ->
    get_column t f = Some fc -> get_column tot k = Some tc -> ~ varchar_like (column_type fc) -> column_type fc <> column_type tc ->
    fault d t ($"foreign key " ++ fk_name fk ++ $" column " ++ column_name fc ++ $" type " ++ column_type fc
               ++ $" doesn't match type " ++ column_type tc ++ $" for " ++ t_name tot ++ $" column " ++ column_name tc) ERROR
(** and this one gives the name of the target column twice *)
| not_text fk tot f k fc tc : In fk (foreign_keys_iter t) -> get_table d (fk_to_table fk) = Some tot -> refers fk f k ->
    get_column t f = Some fc -> get_column tot k = Some tc -> varchar_like (column_type fc) -> ~ varchar_like (column_type tc) ->
    fault d t ($"foreign key " ++ fk_name fk ++ $" column " ++ k ++ $" type " ++ column_type fc
               ++ $" doesn't match type " ++ column_type tc ++ $" for " ++ t_name tot ++ $" column " ++ column_name tc) ERROR
(** these two do not give the name that is wrong *)
| other_source r : In r (relationships_iter t) -> rel_from_table r <> t_name t ->
    fault d t ($"from table " ++ t_name t ++ $" doesn't exist in relationship " ++ rel_name r ++ $".") ERROR
| no_related r : In r (relationships_iter t) -> ~ In (rel_to_table r) (get_table_names d) ->
    fault d t ($"to table None doesn't exist in relationship " ++ rel_name r ++ $".") ERROR.

(** the messages about one table *)
Definition messages_of (d : database) (t : table) (part : list (str * level)) : Prop :=
  forall s l, In (s, l) part <->
    exists sentence, fault d t sentence l /\ s = $"database " ++ db_name d ++ $", table " ++ t_name t ++ $":  " ++ sentence.

(** no message has [name] in it *)
Definition unnamed (name : str) (r : validation_result) : Prop :=
  forall s l a b, In (s, l) (issues r) -> s <> a ++ name ++ b.
