(** * Specification vocabulary for the join reviews: what a database holds and what a count query means *)
From Verif Require Export SpecReview ReviewData.

(** ** Data *)

(** a row of a table: the value of each column, [None] for a NULL *)
Definition drow := str -> option str.
(** the rows of the tables of a database, found by database, schema and table *)
Definition contents := str -> str -> str -> list drow.
(** Whether a condition holds for two rows, each with the name of its table.  If the tables differ it does not matter
    which row comes first. *)
Definition condition := str -> str * drow -> str * drow -> bool.
Definition symmetric (sat : condition) : Prop := forall c x y, fst x <> fst y -> sat c x y = sat c y x.

(** ** Count queries

    For every combination of values of [cq_cols] in the grouped table, how often is [cq_counted] not NULL
    among the rows of the other table that the condition relates to it?  Only the highest number is wanted. *)
Record count_query := {
  cq_db : str; cq_schema : str; cq_table : str; cq_cols : list str;
  cq_odb : str; cq_oschema : str; cq_other : str; cq_counted : str; cq_where : str }.
(** its text *)
Definition count_text (q : count_query) : str :=
  let place := quoted (cq_db q) ++ $"." ++ quoted (cq_schema q) ++ $"." ++ quoted (cq_table q) in
  let other := quoted (cq_odb q) ++ $"." ++ quoted (cq_oschema q) ++ $"." ++ quoted (cq_other q) in
  $"select " ++ join ($",") (map (fun c => place ++ $"." ++ quoted c) (cq_cols q))
  ++ $", count(" ++ other ++ $"." ++ quoted (cq_counted q) ++ $") as c1 from " ++ place ++ $", " ++ other
  ++ $" where " ++ cq_where q ++ $" group by " ++ join ($",") (map (fun c => quoted (cq_table q) ++ $"." ++ quoted c) (cq_cols q))
  ++ $" order by c1 desc limit 1;".
(** the pairs of rows the condition relates *)
Definition related_rows (data : contents) (sat : condition) (q : count_query) : list (drow * drow) :=
  flat_map (fun x => map (pair x) (filter (fun y => sat (cq_where q) (cq_table q, x) (cq_other q, y)) (data (cq_odb q) (cq_oschema q) (cq_other q))))
           (data (cq_db q) (cq_schema q) (cq_table q)).
Definition cell_eqb (a b : option str) : bool :=
  match a, b with Some x, Some y => str_eqb x y | None, None => true | _, _ => false end.
Fixpoint cells_eqb (a b : list (option str)) : bool :=
  match a, b with [], [] => true | x :: a', y :: b' => cell_eqb x y && cells_eqb a' b' | _, _ => false end.
(** the values of some columns *)
Definition values (cols : list str) (x : drow) : list (option str) := map x cols.
(** the number for one combination of values *)
Definition count_for (data : contents) (sat : condition) (q : count_query) (k : list (option str)) : nat :=
  length (filter (fun p => cells_eqb (values (cq_cols q) (fst p)) k && negb (cell_eqb (snd p (cq_counted q)) None))
                 (related_rows data sat q)).
(** The answer to the query is true, whenever it is asked: no row if nothing is related, and otherwise the
    first row has the highest number. *)
Definition answered (data : contents) (sat : condition) (ask : oracle) (q : count_query) : Prop :=
  forall h,
    (related_rows data sat q = [] -> ask h (count_text q) = Ok [])
    /\ (related_rows data sat q <> [] ->
        exists r rest n, ask h (count_text q) = Ok (r :: rest) /\ r ($"c1") = Ok (z_to_str (Z.of_nat n))
          /\ (exists p, In p (related_rows data sat q) /\ count_for data sat q (values (cq_cols q) (fst p)) = n)
          /\ (forall p, In p (related_rows data sat q) -> count_for data sat q (values (cq_cols q) (fst p)) <= n)).

(** ** Joins *)

(** a join: its name, the two tables and the condition *)
Record join_between := { jb_name : str; jb_from : table; jb_to : table; jb_where : str }.
(** the comparison of one pair of columns *)
Definition pair_text (a b : str) (p : str * str) : str :=
  quoted a ++ $"." ++ quoted (fst p) ++ $" = " ++ quoted b ++ $"." ++ quoted (snd p).
(** the condition for a foreign key: each pair is closed by a parenthesis opened at the start *)
Definition fk_text (a b : str) (fk : foreign_key) : str :=
  repeat "("%char (length (fk_from_keys fk))
  ++ join ($" AND ") (map (fun p => pair_text a b p ++ $")") (combine (fk_from_keys fk) (fk_to_keys fk))).
(** the joins of a database: table after table, foreign keys and then relationships *)
Definition joins_of (d : database) : list join_between :=
  flat_map (fun t =>
    flat_map (fun fk => match get_table d (fk_to_table fk) with
                        | Some u => [{| jb_name := fk_name fk; jb_from := t; jb_to := u; jb_where := fk_text (t_name t) (t_name u) fk |}]
                        | None => []
                        end) (foreign_keys_iter t)
    ++ flat_map (fun r => match get_table d (rel_to_table r) with
                        | Some u => [{| jb_name := rel_name r; jb_from := t; jb_to := u; jb_where := rel_conditions r |}]
                        | None => []
                        end) (relationships_iter t)) (db_iter d).
(** the columns that stand for a row: the primary key, or all columns if there is none *)
Definition standing_for (t : table) (cols : list str) : Prop :=
  (t_pk t <> [] -> cols = t_pk t) /\ (t_pk t = [] -> cols = get_column_names t).
(** the rows of a table *)
Definition rows_of (data : contents) (d : database) (t : table) : list drow := data (db_name d) (t_schema t) (t_name t).
(** These columns tell the rows apart and the first is never NULL, as is so for the columns of a primary key. *)
Definition keyed (data : contents) (d : database) (t : table) : Prop :=
  exists c cols, standing_for t (c :: cols) /\ NoDup (map (values (c :: cols)) (rows_of data d t))
                 /\ forall x, In x (rows_of data d t) -> x c <> None.
(** the two queries about a join *)
Definition query_of_join (d : database) (g o : table) (condition : str) (q : count_query) : Prop :=
  exists c cols, standing_for g (cq_cols q) /\ standing_for o (c :: cols)
    /\ q = {| cq_db := db_name d; cq_schema := t_schema g; cq_table := t_name g; cq_cols := cq_cols q;
              cq_odb := db_name d; cq_oschema := t_schema o; cq_other := t_name o; cq_counted := c; cq_where := condition |}.

(** some row of [g] is related to several rows of [o] *)
Definition several (sat : condition) (condition : str) (g : str) (gs : list drow) (o : str) (os : list drow) : Prop :=
  exists x, In x gs /\ 2 <= length (filter (fun y => sat condition (g, x) (o, y)) os).
(** some row of [g] is related to a row of [o] *)
Definition some_match (sat : condition) (condition : str) (g : str) (gs : list drow) (o : str) (os : list drow) : Prop :=
  exists x y, In x gs /\ In y os /\ sat condition (g, x) (o, y) = true.
(** what is to be said about a join *)
Definition join_judged (data : contents) (sat : condition) (d : database) (j : join_between) (said : list str) : Prop :=
  let from := t_name (jb_from j) in let to := t_name (jb_to j) in
  let froms := rows_of data d (jb_from j) in let tos := rows_of data d (jb_to j) in
  let matched := some_match sat (jb_where j) from froms to tos in
  let to_many := several sat (jb_where j) from froms to tos in
  let from_many := several sat (jb_where j) to tos from froms in
  (~ matched /\ said = [jb_name j ++ $" didn't return data."])
  \/ (matched /\ to_many /\ ~ from_many /\ said = [jb_name j ++ $" is a 1:M join."])
  \/ (matched /\ to_many /\ from_many /\ said = [jb_name j ++ $" is a M:M join."])
  \/ (matched /\ ~ to_many /\ said = []).

(** ** Parentheses

    Quoted names do not count.  The result is the number of parentheses still open, [None] if one was
    closed that had not been opened or a quoted name is not closed. *)
Fixpoint open_parens (in_name : bool) (n : nat) (s : str) : option nat :=
  match s with
  | [] => if in_name then None else Some n
  | c :: s' =>
      if Ascii.eqb c """"%char then open_parens (negb in_name) n s'
      else if in_name then open_parens true n s'
      else if Ascii.eqb c "("%char then open_parens false (S n) s'
      else if Ascii.eqb c ")"%char then match n with O => None | S m => open_parens false m s' end
      else open_parens false n s'
  end.
Definition balanced (s : str) : Prop := open_parens false 0 s = Some 0.
Definition no_quote (s : str) : Prop := ~ In """"%char s.

(** ** Any server: what the answers say (C93) *)

(** the first row of the answer has a readable count *)
Definition counts (answer : result (list row)) (n : Z) : Prop :=
  exists r rest s, answer = Ok (r :: rest) /\ r ($"c1") = Ok s /\ py_int s = Ok n.
(** an answer with a readable count of at least one; exceptions, empty answers and other texts are none *)
Definition usable_count (answer : result (list row)) (n : Z) : Prop := counts answer n /\ (0 < n)%Z.
(** the verdict that follows from the two answers *)
Definition join_said (name : str) (to_answer from_answer : result (list row)) (said : list str) : Prop :=
  (((forall n, ~ usable_count to_answer n) \/ (forall n, ~ usable_count from_answer n)) /\ said = [name ++ $" didn't return data."])
  \/ exists n m, usable_count to_answer n /\ usable_count from_answer m
     /\ ((n = 1%Z /\ said = []) \/ (n <> 1%Z /\ m = 1%Z /\ said = [name ++ $" is a 1:M join."]) \/ (n <> 1%Z /\ m <> 1%Z /\ said = [name ++ $" is a M:M join."])).
(** the joins are asked about in turn, two queries for each *)
Inductive joins_asked (ask : oracle) (d : database) : list str -> list join_between -> list (list str) -> list str -> Prop :=
| asked_end h : joins_asked ask d h [] [] h
| asked_join h j js q1 q2 said ls h' :
    query_of_join d (jb_from j) (jb_to j) (jb_where j) q1 -> query_of_join d (jb_to j) (jb_from j) (jb_where j) q2 ->
    join_said (jb_name j) (ask h (count_text q1)) (ask (h ++ [count_text q1]) (count_text q2)) said ->
    joins_asked ask d (h ++ [count_text q1; count_text q2]) js ls h' -> joins_asked ask d h (j :: js) (said :: ls) h'.
