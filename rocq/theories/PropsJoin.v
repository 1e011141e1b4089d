(** * Properties C59, C60 and C93: the review of joins *)
From Verif Require Import JoinFacts.
From Coq Require Import Lia.

(** C59: with truthful answers the review of joins says of each join what the data shows.  This needs that
    the columns the queries group by tell the rows apart and that the counted column is never NULL, as a
    primary key guarantees ([keyed]).  Joins of a table with itself, whose queries do not tell the two
    sides apart, are not covered. *)
Theorem C59_partial : forall ask data sat d h, symmetric sat -> filed d -> no_dangling d ->
  (forall t fk, In t (db_iter d) -> In fk (foreign_keys_iter t) -> length (fk_from_keys fk) = length (fk_to_keys fk)) ->
  (forall j, In j (joins_of d) ->
     t_name (jb_from j) <> t_name (jb_to j) /\ keyed data d (jb_from j) /\ keyed data d (jb_to j)
     /\ (forall q, query_of_join d (jb_from j) (jb_to j) (jb_where j) q \/ query_of_join d (jb_to j) (jb_from j) (jb_where j) q -> answered data sat ask q)) ->
  exists ls, Forall2 (join_judged data sat d) (joins_of d) ls /\ fst (review_table_joins ask d h) = Ok (concat ls).
Proof.
  intros ask data sat d h S F D P H. unfold review_table_joins. change (joins_of d) with (flat_map (table_joins_of d) (db_iter d)) in *. apply all_tables; [exact S| |apply Forall_forall, H].
  intros t It. apply joins_ok; [|intros fk; apply P, It]. intros n R. destruct F as [F1 F2].
  apply dvals_in in It. destruct It as [k It]. apply dget_nodup in It; [|exact F1].
  assert (I : In n (get_table_names d)) by (apply (D k n); exists t; split; [exact It|exact R]).
  apply dget_some_in in I. destruct I as [u I]. unfold get_table. congruence.
Qed.
Print Assumptions C59_partial.

(** Without a primary key, equal rows of the from table are taken for one row that matches several times:
    the answers are true, no order matches several customers, yet the join is called M:M. *)
Definition same_k : condition := fun _ x y => cell_eqb (snd x ($"k")) (snd y ($"k")).
Lemma same_k_symmetric : symmetric same_k.
Proof. intros c x y _. unfold same_k. destruct (snd x ($"k")) as [a|], (snd y ($"k")) as [b|]; try reflexivity. cbn [cell_eqb]. destruct (str_eqb_spec a b), (str_eqb_spec b a); congruence. Qed.
Definition row_of (cells : dict str) : drow := fun c => dget c cells.
Definition plain_table (name : str) (pk : list str) (cols : list str) (fks : dict foreign_key) : table :=
  {| t_name := name; t_schema := $"s"; t_pk := pk; t_shard := None;
     t_cols := map (fun c => (c, {| column_name := c; column_type := $"INT" |})) cols; t_fks := fks; t_rels := [] |}.
Definition k_key (name from to : str) : str * foreign_key :=
  (name, {| fk_name := name; fk_from_table := from; fk_from_keys := [$"k"]; fk_to_table := to; fk_to_keys := [$"k"] |}).
Definition shop (orders_pk : list str) : database :=
  {| db_name := $"db"; db_schemas := [($"s", 0%Z)];
     db_tables := [($"orders", plain_table ($"orders") orders_pk [$"id"; $"k"] [k_key ($"bought by") ($"orders") ($"customers")]);
                   ($"customers", plain_table ($"customers") [$"k"] [$"k"] [k_key ($"bought") ($"customers") ($"orders")])] |}.
Definition shop_data (orders : list (str * str)) : contents := fun _ _ t =>
  if str_eqb t ($"orders") then map (fun o => row_of [($"id", fst o); ($"k", snd o)]) orders
  else if str_eqb t ($"customers") then [row_of [($"k", $"c1")]; row_of [($"k", $"c2")]] else [].
(** every query the review asks about a database *)
Definition all_queries (d : database) : list count_query :=
  flat_map (fun j => flat_map (fun go => match probe_columns (snd go) with
     | c :: _ => [{| cq_db := db_name d; cq_schema := t_schema (fst go); cq_table := t_name (fst go); cq_cols := probe_columns (fst go);
                     cq_odb := db_name d; cq_oschema := t_schema (snd go); cq_other := t_name (snd go); cq_counted := c; cq_where := jb_where j |}]
     | [] => [] end) [(jb_from j, jb_to j); (jb_to j, jb_from j)]) (joins_of d).
Lemma all_queries_in d j q : In j (joins_of d) -> query_of_join d (jb_from j) (jb_to j) (jb_where j) q \/ query_of_join d (jb_to j) (jb_from j) (jb_where j) q -> In q (all_queries d).
Proof.
  intros I [[c [cols [A [B E]]]]|[c [cols [A [B E]]]]]; apply standing_columns in A, B; rewrite A in E; rewrite E; apply in_flat_map; exists j; (split; [exact I|]); apply in_flat_map.
  - exists (jb_from j, jb_to j). split; [left; reflexivity|]. cbn [fst snd]. rewrite <- B. left. reflexivity.
  - exists (jb_to j, jb_from j). split; [right; left; reflexivity|]. cbn [fst snd]. rewrite <- B. left. reflexivity.
Qed.
Fixpoint nodup_b (l : list str) : bool := match l with [] => true | x :: l => negb (str_in x l) && nodup_b l end.
Lemma nodup_spec l : nodup_b l = true -> NoDup l.
Proof. induction l as [|x l IH]; intros H; [constructor|]. cbn [nodup_b] in H. apply andb_prop in H. destruct H as [H1 H2]. constructor; [apply str_in_false; destruct (str_in x l); [discriminate|reflexivity]|apply IH, H2]. Qed.

Theorem C59_duplicates_refuted : exists d data sat ask j, symmetric sat /\ In j (joins_of d)
  /\ (forall j q, In j (joins_of d) -> query_of_join d (jb_from j) (jb_to j) (jb_where j) q \/ query_of_join d (jb_to j) (jb_from j) (jb_where j) q -> answered data sat ask q)
  /\ fst (review_table_joins ask d []) = Ok [$"bought by is a M:M join."; $"bought is a M:M join."]
  /\ jb_name j = $"bought by" /\ join_judged data sat d j []
  /\ exists j', In j' (joins_of d) /\ jb_name j' = $"bought" /\ join_judged data sat d j' [$"bought is a 1:M join."].
Proof.
  pose (d := shop []). pose (data := shop_data [($"1", $"c1"); ($"1", $"c1")]).
  exists d, data, same_k, (honest data same_k (all_queries d)).
  assert (M : forall x, In x (rows_of data d (plain_table ($"orders") [] [$"id"; $"k"] [])) -> length (filter (fun y => same_k [] ([], x) ([], y)) (rows_of data d (plain_table ($"customers") [$"k"] [$"k"] []))) = 1).
  { intros x [<-|[<-|[]]]; vm_compute; reflexivity. }
  eexists. split; [apply same_k_symmetric|]. split; [left; reflexivity|]. split.
  { intros j q I Q. apply honest_answers; [apply nodup_spec; vm_compute; reflexivity|]. exact (all_queries_in d j q I Q). }
  split; [vm_compute; reflexivity|]. split; [reflexivity|]. split.
  - right. right. right. split; [exists (row_of [($"id", $"1"); ($"k", $"c1")]), (row_of [($"k", $"c1")]); repeat split; try (left; reflexivity)|]. split; [|reflexivity].
    intros [x [I L]]. assert (N : length (filter (fun y => same_k [] ([], x) ([], y)) (rows_of data d (plain_table ($"customers") [$"k"] [$"k"] []))) = 1) by (apply M, I). unfold same_k, rows_of in *. cbn [snd] in *. cbn [jb_where jb_from jb_to] in L.
    assert (2 <= 1); [|lia]. rewrite <- N at 2. exact L.
  - eexists. split; [right; left; reflexivity|]. split; [reflexivity|]. right. left. split; [exists (row_of [($"k", $"c1")]), (row_of [($"id", $"1"); ($"k", $"c1")]); repeat split; try (left; reflexivity)|]. split.
    + exists (row_of [($"k", $"c1")]). split; [left; reflexivity|]. vm_compute. apply le_n.
    + split; [|reflexivity]. intros [x [I L]]. assert (N : length (filter (fun y => same_k [] ([], x) ([], y)) (rows_of data d (plain_table ($"customers") [$"k"] [$"k"] []))) = 1) by (apply M, I). unfold same_k, rows_of in *. cbn [snd] in *. cbn [jb_where jb_from jb_to] in L.
      assert (2 <= 1); [|lia]. rewrite <- N at 2. exact L.
Qed.
Print Assumptions C59_duplicates_refuted.

(** With a primary key the same shop is judged rightly. *)
Example C59_case : let d := shop [$"id"] in let data := shop_data [($"1", $"c1"); ($"2", $"c1")] in let ask := honest data same_k (all_queries d) in
  symmetric same_k /\ filed d /\ no_dangling d
  /\ (forall t fk, In t (db_iter d) -> In fk (foreign_keys_iter t) -> length (fk_from_keys fk) = length (fk_to_keys fk))
  /\ (forall j, In j (joins_of d) ->
     t_name (jb_from j) <> t_name (jb_to j) /\ keyed data d (jb_from j) /\ keyed data d (jb_to j)
     /\ (forall q, query_of_join d (jb_from j) (jb_to j) (jb_where j) q \/ query_of_join d (jb_to j) (jb_from j) (jb_where j) q -> answered data same_k ask q))
  /\ fst (review_table_joins ask d []) = Ok [$"bought is a 1:M join."].
Proof.
  intros d data ask. split; [apply same_k_symmetric|]. split; [split; [apply nodup_spec; vm_compute; reflexivity|]|].
  { intros n t G. apply dget_in in G. destruct G as [G|[G|[]]]; apply pair_equal_spec in G; destruct G as [<- <-]; reflexivity. }
  split. { intros a b [t [G K]]. apply dget_in in G. destruct G as [G|[G|[]]]; apply pair_equal_spec in G; destruct G as [_ <-]; destruct K as [[x [K <-]]|[x [[] _]]]; destruct K as [<-|[]]; cbn; auto. }
  split. { intros t fk [<-|[<-|[]]] [<-|[]]; reflexivity. }
  split; [|vm_compute; reflexivity].
  assert (K1 : keyed data d (plain_table ($"orders") [$"id"] [$"id"; $"k"] [k_key ($"bought by") ($"orders") ($"customers")])).
  { exists ($"id"), []. split; [apply standing_columns; reflexivity|]. split.
    - cbn [data rows_of shop_data]. constructor; [|constructor; [intros []|constructor]]. intros [E|[]]. vm_compute in E. discriminate.
    - intros x [<-|[<-|[]]]; vm_compute; discriminate. }
  assert (K2 : keyed data d (plain_table ($"customers") [$"k"] [$"k"] [k_key ($"bought") ($"customers") ($"orders")])).
  { exists ($"k"), []. split; [apply standing_columns; reflexivity|]. split.
    - constructor; [|constructor; [intros []|constructor]]. intros [E|[]]. vm_compute in E. discriminate.
    - intros x [<-|[<-|[]]]; vm_compute; discriminate. }
  intros j Hj. split; [|split; [|split]].
  - destruct Hj as [<-|[<-|[]]]; discriminate.
  - destruct Hj as [<-|[<-|[]]]; assumption.
  - destruct Hj as [<-|[<-|[]]]; assumption.
  - intros q Q. apply honest_answers; [apply nodup_spec; vm_compute; reflexivity|]. exact (all_queries_in d j q Hj Q).
Qed.

(** C93: whatever the server does, the review asks two queries about each join, in turn, and comes to its
    end; what is said about a join follows from the two answers. *)
Theorem C93_any_server : forall ask d h, filed d -> no_dangling d ->
  (forall t fk, In t (db_iter d) -> In fk (foreign_keys_iter t) -> length (fk_from_keys fk) = length (fk_to_keys fk)) ->
  (forall t, In t (db_iter d) -> t_pk t <> [] \/ get_column_names t <> []) ->
  exists ls h', joins_asked ask d h (joins_of d) ls h' /\ review_table_joins ask d h = (Ok (concat ls), h').
Proof.
  intros ask d h F D P C. unfold review_table_joins. change (joins_of d) with (flat_map (table_joins_of d) (db_iter d)). apply tables_asked.
  - intros t It. apply joins_ok; [|intros fk; apply P, It]. intros n R. destruct F as [F1 F2].
    apply dvals_in in It. destruct It as [k It]. apply dget_nodup in It; [|exact F1].
    assert (I : In n (get_table_names d)) by (apply (D k n); exists t; split; [exact It|exact R]).
    apply dget_some_in in I. destruct I as [u I]. unfold get_table. congruence.
  - apply Forall_forall. intros j I. apply in_flat_map in I. destruct I as [t [It I]]. unfold table_joins_of in I. apply in_app_or in I.
    assert (G : forall n u, get_table d n = Some u -> In u (db_iter d)) by (intros n u G; apply dget_in in G; exact (in_map snd _ _ G)).
    destruct I as [I|I]; apply in_flat_map in I; destruct I as [x [_ I]]; [destruct (get_table d (fk_to_table x)) as [u|] eqn:E|destruct (get_table d (rel_to_table x)) as [u|] eqn:E];
      (destruct I as [<-|[]]; split; [exact (C t It)|exact (C u (G _ _ E))]) || destruct I.
Qed.
Print Assumptions C93_any_server.
(** a server that only answers the second query about a join, and with a text, still leaves a verdict *)
Example C93_case : exists h', review_table_joins (fun h _ => match h with [_] => Ok [fun _ => Ok ($"many")] | _ => Err ValueError end) (shop []) []
  = (Ok [$"bought by didn't return data."; $"bought didn't return data."], h') /\ length h' = 4.
Proof. eexists. split; vm_compute; reflexivity. Qed.

(** C60: the condition for a foreign key opens all parentheses first, then compares the pairs of columns in
    order, each closed by one parenthesis: they are balanced and never closed too early (parentheses in
    quoted names do not count). *)
Theorem C60_condition : forall d t u fk, get_table d (fk_to_table fk) = Some u -> length (fk_from_keys fk) = length (fk_to_keys fk) ->
  exists p, get_fk_join_parts d t fk = Ok p
    /\ q_condition p = repeat "("%char (length (fk_from_keys fk))
                       ++ join ($" AND ") (map (fun p => quoted (t_name t) ++ $"." ++ quoted (fst p) ++ $" = " ++ quoted (t_name u) ++ $"." ++ quoted (snd p) ++ $")")
                                               (combine (fk_from_keys fk) (fk_to_keys fk)))
    /\ (no_quote (t_name t) -> no_quote (t_name u) -> Forall no_quote (fk_from_keys fk) -> Forall no_quote (fk_to_keys fk) -> balanced (q_condition p)).
Proof.
  intros d t u fk G L. eexists. split; [exact (fk_parts d t fk u G L)|]. cbn [make_parts q_condition]. split.
  - unfold fk_text, pair_text. f_equal. f_equal. apply map_ext. intros p. repeat rewrite <- app_assoc. reflexivity.
  - intros A B C D. apply fk_balanced; assumption.
Qed.
Print Assumptions C60_condition.
Example C60_case : let d := shop [] in let fk := {| fk_name := $"f"; fk_from_table := $"orders"; fk_from_keys := [$"id"; $"k)"]; fk_to_table := $"customers"; fk_to_keys := [$"k"; $"k"] |} in
  exists t u p, get_table d ($"orders") = Some t /\ get_table d (fk_to_table fk) = Some u /\ get_fk_join_parts d t fk = Ok p /\ Forall no_quote (fk_from_keys fk)
  /\ q_condition p = $"((""orders"".""id"" = ""customers"".""k"") AND ""orders"".""k)"" = ""customers"".""k"")".
Proof.
  cbn zeta. eexists _, _, _. split; [reflexivity|]. split; [reflexivity|]. split; [vm_compute; reflexivity|]. split; [|reflexivity].
  repeat constructor; vm_compute; intuition discriminate.
Qed.
