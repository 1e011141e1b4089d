(** * Properties: running the ALTER script (C95) *)
From Verif Require Import CheckFacts SpecAlter StrFacts DiffFacts DiffProps CatalogFacts ScriptFacts AlterFacts DiffDemo AlterRun AlterOrder AlterMain.
From Coq Require Import List. Import ListNotations.

(** C95: whenever the ALTER script of a comparison runs without an error on a database that holds the
    first model, the database then holds the second.  (The hypotheses on foreign keys, shard keys and new
    tables are those of C32, without which the reported differences are incomplete.) *)
Theorem C95_result_partial : forall cs d1 d2 l1 l2 c s c',
  well_formed d1 -> well_formed d2 -> writable d1 -> writable d2 -> all_in cs d1 -> all_in cs d2 ->
  compare_databases d1 d2 = Ok (l1, l2) -> concat_results (map get_alter l1) = Ok s -> holds cs c d1 ->
  common_fks d1 d2 (fun f1 f2 => taken_as_same f1 f2 -> f1 = f2) -> shard_objects d1 d2 ->
  (forall n t, get_table d1 n = None -> get_table d2 n = Some t -> t_fks t = [] /\ t_rels t = []) ->
  run_alters cs c s = Some c' ->
  holds cs c' d2 /\ cd_name c' = cd_name c /\ cd_schemas c' = cd_schemas c.
Proof. intros cs d1 d2 l1 l2 c s c' W1 W2 Q1 Q2 A1 A2 H Hs Hc F S N R. exact (c95_result cs d1 d2 l1 l2 c s W1 W2 Q1 Q2 A1 A2 H Hs Hc F S N c' R). Qed.
Print Assumptions C95_result_partial.

(** It runs without an error exactly when every change is possible when its turn comes ... *)
Theorem C95_exact : forall cs d1 d2 l1 l2 c s,
  well_formed d1 -> well_formed d2 -> writable d1 -> writable d2 -> all_in cs d1 -> all_in cs d2 ->
  compare_databases d1 d2 = Ok (l1, l2) -> concat_results (map get_alter l1) = Ok s -> holds cs c d1 ->
  (exists c', run_alters cs c s = Some c') <-> each_possible (view d1) (changes l1).
Proof. exact c95_exact. Qed.
Print Assumptions C95_exact.

(** ... which is so under conditions on the two models. *)
Theorem C95_runs_partial : forall cs d1 d2 l1 l2 c s,
  well_formed d1 -> well_formed d2 -> writable d1 -> writable d2 -> all_in cs d1 -> all_in cs d2 ->
  compare_databases d1 d2 = Ok (l1, l2) -> concat_results (map get_alter l1) = Ok s -> holds cs c d1 ->
  common_fks d1 d2 (fun f1 f2 => taken_as_same f1 f2 -> f1 = f2) -> shard_objects d1 d2 ->
  (forall n t, get_table d1 n = None -> get_table d2 n = Some t -> t_fks t = [] /\ t_rels t = []) ->
  consistent_db d1 -> consistent_db d2 -> alterable d1 d2 ->
  exists c', run_alters cs c s = Some c' /\ holds cs c' d2.
Proof. exact c95_runs. Qed.
Print Assumptions C95_runs_partial.

(** The database the creation script makes holds the model. *)
Theorem C95_created_holds : forall cs d s c, 
  well_formed d -> writable d -> consistent_db d -> own_fks d -> schema_local d -> all_in cs d ->
  cs = default_schema \/ db_iter d <> [] ->
  tql_script no_case true d = Ok s -> existsb (is_db (db_name d)) (cat_dbs c) = false ->
  exists db, run_script c s = Some {| cat_dbs := cat_dbs c ++ [db]; cat_use := Some (db_name d) |}
    /\ cd_name db = db_name d /\ holds cs db d.
Proof.
  intros cs d s c W Q K O L A Hc Hs Hn. eexists. split; [exact (run_create d s c W Q K O L Hs Hn)|]. split; [reflexivity|].
  apply loaded_holds; [exact W | exact A|]. destruct (str_eqb_spec cs default_schema) as [->|N]; [left; reflexivity|]. right.
  destruct Hc as [Hc|Hc]; [contradiction|]. destruct (db_iter d) as [|t l] eqn:E; [contradiction|].
  assert (I : In t (db_iter d)) by (rewrite E; left; reflexivity). unfold new_schemas. apply filter_In. rewrite <- (A t I). split; [apply (wf_schemas _ W), I|].
  rewrite (A t I). apply negb_true_iff, str_eqb_neq, N.
Qed.
Print Assumptions C95_created_holds.

(** C95 is false without conditions.  The script always fails when a common table gets
    - a new foreign key over a column it did not have,
    - a new foreign key to a new table whose name comes later,
    - a first shard key over a column it did not have,
    - a foreign key under the name of a relationship it loses. *)
Theorem C95_always_refuted : forall cs d1 d2 l1 l2 c s n t1 t2,
  well_formed d1 -> well_formed d2 -> writable d1 -> writable d2 -> all_in cs d1 -> all_in cs d2 ->
  compare_databases d1 d2 = Ok (l1, l2) -> concat_results (map get_alter l1) = Ok s -> holds cs c d1 ->
  get_table d1 n = Some t1 -> get_table d2 n = Some t2 ->
  (exists m f k, get_foreign_key t2 m = Some f /\ get_foreign_key t1 m = None /\ In k (fk_from_keys f) /\ get_column t1 k = None)
  \/ (exists m f, get_foreign_key t2 m = Some f /\ get_foreign_key t1 m = None /\ get_table d1 (fk_to_table f) = None
        /\ str_ltb n (fk_to_table f) = true)
  \/ (exists z l k, shard_of t2 = Some (z, l) /\ shard_of t1 = None /\ In k l /\ get_column t1 k = None)
  \/ (common_fks d1 d2 (fun f1 f2 => taken_as_same f1 f2 -> f1 = f2) /\ shard_objects d1 d2 /\
      exists k, get_relationship t1 k <> None /\ get_relationship t2 k = None /\ get_foreign_key t2 k <> None) ->
  run_alters cs c s = None.
Proof.
  intros cs d1 d2 l1 l2 c s n t1 t2 W1 W2 Q1 Q2 A1 A2 H Hs Hc T1 T2 D. destruct (run_alters cs c s) as [c'|] eqn:R; [|reflexivity]. exfalso.
  assert (P : each_possible (view d1) (changes l1)) by (apply (c95_exact cs d1 d2 l1 l2 c s); try assumption; exists c'; exact R).
  destruct (compare_ok _ _ _ _ W1 W2 H) as (C & _). rewrite C in P.
  destruct D as [(m & f & k & F2 & F1 & Ik & Ck)|[(m & f & F2 & F1 & To & L)|[(z & l & k & S2 & S1 & Ik & Ck)|(Cf & So & k & R1 & R2 & F2)]]].
  - exact (fail_from d1 d2 fk_eqb W1 W2 P n t1 t2 T1 T2 m f k F2 F1 Ik Ck).
  - exact (fail_to d1 d2 fk_eqb W1 W2 P n t1 t2 T1 T2 m f F2 F1 To L).
  - apply (fail_shard d1 d2 fk_eqb W1 W2 P n t1 t2 T1 T2 z l k S2); try assumption. unfold shard_of in S1. destruct (t_shard t1); [discriminate | reflexivity].
  - apply (fail_name d1 d2 fk_eqb W1 W2 P n t1 t2 T1 T2 k); try assumption.
    intros m i u1 u2 f1 f2 U1 U2 G1 G2 E. apply (Cf m i u1 u2 f1 f2 U1 U2 G1 G2). apply fk_eqb_spec in E. tauto.
Qed.
Print Assumptions C95_always_refuted.

(** ** Cases *)
Definition old_table : table :=
  {| t_name := $"Old"; t_schema := DEFAULT_SCHEMA; t_pk := []; t_shard := None;
     t_cols := [($"at", col ($"at") ($"DATETIME"))]; t_fks := []; t_rels := [] |}.
Definition before : database :=
  add_table (add_table (add_table (empty_database ($"shop")) shop_orders) shop_customers) old_table.
(** the key, a column, a foreign key and a relationship of Orders gone, another shard key, a changed and a
    new column, a new foreign key to a new table, a new relationship, a table gone *)
Definition orders_after : table :=
  {| t_name := $"Orders"; t_schema := DEFAULT_SCHEMA; t_pk := [];
     t_shard := Some {| sk_id := 7; sk_keys := [$"Cust"]; sk_shards := 64 |};
     t_cols := [($"At", col ($"At") ($"DATE")); ($"Id", col ($"Id") ($"BIGINT")); ($"Cust", col ($"Cust") ($"VARCHAR(20)"))];
     t_fks := [($"fk2", {| fk_name := $"fk2"; fk_from_table := $"Orders"; fk_from_keys := [$"Cust"];
                           fk_to_table := $"Clients"; fk_to_keys := [$"Id"] |})];
     t_rels := [($"r2", {| rel_name := $"r2"; rel_from_table := $"Orders"; rel_to_table := $"Customers";
                           rel_conditions := $"Orders.Cust = Customers.Id" |})] |}.
Definition after : database :=
  add_table (add_table (add_table (empty_database ($"shop")) orders_after) shop_customers) shop_clients.
Definition loaded (d : database) : cdb :=
  {| cd_name := db_name d; cd_schemas := [default_schema]; cd_tables := map entry_of (db_iter d) |}.

Lemma get_before n t : get_table before n = Some t -> (n = $"Orders" /\ t = shop_orders) \/ (n = $"Customers" /\ t = shop_customers) \/ (n = $"Old" /\ t = old_table).
Proof. intros H. apply dget_in in H. change (db_tables before) with [($"Orders", shop_orders); ($"Customers", shop_customers); ($"Old", old_table)] in H.
  destruct H as [H|[H|[H|[]]]]; apply pair_equal_spec in H; destruct H as [<- <-]; auto. Qed.
Lemma in_both_cases n t1 t2 : get_table before n = Some t1 -> get_table after n = Some t2 ->
  (n = $"Orders" /\ t1 = shop_orders /\ t2 = orders_after) \/ (n = $"Customers" /\ t1 = shop_customers /\ t2 = shop_customers).
Proof.
  intros H1 H2. destruct (get_before n t1 H1) as [[-> ->]|[[-> ->]|[-> ->]]].
  - left. split; [reflexivity|]. split; [reflexivity|]. change (get_table after ($"Orders")) with (Some orders_after) in H2. congruence.
  - right. split; [reflexivity|]. split; [reflexivity|]. change (get_table after ($"Customers")) with (Some shop_customers) in H2. congruence.
  - change (get_table after ($"Old")) with (@None table) in H2. discriminate.
Qed.
Lemma customers_no_fk m : get_foreign_key shop_customers m = None. Proof. reflexivity. Qed.
Lemma customers_no_rel m : get_relationship shop_customers m = None. Proof. reflexivity. Qed.
Lemma after_fk m f : get_foreign_key orders_after m = Some f -> fk_from_keys f = [$"Cust"] /\ fk_to_table f = $"Clients".
Proof. intros H. apply dget_in in H. destruct H as [H|[]]. apply pair_equal_spec in H. destruct H as [_ <-]. split; reflexivity. Qed.
Lemma after_rel m r : get_relationship orders_after m = Some r -> rel_to_table r = $"Customers".
Proof. intros H. apply dget_in in H. destruct H as [H|[]]. apply pair_equal_spec in H. destruct H as [_ <-]. reflexivity. Qed.
Lemma orders_rel m : get_relationship shop_orders m <> None -> m = $"r1".
Proof. intros H. destruct (get_relationship shop_orders m) eqn:E; [|contradiction]. apply dget_in in E. destruct E as [E|[]]. apply pair_equal_spec in E. destruct E as [<- _]. reflexivity. Qed.
Lemma demo_alterable : alterable before after.
Proof.
  constructor.
  - intros n t1 t2 H1 H2. destruct (in_both_cases n t1 t2 H1 H2) as [(-> & -> & ->)|(-> & -> & ->)]; [left | right]; reflexivity.
  - intros n t1 t2 z l k H1 H2. destruct (in_both_cases n t1 t2 H1 H2) as [(-> & -> & ->)|(-> & -> & ->)]; [|discriminate].
    intros [= <- <-] _ [<-|[]]. discriminate.
  - intros n t1 t2 m f k H1 H2 F _ I. destruct (in_both_cases n t1 t2 H1 H2) as [(-> & -> & ->)|(-> & -> & ->)]; [|rewrite customers_no_fk in F; discriminate].
    destruct (after_fk m f F) as [E _]. rewrite E in I. destruct I as [<-|[]]. discriminate.
  - intros n t1 t2 m f H1 H2 F _. destruct (in_both_cases n t1 t2 H1 H2) as [(-> & -> & ->)|(-> & -> & ->)]; [|rewrite customers_no_fk in F; discriminate].
    destruct (after_fk m f F) as [_ ->]. left. reflexivity.
  - intros n t1 t2 m r H1 H2 F _. destruct (in_both_cases n t1 t2 H1 H2) as [(-> & -> & ->)|(-> & -> & ->)]; [|rewrite customers_no_rel in F; discriminate].
    rewrite (after_rel m r F). left. reflexivity.
  - intros n t1 t2 k H1 H2 R. destruct (in_both_cases n t1 t2 H1 H2) as [(-> & -> & ->)|(-> & -> & ->)]; [|contradiction].
    apply orders_rel in R. subst k. split; reflexivity.
  - intros n t1 t2 k m u i f H1 H2 C1 C2 L U F E I. destruct (in_both_cases n t1 t2 H1 H2) as [(-> & -> & ->)|(-> & -> & ->)]; [|contradiction].
    destruct (get_before m u U) as [[-> ->]|[[-> ->]|[-> ->]]]; [|discriminate|discriminate].
    cbv in L. discriminate.
Qed.
Lemma all_in_b cs d : forallb (fun t => str_eqb (t_schema t) cs) (db_iter d) = true -> all_in cs d.
Proof. rewrite forallb_forall. intros H t I. apply str_eqb_eq, H, I. Qed.
Definition demo_script : str := match compare_databases before after with Ok (l, _) => match concat_results (map get_alter l) with Ok s => s | Err _ => [] end | Err _ => [] end.
Definition demo_fks : common_fks before after (fun f1 f2 => taken_as_same f1 f2 -> f1 = f2).
Proof.
  intros n k t1 t2 f1 f2 H1 H2 F1 F2. destruct (in_both_cases n t1 t2 H1 H2) as [(-> & -> & ->)|(-> & -> & ->)]; [|rewrite customers_no_fk in F1; discriminate].
  apply dget_in in F1, F2. destruct F1 as [F1|[]], F2 as [F2|[]]. apply pair_equal_spec in F1, F2. destruct F1 as [<- _], F2 as [F2 _]. discriminate.
Qed.
(** eleven changes are made; the database then has the columns of the second model, in another order *)
Example C95_case :
  usable before /\ usable after /\ all_in DEFAULT_SCHEMA before /\ all_in DEFAULT_SCHEMA after
  /\ (exists l1 l2, compare_databases before after = Ok (l1, l2) /\ concat_results (map get_alter l1) = Ok demo_script /\ length l1 = 11)
  /\ holds DEFAULT_SCHEMA (loaded before) before
  /\ common_fks before after (fun f1 f2 => taken_as_same f1 f2 -> f1 = f2) /\ shard_objects before after
  /\ (forall n t, get_table before n = None -> get_table after n = Some t -> t_fks t = [] /\ t_rels t = [])
  /\ alterable before after
  /\ exists c' x, run_alters DEFAULT_SCHEMA (loaded before) demo_script = Some c'
       /\ find_table DEFAULT_SCHEMA ($"Orders") c' = Some x
       /\ ct_cols x = [($"Id", $"BIGINT"); ($"Cust", $"VARCHAR(20)"); ($"At", $"DATE")].
Proof.
  split; [apply usable_ok; vm_compute; reflexivity|]. split; [apply usable_ok; vm_compute; reflexivity|].
  split; [apply all_in_b; reflexivity|]. split; [apply all_in_b; reflexivity|].
  split; [do 2 eexists; split; [vm_compute; reflexivity|]; split; vm_compute; reflexivity|].
  split; [apply loaded_holds; [apply wf_ok; reflexivity | apply all_in_b; reflexivity | left; reflexivity]|].
  split; [exact demo_fks|]. split; [apply shards_differ_spec; reflexivity|]. split; [apply new_bare_spec; reflexivity|].
  split; [exact demo_alterable|]. do 2 eexists. split; [vm_compute; reflexivity|]. split; vm_compute; reflexivity.
Qed.

(** each of the four ways to fail occurs between models the tools accept *)
Definition keyed (n : str) (cols : list str) (sh : option shard_key) (fks : dict foreign_key) (rels : dict relationship) : table :=
  {| t_name := n; t_schema := DEFAULT_SCHEMA; t_pk := [$"x"]; t_shard := sh;
     t_cols := map (fun k => (k, col k ($"BIGINT"))) cols; t_fks := fks; t_rels := rels |}.
Definition of_tables (l : list table) : database := fold_left add_table l (empty_database ($"d")).
Definition link (a c b : str) : foreign_key :=
  {| fk_name := $"f"; fk_from_table := a; fk_from_keys := [c]; fk_to_table := b; fk_to_keys := [$"x"] |}.
Definition fails (d1 d2 : database) : Prop := usable d1 /\ usable d2 /\ all_in DEFAULT_SCHEMA d1 /\ all_in DEFAULT_SCHEMA d2
  /\ holds DEFAULT_SCHEMA (loaded d1) d1
  /\ exists l1 l2 s, compare_databases d1 d2 = Ok (l1, l2) /\ concat_results (map get_alter l1) = Ok s
       /\ run_alters DEFAULT_SCHEMA (loaded d1) s = None.
Lemma fails_ok d1 d2 : usable d1 -> usable d2 -> forallb (fun t => str_eqb (t_schema t) DEFAULT_SCHEMA) (db_iter d1) = true ->
  forallb (fun t => str_eqb (t_schema t) DEFAULT_SCHEMA) (db_iter d2) = true ->
  (exists l1 l2 s, compare_databases d1 d2 = Ok (l1, l2) /\ concat_results (map get_alter l1) = Ok s /\ run_alters DEFAULT_SCHEMA (loaded d1) s = None) ->
  fails d1 d2.
Proof.
  intros U1 U2 A1 A2 H. apply all_in_b in A1, A2. repeat (split; [assumption|]). split; [|exact H].
  apply loaded_holds; [apply U1 | exact A1 | left; reflexivity].
Qed.
Ltac failing := apply fails_ok; [apply usable_ok; vm_compute; reflexivity | apply usable_ok; vm_compute; reflexivity | reflexivity | reflexivity |
  do 3 eexists; split; [vm_compute; reflexivity|]; split; vm_compute; reflexivity].
Example C95_fails_case :
  fails (of_tables [keyed ($"A") [$"x"] None [] []; keyed ($"B") [$"x"] None [] []])
        (of_tables [keyed ($"A") [$"x"; $"y"] None [($"f", link ($"A") ($"y") ($"B"))] []; keyed ($"B") [$"x"] None [] []])
  /\ fails (of_tables [keyed ($"A") [$"x"; $"y"] None [] []])
           (of_tables [keyed ($"A") [$"x"; $"y"] None [($"f", link ($"A") ($"y") ($"B"))] []; keyed ($"B") [$"x"] None [] []])
  /\ fails (of_tables [with_pk (keyed ($"A") [$"x"] None [] []) []])
           (of_tables [with_pk (keyed ($"A") [$"x"; $"y"] (Some {| sk_id := 1; sk_keys := [$"y"]; sk_shards := 4 |}) [] []) []])
  /\ fails (of_tables [keyed ($"A") [$"x"; $"y"] None [] [($"f", {| rel_name := $"f"; rel_from_table := $"A"; rel_to_table := $"A"; rel_conditions := $"A.x = A.y" |})]])
           (of_tables [keyed ($"A") [$"x"; $"y"] None [($"f", link ($"A") ($"y") ($"A"))] []]).
Proof. split; [|split; [|split]]; failing. Qed.
