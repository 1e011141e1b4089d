(** * Properties of the comparison of databases (C22-C35) *)
From Verif Require Import CheckFacts SpecDiff DiffFacts DiffProps AlterFacts DiffDemo.

(** the comparison the examples below look at *)
Definition demo : diffs := match compare_databases shop shop' with Ok x => x | Err _ => ([], []) end.
Lemma demo_ok : well_formed shop /\ well_formed shop' /\ compare_databases shop shop' = Ok (fst demo, snd demo).
Proof. split; [apply shop_usable|]. split; [apply shop'_usable|]. vm_compute. reflexivity. Qed.

(** A comparison never fails. *)
Theorem C22_comparison_total : forall d1 d2, well_formed d1 -> well_formed d2 ->
  exists l1 l2, compare_databases d1 d2 = Ok (l1, l2).
Proof. intros. do 2 eexists. apply compare_refines; assumption. Qed.
Print Assumptions C22_comparison_total.

(** C22: for every name, the table-level differences reported for either database are exactly the
    expected ones; each list is labelled with its own database. *)
Theorem C22_table_differences : forall d1 d2 l1 l2, well_formed d1 -> well_formed d2 -> compare_databases d1 d2 = Ok (l1, l2) ->
  (forall n, filter (about_table n) (changes l1) = table_expected (get_table d1 n) (get_table d2 n))
  /\ (forall n, filter (about_table n) (changes l2) = table_expected (get_table d2 n) (get_table d1 n))
  /\ Forall (fun x => diff_db x = db_name d1) l1 /\ Forall (fun x => diff_db x = db_name d2) l2.
Proof. exact c22. Qed.
Print Assumptions C22_table_differences.
Example C22_case : filter (about_table ($"Clients")) (changes (fst demo)) = [TableCreated shop_clients]
  /\ filter (about_table ($"Clients")) (changes (snd demo)) = [TableDropped shop_clients]
  /\ filter (about_table ($"Customers")) (changes (fst demo)) = [TableDropped shop_customers]
  /\ filter (about_table ($"Orders")) (changes (fst demo)) = [].
Proof. vm_compute. auto. Qed.

(** C23 *)
Theorem C23_column_differences : forall d1 d2 l1 l2, well_formed d1 -> well_formed d2 -> compare_databases d1 d2 = Ok (l1, l2) ->
  forall n k,
  filter (about_column n k) (changes l1) = in_both (get_table d1 n) (get_table d2 n) (column_expected k)
  /\ filter (about_column n k) (changes l2) = in_both (get_table d2 n) (get_table d1 n) (column_expected k).
Proof. exact c23. Qed.
Print Assumptions C23_column_differences.
Example C23_case :
  filter (about_column ($"Orders") ($"Cust")) (changes (fst demo)) = [ColumnModified shop_orders (col ($"Cust") ($"VARCHAR(20)"))]
  /\ filter (about_column ($"Orders") ($"At")) (changes (fst demo)) = [ColumnAdded shop_orders (col ($"At") ($"DATE"))]
  /\ filter (about_column ($"Orders") ($"Line")) (changes (fst demo)) = [ColumnDropped shop_orders (col ($"Line") ($"BIGINT"))]
  /\ filter (about_column ($"Orders") ($"Id")) (changes (fst demo)) = [].
Proof. vm_compute. auto. Qed.

(** C24 *)
Theorem C24_primary_key_differences : forall d1 d2 l1 l2, well_formed d1 -> well_formed d2 -> compare_databases d1 d2 = Ok (l1, l2) ->
  forall n,
  filter (about_pk n) (changes l1) = in_both (get_table d1 n) (get_table d2 n) pk_expected
  /\ filter (about_pk n) (changes l2) = in_both (get_table d2 n) (get_table d1 n) pk_expected.
Proof. exact c24. Qed.
Print Assumptions C24_primary_key_differences.
Example C24_case : filter (about_pk ($"Orders")) (changes (fst demo)) = [PrimaryKeyDropped shop_orders; PrimaryKeyAdded shop_orders [$"Id"]].
Proof. vm_compute. reflexivity. Qed.

(** C25 *)
Theorem C25_relationship_differences : forall d1 d2 l1 l2, well_formed d1 -> well_formed d2 -> compare_databases d1 d2 = Ok (l1, l2) ->
  forall n k,
  filter (about_rel n k) (changes l1) = in_both (get_table d1 n) (get_table d2 n) (rel_expected k)
  /\ filter (about_rel n k) (changes l2) = in_both (get_table d2 n) (get_table d1 n) (rel_expected k).
Proof. exact c25. Qed.
Print Assumptions C25_relationship_differences.
Example C25_case : filter (about_rel ($"Orders") ($"r1")) (changes (fst demo)) = [RelationshipDropped shop_orders ($"r1")]
  /\ length (filter (about_rel ($"Orders") ($"r1")) (changes (snd demo))) = 1.
Proof. vm_compute. auto. Qed.

(** C26: for keys of one name the criterion is [taken_as_same], for both lists applied with the key of
    the first database first. *)
Theorem C26_foreign_key_differences : forall d1 d2 l1 l2, well_formed d1 -> well_formed d2 -> compare_databases d1 d2 = Ok (l1, l2) ->
  forall n k alike, (forall f1 f2, alike f1 f2 = true <-> taken_as_same f1 f2) ->
  filter (about_fk n k) (changes l1) = in_both (get_table d1 n) (get_table d2 n) (fk_expected alike k)
  /\ filter (about_fk n k) (changes l2) = in_both (get_table d2 n) (get_table d1 n) (fk_expected (fun f2 f1 => alike f1 f2) k).
Proof. exact c26. Qed.
Print Assumptions C26_foreign_key_differences.
Example C26_case : map (fun c => match c with ForeignKeyDropped _ k => ($"-" ++ k) | ForeignKeyAdded _ f => ($"+" ++ fk_to_table f) | _ => [] end)
    (filter (about_fk ($"Orders") ($"fk1")) (changes (fst demo))) = [$"-fk1"; $"+Clients"]
  /\ exists alike, forall f1 f2, alike f1 f2 = true <-> taken_as_same f1 f2.
Proof.
  split; [vm_compute; reflexivity|].
  exists (fun f1 f2 => str_eqb (fk_from_table f1) (fk_from_table f2) && str_eqb (fk_to_table f1) (fk_to_table f2)
                       && strs_eqb (sorted (fk_from_keys f1)) (sorted (fk_to_keys f1))).
  intros f1 f2. unfold taken_as_same. rewrite !andb_true_iff, !StrFacts.str_eqb_eq, StrFacts.strs_eqb_eq, StrFacts.sorted_eq_iff. tauto.
Qed.

(** C27 is false: equality of foreign keys is not reflexive, not symmetric, and ignores the columns of
    the other key.  What it decides is given exactly by the second theorem. *)
Theorem C27_fk_equality_refuted :
  (exists f, fk_eqb f f = false)
  /\ (exists f g, fk_eqb f g = true /\ fk_from_keys f <> fk_from_keys g)
  /\ (exists f g, fk_eqb f g = true /\ fk_eqb g f = false).
Proof. exact c27_refuted. Qed.
Print Assumptions C27_fk_equality_refuted.
Theorem C27_fk_equality_partial : forall f g, fk_eqb f g = true <-> fk_name f = fk_name g /\ taken_as_same f g.
Proof. exact fk_eqb_spec. Qed.
Print Assumptions C27_fk_equality_partial.

(** C28 is false: shard keys with the same contents are reported when they are different objects.
    Proved: the exact criterion (object identity), and that different contents are always reported. *)
Theorem C28_shard_content_refuted : exists d1 d2 l1 l2 t1 t2,
  well_formed d1 /\ well_formed d2 /\ compare_databases d1 d2 = Ok (l1, l2)
  /\ get_table d1 ($"A") = Some t1 /\ get_table d2 ($"A") = Some t2 /\ shard_of t1 = shard_of t2 /\ shard_of t1 <> None
  /\ filter (about_shard ($"A")) (changes l1) <> [] /\ filter (about_shard ($"A")) (changes l2) <> [].
Proof. exact c28_refuted. Qed.
Print Assumptions C28_shard_content_refuted.
Theorem C28_shard_differences_partial : forall d1 d2 l1 l2, well_formed d1 -> well_formed d2 -> compare_databases d1 d2 = Ok (l1, l2) ->
  forall n,
  filter (about_shard n) (changes l1) = in_both (get_table d1 n) (get_table d2 n) shard_expected
  /\ filter (about_shard n) (changes l2) = in_both (get_table d2 n) (get_table d1 n) shard_expected.
Proof. exact c28. Qed.
Print Assumptions C28_shard_differences_partial.
Theorem C28_shard_content_partial : forall d1 d2 l1 l2, well_formed d1 -> well_formed d2 -> compare_databases d1 d2 = Ok (l1, l2) ->
  forall n t1 t2, shard_objects d1 d2 -> get_table d1 n = Some t1 -> get_table d2 n = Some t2 -> shard_of t1 <> shard_of t2 ->
  filter (about_shard n) (changes l1) = [match t_shard t2 with Some s => ShardKeyAdded t1 (sk_shards s) (sk_keys s) | None => ShardKeyDropped t1 end]
  /\ filter (about_shard n) (changes l2) = [match t_shard t1 with Some s => ShardKeyAdded t2 (sk_shards s) (sk_keys s) | None => ShardKeyDropped t2 end].
Proof. exact c28_content. Qed.
Print Assumptions C28_shard_content_partial.
Example C28_case : shard_objects shop shop' /\ shard_of shop_orders <> shard_of shop_orders'
  /\ filter (about_shard ($"Orders")) (changes (fst demo)) = [ShardKeyAdded shop_orders 64 [$"Id"]].
Proof. split; [apply shards_differ_spec; reflexivity|]. split; [discriminate|]. vm_compute. reflexivity. Qed.

(** C29: swapping the databases swaps the lists, up to the criterion for foreign keys. *)
Theorem C29_mirror : forall d1 d2, well_formed d1 -> well_formed d2 ->
  common_fks d1 d2 (fun f1 f2 => same_names f1 <-> same_names f2) ->
  exists l1 l2, compare_databases d1 d2 = Ok (l1, l2) /\ compare_databases d2 d1 = Ok (l2, l1).
Proof. exact c29. Qed.
Print Assumptions C29_mirror.
Theorem C29_mirror_unrestricted_refuted : exists d1 d2 l1 l2,
  well_formed d1 /\ well_formed d2 /\ compare_databases d1 d2 = Ok (l1, l2) /\ compare_databases d2 d1 <> Ok (l2, l1).
Proof. exact c29_refuted. Qed.
Print Assumptions C29_mirror_unrestricted_refuted.
Example C29_case : common_fks shop shop' (fun f1 f2 => same_names f1 <-> same_names f2).
Proof.
  intros n k t1 t2 f1 f2 T1 T2 F1 F2.
  destruct (fk_ok_pair_spec shop shop' eq_refl n k t1 t2 f1 f2 T1 T2 F1 F2) as [A B]. split; intros C; contradiction.
Qed.

(** C30 *)
Theorem C30_self_comparison : forall d, well_formed d ->
  compare_databases d d = Ok ([], [])
  <-> forall t fk, In t (db_iter d) -> In fk (foreign_keys_iter t) -> Permutation (fk_from_keys fk) (fk_to_keys fk).
Proof. exact c30. Qed.
Print Assumptions C30_self_comparison.
Example C30_case : compare_databases shop shop <> Ok ([], [])
  /\ compare_databases (db1 (tab ($"A") [($"f", fk_b)] None)) (db1 (tab ($"A") [($"f", fk_b)] None)) = Ok ([], []).
Proof. split; [exact c30_shop | vm_compute; reflexivity]. Qed.

(** C31: one list is empty exactly when the other is, and exactly when the models agree. *)
Theorem C31_empty_differences : forall d1 d2 l1 l2, well_formed d1 -> well_formed d2 -> compare_databases d1 d2 = Ok (l1, l2) ->
  (l1 = [] <-> indistinct_dbs d1 d2) /\ (l2 = [] <-> indistinct_dbs d1 d2).
Proof. exact c31. Qed.
Print Assumptions C31_empty_differences.
Example C31_case :
  compare_databases (db1 (tab ($"A") [($"f", fk_b)] (Some (sk 1)))) (db1 (tab ($"A") [($"f", fk_b)] (Some (sk 1)))) = Ok ([], [])
  /\ fst demo <> [] /\ snd demo <> [].
Proof. split; [vm_compute; reflexivity|]. split; discriminate. Qed.

(** C32: applying the reported changes to the first database gives the second. *)
Theorem C32_apply_differences : forall d1 d2 l1 l2, well_formed d1 -> well_formed d2 -> compare_databases d1 d2 = Ok (l1, l2) ->
  common_fks d1 d2 (fun f1 f2 => taken_as_same f1 f2 -> f1 = f2) -> shard_objects d1 d2 ->
  (forall n t, get_table d1 n = None -> get_table d2 n = Some t -> t_fks t = [] /\ t_rels t = []) ->
  same_view (apply_changes (changes l1) (view d1)) (view d2).
Proof. exact c32. Qed.
Print Assumptions C32_apply_differences.
Example C32_case : common_fks shop shop' (fun f1 f2 => taken_as_same f1 f2 -> f1 = f2) /\ shard_objects shop shop'
  /\ (forall n t, get_table shop n = None -> get_table shop' n = Some t -> t_fks t = [] /\ t_rels t = [])
  /\ length (fst demo) = 11.
Proof.
  split.
  - intros n k t1 t2 f1 f2 T1 T2 F1 F2 (_ & _ & S).
    destruct (fk_ok_pair_spec shop shop' eq_refl n k t1 t2 f1 f2 T1 T2 F1 F2) as [N _]. destruct (N S).
  - split; [apply shards_differ_spec; reflexivity|]. split; [apply new_bare_spec; reflexivity | vm_compute; reflexivity].
Qed.

(** C33 is false: a new table's constraints are in no ALTER statement.  The second theorem says so of
    every comparison: a new table's only change is its creation, and reads (C35) as CREATE TABLE. *)
Theorem C33_new_tables_complete_refuted : exists d1 d2 l1 l2 t s xs,
  usable d1 /\ usable d2 /\ compare_databases d1 d2 = Ok (l1, l2)
  /\ get_table d1 ($"Orders") = None /\ get_table d2 ($"Orders") = Some t /\ t_fks t <> [] /\ t_rels t <> []
  /\ concat_results (map get_alter l1) = Ok s /\ read_script s = Some xs /\ Forall (fun x => adds_constraint x = false) xs.
Proof. exact c33_refuted. Qed.
Print Assumptions C33_new_tables_complete_refuted.
Theorem C33_new_tables_bare_partial : forall d1 d2 l1 l2, well_formed d1 -> well_formed d2 -> compare_databases d1 d2 = Ok (l1, l2) ->
  forall n t, get_table d1 n = None -> get_table d2 n = Some t ->
  filter (fun c => str_eqb (t_name (change_table c)) n) (changes l1) = [TableCreated t].
Proof. exact c33_bare. Qed.
Print Assumptions C33_new_tables_bare_partial.

(** C34 is false: adding a primary key has no statement.  Every other difference has one, and a whole
    ALTER script exists exactly when no common table gains or changes a primary key. *)
Theorem C34_every_alter_refuted : exists d1 d2 l1 l2 d,
  usable d1 /\ usable d2 /\ compare_databases d1 d2 = Ok (l1, l2) /\ In d l1 /\ get_alter d = Err ValueError.
Proof. exact c34_refuted. Qed.
Print Assumptions C34_every_alter_refuted.
Theorem C34_alters_partial : forall d1 d2 l1 l2, well_formed d1 -> well_formed d2 -> compare_databases d1 d2 = Ok (l1, l2) ->
  (forall d, In d (l1 ++ l2) -> (exists s, get_alter d = Ok s) <-> forall t pk, diff_change d <> PrimaryKeyAdded t pk)
  /\ ((exists s, concat_results (map get_alter l1) = Ok s) <->
      forall n t1 t2, get_table d1 n = Some t1 -> get_table d2 n = Some t2 -> t_pk t2 = [] \/ t_pk t1 = t_pk t2).
Proof. exact c34. Qed.
Print Assumptions C34_alters_partial.

(** C35: each statement, and the whole script, reads back as what the differences are about. *)
Theorem C35_alter_texts : forall d1 d2 l1 l2, well_formed d1 -> well_formed d2 -> writable d1 -> writable d2 ->
  compare_databases d1 d2 = Ok (l1, l2) ->
  (forall d s, In d (l1 ++ l2) -> get_alter d = Ok s -> exists x, alter_stmt (diff_change d) = Some x /\ read_script s = Some [x])
  /\ (forall l s, l = l1 \/ l = l2 -> concat_results (map get_alter l) = Ok s ->
        exists xs, map alter_stmt (changes l) = map Some xs /\ read_script s = Some xs).
Proof. exact c35_script. Qed.
Print Assumptions C35_alter_texts.
(** Two differences with the same text are the same difference, except that dropping a foreign key and
    dropping a relationship of the same name read the same; that exception does occur. *)
Theorem C35_alter_injective : forall d1 d2 l1 l2, well_formed d1 -> well_formed d2 -> writable d1 -> writable d2 ->
  compare_databases d1 d2 = Ok (l1, l2) ->
  forall a b s, In a l1 -> In b l1 -> get_alter a = Ok s -> get_alter b = Ok s ->
  a = b \/ exists t k, (diff_change a = ForeignKeyDropped t k /\ diff_change b = RelationshipDropped t k)
                       \/ (diff_change a = RelationshipDropped t k /\ diff_change b = ForeignKeyDropped t k).
Proof. exact c35_inj. Qed.
Print Assumptions C35_alter_injective.
Theorem C35_unrestricted_refuted : exists d1 d2 l1 l2 a b s,
  usable d1 /\ usable d2 /\ compare_databases d1 d2 = Ok (l1, l2) /\ In a l1 /\ In b l1 /\ a <> b /\ get_alter a = Ok s /\ get_alter b = Ok s.
Proof. exact c35_drop_same. Qed.
Print Assumptions C35_unrestricted_refuted.
Example C35_case : writable shop /\ writable shop'
  /\ map get_alter (filter (fun d => about_column ($"Orders") ($"At") (diff_change d)) (fst demo))
     = [Ok ($"ALTER TABLE " ++ quoted ($"falcon_default_schema") ++ $"." ++ quoted ($"Orders") ++ $" ADD COLUMN " ++ quoted ($"At") ++ $" DATE DEFAULT 0;" ++ [nl])].
Proof. split; [apply shop_usable|]. split; [apply shop'_usable|]. vm_compute. reflexivity. Qed.
