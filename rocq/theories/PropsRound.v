(** * Properties C45, C70: TQL written is read back *)
From Verif Require Import RoundDemo.

(** C45: the script written without case options for a model with plain identifiers parses, under
    any database name and schema, into the same tables with the same columns in order (types
    normalised), keys, foreign keys and relationships. *)
Theorem C45_read_back : forall d create_db name schema, well_formed d -> plain_db d ->
  exists s d', tql_script no_case create_db d = Ok s /\ parse_text name schema s = Ok d'
    /\ db_name d' = name /\ get_table_names d' = get_table_names d
    /\ Forall2 (read_back schema) (db_iter d) (db_iter d').
Proof. intros d create_db name schema W P. exact (round_db d W P schema create_db name). Qed.
Print Assumptions C45_read_back.
Example C45_case : well_formed shop /\ plain_db shop
  /\ exists s d', tql_script no_case true shop = Ok s /\ parse_text ($"other") ($"s") s = Ok d'
    /\ map (fun t => (t_name t, map (fun c => (column_name c, column_type c)) (table_iter t), t_pk t, shard_of t)) (db_iter d')
       = [($"Orders", [($"Id", $"BIGINT"); ($"Line", $"BIGINT"); ($"Cust", $"VARCHAR(0)")], [$"Id"; $"Line"], Some (128%Z, [$"Id"]));
          ($"Customers", [($"Id", $"VARCHAR(0)"); ($"name", $"VARCHAR(0)")], [$"Id"], None);
          ($"log", [($"at", $"DATETIME")], [], None)]
    /\ map t_fks (db_iter d') = map t_fks (db_iter shop) /\ map t_rels (db_iter d') = map t_rels (db_iter shop).
Proof.
  split; [exact (proj1 shop_usable)|]. split; [exact shop_plain|]. eexists _, _. split; [vm_compute; reflexivity|]. split; [vm_compute; reflexivity|].
  split; [vm_compute; reflexivity|]. split; vm_compute; reflexivity.
Qed.

(** The restrictions on names are needed: a foreign key whose name contains the word the reader cuts
    at, a relationship whose name contains "foreign", and a join condition with " as " are lost or
    changed, although every name is a plain word. *)
Definition one_table (fks : list foreign_key) (rels : list relationship) : database :=
  add_table (empty_database ($"d")) (fold_left add_rel_obj rels (fold_left add_fk_obj fks
    (add_column (mk_table ($"t") ($"s") None None) {| column_name := $"a"; column_type := $"BIGINT" |}))).
Definition some_fk (n : str) : foreign_key :=
  {| fk_name := n; fk_from_table := $"t"; fk_from_keys := [$"a"]; fk_to_table := $"t"; fk_to_keys := [$"a"] |}.
Definition some_rel (n c : str) : relationship := {| rel_name := n; rel_from_table := $"t"; rel_to_table := $"t"; rel_conditions := c |}.
Theorem C45_constraint_word_refuted : exists n s d', plain n /\ well_formed (one_table [some_fk n] []) /\
  tql_script no_case false (one_table [some_fk n] []) = Ok s /\ parse_text ($"d") ($"s") s = Ok d' /\ flat_map foreign_keys_iter (db_iter d') = [].
Proof.
  exists ($"my_constraint_1"). eexists _, _. split; [reflexivity|]. split; [apply wf_ok; vm_compute; reflexivity|]. split; [vm_compute; reflexivity|]. split; vm_compute; reflexivity.
Qed.
Print Assumptions C45_constraint_word_refuted.
Theorem C45_foreign_word_refuted : exists n s d', plain n /\ well_formed (one_table [] [some_rel n ($"x = y")]) /\
  tql_script no_case false (one_table [] [some_rel n ($"x = y")]) = Ok s /\ parse_text ($"d") ($"s") s = Ok d' /\ flat_map relationships_iter (db_iter d') = [].
Proof.
  exists ($"foreign_rel"). eexists _, _. split; [reflexivity|]. split; [apply wf_ok; vm_compute; reflexivity|]. split; [vm_compute; reflexivity|]. split; vm_compute; reflexivity.
Qed.
Print Assumptions C45_foreign_word_refuted.
Theorem C45_condition_refuted : exists c s d', clean_statement c /\ well_formed (one_table [] [some_rel ($"r") c]) /\
  tql_script no_case false (one_table [] [some_rel ($"r") c]) = Ok s /\ parse_text ($"d") ($"s") s = Ok d' /\ map rel_conditions (flat_map relationships_iter (db_iter d')) <> [c].
Proof.
  exists ($"cast(t.x as int) = t.a"). eexists _, _. split; [|split; [apply wf_ok; vm_compute; reflexivity|split; [vm_compute; reflexivity|split; [vm_compute; reflexivity|vm_compute; discriminate]]]].
  split; try (apply not_in_b; reflexivity); [apply hard_trimmed; reflexivity|apply contains_false; reflexivity].
Qed.
Print Assumptions C45_condition_refuted.

(** C70: after one write and read nothing changes any more: writing and reading again gives tables
    with exactly the same columns and types, keys, foreign keys and relationships. *)
Theorem C70_fixed_point : forall d create_db create_db' name schema s d', well_formed d -> plain_db d ->
  plain name -> plain schema -> ~ mentions ($"constraint") schema -> ~ mentions ($"foreign") schema ->
  tql_script no_case create_db d = Ok s -> parse_text name schema s = Ok d' ->
  exists s' d'', tql_script no_case create_db' d' = Ok s' /\ parse_text name schema s' = Ok d''
    /\ db_name d'' = db_name d' /\ get_table_names d'' = get_table_names d'
    /\ map (fun t => (t_schema t, map (fun c => (column_name c, column_type c)) (table_iter t), t_pk t, shard_of t, t_fks t, t_rels t)) (db_iter d'')
       = map (fun t => (t_schema t, map (fun c => (column_name c, column_type c)) (table_iter t), t_pk t, shard_of t, t_fks t, t_rels t)) (db_iter d').
Proof.
  intros d c c' name schema s d' W P Pn Ps Nc Nf Es Ep. destruct (round_plain _ _ _ _ _ _ W P Pn Ps Nc Nf Es Ep) as [W' P'].
  destruct (round_db d' W' P' schema c' name) as [s' [d'' [Es' [Ep' [En' [Et' F]]]]]]. exists s', d''. split; [exact Es'|]. split; [exact Ep'|].
  destruct (c44 _ _ _ _ Ep) as [En [_ Pt]]. split; [congruence|]. split; [exact Et'|].
  destruct (round_db d W P schema c name) as [s0 [d0 [Es0 [Ep0 [_ [_ F0]]]]]]. rewrite Es in Es0. injection Es0 as <-. rewrite Ep in Ep0. injection Ep0 as <-.
  symmetry. apply (forall2_map (fun t t' => read_back schema t t' /\ exists u, read_back schema u t)).
  - intros t t' [R [u Ru]]. rewrite (rb_schema _ _ _ R), (rb_schema _ _ _ Ru), (rb_columns _ _ _ R), (rb_pk _ _ _ R), (rb_shard _ _ _ R), (rb_fks _ _ _ R), (rb_rels _ _ _ R).
    replace (map (fun c0 => (column_name c0, read_type (column_type c0))) (table_iter t)) with (map (fun c0 => (column_name c0, column_type c0)) (table_iter t)); [reflexivity|].
    rewrite (rb_columns _ _ _ Ru). pose proof (f_equal (map (fun x => (fst x, read_type (snd x)))) (rb_columns _ _ _ Ru)) as Q. rewrite !map_map in Q. cbn [fst snd] in Q. rewrite Q.
    apply map_ext. intros x. rewrite read_type_idem. reflexivity.
  - assert (Fi : forall t', In t' (db_iter d') -> exists u, read_back schema u t') by (intros t' Ht'; destruct (forall2_in _ _ _ _ F0 Ht') as [u [_ R]]; exists u; exact R).
    clear - F Fi. revert Fi. induction F as [|x y l m H F IH]; intros Fi; [constructor|]. constructor; [split; [exact H|apply Fi; left; reflexivity]|]. apply IH. intros t Ht. apply Fi. right. exact Ht.
Qed.
Print Assumptions C70_fixed_point.
Example C70_case : exists s d', tql_script no_case true shop = Ok s /\ parse_text ($"other") ($"s") s = Ok d' /\ plain ($"other") /\ plain ($"s")
  /\ ~ mentions ($"constraint") ($"s") /\ ~ mentions ($"foreign") ($"s").
Proof.
  eexists _, _. split; [vm_compute; reflexivity|]. split; [vm_compute; reflexivity|]. split; [reflexivity|]. split; [reflexivity|]. split; apply silent_ok; reflexivity.
Qed.
