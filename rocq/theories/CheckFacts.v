(** * Deciding the hypotheses of the script theorems, for the concrete cases beside them *)
From Verif Require Export CatalogFacts GenFacts.

Definition named_b {A} (f : A -> str) (d : dict A) : bool := forallb (fun kv => str_eqb (f (snd kv)) (fst kv)) d.
Lemma named_ok {A} (f : A -> str) (d : dict A) : named_b f d = true -> forall n v, dget n d = Some v -> f v = n.
Proof. unfold named_b. rewrite forallb_forall. intros H n v Hg. apply dget_in in Hg. apply (H _) in Hg. apply str_eqb_eq, Hg. Qed.
Definition wf_table_b (t : table) : bool :=
  no_dups (get_column_names t) && named_b column_name (t_cols t)
  && no_dups (dkeys (t_fks t)) && named_b fk_name (t_fks t)
  && no_dups (dkeys (t_rels t)) && named_b rel_name (t_rels t)
  && forallb (fun fk => Nat.eqb (length (fk_from_keys fk)) (length (fk_to_keys fk))) (foreign_keys_iter t).
Definition wf_b (d : database) : bool :=
  no_dups (get_table_names d) && named_b t_name (db_tables d)
  && no_dups (get_schema_names d) && forallb (fun t => str_in (t_schema t) (get_schema_names d)) (db_iter d)
  && forallb wf_table_b (db_iter d).
Lemma wf_table_ok t : wf_table_b t = true -> well_formed_table t.
Proof.
  unfold wf_table_b. rewrite !andb_true_iff, !no_dups_spec, forallb_forall. intros [[[[[[H1 H2] H3] H4] H5] H6] H7].
  split; [split | split | split |]; eauto using named_ok. intros fk Hfk. apply Nat.eqb_eq, H7, Hfk.
Qed.
Lemma wf_ok d : wf_b d = true -> well_formed d.
Proof.
  unfold wf_b. rewrite !andb_true_iff, !no_dups_spec, !forallb_forall. intros [[[[H1 H2] H3] H4] H5].
  split; [split | split |]; eauto using named_ok, wf_table_ok. intros t Ht. apply str_in_true, H4, Ht.
Qed.
Definition qf_b (n : str) : bool := negb (existsb (Ascii.eqb quote_char) n).
Lemma qf_ok n : qf_b n = true -> quote_free n.
Proof.
  unfold qf_b, quote_free. rewrite negb_true_iff. intros H Hin.
  assert (existsb (Ascii.eqb quote_char) n = true) by (apply existsb_exists; exists quote_char; split; [exact Hin | apply Ascii.eqb_refl]).
  congruence.
Qed.
Lemma qfs_ok l : forallb qf_b l = true -> Forall quote_free l.
Proof. rewrite forallb_forall, Forall_forall. intros H x Hx. apply qf_ok, H, Hx. Qed.
Definition plain_type_b (ty : str) : bool :=
  forallb (fun c => negb (existsb (Ascii.eqb c) [" "%char; newline_char; quote_char; ";"%char])) ty.
Lemma plain_type_ok ty : plain_type_b ty = true -> plain_type ty.
Proof.
  unfold plain_type_b. rewrite forallb_forall. intros H c Hc. apply H in Hc. simpl in Hc.
  rewrite negb_true_iff, !orb_false_iff, !Ascii.eqb_neq in Hc. tauto.
Qed.
Definition plain_cond_b (c : str) : bool := match scan false c with Some false => true | _ => false end.
Lemma plain_cond_ok c : plain_cond_b c = true -> plain_condition c.
Proof. unfold plain_cond_b, plain_condition. destruct (scan false c) as [[]|]; congruence. Qed.
Definition wr_table_b (t : table) : bool :=
  qf_b (t_name t) && qf_b (t_schema t)
  && forallb (fun c => qf_b (column_name c) && plain_type_b (column_type c)) (table_iter t)
  && forallb qf_b (t_pk t) && (match t_pk t with [] => true | _ => negb (match table_iter t with [] => true | _ => false end) end)
  && (match t_shard t with Some sk => forallb qf_b (sk_keys sk) | None => true end)
  && forallb (fun fk => qf_b (fk_name fk) && qf_b (fk_from_table fk) && qf_b (fk_to_table fk)
                        && forallb qf_b (fk_from_keys fk) && forallb qf_b (fk_to_keys fk)) (foreign_keys_iter t)
  && forallb (fun r => qf_b (rel_name r) && qf_b (rel_from_table r) && qf_b (rel_to_table r)
                       && plain_cond_b (rel_conditions r)) (relationships_iter t).
Lemma wr_table_ok t : wr_table_b t = true -> writable_table t.
Proof.
  unfold wr_table_b. rewrite !andb_true_iff, !forallb_forall. intros [[[[[[[H1 H2] H3] H4] H5] H6] H7] H8].
  split; auto using qf_ok.
  - intros c Hc. specialize (H3 _ Hc). apply andb_true_iff in H3. destruct H3. auto using qf_ok, plain_type_ok.
  - apply Forall_forall. intros. apply qf_ok. auto.
  - intros Hp. destruct (t_pk t); [contradiction|]. destruct (table_iter t); [discriminate|discriminate].
  - intros sk E. rewrite E in H6. apply qfs_ok, H6.
  - intros fk Hfk. specialize (H7 _ Hfk). rewrite !andb_true_iff in H7. destruct H7 as [[[[? ?] ?] ?] ?].
    repeat split; auto using qf_ok, qfs_ok.
  - intros r Hr. specialize (H8 _ Hr). rewrite !andb_true_iff in H8. destruct H8 as [[[? ?] ?] ?].
    repeat split; auto using qf_ok, plain_cond_ok.
Qed.
Definition wr_b (d : database) : bool :=
  qf_b (db_name d) && forallb qf_b (get_schema_names d) && forallb wr_table_b (db_iter d).
Lemma wr_ok d : wr_b d = true -> writable d.
Proof.
  unfold wr_b. rewrite !andb_true_iff. intros [[H1 H2] H3]. rewrite forallb_forall in H3.
  split; auto using qf_ok, qfs_ok. intros t Ht. apply wr_table_ok, H3, Ht.
Qed.
Definition own_b (d : database) : bool :=
  forallb (fun t => forallb (fun fk => str_eqb (fk_from_table fk) (t_name t)) (foreign_keys_iter t)) (db_iter d).
Lemma own_ok d : own_b d = true -> own_fks d.
Proof. unfold own_b. rewrite forallb_forall. intros H t fk Ht Hf. specialize (H _ Ht). rewrite forallb_forall in H. apply str_eqb_eq, H, Hf. Qed.
Definition local_b (d : database) : bool :=
  forallb (fun t => forallb (fun u => negb (str_in (t_name u) (get_all_related_tables t)) || str_eqb (t_schema u) (t_schema t)) (db_iter d)) (db_iter d).
Lemma local_ok d : local_b d = true -> schema_local d.
Proof.
  unfold local_b. rewrite forallb_forall. intros H t u Ht Hin Hu. specialize (H _ Ht). rewrite forallb_forall in H. specialize (H _ Hu).
  apply orb_true_iff in H. destruct H as [H|H]; [|apply str_eqb_eq, H]. apply negb_true_iff, str_in_false in H. contradiction.
Qed.
Lemma valid_ok d : wf_b d = true -> match validate d with Ok r => is_valid r | Err _ => false end = true -> consistent_db d.
Proof.
  intros W H. apply wf_ok in W. assert (P : paired_db d) by (intros t fk Ht; apply (wf_paired _ (wf_tables _ W _ Ht))).
  destruct (c08_verdict d P) as [r [E V]]. rewrite E in H. apply V, H.
Qed.
Definition usable (d : database) : Prop := well_formed d /\ writable d /\ consistent_db d /\ own_fks d /\ schema_local d.
Lemma usable_ok d : wf_b d && wr_b d && own_b d && local_b d && match validate d with Ok r => is_valid r | Err _ => false end = true -> usable d.
Proof.
  rewrite !andb_true_iff. intros [[[[H1 H2] H3] H4] H5].
  exact (conj (wf_ok _ H1) (conj (wr_ok _ H2) (conj (valid_ok _ H1 H5) (conj (own_ok _ H3) (local_ok _ H4))))).
Qed.

(** ** A database with two schemas, all kinds of keys and a relationship *)
Definition shop_orders : table :=
  {| t_name := $"Orders"; t_schema := DEFAULT_SCHEMA; t_pk := [$"Id"; $"Line"];
     t_shard := Some {| sk_id := 1; sk_keys := [$"Id"]; sk_shards := 128 |};
     t_cols := [($"Id", col ($"Id") ($"BIGINT")); ($"Line", col ($"Line") ($"BIGINT")); ($"Cust", col ($"Cust") ($"VARCHAR(10)"))];
     t_fks := [($"fk1", {| fk_name := $"fk1"; fk_from_table := $"Orders"; fk_from_keys := [$"Cust"];
                           fk_to_table := $"Customers"; fk_to_keys := [$"Id"] |})];
     t_rels := [($"r1", {| rel_name := $"r1"; rel_from_table := $"Orders"; rel_to_table := $"Customers";
                           rel_conditions := $"Orders.Cust = Customers.Id" |})] |}.
Definition shop_customers : table :=
  {| t_name := $"Customers"; t_schema := DEFAULT_SCHEMA; t_pk := [$"Id"]; t_shard := None;
     t_cols := [($"Id", col ($"Id") ($"VARCHAR(0)")); ($"name", col ($"name") ($"VARCHAR(0)"))]; t_fks := []; t_rels := [] |}.
Definition shop_log : table :=
  {| t_name := $"log"; t_schema := $"audit"; t_pk := []; t_shard := None;
     t_cols := [($"at", col ($"at") ($"DATETIME"))]; t_fks := []; t_rels := [] |}.
Definition shop : database :=
  add_table (add_table (add_table (empty_database ($"shop")) shop_orders) shop_customers) shop_log.
Lemma shop_usable : usable shop.
Proof. apply usable_ok. vm_compute. reflexivity. Qed.
Definition all_upper : case_opts := {| uppercase := true; lowercase := false; camelcase := false |}.
Definition all_camel : case_opts := {| uppercase := false; lowercase := false; camelcase := true |}.

Lemma c19_refuted : exists o b d s l, well_formed d /\ writable d /\ consistent_db d /\ own_fks d /\ schema_local d
  /\ tql_script o b d = Ok s /\ read_script s = Some l /\ ~ clauses_resolve l.
Proof.
  exists all_upper, true, shop. destruct shop_usable as (H1&H2&H3&H4&H5).
  destruct (script_total all_upper true shop (or_introl eq_refl)) as [s Hs].
  exists s, (script_stmts (cased all_upper) (col_cased all_upper) true shop). do 5 (split; [assumption|]).
  split; [exact Hs|]. split; [apply script_reads; assumption|]. intros [H _].
  assert (Hin : In (SCreateTable DEFAULT_SCHEMA ($"CUSTOMERS") [($"ID", $"VARCHAR(0)"); ($"NAME", $"VARCHAR(0)")] [$"Id"] None)
     (script_stmts (cased all_upper) (col_cased all_upper) true shop)) by (vm_compute; tauto).
  apply H in Hin. destruct Hin as [Hpk _]. specialize (Hpk ($"Id") (or_introl eq_refl)). vm_compute in Hpk.
  destruct Hpk as [E|[E|[]]]; discriminate.
Qed.
(** the same model with the referenced table in another schema *)
Definition shop2 : database :=
  add_table (add_table (empty_database ($"shop")) shop_orders)
    {| t_name := $"Customers"; t_schema := $"crm"; t_pk := t_pk shop_customers; t_shard := None;
       t_cols := t_cols shop_customers; t_fks := []; t_rels := [] |}.
Lemma c20_refuted : exists o b d s l, well_formed d /\ writable d /\ consistent_db d /\ own_fks d
  /\ tql_script o b d = Ok s /\ read_script s = Some l /\ ~ targets_created l.
Proof.
  exists no_case, true, shop2.
  assert (H1 : well_formed shop2) by (apply wf_ok; vm_compute; reflexivity).
  assert (H2 : writable shop2) by (apply wr_ok; vm_compute; reflexivity).
  assert (H3 : consistent_db shop2) by (apply valid_ok; vm_compute; reflexivity).
  assert (H4 : own_fks shop2) by (apply own_ok; vm_compute; reflexivity).
  destruct (script_total no_case true shop2 (or_introl eq_refl)) as [s Hs].
  exists s, (script_stmts (cased no_case) (col_cased no_case) true shop2). do 4 (split; [assumption|]).
  split; [exact Hs|]. split; [apply script_reads; assumption|]. intros [H _].
  assert (Hin : In (SAddFk DEFAULT_SCHEMA ($"Orders") ($"fk1") [$"Cust"] DEFAULT_SCHEMA ($"Customers") [$"Id"])
     (script_stmts (cased no_case) (col_cased no_case) true shop2)) by (vm_compute; tauto).
  apply H in Hin. destruct Hin as [cols [defs [pk [sh [Hin _]]]]]. vm_compute in Hin.
  repeat destruct Hin as [Hin|Hin]; try discriminate; assumption.
Qed.
