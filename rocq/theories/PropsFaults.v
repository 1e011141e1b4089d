(** * What validation messages say (C122) *)
From Verif Require Import SpecFaults ValidateFacts ParseFacts.

Lemma no_column t k : get_column t k = None <-> ~ In k (get_column_names t).
Proof.
  rewrite get_column_names_in. split; [intros E [c E']; congruence|]. intros N. destruct (get_column t k) as [c|]; [|reflexivity].
  destruct N. eauto.
Qed.
Lemma no_table d n : get_table d n = None <-> ~ In n (get_table_names d).
Proof.
  unfold get_table, get_table_names. rewrite dget_some_in. split; [intros E [c E']; congruence|]. intros N.
  destruct (dget n (db_tables d)) as [c|]; [|reflexivity]. destruct N. eauto.
Qed.

Lemma pair_part d t tot fk f k s l : In (s, l) (pair_issues d t tot fk f k) <->
  exists x, s = itext d t x /\ l = ERROR /\
   ((~ In k (t_pk tot) /\ x = $"foreign key " ++ fk_name fk ++ $" column " ++ k ++ $" isn't in primary key for " ++ t_name tot)
    \/ (~ In f (get_column_names t) /\ x = $"foreign key " ++ fk_name fk ++ $" missing from_column " ++ f ++ $" from table " ++ t_name t)
    \/ (~ In k (get_column_names tot) /\ x = $"foreign key " ++ fk_name fk ++ $" missing to_column " ++ k ++ $" from table " ++ t_name t)
    \/ exists fc tc, get_column t f = Some fc /\ get_column tot k = Some tc /\ exists shown,
         x = $"foreign key " ++ fk_name fk ++ $" column " ++ shown ++ $" type " ++ column_type fc
             ++ $" doesn't match type " ++ column_type tc ++ $" for " ++ t_name tot ++ $" column " ++ column_name tc
         /\ ((~ varchar_like (column_type fc) /\ column_type fc <> column_type tc /\ shown = column_name fc)
             \/ (varchar_like (column_type fc) /\ ~ varchar_like (column_type tc) /\ shown = k))).
Proof.
  unfold pair_issues. rewrite !in_app_iff. setoid_rewrite <- no_column.
  assert (P : In (s, l) (if negb (str_in k (t_pk tot)) then [(itext d t ($"foreign key " ++ fk_name fk ++ $" column " ++ k ++ $" isn't in primary key for " ++ t_name tot), ERROR)] else [])
              <-> ~ In k (t_pk tot) /\ s = itext d t ($"foreign key " ++ fk_name fk ++ $" column " ++ k ++ $" isn't in primary key for " ++ t_name tot) /\ l = ERROR).
  { destruct (str_in_spec k (t_pk tot)) as [I|I]; cbn [negb In]; [tauto|]. split; [intros [E|[]]|intros (_ & -> & ->); left; reflexivity].
    apply pair_equal_spec in E. destruct E as [<- <-]. auto. }
  rewrite P. clear P.
  assert (T : forall fc tc, In (s, l) (if type_clash fc tc
         then [(itext d t ($"foreign key " ++ fk_name fk ++ $" column " ++ (if negb (is_varchar (column_type fc)) && negb (str_eqb (column_type fc) (column_type tc))
                     then column_name fc else k) ++ $" type " ++ column_type fc
           ++ $" doesn't match type " ++ column_type tc ++ $" for " ++ t_name tot ++ $" column " ++ column_name tc), ERROR)] else [])
     <-> exists shown, s = itext d t ($"foreign key " ++ fk_name fk ++ $" column " ++ shown ++ $" type " ++ column_type fc
             ++ $" doesn't match type " ++ column_type tc ++ $" for " ++ t_name tot ++ $" column " ++ column_name tc) /\ l = ERROR
         /\ ((~ varchar_like (column_type fc) /\ column_type fc <> column_type tc /\ shown = column_name fc)
             \/ (varchar_like (column_type fc) /\ ~ varchar_like (column_type tc) /\ shown = k))).
  { intros fc tc. unfold type_clash. pose proof (is_varchar_spec (column_type fc)) as Vf. pose proof (is_varchar_spec (column_type tc)) as Vt.
    assert (One : forall a b : str * level, In a [b] <-> a = b) by (intros a b; cbn [In]; split; [intros [E|[]]; auto|auto]).
    assert (No : forall a : str * level, In a [] <-> False) by (intros a; cbn [In]; tauto).
    destruct (is_varchar (column_type fc)), (is_varchar (column_type tc)), (str_eqb_spec (column_type fc) (column_type tc)) as [Q|Q];
      cbn [negb andb orb]; rewrite ?One, ?No, ?pair_equal_spec; split;
      try (intros (shown & -> & -> & [(A & B & ->)|(A & B & ->)]); try (split; reflexivity); exfalso; intuition congruence);
      try (intros [-> ->]; eexists; split; [reflexivity|split; [reflexivity|]]); try (intros []);
      try (left; split; [|split; [assumption|reflexivity]]; intuition congruence);
      try (right; split; [|split; [|reflexivity]]; intuition congruence).
    all: try (exfalso; rewrite Q in *; intuition congruence). }
  split.
  - intros [(A & -> & ->)|[F|[K|F]]].
    + eexists. split; [reflexivity|]. split; [reflexivity|]. left. auto.
    + destruct (get_column t f) eqn:E; [destruct F|]. destruct F as [F|[]]. apply pair_equal_spec in F. destruct F as [<- <-].
      eexists. split; [reflexivity|]. split; [reflexivity|]. right; left. auto.
    + destruct (get_column tot k) eqn:E; [destruct K|]. destruct K as [K|[]]. apply pair_equal_spec in K. destruct K as [<- <-].
      eexists. split; [reflexivity|]. split; [reflexivity|]. right; right; left. auto.
    + destruct (get_column t f) as [fc|] eqn:E; [|destruct F]. destruct (get_column tot k) as [tc|] eqn:E'; [|destruct F].
      cbv zeta in F. apply T in F. destruct F as (shown & -> & -> & F). eexists. split; [reflexivity|]. split; [reflexivity|].
      right; right; right. exists fc, tc. split; [reflexivity|]. split; [reflexivity|]. exists shown. split; [reflexivity|exact F].
  - intros (x & -> & -> & [[A ->]|[[A ->]|[[A ->]|(fc & tc & E & E' & shown & -> & F)]]]).
    + left. auto.
    + right; left. rewrite A. left. reflexivity.
    + right; right; left. rewrite A. left. reflexivity.
    + right; right; right. rewrite E, E'. cbv zeta. apply T. exists shown. auto.
Qed.

Lemma table_messages d t : messages_of d t (table_issues d t).
Proof.
  intros s l. unfold table_issues, type_issues, shard_issues. rewrite !in_app_iff, !in_flat_map.
  split.
  - intros [(c & I & F)|[(k & I & F)|[F|[(fk & I & F)|(r & I & F)]]]].
    + destruct (str_eqb_spec (column_type c) ($"UNKNOWN")) as [E|E]; first [destruct F as [F|[]] | destruct F]. apply pair_equal_spec in F. destruct F as [<- <-].
      eexists. split; [exact (unknown_type d t c I E)|reflexivity].
    + unfold pk_issue in F. destruct (get_column t k) eqn:E; first [destruct F as [F|[]] | destruct F]. apply pair_equal_spec in F. destruct F as [<- <-].
      apply no_column in E. eexists. split; [exact (no_key_column d t k I E)|reflexivity].
    + destruct (t_shard t) as [sk|] eqn:S'; [|destruct F]. apply in_flat_map in F. destruct F as (k & I & F). unfold shard_issue in F.
      apply in_app_iff in F. destruct F as [F|F].
      * destruct (get_column t k) eqn:E; first [destruct F as [F|[]] | destruct F]. apply pair_equal_spec in F. destruct F as [<- <-].
        apply no_column in E. eexists. split; [exact (no_shard_column d t sk k S' I E)|reflexivity].
      * destruct (strs_eqb_spec (t_pk t) []) as [E|E]; [destruct F|]. destruct (str_in_spec k (t_pk t)) as [N|N]; [destruct F|].
        destruct F as [F|[]]. apply pair_equal_spec in F. destruct F as [<- <-].
        eexists. split; [exact (shard_outside d t sk k S' I E N)|reflexivity].
    + unfold fk_issues in F. destruct (get_table d (fk_to_table fk)) as [tot|] eqn:G.
      * apply in_app_iff in F. destruct F as [F|F].
        { destruct (Nat.eqb_spec (length (fk_to_keys fk)) (length (t_pk tot))) as [E|E]; first [destruct F as [F|[]] | destruct F].
          apply pair_equal_spec in F. destruct F as [<- <-]. eexists. split; [exact (other_count d t fk tot I G E)|reflexivity]. }
        apply in_flat_map in F. destruct F as ([f k] & R & F). cbn [fst snd] in F. apply pair_part in F.
        destruct F as (x & -> & -> & F). exists x. split; [|reflexivity].
        destruct F as [[A ->]|[[A ->]|[[A ->]|(fc & tc & E & E' & shown & -> & [(A & B & ->)|(A & B & ->)])]]].
        -- exact (not_key d t fk tot f k I G R A).
        -- exact (no_from_column d t fk tot f k I G R A).
        -- exact (no_to_column d t fk tot f k I G R A).
        -- exact (other_type d t fk tot f k fc tc I G R E E' A B).
        -- exact (not_text d t fk tot f k fc tc I G R E E' A B).
      * destruct F as [F|[]]. apply pair_equal_spec in F. destruct F as [<- <-]. apply no_table in G.
        eexists. split; [exact (no_target d t fk I G)|reflexivity].
    + unfold rel_issues in F. apply in_app_iff in F. destruct F as [F|F].
      * destruct (str_eqb_spec (rel_from_table r) (t_name t)) as [E|E]; first [destruct F as [F|[]] | destruct F]. apply pair_equal_spec in F. destruct F as [<- <-].
        eexists. split; [exact (other_source d t r I E)|reflexivity].
      * destruct (get_table d (rel_to_table r)) eqn:G; first [destruct F as [F|[]] | destruct F]. apply pair_equal_spec in F. destruct F as [<- <-].
        apply no_table in G. eexists. split; [exact (no_related d t r I G)|reflexivity].
  - intros (x & F & ->). destruct F as [c I E|k I E|sk k S' I E|sk k S' I E N|fk I G|fk tot I G E|fk tot f k I G R A|fk tot f k I G R A
      |fk tot f k I G R A|fk tot f k fc tc I G R E E' A B|fk tot f k fc tc I G R E E' A B|r I E|r I G].
    + left. exists c. split; [exact I|]. rewrite E, str_eqb_refl. left. reflexivity.
    + right; left. exists k. split; [exact I|]. apply no_column in E. unfold pk_issue. rewrite E. left. reflexivity.
    + right; right; left. rewrite S'. apply in_flat_map. exists k. split; [exact I|]. apply no_column in E. unfold shard_issue. rewrite E.
      left. reflexivity.
    + right; right; left. rewrite S'. apply in_flat_map. exists k. split; [exact I|]. unfold shard_issue. apply in_app_iff. right.
      destruct (strs_eqb_spec (t_pk t) []) as [E'|E']; [contradiction|]. destruct (str_in_spec k (t_pk t)) as [N'|N']; [contradiction|].
      left. reflexivity.
    + right; right; right; left. exists fk. split; [exact I|]. apply no_table in G. unfold fk_issues. rewrite G. left. reflexivity.
    + right; right; right; left. exists fk. split; [exact I|]. unfold fk_issues. rewrite G. apply in_app_iff. left.
      destruct (Nat.eqb_spec (length (fk_to_keys fk)) (length (t_pk tot))); [contradiction|]. left. reflexivity.
    + right; right; right; left. exists fk. split; [exact I|]. unfold fk_issues. rewrite G. apply in_app_iff. right.
      apply in_flat_map. exists (f, k). split; [exact R|]. apply pair_part. eexists. split; [reflexivity|]. split; [reflexivity|]. left. auto.
    + right; right; right; left. exists fk. split; [exact I|]. unfold fk_issues. rewrite G. apply in_app_iff. right.
      apply in_flat_map. exists (f, k). split; [exact R|]. apply pair_part. eexists. split; [reflexivity|]. split; [reflexivity|]. right; left. auto.
    + right; right; right; left. exists fk. split; [exact I|]. unfold fk_issues. rewrite G. apply in_app_iff. right.
      apply in_flat_map. exists (f, k). split; [exact R|]. apply pair_part. eexists. split; [reflexivity|]. split; [reflexivity|]. right; right; left. auto.
    + right; right; right; left. exists fk. split; [exact I|]. unfold fk_issues. rewrite G. apply in_app_iff. right.
      apply in_flat_map. exists (f, k). split; [exact R|]. apply pair_part. eexists. split; [reflexivity|]. split; [reflexivity|].
      right; right; right. exists fc, tc. split; [exact E|]. split; [exact E'|]. eexists. split; [reflexivity|]. left. auto.
    + right; right; right; left. exists fk. split; [exact I|]. unfold fk_issues. rewrite G. apply in_app_iff. right.
      apply in_flat_map. exists (f, k). split; [exact R|]. apply pair_part. eexists. split; [reflexivity|]. split; [reflexivity|].
      right; right; right. exists fc, tc. split; [exact E|]. split; [exact E'|]. eexists. split; [reflexivity|]. right. auto.
    + right; right; right; right. exists r. split; [exact I|]. unfold rel_issues. apply in_app_iff. left.
      destruct (str_eqb_spec (rel_from_table r) (t_name t)); [contradiction|]. left. reflexivity.
    + right; right; right; right. exists r. split; [exact I|]. apply no_table in G. unfold rel_issues. rewrite G. apply in_app_iff. right.
      left. reflexivity.
Qed.

(** C122: the issues come table by table, and those of a table are exactly the sentences about its
    faults.  ([paired_db] holds of every model that was built, see C02.) *)
Theorem C122_exact : forall d, paired_db d -> exists r parts, validate d = Ok r /\ issues r = concat parts
  /\ Forall2 (messages_of d) (db_iter d) parts.
Proof.
  intros d P. exists (add_all new_result (flat_map (table_issues d) (db_iter d))), (map (table_issues d) (db_iter d)).
  split; [exact (validate_ok d P)|]. split; [cbn [add_all issues new_result app]; apply flat_map_concat_map|].
  induction (db_iter d) as [|t l IH]; constructor; [apply table_messages|exact IH].
Qed.
Print Assumptions C122_exact.

(** Every kind of fault, in one model *)
Definition faulty : database :=
  let orders := add_columns (mk_table ($"orders") DEFAULT_SCHEMA (Some (KeyList [$"it's"; $"amount"]))
                   (Some {| sk_id := 1; sk_keys := [$"amount"; $"slot"]; sk_shards := 8 |}))
                  [{| column_name := $"amount"; column_type := $"VARCHAR(7)" |}; {| column_name := $"date"; column_type := $"UNKNOWN" |}] in
  let fk n f t k := {| fk_name := n; fk_from_table := $"orders"; fk_from_keys := f; fk_to_table := t; fk_to_keys := k |} in
  let rel n f t := {| rel_name := n; rel_from_table := f; rel_to_table := t; rel_conditions := $"c" |} in
  let orders := fold_left add_fk_obj [fk ($"F1") [$"amount"; $"gone"; $"date"] ($"goods") [$"code"; $"code"; $"shelf"];
                                      fk ($"F2") [$"amount"] ($"nowhere") [$"code"]] orders in
  let orders := fold_left add_rel_obj [rel ($"R1") ($"invoices") ($"goods"); rel ($"R2") ($"orders") ($"ghosts")] orders in
  let goods := add_columns (mk_table ($"goods") DEFAULT_SCHEMA (Some (OneKey ($"code"))) None)
                 [{| column_name := $"code"; column_type := $"INT" |}] in
  add_table (add_table (empty_database ($"db")) orders) goods.

(** C122 as stated is false: a message need not name what is wrong.  There is a model in which a
    relationship leads to a table that does not exist, another one starts at another table than its own,
    and a foreign key joins a text column to a number, and no message at all has the name of the missing
    table or that of the other table, and none about the types has the name of the text column. *)
Theorem C122_refuted : exists d t r, paired_db d /\ In t (db_iter d) /\ validate d = Ok r
  /\ (exists rel, In rel (relationships_iter t) /\ ~ In (rel_to_table rel) (get_table_names d) /\ unnamed (rel_to_table rel) r)
  /\ (exists rel, In rel (relationships_iter t) /\ rel_from_table rel <> t_name t /\ unnamed (rel_from_table rel) r)
  /\ (exists fk f k tot fc tc, In fk (foreign_keys_iter t) /\ refers fk f k /\ get_table d (fk_to_table fk) = Some tot
      /\ get_column t f = Some fc /\ get_column tot k = Some tc /\ ~ same_kind (column_type fc) (column_type tc)
      /\ forall s l a b c e, In (s, l) (issues r) -> s = a ++ $" type " ++ b -> s <> c ++ f ++ e).
Proof.
  assert (U : forall name r, forallb (fun i => negb (contains name (fst i))) (issues r) = true -> unnamed name r).
  { intros name r F s l a b I ->. rewrite forallb_forall in F. specialize (F _ I). cbn [fst] in F. apply negb_true_iff, contains_false in F.
    apply F. exists a, b. reflexivity. }
  exists faulty. eexists. eexists. split; [apply paired_check; vm_compute; reflexivity|]. split; [left; reflexivity|].
  split; [vm_compute; reflexivity|]. split; [|split].
  - eexists. split; [right; left; reflexivity|]. split; [apply no_table; vm_compute; reflexivity|]. apply U. vm_compute. reflexivity.
  - eexists. split; [left; reflexivity|]. split; [vm_compute; discriminate|]. apply U. vm_compute. reflexivity.
  - eexists. exists ($"amount"), ($"code"). eexists. eexists. eexists. split; [left; reflexivity|]. split; [left; reflexivity|].
    split; [vm_compute; reflexivity|]. split; [vm_compute; reflexivity|]. split; [vm_compute; reflexivity|].
    split; [intros [E|[_ [x E]]]; vm_compute in E; discriminate|].
    intros s l a b c e I E N.
    assert (H : contains ($" type ") s = true) by (apply contains_true; exists a, b; exact E).
    assert (M : contains ($"amount") s = true) by (apply contains_true; exists c, e; exact N). clear E N.
    match type of I with In _ ?L => assert (F : forallb (fun i => negb (contains ($" type ") (fst i) && contains ($"amount") (fst i))) L = true) by (vm_compute; reflexivity) end.
    rewrite forallb_forall in F. specialize (F _ I). cbn [fst] in F. rewrite H, M in F. discriminate.
Qed.
Print Assumptions C122_refuted.

(** What is said about that model *)
Example C122_case : paired_db faulty /\ exists r, validate faulty = Ok r /\ map fst (issues r) = map (app ($"database db, table orders:  "))
  [ $"column date is of type UNKNOWN.";
    $"column it's in primary key does not exist in the the table.";
    $"column slot in shard key does not exist in the the table.";
    $"column slot in shard key not in primary key [""it's"", 'amount']";
    $"FK F1 doesn't match number of columns in primary key ['code']";
    $"foreign key F1 column code type VARCHAR(7) doesn't match type INT for goods column code";
    $"foreign key F1 missing from_column gone from table orders";
    $"foreign key F1 column shelf isn't in primary key for goods";
    $"foreign key F1 missing to_column shelf from table orders";
    $"table nowhere doesn't exist for foreign key F2";
    $"from table orders doesn't exist in relationship R1.";
    $"to table None doesn't exist in relationship R2." ].
Proof. split; [apply paired_check; vm_compute; reflexivity|]. eexists. split; vm_compute; reflexivity. Qed.
