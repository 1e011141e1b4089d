(** * Facts about the ALTER statements of reported differences *)
From Verif Require Import ScriptFacts CatalogFacts CheckFacts SpecDiff DiffFacts DiffProps Writer.
From Coq Require Import Sorting.Sorted.
From Coq Require Import List. Import ListNotations.

(** ** C34 *)
Lemma no_case_id n : to_case no_case n = Ok n.
Proof. pose proof (cased_none n) as H. unfold cased in H. destruct (to_case no_case n) eqn:E; [rewrite H; reflexivity|].
  unfold to_case in E. destruct (str_eqb n DEFAULT_SCHEMA) in E; discriminate. Qed.
Lemma no_case_names t : cased_names no_case t = Ok (t_schema t, t_name t).
Proof. unfold cased_names. rewrite !no_case_id. reflexivity. Qed.
Lemma alter_total d : match diff_change d with
  | PrimaryKeyAdded _ _ => get_alter d = Err ValueError
  | _ => exists s, get_alter d = Ok s end.
Proof.
  unfold get_alter. destruct (diff_change d);
    unfold gen_create_table, gen_drop_table, gen_add_primary_key, gen_drop_primary_key, gen_add_hash_key, gen_drop_hash_key,
      gen_add_foreign_key, gen_drop_constraint, gen_add_relationship, gen_add_column, gen_drop_column, gen_modify_column;
    rewrite ?no_case_names, ?no_case_id; cbn [bind]; try (eexists; reflexivity); try reflexivity.
  destruct (t_shard t); eexists; reflexivity.
Qed.

(** ** C35 *)
Lemma wt_col_ok t c : writable_table t -> In c (table_iter t) -> col_ok (column_name c, column_type c).
Proof. intros W H. exact (wt_cols _ W c H). Qed.
Lemma alter_readable d x : writable_change (diff_change d) -> alter_stmt (diff_change d) = Some x -> readable [get_alter d] [x].
Proof.
  intros (Hs & Hn & Hw) Hx. apply readable_one. intros s Hg. unfold get_alter in Hg.
  destruct (diff_change d) as [t|t|t pk|t|t z k|t|t f|t k|t r|t k|t c|t c|t c]; cbn [alter_stmt change_table] in *; try discriminate;
    injection Hx as <-; 
    unfold gen_drop_table, gen_drop_primary_key, gen_add_hash_key, gen_drop_hash_key,
      gen_add_foreign_key, gen_drop_constraint, gen_add_relationship, gen_add_column, gen_drop_column, gen_modify_column in Hg;
    rewrite ?no_case_names in Hg; cbn [bind] in Hg.
  - apply gen_create_table_body in Hg. destruct Hg as (_ & _ & ->). rewrite !cased_none. eexists. split; [reflexivity|].
    apply create_table_ok; try assumption.
    + apply Forall_forall. intros y Hy. unfold cols_of in Hy. apply in_map_iff in Hy. destruct Hy as [c [<- Hc]]. apply (wt_col_ok t); assumption.
    + apply (wt_pk _ Hw).
    + intros Hp Hc. apply (wt_pk_cols _ Hw Hp). unfold cols_of in Hc. destruct (table_iter t); [reflexivity | discriminate].
    + unfold shard_of. pose proof (wt_shard _ Hw) as Hk. destruct (t_shard t) as [sk|]; [apply Hk; reflexivity | exact I].
  - apply Ok_inj in Hg. subst s. eexists. split; [|apply drop_table_ok; assumption]. unfold drop_table_body. rewrite <- !app_assoc. reflexivity.
  - apply Ok_inj in Hg. subst s. eexists. split; [|apply drop_pk_ok; assumption].
    change ($"DROP CONSTRAINT PRIMARY KEY;") with ($"DROP CONSTRAINT PRIMARY KEY" ++ $";"). rewrite <- !app_assoc. reflexivity.
  - apply Ok_inj in Hg. subst s. eexists. split; [|apply set_partition_ok; assumption].
    change ($");") with ($")" ++ $";"). rewrite <- !app_assoc. reflexivity.
  - apply Ok_inj in Hg. subst s. eexists. split; [|apply set_dimension_ok; assumption].
    change ($"SET DIMENSIONS;") with ($"SET DIMENSIONS" ++ $";"). rewrite <- !app_assoc. reflexivity.
  - apply Ok_inj in Hg. subst s. eexists. split; [|apply afk_ok; tauto]. unfold afk_rest.
    change ($");") with ($")" ++ $";"). rewrite <- !app_assoc. reflexivity.
  - apply Ok_inj in Hg. subst s. eexists. split; [|apply drop_constraint_ok; assumption]. rewrite <- !app_assoc. reflexivity.
  - apply Ok_inj in Hg. subst s. eexists. split; [|apply arel_ok; tauto]. unfold arel_rest. rewrite <- !app_assoc. reflexivity.
  - apply Ok_inj in Hg. subst s. eexists. split; [|apply drop_constraint_ok; assumption]. rewrite <- !app_assoc. reflexivity.
  - apply Ok_inj in Hg. subst s. eexists. split; [|apply (add_column_ok _ _ _ _ (default_text (column_type c))); try tauto].
    + unfold default_text. rewrite <- !app_assoc. reflexivity.
    + unfold default_text. destruct (starts_with _ _); reflexivity.
  - apply Ok_inj in Hg. subst s. eexists. split; [|apply drop_column_ok; assumption]. rewrite <- !app_assoc. reflexivity.
  - apply Ok_inj in Hg. subst s. eexists. split; [|apply modify_column_ok; tauto]. rewrite <- !app_assoc. reflexivity.
Qed.
Lemma alter_reads d s : writable_change (diff_change d) -> get_alter d = Ok s ->
  exists x, alter_stmt (diff_change d) = Some x /\ read_script s = Some [x].
Proof.
  intros Hw Hg. destruct (alter_stmt (diff_change d)) as [x|] eqn:Ex.
  - exists x. split; [reflexivity|]. apply (readable_script [get_alter d]); [apply alter_readable; assumption|].
    rewrite Hg. cbn [concat_results bind]. rewrite app_nil_r. reflexivity.
  - pose proof (alter_total d) as Ht. destruct (diff_change d); try discriminate. congruence.
Qed.
Lemma alters_read : forall l s, Forall writable_change (changes l) -> concat_results (map get_alter l) = Ok s ->
  exists xs, map alter_stmt (changes l) = map Some xs /\ read_script s = Some xs.
Proof.
  intros l s Hw Hs.
  assert (H : exists xs, map alter_stmt (changes l) = map Some xs /\ readable (map get_alter l) xs).
  { revert s Hs. induction l as [|d l IH]; intros s Hs; [exists []; split; [reflexivity | apply readable_nil]|].
    cbn [changes map] in *. inversion Hw as [|? ? Hd Hl]; subst.
    cbn [concat_results] in Hs. destruct (get_alter d) as [y|] eqn:Eg; [|discriminate]. cbn [bind] in Hs.
    destruct (concat_results (map get_alter l)) as [z|] eqn:Ez; [|discriminate].
    destruct (IH Hl z eq_refl) as [xs [E R]]. destruct (alter_reads d y Hd Eg) as [x [Ex _]].
    exists (x :: xs). split; [unfold changes in E; rewrite Ex; cbn [map]; f_equal; exact E|].
    apply (readable_app [Ok y] [x] _ xs); [rewrite <- Eg; apply alter_readable; assumption | exact R]. }
  destruct H as [xs [E R]]. exists xs. split; [exact E|]. apply (readable_script _ _ _ R Hs).
Qed.

(** the reported changes of writable databases are writable *)
Section Reported.
Variables d1 d2 : database.
Hypothesis W1 : well_formed d1.
Hypothesis W2 : well_formed d2.
Hypothesis Q1 : writable d1.
Hypothesis Q2 : writable d2.
Variable al : foreign_key -> foreign_key -> bool.
Lemma get_writable d n t : writable d -> get_table d n = Some t -> writable_table t.
Proof using. intros Q H. apply (wd_tables _ Q). apply dvals_in. exists n. apply dget_in, H. Qed.
Lemma vals_get {A} k (x : A) d : dget k d = Some x -> In x (dvals d).
Proof using. intros H. apply dvals_in. exists k. apply dget_in, H. Qed.
Lemma table_changes_writable t1 t2 c : well_formed_table t1 -> well_formed_table t2 -> writable_table t1 -> writable_table t2 ->
  In c (table_changes al t1 t2) -> writable_change c.
Proof using.
  intros T1 T2 V1 V2 Hc. pose proof (in_table_changes t1 t2 T1 T2 al c Hc) as [Ht _]. unfold writable_change. rewrite Ht.
  split; [apply (wt_schema _ V1)|]. split; [apply (wt_name _ V1)|]. clear Ht.
  unfold table_changes in Hc. rewrite !in_app_iff, !in_flat_map in Hc. destruct Hc as [H|[H|[H|[H|H]]]].
  - apply in_pk_expected in H. destruct c; try exact I; destruct H; discriminate.
  - unfold shard_expected in H. pose proof (wt_shard _ V2) as Hs. destruct (t_shard t1), (t_shard t2) as [s2|]; try destruct (Nat.eq_dec _ _); cbn [In] in H;
      repeat destruct H as [<-|H]; try destruct H; try exact I; apply Hs; reflexivity.
  - destruct H as [k [_ H]]. unfold fk_expected in H.
    destruct (get_foreign_key t1 k) as [f1|] eqn:F1, (get_foreign_key t2 k) as [f2|] eqn:F2; try destruct (al _ _); cbn [In] in H;
      repeat destruct H as [<-|H]; try destruct H; try exact I.
    all: first [destruct (wt_fks _ V2 f2 (vals_get _ _ _ F2)) as (?&?&?&?&?); repeat split; assumption
               | pose proof (proj2 (wf_fks _ T1) _ _ F1) as <-; apply (wt_fks _ V1 f1 (vals_get _ _ _ F1))].
  - destruct H as [k [_ H]]. unfold rel_expected in H.
    destruct (get_relationship t1 k) as [f1|] eqn:F1, (get_relationship t2 k) as [f2|] eqn:F2; try destruct (rel_dec _ _); cbn [In] in H;
      repeat destruct H as [<-|H]; try destruct H; try exact I.
    all: first [destruct (wt_rels _ V2 f2 (vals_get _ _ _ F2)) as (?&?&?&?); repeat split; assumption
               | pose proof (proj2 (wf_rels _ T1) _ _ F1) as <-; apply (wt_rels _ V1 f1 (vals_get _ _ _ F1))].
  - destruct H as [k [_ H]]. unfold column_expected in H.
    destruct (get_column t1 k) as [f1|] eqn:F1, (get_column t2 k) as [f2|] eqn:F2; try destruct (eq_str _ _); cbn [In] in H;
      repeat destruct H as [<-|H]; try destruct H; try exact I;
      first [apply (wt_cols _ V2 f2 (vals_get _ _ _ F2)) | apply (wt_cols _ V1 f1 (vals_get _ _ _ F1))].
Qed.
Lemma reported_writable c : In c (db_changes al d1 d2) -> writable_change c.
Proof.
  unfold db_changes. rewrite in_flat_map. intros [n [_ H]]. unfold entry_changes in H. rewrite in_app_iff in H.
  destruct (get_table d1 n) as [t1|] eqn:E1, (get_table d2 n) as [t2|] eqn:E2; cbn [table_expected in_both In] in H;
    destruct H as [H|H]; try (repeat destruct H as [<-|H]); try destruct H.
  - apply (table_changes_writable t1 t2); try assumption.
    + exact (get_table_wf _ _ _ W1 E1).
    + exact (get_table_wf _ _ _ W2 E2).
    + exact (get_writable _ _ _ Q1 E1).
    + exact (get_writable _ _ _ Q2 E2).
  - pose proof (get_writable _ _ _ Q1 E1) as V. repeat split; [apply (wt_schema _ V) | apply (wt_name _ V)].
  - pose proof (get_writable _ _ _ Q2 E2) as V. split; [apply (wt_schema _ V)|]. split; [apply (wt_name _ V) | exact V].
Qed.
End Reported.

Lemma c35_script d1 d2 l1 l2 : well_formed d1 -> well_formed d2 -> writable d1 -> writable d2 ->
  compare_databases d1 d2 = Ok (l1, l2) ->
  (forall d s, In d (l1 ++ l2) -> get_alter d = Ok s -> exists x, alter_stmt (diff_change d) = Some x /\ read_script s = Some [x])
  /\ (forall l s, l = l1 \/ l = l2 -> concat_results (map get_alter l) = Ok s ->
        exists xs, map alter_stmt (changes l) = map Some xs /\ read_script s = Some xs).
Proof.
  intros W1 W2 Q1 Q2 H. destruct (compare_ok _ _ _ _ W1 W2 H) as (C1 & C2 & _).
  assert (A1 : Forall writable_change (changes l1)). { rewrite C1. apply Forall_forall. apply reported_writable; assumption. }
  assert (A2 : Forall writable_change (changes l2)). { rewrite C2. apply Forall_forall. apply reported_writable; assumption. }
  split.
  - intros d s Hd. apply alter_reads. apply in_app_iff in Hd. rewrite Forall_forall in A1, A2.
    destruct Hd as [Hd|Hd]; [apply A1 | apply A2]; apply in_map, Hd.
  - intros l s [-> | ->]; apply alters_read; assumption.
Qed.

(** two differences of one comparison with the same text *)
Lemma in_filter_eq {A} (p : A -> bool) l r x : filter p l = r -> In x l -> p x = true -> In x r.
Proof. intros <- Hx Hp. apply filter_In. auto. Qed.
Lemma c35_inj d1 d2 l1 l2 : well_formed d1 -> well_formed d2 -> writable d1 -> writable d2 ->
  compare_databases d1 d2 = Ok (l1, l2) ->
  forall a b s, In a l1 -> In b l1 -> get_alter a = Ok s -> get_alter b = Ok s ->
  a = b \/ exists t k, (diff_change a = ForeignKeyDropped t k /\ diff_change b = RelationshipDropped t k)
                       \/ (diff_change a = RelationshipDropped t k /\ diff_change b = ForeignKeyDropped t k).
Proof.
  intros W1 W2 Q1 Q2 H a b s Ha Hb Ga Gb.
  destruct (c35_script _ _ _ _ W1 W2 Q1 Q2 H) as [R _].
  destruct (R a s) as [x [Xa Ra]]; [apply in_app_iff; auto | exact Ga |].
  destruct (R b s) as [y [Xb Rb]]; [apply in_app_iff; auto | exact Gb |].
  assert (x = y) by congruence. subst y. clear Ra Rb R Ga Gb.
  pose proof (c22 _ _ _ _ W1 W2 H) as (P0 & _ & D1 & _). rewrite Forall_forall in D1.
  assert (E : diff_change a = diff_change b -> a = b).
  { intros E. pose proof (D1 a Ha) as A. pose proof (D1 b Hb) as B. destruct a as [a1 a2], b as [b1 b2]. cbn [diff_db diff_change] in *. congruence. }
  assert (Ia : In (diff_change a) (changes l1)) by (apply in_map, Ha).
  assert (Ib : In (diff_change b) (changes l1)) by (apply in_map, Hb).
  assert (TT : forall c, In c (changes l1) -> kind c <> 0 -> get_table d1 (tname c) = Some (change_table c)).
  { intros c Hc Hk. destruct (compare_ok _ _ _ _ W1 W2 H) as (C1 & _). rewrite C1 in Hc. unfold db_changes in Hc. apply in_flat_map in Hc.
    destruct Hc as [n [_ Hc]]. pose proof (entry_tname _ _ W1 W2 _ _ _ Hc) as Hn. rewrite Hn. unfold entry_changes in Hc. rewrite in_app_iff in Hc.
    destruct (get_table d1 n) as [t1|] eqn:E1, (get_table d2 n) as [t2|] eqn:E2; cbn [table_expected in_both In] in Hc;
      destruct Hc as [Hc|Hc]; try (repeat destruct Hc as [<-|Hc]); try destruct Hc; try (exfalso; apply Hk; reflexivity).
    apply in_table_changes in Hc; [destruct Hc as [-> _]; reflexivity | exact (get_table_wf _ _ _ W1 E1) | exact (get_table_wf _ _ _ W2 E2)]. }
  assert (U : kind (diff_change a) <> 0 -> kind (diff_change b) <> 0 -> tname (diff_change a) = tname (diff_change b) ->
            change_table (diff_change a) = change_table (diff_change b)).
  { intros Ka Kb Hn. apply TT in Ia; [|exact Ka]. apply TT in Ib; [|exact Kb]. rewrite Hn in Ia. congruence. }
  assert (F : forall Q : Prop, diff_change a = diff_change b -> a = b \/ Q). { intros. left. auto. }
  destruct (compare_ok _ _ _ _ W1 W2 H) as (C1 & _).
  destruct (diff_change a) as [t|t|t pk|t|t z k|t|t f|t k|t r|t k|t c|t c|t c] eqn:Da;
  destruct (diff_change b) as [t'|t'|t' pk'|t'|t' z' k'|t'|t' f'|t' k'|t' r'|t' k'|t' c'|t' c'|t' c'] eqn:Db;
    cbn [alter_stmt change_table] in *; try discriminate; try congruence;
    assert (N : t_name t = t_name t') by congruence;
    try (specialize (U ltac:(discriminate) ltac:(discriminate) N); cbn [change_table] in U; subst t').
  (* the table-level changes *)
  1,2: apply F;
    assert (A := in_filter_eq _ _ _ _ (P0 (t_name t)) Ia); assert (B := in_filter_eq _ _ _ _ (P0 (t_name t)) Ib);
    cbn [about_table] in A, B; rewrite str_eqb_refl in A; rewrite <- N, str_eqb_refl in B; specialize (A eq_refl); specialize (B eq_refl);
    unfold table_expected in A, B; destruct (get_table d1 (t_name t)), (get_table d2 (t_name t)); cbn [In] in A, B;
      repeat destruct A as [A|A]; repeat destruct B as [B|B]; try contradiction; congruence.
  - apply F. reflexivity.
  - apply F. congruence.
  - apply F. reflexivity.
  - apply F. assert (Nf : fk_name f = fk_name f') by congruence.
    assert (A := in_filter_eq _ _ _ _ (db_fk _ _ W1 W2 fk_eqb (t_name t) (fk_name f)) (eq_ind _ _ Ia _ C1)).
    assert (B := in_filter_eq _ _ _ _ (db_fk _ _ W1 W2 fk_eqb (t_name t) (fk_name f)) (eq_ind _ _ Ib _ C1)).
    cbn [about_fk] in A, B. rewrite <- Nf in B. rewrite !str_eqb_refl in A, B. specialize (A eq_refl). specialize (B eq_refl).
    unfold in_both in A, B. destruct (get_table d1 (t_name t)) as [t1|], (get_table d2 (t_name t)) as [t2|]; try contradiction.
    unfold fk_expected in A, B. destruct (get_foreign_key t1 (fk_name f)), (get_foreign_key t2 (fk_name f)); try destruct (fk_eqb _ _);
      cbn [In] in A, B; repeat destruct A as [A|A]; repeat destruct B as [B|B]; try contradiction; congruence.
  - apply F. congruence.
  - right. exists t, k. left. split; congruence.
  - apply F. assert (Nf : rel_name r = rel_name r') by congruence.
    assert (A := in_filter_eq _ _ _ _ (db_rel _ _ W1 W2 fk_eqb (t_name t) (rel_name r)) (eq_ind _ _ Ia _ C1)).
    assert (B := in_filter_eq _ _ _ _ (db_rel _ _ W1 W2 fk_eqb (t_name t) (rel_name r)) (eq_ind _ _ Ib _ C1)).
    cbn [about_rel] in A, B. rewrite <- Nf in B. rewrite !str_eqb_refl in A, B. specialize (A eq_refl). specialize (B eq_refl).
    unfold in_both in A, B. destruct (get_table d1 (t_name t)) as [t1|], (get_table d2 (t_name t)) as [t2|]; try contradiction.
    unfold rel_expected in A, B. destruct (get_relationship t1 (rel_name r)), (get_relationship t2 (rel_name r)); try destruct (rel_dec _ _);
      cbn [In] in A, B; repeat destruct A as [A|A]; repeat destruct B as [B|B]; try contradiction; congruence.
  - right. exists t, k. right. split; congruence.
  - apply F. congruence.
  - apply F. f_equal. apply column_ext; congruence.
  - apply F. assert (Nf : column_name c = column_name c') by congruence.
    assert (A := in_filter_eq _ _ _ _ (db_column _ _ W1 W2 fk_eqb (t_name t) (column_name c)) (eq_ind _ _ Ia _ C1)).
    assert (B := in_filter_eq _ _ _ _ (db_column _ _ W1 W2 fk_eqb (t_name t) (column_name c)) (eq_ind _ _ Ib _ C1)).
    cbn [about_column] in A, B. rewrite <- Nf in B. rewrite !str_eqb_refl in A, B. specialize (A eq_refl). specialize (B eq_refl).
    unfold in_both in A, B. destruct (get_table d1 (t_name t)) as [t1|], (get_table d2 (t_name t)) as [t2|]; try contradiction.
    unfold column_expected in A, B. destruct (get_column t1 (column_name c)), (get_column t2 (column_name c)); try destruct (eq_str _ _);
      cbn [In] in A, B; repeat destruct A as [A|A]; repeat destruct B as [B|B]; try contradiction; congruence.
  - apply F. f_equal. apply column_ext; congruence.
Qed.
