From Verif Require Export SpecModel HistFacts.

(** ** Column admission (C01) *)
Lemma mk_column_spec n ty :
  (In ty VALID_TYPES \/ (exists rest, ty = $"VARCHAR" ++ rest) ->
     mk_column (Some n) (Some ty) = Ok {| column_name := n; column_type := ty |})
  /\ (~ In ty VALID_TYPES -> ~ (exists rest, ty = $"VARCHAR" ++ rest) ->
     mk_column (Some n) (Some ty) = Err ValueError).
Proof.
  assert (Hsw : starts_with ($"VARCHAR") ty = true <-> exists rest, ty = $"VARCHAR" ++ rest).
  { generalize ($"VARCHAR") as p. intros p. revert ty. induction p as [|x p IH]; intros ty; simpl.
    - split; [intros _; exists ty; reflexivity | reflexivity].
    - destruct ty as [|y ty]; simpl.
      + split; [discriminate | intros [r Hr]; discriminate].
      + rewrite andb_true_iff, IH. split.
        * intros [He [r ->]]. apply Ascii.eqb_eq in He. subst. exists r; reflexivity.
        * intros [r Hr]. inversion Hr; subst. split; [apply Ascii.eqb_refl | exists r; reflexivity]. }
  unfold mk_column. split.
  - intros [H|H].
    + apply str_in_true in H. rewrite H. reflexivity.
    + apply Hsw in H. rewrite H. rewrite andb_false_r. reflexivity.
  - intros H1 H2. apply str_in_false in H1. rewrite H1.
    destruct (starts_with ($"VARCHAR") ty) eqn:E; [|reflexivity].
    destruct H2. apply Hsw. reflexivity.
Qed.

(** ** Columns (C03) *)
Lemma add_columns_cols cs t :
  t_cols (add_columns t cs) = dict_run (map (fun c => Put (column_name c) c) cs) (t_cols t).
Proof.
  revert t; induction cs as [|c cs IH]; intros t; [reflexivity|].
  unfold add_columns in *. simpl. rewrite IH. reflexivity.
Qed.
Lemma run_col_op_cols t o : t_cols (run_col_op t o) = dict_run (col_events o) (t_cols t).
Proof. destruct o as [c|cs|n]; simpl; try reflexivity. apply add_columns_cols. Qed.
Lemma run_col_ops_cols ops t : t_cols (run_col_ops ops t) = dict_run (col_history ops) (t_cols t).
Proof.
  unfold run_col_ops. revert t; induction ops as [|o ops IH]; intros t; simpl; [reflexivity|].
  rewrite IH, run_col_op_cols. unfold col_history. simpl. unfold dict_run.
  rewrite fold_left_app. reflexivity.
Qed.

Lemma columns_refine ops t0 : t_cols t0 = [] ->
  let t := run_col_ops ops t0 in
  (forall n c, get_column t n = Some c <-> Holds (col_history ops) n c)
  /\ (forall n, has_column t n = true <-> Live (col_history ops) n)
  /\ NoDup (get_column_names t)
  /\ (forall n, In n (get_column_names t) <-> Live (col_history ops) n)
  /\ number_columns t = length (get_column_names t)
  /\ map (fun c => Some c) (table_iter t) = map (get_column t) (get_column_names t)
  /\ StronglySorted (born_before (col_history ops)) (get_column_names t).
Proof.
  intros H0 t. pose proof (run_col_ops_cols ops t0) as Hc. rewrite H0 in Hc. fold t in Hc.
  assert (Hnd : NoDup (dkeys (t_cols t))) by (rewrite Hc; apply dict_run_nodup; constructor).
  unfold get_column, has_column, get_column_names, number_columns, table_iter, dmem.
  repeat split.
  - rewrite Hc. apply dict_run_holds.
  - rewrite Hc. apply dict_run_holds.
  - intros H. rewrite <- dict_run_live, <- Hc, dget_some_in. destruct (dget n (t_cols t)); [eauto|discriminate].
  - intros H. rewrite <- dict_run_live, <- Hc, dget_some_in in H. destruct H as [v ->]. reflexivity.
  - exact Hnd.
  - rewrite Hc. apply dict_run_live.
  - rewrite Hc. apply dict_run_live.
  - symmetry; apply length_dkeys.
  - clear Hc. generalize dependent (t_cols t). clear.
    intros d Hnd. unfold dvals, dkeys. rewrite !map_map.
    apply map_ext_in. intros [k v] Hin. simpl. symmetry. apply dget_nodup; assumption.
  - rewrite Hc. apply dict_run_order.
Qed.

(** nothing but the columns changes; a drop returns the column it removes *)
Lemma columns_frame ops t0 :
  let t := run_col_ops ops t0 in
  t_name t = t_name t0 /\ t_schema t = t_schema t0 /\ t_pk t = t_pk t0 /\ t_shard t = t_shard t0
  /\ t_fks t = t_fks t0 /\ t_rels t = t_rels t0.
Proof.
  unfold run_col_ops. revert t0; induction ops as [|o ops IH]; intros t0; simpl; [auto 10|].
  destruct (IH (run_col_op t0 o)) as (H1&H2&H3&H4&H5&H6).
  rewrite H1, H2, H3, H4, H5, H6. destruct o as [c|cs|n]; simpl; auto 10.
  clear. revert t0; induction cs as [|c cs IH]; intros t0; simpl; [auto 10|].
  unfold add_columns in *. simpl. destruct (IH (add_column t0 c)) as (H1&H2&H3&H4&H5&H6).
  rewrite H1, H2, H3, H4, H5, H6. auto 10.
Qed.

(** ** Constraints (C02, C04) *)
Lemma run_con_op_spec t o :
  let '(t', e) := run_con_op t o in
  t_name t' = t_name t
  /\ t_cols t' = t_cols t
  /\ t_fks t' = dict_run (match wanted_fk (t_name t) o with Some fk => [Put (fk_name fk) fk] | None => [] end) (t_fks t)
  /\ t_rels t' = dict_run (match wanted_rel (t_name t) o with Some r => [Put (rel_name r) r] | None => [] end) (t_rels t)
  /\ (e = None <-> (exists fk, wanted_fk (t_name t) o = Some fk) \/ (exists r, wanted_rel (t_name t) o = Some r))
  /\ (e <> None -> t' = t).
Proof.
  destruct o as [ft fk tb tk n | fk tb tk n | ft tb c n | tb n c]; simpl;
    unfold add_fk_parts, add_rel_parts, mk_foreign_key, mk_relationship, wanted_fk, wanted_rel;
    repeat match goal with |- context[match ?x with Some _ => _ | None => _ end] =>
             is_var x; destruct x; simpl end;
    try match goal with |- context[if negb ?b then _ else _] => destruct b; simpl end;
    repeat split; intros; try congruence; eauto;
    try (match goal with H : _ \/ _ |- _ => destruct H as [[? ?]|[? ?]]; congruence end).
Qed.

Lemma run_con_ops_spec ops t0 :
  let t := run_con_ops ops t0 in
  t_name t = t_name t0
  /\ t_cols t = t_cols t0
  /\ t_fks t = dict_run (fk_history (t_name t0) ops) (t_fks t0)
  /\ t_rels t = dict_run (rel_history (t_name t0) ops) (t_rels t0).
Proof.
  unfold run_con_ops. revert t0; induction ops as [|o ops IH]; intros t0; simpl; [auto|].
  pose proof (run_con_op_spec t0 o) as H. destruct (run_con_op t0 o) as [t' e]. simpl.
  destruct H as (Hn&Hc&Hf&Hr&_&_). destruct (IH t') as (IHn&IHc&IHf&IHr).
  unfold fk_history, rel_history, dict_run in *. simpl.
  rewrite !fold_left_app, IHn, IHc, IHf, IHr, Hn, Hf, Hr, Hc. auto.
Qed.

Lemma wanted_fk_paired me o fk : wanted_fk me o = Some fk -> length (fk_from_keys fk) = length (fk_to_keys fk).
Proof.
  unfold wanted_fk. destruct o as [ft f tb tk n | f tb tk n | |]; try discriminate;
  repeat match goal with |- context[match ?x with Some _ => _ | None => _ end] =>
           destruct x; try discriminate end;
  match goal with |- context[if ?b then _ else _] => destruct b eqn:E; try discriminate end;
  intros H; inversion H; simpl; apply Nat.eqb_eq; exact E.
Qed.

Lemma put_history_key {A} (name : A -> str) (h : list (kv_event A)) k v :
  (forall e, In e h -> exists a, e = Put (name a) a) -> Holds h k v -> name v = k.
Proof.
  intros Hh [h1 [h2 [-> _]]].
  destruct (Hh (Put k v)) as [a Ha]; [apply in_app_iff; right; left; reflexivity|].
  inversion Ha; reflexivity.
Qed.

Lemma constraints_refine ops t0 : t_fks t0 = [] -> t_rels t0 = [] ->
  let t := run_con_ops ops t0 in
  (forall n fk, get_foreign_key t n = Some fk <-> Holds (fk_history (t_name t0) ops) n fk)
  /\ (forall n r, get_relationship t n = Some r <-> Holds (rel_history (t_name t0) ops) n r)
  /\ (forall n fk, get_foreign_key t n = Some fk -> fk_name fk = n)
  /\ (forall n r, get_relationship t n = Some r -> rel_name r = n)
  /\ (forall fk, In fk (foreign_keys_iter t) -> get_foreign_key t (fk_name fk) = Some fk)
  /\ (forall r, In r (relationships_iter t) -> get_relationship t (rel_name r) = Some r).
Proof.
  intros Hf0 Hr0 t. destruct (run_con_ops_spec ops t0) as (Hn&_&Hf&Hr). fold t in Hn, Hf, Hr.
  rewrite Hf0 in Hf. rewrite Hr0 in Hr. unfold get_foreign_key, get_relationship.
  assert (Hfe : forall e, In e (fk_history (t_name t0) ops) -> exists a, e = Put (fk_name a) a).
  { unfold fk_history. intros e He. apply in_flat_map in He. destruct He as [o [_ Ho]].
    destruct (wanted_fk (t_name t0) o) as [fk|]; [|destruct Ho]. destruct Ho as [<-|[]]. eauto. }
  assert (Hre : forall e, In e (rel_history (t_name t0) ops) -> exists a, e = Put (rel_name a) a).
  { unfold rel_history. intros e He. apply in_flat_map in He. destruct He as [o [_ Ho]].
    destruct (wanted_rel (t_name t0) o) as [r|]; [|destruct Ho]. destruct Ho as [<-|[]]. eauto. }
  assert (H1 : forall n fk, dget n (t_fks t) = Some fk <-> Holds (fk_history (t_name t0) ops) n fk)
    by (intros; rewrite Hf; apply dict_run_holds).
  assert (H2 : forall n r, dget n (t_rels t) = Some r <-> Holds (rel_history (t_name t0) ops) n r)
    by (intros; rewrite Hr; apply dict_run_holds).
  assert (H3 : forall n fk, dget n (t_fks t) = Some fk -> fk_name fk = n)
    by (intros n fk Hg; apply H1 in Hg; eapply put_history_key; eassumption).
  assert (H4 : forall n r, dget n (t_rels t) = Some r -> rel_name r = n)
    by (intros n r Hg; apply H2 in Hg; eapply put_history_key; eassumption).
  assert (Hnf : NoDup (dkeys (t_fks t))) by (rewrite Hf; apply dict_run_nodup; constructor).
  assert (Hnr : NoDup (dkeys (t_rels t))) by (rewrite Hr; apply dict_run_nodup; constructor).
  split; [exact H1|]. split; [exact H2|]. split; [exact H3|]. split; [exact H4|]. split.
  - intros fk Hin. apply dvals_in in Hin. destruct Hin as [k Hk].
    apply dget_nodup in Hk; [|assumption]. rewrite (H3 _ _ Hk). exact Hk.
  - intros r Hin. apply dvals_in in Hin. destruct Hin as [k Hk].
    apply dget_nodup in Hk; [|assumption]. rewrite (H4 _ _ Hk). exact Hk.
Qed.

Lemma fks_paired ops t0 : t_fks t0 = [] ->
  forall fk, In fk (foreign_keys_iter (run_con_ops ops t0)) -> length (fk_from_keys fk) = length (fk_to_keys fk).
Proof.
  intros Hf0 fk Hin. destruct (run_con_ops_spec ops t0) as (_&_&Hf&_). rewrite Hf0 in Hf.
  unfold foreign_keys_iter in Hin. apply dvals_in in Hin. destruct Hin as [k Hk].
  rewrite Hf in Hk. apply dget_nodup in Hk; [|apply dict_run_nodup; constructor].
  apply dict_run_holds in Hk. destruct Hk as [h1 [h2 [He _]]].
  assert (In (Put k fk) (fk_history (t_name t0) ops)) as Hi
    by (rewrite He; apply in_app_iff; right; left; reflexivity).
  unfold fk_history in Hi. apply in_flat_map in Hi. destruct Hi as [o [_ Ho]].
  destruct (wanted_fk (t_name t0) o) as [fk'|] eqn:E; [|destruct Ho]. destruct Ho as [Heq|[]].
  inversion Heq; subst. eapply wanted_fk_paired; exact E.
Qed.

Lemma rejected_unchanged t o : snd (run_con_op t o) <> None -> fst (run_con_op t o) = t.
Proof. pose proof (run_con_op_spec t o) as H. destruct (run_con_op t o). simpl. tauto. Qed.
Lemma rejected_iff t o : snd (run_con_op t o) <> None <->
  wanted_fk (t_name t) o = None /\ wanted_rel (t_name t) o = None.
Proof.
  pose proof (run_con_op_spec t o) as H. destruct (run_con_op t o) as [t' e]. simpl.
  destruct H as (_&_&_&_&H&_). destruct e as [x|]; split; intros H'.
  - split.
    + destruct (wanted_fk (t_name t) o) eqn:E; [|reflexivity].
      assert (Some x = None) by (apply H; left; eauto). discriminate.
    + destruct (wanted_rel (t_name t) o) eqn:E; [|reflexivity].
      assert (Some x = None) by (apply H; right; eauto). discriminate.
  - discriminate.
  - congruence.
  - destruct H' as [H1 H2]. destruct (proj1 H eq_refl) as [[? E]|[? E]]; congruence.
Qed.

(** ** Databases (C05 - C07) *)
Definition count_schema (s : str) (d : dict table) : nat :=
  length (filter (fun t => str_eqb (t_schema t) s) (dvals d)).

Lemma count_dset_new s k t d : ~ In k (dkeys d) ->
  count_schema s (dset k t d) = count_schema s d + (if str_eqb (t_schema t) s then 1 else 0).
Proof.
  intros H. rewrite dset_new by assumption. unfold count_schema, dvals.
  rewrite map_app, filter_app, app_length. simpl. destruct (str_eqb (t_schema t) s); reflexivity.
Qed.
Lemma count_dset_le s k t d :
  count_schema s (dset k t d) <= count_schema s d + (if str_eqb (t_schema t) s then 1 else 0).
Proof.
  induction d as [|[k' t'] d IH]; unfold count_schema, dvals in *; simpl.
  - destruct (str_eqb (t_schema t) s); simpl; lia.
  - destruct (str_eqb k k'); simpl.
    + destruct (str_eqb (t_schema t) s), (str_eqb (t_schema t') s); simpl; lia.
    + destruct (str_eqb (t_schema t') s); simpl; lia.
Qed.
Lemma count_ddel s k t d : NoDup (dkeys d) -> dget k d = Some t ->
  count_schema s d = count_schema s (ddel k d) + (if str_eqb (t_schema t) s then 1 else 0).
Proof.
  induction d as [|[k' t'] d IH]; simpl; [discriminate|].
  intros Hnd Hg. inversion Hnd as [|? ? Hni Hnd']; subst.
  destruct (str_eqb_spec k k') as [->|Hne].
  - inversion Hg; subst. unfold count_schema. simpl. destruct (str_eqb (t_schema t) s); simpl; lia.
  - specialize (IH Hnd' Hg). unfold count_schema, dvals in *. simpl.
    destruct (str_eqb (t_schema t') s); simpl; lia.
Qed.

(** the bookkeeping invariant *)
Record db_inv (d : database) : Prop := {
  inv_nodup : NoDup (dkeys (db_tables d));
  inv_snodup : NoDup (dkeys (db_schemas d));
  inv_pos : forall s n, dget s (db_schemas d) = Some n -> (1 <= n)%Z;
  inv_cover : forall s, count_schema s (db_tables d) > 0 ->
     exists n, dget s (db_schemas d) = Some n /\ (Z.of_nat (count_schema s (db_tables d)) <= n)%Z }.

Lemma db_inv_empty n : db_inv (empty_database n).
Proof. constructor; simpl; try constructor; try discriminate. intros s H. inversion H. Qed.

Lemma db_inv_add d t : db_inv d -> db_inv (add_table d t).
Proof.
  intros [H1 H2 H3 H4]. constructor; simpl.
  - apply nodup_dset; assumption.
  - apply nodup_dset; assumption.
  - intros s n. rewrite dget_dset. destruct (str_eqb_spec s (t_schema t)) as [->|Hne]; [|apply H3].
    intros H; inversion H. destruct (dget (t_schema t) (db_schemas d)) as [m|] eqn:E; [|lia].
    specialize (H3 _ _ E). lia.
  - intros s Hs. pose proof (count_dset_le s (t_name t) t (db_tables d)) as Hle.
    rewrite dget_dset, (str_eqb_sym s). destruct (str_eqb_spec (t_schema t) s) as [<-|Hne].
    + eexists; split; [reflexivity|]. destruct (Nat.eq_dec (count_schema (t_schema t) (db_tables d)) 0) as [E0|E0].
      * destruct (dget (t_schema t) (db_schemas d)) as [m|] eqn:E; [specialize (H3 _ _ E)|]; lia.
      * destruct (H4 (t_schema t)) as [m [E Hm]]; [lia|]. rewrite E. lia.
    + destruct (H4 s) as [m [E Hm]]; [lia|]. exists m; split; [exact E | lia].
Qed.

Lemma dget_count d k t : dget k d = Some t -> count_schema (t_schema t) d > 0.
Proof.
  induction d as [|[k' t'] d IH]; simpl; [discriminate|].
  unfold count_schema in *. simpl. destruct (str_eqb k k').
  - intros H; inversion H; subst. rewrite str_eqb_refl. simpl. lia.
  - intros H. specialize (IH H). destruct (str_eqb (t_schema t') (t_schema t)); simpl; lia.
Qed.

Lemma db_inv_drop d n : db_inv d -> exists d', drop_table d n = Ok (d', get_table d n)
  /\ db_inv d' /\ db_name d' = db_name d /\ db_tables d' = ddel n (db_tables d).
Proof.
  intros [H1 H2 H3 H4]. unfold drop_table, get_table.
  destruct (dget n (db_tables d)) as [t|] eqn:Eg.
  2:{ exists d. rewrite ddel_not_in by (apply dget_none; exact Eg). repeat split; auto. }
  destruct (H4 (t_schema t)) as [m [Em Hm]]; [eapply dget_count; exact Eg|]. rewrite Em.
  eexists; split; [reflexivity|]. split; [|split; reflexivity]. simpl.
  assert (Hc : forall s, count_schema s (db_tables d) =
     count_schema s (ddel n (db_tables d)) + (if str_eqb (t_schema t) s then 1 else 0))
    by (intros; apply count_ddel; assumption).
  constructor; simpl.
  - apply nodup_ddel; assumption.
  - destruct (_ =? 0)%Z; [apply nodup_ddel | apply nodup_dset]; assumption.
  - intros s k. destruct (Z.eqb_spec (m - 1) 0) as [E0|E0].
    + rewrite dget_ddel by assumption. destruct (str_eqb s (t_schema t)); [discriminate | apply H3].
    + rewrite dget_dset. destruct (str_eqb_spec s (t_schema t)) as [->|]; [|apply H3].
      intros H; inversion H; subst. specialize (H3 _ _ Em). lia.
  - intros s Hs. specialize (Hc s). destruct (str_eqb_spec (t_schema t) s) as [Heq|Hne]; [subst s|].
    + destruct (Z.eqb_spec (m - 1) 0) as [E0|E0]; [exfalso; lia|].
      rewrite dget_dset, str_eqb_refl. eexists; split; [reflexivity|]. lia.
    + destruct (H4 s) as [k [Ek Hk]]; [lia|]. exists k. split; [|lia].
      destruct (Z.eqb_spec (m - 1) 0) as [E0|E0].
      * rewrite dget_ddel by assumption. destruct (str_eqb_spec s (t_schema t)); [congruence | exact Ek].
      * rewrite dget_dset. destruct (str_eqb_spec s (t_schema t)); [congruence | exact Ek].
Qed.

Lemma run_db_op_inv d o : db_inv d -> exists d', run_db_op d o = Ok d' /\ db_inv d'
  /\ db_name d' = db_name d /\ db_tables d' = dict_event (db_tables d) (db_event o).
Proof.
  intros Hi. destruct o as [t|n]; simpl.
  - eexists; split; [reflexivity|]. split; [apply db_inv_add; assumption | split; reflexivity].
  - destruct (db_inv_drop d n Hi) as [d' [-> [Hi' [Hn Ht]]]]. simpl. eauto.
Qed.
Lemma run_db_ops_inv ops d : db_inv d -> exists d', run_db_ops ops d = Ok d' /\ db_inv d'
  /\ db_name d' = db_name d /\ db_tables d' = dict_run (db_history ops) (db_tables d).
Proof.
  revert d; induction ops as [|o ops IH]; intros d Hi; simpl; [eauto|].
  destruct (run_db_op_inv d o Hi) as [d1 [-> [Hi1 [Hn1 Ht1]]]]. simpl.
  destruct (IH d1 Hi1) as [d2 [-> [Hi2 [Hn2 Ht2]]]].
  exists d2. split; [reflexivity|]. split; [assumption|]. split; [congruence|].
  rewrite Ht2, Ht1. reflexivity.
Qed.

Lemma db_history_put ops k t : Holds (db_history ops) k t -> t_name t = k.
Proof.
  intros [h1 [h2 [He _]]].
  assert (In (Put k t) (db_history ops)) as Hi by (rewrite He; apply in_app_iff; right; left; reflexivity).
  apply in_map_iff in Hi. destruct Hi as [[t'|n] [Heq _]]; simpl in Heq; inversion Heq; reflexivity.
Qed.

Lemma database_refine ops n0 : exists d, run_db_ops ops (empty_database n0) = Ok d
  /\ db_name d = n0
  /\ (forall n t, get_table d n = Some t <-> Holds (db_history ops) n t)
  /\ (forall n t, get_table d n = Some t -> t_name t = n)
  /\ (forall n, In n (get_table_names d) <-> Live (db_history ops) n)
  /\ NoDup (get_table_names d)
  /\ number_tables d = length (get_table_names d)
  /\ map Some (db_iter d) = map (get_table d) (get_table_names d)
  /\ StronglySorted (born_before (db_history ops)) (get_table_names d)
  /\ (forall n, exists d', drop_table d n = Ok (d', get_table d n)
        /\ get_table d' n = None
        /\ (forall m, m <> n -> get_table d' m = get_table d m)).
Proof.
  destruct (run_db_ops_inv ops (empty_database n0) (db_inv_empty n0)) as [d [Hr [Hi [Hn Ht]]]].
  simpl in Ht, Hn. exists d. unfold get_table, get_table_names, number_tables, db_iter.
  assert (Hnd := inv_nodup _ Hi).
  assert (Hh : forall n t, dget n (db_tables d) = Some t <-> Holds (db_history ops) n t)
    by (intros; rewrite Ht; apply dict_run_holds).
  split; [exact Hr|]. split; [exact Hn|]. split; [exact Hh|].
  split; [intros n t Hg; apply Hh in Hg; eapply db_history_put; exact Hg|].
  split; [intros n; rewrite Ht; apply dict_run_live|].
  split; [exact Hnd|]. split; [reflexivity|].
  split.
  { unfold dvals, dkeys. rewrite !map_map. apply map_ext_in. intros [k v] Hin. simpl.
    symmetry. apply dget_nodup; assumption. }
  split; [rewrite Ht; apply dict_run_order|].
  intros n. destruct (db_inv_drop d n Hi) as [d' [Hd [_ [_ Ht']]]]. exists d'.
  split; [exact Hd|]. rewrite Ht'. split.
  - rewrite dget_ddel by assumption. rewrite str_eqb_refl. reflexivity.
  - intros m Hm. rewrite dget_ddel by assumption. destruct (str_eqb_spec m n); [congruence|reflexivity].
Qed.

Lemma schemas_cover ops n0 : exists d, run_db_ops ops (empty_database n0) = Ok d
  /\ (forall n, exists d', drop_table d n = Ok (d', get_table d n))
  /\ (forall t, In t (db_iter d) -> In (t_schema t) (get_schema_names d))
  /\ (forall s, In s (get_schema_names d) -> exists k, dget s (db_schemas d) = Some k
        /\ (Z.of_nat (tables_in_schema d s) <= k)%Z)
  /\ NoDup (get_schema_names d).
Proof.
  destruct (run_db_ops_inv ops (empty_database n0) (db_inv_empty n0)) as [d [Hr [Hi [Hn Ht]]]].
  exists d. split; [exact Hr|]. split.
  { intros n. destruct (db_inv_drop d n Hi) as [d' [Hd _]]. eauto. }
  split.
  { intros t Hin. unfold db_iter in Hin. apply dvals_in in Hin. destruct Hin as [k Hk].
    apply dget_nodup in Hk; [|apply inv_nodup; exact Hi].
    apply dget_count in Hk. destruct (inv_cover _ Hi _ Hk) as [m [Hm _]].
    unfold get_schema_names. apply dget_some_in. eauto. }
  split; [|apply inv_snodup; exact Hi].
  intros s Hs. apply dget_some_in in Hs. destruct Hs as [k Hk]. exists k. split; [exact Hk|].
  unfold tables_in_schema, db_iter. fold (count_schema s (db_tables d)).
  destruct (Nat.eq_dec (count_schema s (db_tables d)) 0) as [E|E].
  - rewrite E. pose proof (inv_pos _ Hi _ _ Hk). simpl; lia.
  - destruct (inv_cover _ Hi s) as [m [Hm Hle]]; [lia|]. rewrite Hm in Hk. inversion Hk; subst. exact Hle.
Qed.

(** without overwriting, the counts are exact *)
Definition db_exact (d : database) : Prop :=
  forall s, match dget s (db_schemas d) with
            | Some n => n = Z.of_nat (count_schema s (db_tables d)) /\ (0 < n)%Z
            | None => count_schema s (db_tables d) = 0
            end.

Lemma exact_add d t : db_exact d -> ~ In (t_name t) (dkeys (db_tables d)) -> db_exact (add_table d t).
Proof.
  intros He Hn s. unfold add_table; simpl. rewrite dget_dset, count_dset_new by assumption.
  rewrite (str_eqb_sym s). pose proof (He s) as Hs. destruct (str_eqb_spec (t_schema t) s) as [->|Hne].
  - destruct (dget s (db_schemas d)); lia.
  - rewrite Nat.add_0_r. exact Hs.
Qed.
Lemma exact_drop d n d' r : db_inv d -> db_exact d -> drop_table d n = Ok (d', r) -> db_exact d'.
Proof.
  intros Hi He. unfold drop_table. destruct (dget n (db_tables d)) as [t|] eqn:Eg.
  2:{ intros H; inversion H; subst; exact He. }
  pose proof (inv_nodup _ Hi) as Hnd. pose proof (inv_snodup _ Hi) as Hsn.
  destruct (dget (t_schema t) (db_schemas d)) as [m|] eqn:Em; [|discriminate].
  intros H; inversion H; subst. intros s. simpl.
  pose proof (count_ddel s n t (db_tables d) Hnd Eg) as Hc. pose proof (He s) as Hs.
  destruct (Z.eqb_spec (m - 1) 0) as [E0|E0].
  - rewrite dget_ddel by assumption. destruct (str_eqb_spec s (t_schema t)) as [->|Hne].
    + rewrite Em, str_eqb_refl in *. lia.
    + destruct (str_eqb_spec (t_schema t) s); [congruence|].
      destruct (dget s (db_schemas d)); lia.
  - rewrite dget_dset. destruct (str_eqb_spec s (t_schema t)) as [->|Hne].
    + rewrite Em, str_eqb_refl in *. lia.
    + destruct (str_eqb_spec (t_schema t) s); [congruence|].
      destruct (dget s (db_schemas d)); lia.
Qed.

Lemma run_db_ops_app ops1 ops2 d :
  run_db_ops (ops1 ++ ops2) d = (d' <- run_db_ops ops1 d ;; run_db_ops ops2 d').
Proof.
  revert d; induction ops1 as [|o ops1 IH]; intros d; simpl; [reflexivity|].
  destruct (run_db_op d o); simpl; auto.
Qed.

Lemma schemas_exact ops n0 : no_overwrite ops ->
  exists d, run_db_ops ops (empty_database n0) = Ok d
  /\ (forall s, In s (get_schema_names d) <-> exists t, In t (db_iter d) /\ t_schema t = s).
Proof.
  intros Hno.
  assert (exists d, run_db_ops ops (empty_database n0) = Ok d /\ db_inv d /\ db_exact d
     /\ db_tables d = dict_run (db_history ops) []) as [d [Hr [Hi [He Ht]]]].
  { induction ops as [|o ops IH] using rev_ind.
    - exists (empty_database n0). split; [reflexivity|]. split; [apply db_inv_empty|]. split; [|reflexivity].
      intros s. reflexivity.
    - destruct IH as [d [Hr [Hi [He Ht]]]].
      { intros o1 t o2 ->. intros Hl. apply (Hno o1 t (o2 ++ [o])); [rewrite <- app_assoc; reflexivity | exact Hl]. }
      destruct (run_db_op_inv d o Hi) as [d' [Hr' [Hi' [_ Ht']]]].
      exists d'. rewrite run_db_ops_app, Hr. simpl. rewrite Hr'. simpl. split; [reflexivity|].
      split; [exact Hi'|]. split.
      2:{ rewrite Ht', Ht. unfold db_history. rewrite map_app. symmetry. apply dict_run_snoc. }
      destruct o as [t|n]; simpl in Hr'.
      + inversion Hr'; subst. apply exact_add; [exact He|]. rewrite Ht, dict_run_live.
        apply (Hno ops t []). reflexivity.
      + destruct (drop_table d n) as [[d1 r]|] eqn:E; simpl in Hr'; [|discriminate].
        inversion Hr'; subst. exact (exact_drop _ _ _ _ Hi He E). }
  exists d. split; [exact Hr|]. intros s. unfold get_schema_names. rewrite dget_some_in.
  specialize (He s). split.
  - intros [n Hn]. rewrite Hn in He. destruct He as [-> Hp].
    unfold count_schema in Hp. fold (db_iter d) in Hp.
    destruct (filter (fun t => str_eqb (t_schema t) s) (db_iter d)) as [|t l] eqn:E; [simpl in Hp; lia|].
    assert (In t (filter (fun t => str_eqb (t_schema t) s) (db_iter d))) as Hi' by (rewrite E; left; reflexivity).
    apply filter_In in Hi'. destruct Hi' as [Hin Hs]. exists t. split; [exact Hin | apply str_eqb_eq; exact Hs].
  - intros [t [Hin Hs]]. destruct (dget s (db_schemas d)) as [n|]; [eauto|].
    exfalso. unfold count_schema in He. fold (db_iter d) in He.
    assert (In t (filter (fun t => str_eqb (t_schema t) s) (db_iter d))) as Hi'
      by (apply filter_In; split; [exact Hin | apply str_eqb_eq; exact Hs]).
    destruct (filter _ _); [destruct Hi' | discriminate].
Qed.

(** ** Relationship counts (C11) *)
Lemma fold_count {B} (f : B -> bool) l a :
  fold_left (fun a x => if f x then S a else a) l a = a + length (filter f l).
Proof.
  revert a; induction l as [|x l IH]; intros a; simpl; [lia|].
  rewrite IH. destruct (f x); simpl; lia.
Qed.
Lemma count_occ_filter {B} (f : B -> str) l n :
  length (filter (fun x => str_eqb (f x) n) l) = count_occ str_dec (map f l) n.
Proof.
  induction l as [|x l IH]; simpl; [reflexivity|].
  destruct (str_eqb_spec (f x) n), (str_dec (f x) n); simpl; auto; contradiction.
Qed.
Lemma rel_to_count d n : In n (get_table_names d) ->
  get_number_relationships_to_table d n = Ok (count_occ str_dec (all_targets d) n).
Proof.
  intros Hin. unfold get_number_relationships_to_table. apply str_in_true in Hin. rewrite Hin. simpl.
  f_equal. unfold all_targets, db_iter.
  assert (forall l a, fold_left
    (fun acc t =>
       fold_left (fun a r => if str_eqb (rel_to_table r) n then S a else a) (dvals (t_rels t))
         (fold_left (fun a fk => if str_eqb (fk_to_table fk) n then S a else a) (dvals (t_fks t)) acc)) l a
    = a + count_occ str_dec (flat_map get_all_related_tables l) n) as H.
  { induction l as [|t l IH]; intros a; simpl; [lia|].
    rewrite IH, !fold_count, count_occ_app. unfold get_all_related_tables.
    rewrite count_occ_app, <- !count_occ_filter. unfold foreign_keys_iter, relationships_iter. lia. }
  rewrite H. reflexivity.
Qed.
Lemma rel_to_unknown d n : ~ In n (get_table_names d) -> get_number_relationships_to_table d n = Err ValueError.
Proof. intros H. unfold get_number_relationships_to_table. apply str_in_false in H. rewrite H. reflexivity. Qed.

Lemma rel_from_spec d n :
  (forall t, get_table d n = Some t -> get_number_relationships_from_table d n = Ok (leaving t))
  /\ (get_table d n = None -> get_number_relationships_from_table d n = Err ValueError).
Proof.
  unfold get_number_relationships_from_table, leaving, foreign_keys_iter, relationships_iter.
  split; [intros t -> | intros ->]; reflexivity.
Qed.


Lemma sum_count_occ names l : NoDup names -> (forall x, In x l -> In x names) ->
  list_sum (map (count_occ str_dec l) names) = length l.
Proof.
  intros Hnd. induction l as [|x l IH]; intros Hl.
  - simpl. clear. induction names as [|a names IH]; simpl; [reflexivity | exact IH].
  - assert (list_sum (map (count_occ str_dec (x :: l)) names)
            = list_sum (map (count_occ str_dec l) names) + count_occ str_dec names x) as ->.
    { clear. induction names as [|a names IH]; [reflexivity|].
      cbn [map list_sum fold_right]. cbn [map list_sum fold_right] in IH. unfold list_sum in *. rewrite IH.
      cbn [count_occ]. destruct (str_dec x a), (str_dec a x); try congruence; lia. }
    rewrite IH by (intros y Hy; apply Hl; right; exact Hy).
    assert (count_occ str_dec names x = 1) as ->.
    { apply NoDup_count_occ'; [exact Hnd | apply Hl; left; reflexivity]. }
    simpl. lia.
Qed.

Lemma counts_balance d : NoDup (get_table_names d) -> closed_db d ->
  list_sum (map (fun n => ok_or_zero (get_number_relationships_to_table d n)) (get_table_names d))
  = list_sum (map (fun n => ok_or_zero (get_number_relationships_from_table d n)) (get_table_names d)).
Proof.
  intros Hnd Hc.
  transitivity (length (all_targets d)).
  - rewrite <- (sum_count_occ (get_table_names d) (all_targets d) Hnd Hc).
    f_equal. apply map_ext_in. intros n Hn. rewrite rel_to_count by assumption. reflexivity.
  - unfold all_targets, db_iter, get_table_names, dkeys in *.
    assert (forall l, (forall k t, In (k, t) l -> dget k (db_tables d) = Some t) ->
       length (flat_map get_all_related_tables (map snd l))
       = list_sum (map (fun n => ok_or_zero (get_number_relationships_from_table d n)) (map fst l))) as H.
    { induction l as [|[k t] l IH]; intros Hl; [reflexivity|].
      cbn [map flat_map fst snd]. rewrite app_length, IH by (intros; apply Hl; right; assumption).
      cbn [list_sum fold_right]. unfold list_sum. f_equal.
      rewrite (proj1 (rel_from_spec d k) t) by (apply Hl; left; reflexivity).
      unfold get_all_related_tables, leaving. simpl. rewrite app_length, !map_length. reflexivity. }
    unfold dvals. apply H. intros k t Hin. apply dget_nodup; assumption.
Qed.

Lemma run_con_ops_name ops t0 : t_name (run_con_ops ops t0) = t_name t0.
Proof. exact (proj1 (run_con_ops_spec ops t0)). Qed.

Lemma c02_paired ops t0 : t_fks t0 = [] ->
  (forall fk, In fk (foreign_keys_iter (run_con_ops ops t0)) ->
     length (fk_from_keys fk) = length (fk_to_keys fk))
  /\ (forall o, snd (run_con_op (run_con_ops ops t0) o) <> None ->
        fst (run_con_op (run_con_ops ops t0) o) = run_con_ops ops t0)
  /\ (forall o, snd (run_con_op (run_con_ops ops t0) o) <> None <->
        wanted_fk (t_name t0) o = None /\ wanted_rel (t_name t0) o = None).
Proof.
  intros H. split; [apply fks_paired; exact H|]. split.
  - intros o. apply rejected_unchanged.
  - intros o. rewrite <- (run_con_ops_name ops t0). apply rejected_iff.
Qed.

Lemma c03_frame ops t0 :
  (let t := run_col_ops ops t0 in
   t_name t = t_name t0 /\ t_schema t = t_schema t0 /\ t_pk t = t_pk t0 /\ t_shard t = t_shard t0
   /\ t_fks t = t_fks t0 /\ t_rels t = t_rels t0)
  /\ (forall n, snd (drop_column (run_col_ops ops t0) n) = get_column (run_col_ops ops t0) n).
Proof. split; [apply columns_frame | reflexivity]. Qed.

(** a computable check of [no_overwrite] *)
Fixpoint no_overwrite_b (live : list str) (ops : list db_op) : bool :=
  match ops with
  | [] => true
  | AddTable t :: ops' => negb (str_in (t_name t) live) && no_overwrite_b (t_name t :: live) ops'
  | DropTable n :: ops' => no_overwrite_b (filter (fun x => negb (str_eqb n x)) live) ops'
  end.
Lemma live_put h k v k' : Live (h ++ [Put k v]) k' <-> k = k' \/ @Live table h k'.
Proof.
  unfold Live. split.
  - intros [v' Hv']. apply holds_put in Hv'. destruct Hv' as [[-> _]|[_ H]]; eauto.
  - destruct (str_dec k k') as [->|Hne].
    + intros _. exists v. apply holds_put. auto.
    + intros [->|[v' Hv']]; [contradiction|]. exists v'. apply holds_put. auto.
Qed.
Lemma live_remove h k k' : Live (h ++ [Remove k]) k' <-> k <> k' /\ @Live table h k'.
Proof.
  unfold Live. split.
  - intros [v' Hv']. apply holds_remove in Hv'. destruct Hv'. eauto.
  - intros [Hne [v' Hv']]. exists v'. apply holds_remove. auto.
Qed.
Lemma no_overwrite_check_gen pre live ops :
  (forall n, Live (db_history pre) n <-> In n live) -> no_overwrite_b live ops = true ->
  forall ops1 t ops2, ops = ops1 ++ AddTable t :: ops2 -> ~ Live (db_history (pre ++ ops1)) (t_name t).
Proof.
  revert pre live; induction ops as [|o ops IH]; intros pre live Hl Hb ops1 t ops2 He.
  - destruct ops1; discriminate.
  - destruct ops1 as [|o1 ops1]; simpl in He; inversion He; subst; clear He.
    + rewrite app_nil_r, Hl. simpl in Hb. apply andb_true_iff in Hb. destruct Hb as [Hb _].
      apply negb_true_iff, str_in_false in Hb. exact Hb.
    + replace (pre ++ o1 :: ops1) with ((pre ++ [o1]) ++ ops1) by (rewrite <- app_assoc; reflexivity).
      destruct o1 as [t1|n1]; simpl in Hb.
      * apply andb_true_iff in Hb. destruct Hb as [_ Hb].
        eapply (IH (pre ++ [AddTable t1]) (t_name t1 :: live)); [|exact Hb|reflexivity].
        intros n. unfold db_history. rewrite map_app. simpl. rewrite live_put. fold (db_history pre).
        rewrite Hl. reflexivity.
      * eapply (IH (pre ++ [DropTable n1])); [|exact Hb|reflexivity].
        intros n. unfold db_history. rewrite map_app. simpl. rewrite live_remove. fold (db_history pre).
        rewrite Hl, filter_In, negb_true_iff, str_eqb_neq. tauto.
Qed.
Lemma no_overwrite_check ops : no_overwrite_b [] ops = true -> no_overwrite ops.
Proof.
  intros Hb ops1 t ops2 He. apply (no_overwrite_check_gen [] [] ops) with (ops2 := ops2); auto.
  intros n. split; [|intros []]. intros [v Hv]. destruct (holds_nil _ _ Hv).
Qed.

Lemma schema_leak : exists ops n0 d s,
  run_db_ops ops (empty_database n0) = Ok d
  /\ In s (get_schema_names d) /\ ~ (exists t, In t (db_iter d) /\ t_schema t = s).
Proof.
  exists [AddTable (mk_table ($"A") ($"s1") None None); AddTable (mk_table ($"A") ($"s2") None None)], ($"db").
  eexists. exists ($"s1"). split; [reflexivity|]. split; [left; reflexivity|].
  intros [t [Hin Hs]]. simpl in Hin. destruct Hin as [<-|[]]. discriminate.
Qed.

Lemma counts_spec d n :
  (forall t, get_table d n = Some t ->
     get_number_relationships_from_table d n = Ok (leaving t)
     /\ get_number_relationships_to_table d n = Ok (count_occ str_dec (all_targets d) n))
  /\ (get_table d n = None ->
     get_number_relationships_from_table d n = Err ValueError
     /\ get_number_relationships_to_table d n = Err ValueError).
Proof.
  destruct (rel_from_spec d n) as [H1 H2]. split.
  - intros t Ht. split; [apply H1, Ht|]. apply rel_to_count. apply dget_some_in. exists t; exact Ht.
  - intros Ht. split; [apply H2, Ht|]. apply rel_to_unknown. apply dget_none. exact Ht.
Qed.
