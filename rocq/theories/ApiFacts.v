(** * Lemmas: every client program produces well-formed databases *)
From Verif Require Export SpecApi ModelFacts ValidateFacts.

Definition named {A} (f : A -> str) (d : dict A) : Prop := forall n v, dget n d = Some v -> f v = n.
Lemma named_dset {A} (f : A -> str) d v : named f d -> named f (dset (f v) v d).
Proof.
  intros H n w. rewrite dget_dset. destruct (str_eqb_spec n (f v)) as [->|]; [|apply H].
  intros E; inversion E; reflexivity.
Qed.
Lemma named_ddel {A} (f : A -> str) d k : NoDup (dkeys d) -> named f d -> named f (ddel k d).
Proof. intros N H n w. rewrite dget_ddel by exact N. destruct (str_eqb n k); [discriminate | apply H]. Qed.
Lemma in_dvals_dset {A} k (v : A) d x : In x (dvals (dset k v d)) -> x = v \/ In x (dvals d).
Proof.
  induction d as [|[k' w] d IH]; simpl; [intros [<-|[]]; auto|].
  destruct (str_eqb k k'); simpl; intros [<-|H]; auto. destruct (IH H); auto.
Qed.

Lemma wf_table_new n s pk sk : well_formed_table (mk_table n s pk sk).
Proof. split; try (split; [constructor | intros ? ? E; discriminate]). intros fk []. Qed.
Lemma wf_col t c : well_formed_table t -> well_formed_table (add_column t c).
Proof.
  intros [[H1 H2] H3 H4 H5]. split; [split| | |]; try assumption.
  - apply nodup_dset, H1.
  - exact (named_dset column_name _ _ H2).
Qed.
Lemma wf_cols_all cs : forall t, well_formed_table t -> well_formed_table (add_columns t cs).
Proof. unfold add_columns. induction cs as [|c cs IH]; intros t H; simpl; [exact H|]. apply IH, wf_col, H. Qed.
Lemma wf_table_op t o : well_formed_table t -> well_formed_table (run_table_op t o).
Proof.
  intros W. destruct o as [o|o|k|sk]; simpl.
  - destruct o as [c|cs|n]; simpl; [apply wf_col, W | apply wf_cols_all, W|].
    destruct W as [[H1 H2] H3 H4 H5]. split; [split| | |]; try assumption.
    + apply nodup_ddel, H1.
    + exact (named_ddel column_name _ _ H1 H2).
  - assert (Hfk : forall ft fk tb tk n fk', mk_foreign_key ft fk tb tk n = Ok fk' -> well_formed_table (add_fk_obj t fk')).
    { intros ft fk tb tk n fk' E. destruct W as [H1 [H2 H3] H4 H5]. split; [|split| |]; try assumption.
      - apply nodup_dset, H2.
      - exact (named_dset fk_name _ _ H3).
      - intros f Hf. apply in_dvals_dset in Hf. destruct Hf as [->|Hf]; [|apply H5, Hf].
        unfold mk_foreign_key in E. destruct ft, fk, tb, tk; try discriminate. destruct (Nat.eqb_spec (length (keys_list k)) (length (keys_list k0))); [|discriminate].
        inversion E; simpl; assumption. }
    assert (Hrel : forall r, well_formed_table (add_rel_obj t r)).
    { intros r. destruct W as [H1 H4 [H2 H3] H5]. split; [| |split|]; try assumption.
      - apply nodup_dset, H2.
      - exact (named_dset rel_name _ _ H3). }
    destruct o as [ft fk tb tk n|fk tb tk n|ft tb c n|tb n c]; cbn [run_con_op].
    + destruct (mk_foreign_key ft fk tb tk n) eqn:E; [exact (Hfk _ _ _ _ _ _ E) | exact W].
    + unfold add_fk_parts. destruct (mk_foreign_key (Some (t_name t)) fk tb tk n) eqn:E; [exact (Hfk _ _ _ _ _ _ E) | exact W].
    + destruct (mk_relationship ft tb c n) eqn:E; [apply Hrel | exact W].
    + unfold add_rel_parts. destruct (mk_relationship (Some (t_name t)) tb c n) eqn:E; [apply Hrel | exact W].
  - destruct k as [k|]; simpl; [|exact W]. destruct W as [H1 H2 H3 H4]; split; assumption.
  - destruct W as [H1 H2 H3 H4]; split; assumption.
Qed.
Lemma run_table_op_names t o : t_name (run_table_op t o) = t_name t /\ t_schema (run_table_op t o) = t_schema t.
Proof.
  destruct o as [o|o|k|sk]; simpl; auto.
  - destruct o as [c|cs|n]; simpl; auto. unfold add_columns. revert t; induction cs as [|c cs IH]; intros t; simpl; [auto|].
    destruct (IH (add_column t c)) as [-> ->]. auto.
  - destruct o as [ft fk tb tk n|fk tb tk n|ft tb c n|tb n c]; cbn [run_con_op].
    + destruct (mk_foreign_key ft fk tb tk n); auto.
    + unfold add_fk_parts. destruct (mk_foreign_key _ fk tb tk n); auto.
    + destruct (mk_relationship ft tb c n); auto.
    + unfold add_rel_parts. destruct (mk_relationship _ tb c n); auto.
  - destruct k; auto.
Qed.
Lemma wf_build n s pk sk ops : well_formed_table (build_table n s pk sk ops)
  /\ t_name (build_table n s pk sk ops) = n /\ t_schema (build_table n s pk sk ops) = s.
Proof.
  unfold build_table. assert (G : forall t, well_formed_table t -> well_formed_table (fold_left run_table_op ops t)
    /\ t_name (fold_left run_table_op ops t) = t_name t /\ t_schema (fold_left run_table_op ops t) = t_schema t).
  { induction ops as [|o ops IH]; intros t W; simpl; [auto|]. destruct (IH _ (wf_table_op t o W)) as [A [B C]].
    destruct (run_table_op_names t o). split; [exact A|]. split; congruence. }
  destruct (G _ (wf_table_new n s pk sk)) as [A [B C]]. split; [exact A|]. split; [exact B | exact C].
Qed.

(** the invariant: tables filed under their names, and the counters of [ModelFacts.db_inv] *)
Definition tables_ok (d : database) : Prop :=
  named t_name (db_tables d) /\ (forall t, In t (db_iter d) -> well_formed_table t).
Lemma dset_same_name d n t t' : db_inv d -> dget n (db_tables d) = Some t -> t_name t' = t_name t -> t_schema t' = t_schema t ->
  db_inv {| db_name := db_name d; db_tables := dset n t' (db_tables d); db_schemas := db_schemas d |}.
Proof.
  intros [I1 I2 I4 I3] Hg Hn Hs.
  assert (Hcount : forall s, count_schema s (dset n t' (db_tables d)) = count_schema s (db_tables d)).
  { intros s. unfold count_schema. clear I1 I2 I3 I4. revert Hg. generalize (db_tables d) as l. induction l as [|[k v] l IH]; simpl; [discriminate|].
    destruct (str_eqb n k).
    - intros E; inversion E; subst. simpl. rewrite Hs. destruct (str_eqb (t_schema t) s); reflexivity.
    - intros E. simpl. specialize (IH E). destruct (str_eqb (t_schema v) s); simpl; congruence. }
  split; simpl.
  - rewrite dkeys_dset_mem; [exact I1|]. apply dget_some_in. eauto.
  - exact I2.
  - exact I4.
  - intros s. rewrite Hcount. apply I3.
Qed.
Lemma run_api_op_ok d o d' : db_inv d -> tables_ok d -> run_api_op d o = Ok d' -> db_inv d' /\ tables_ok d' /\ db_name d' = db_name d.
Proof.
  intros I [T1 T2]. destruct o as [n s pk sk ops|n|n o]; cbn [run_api_op].
  - intros E. inversion E; subst. split; [apply db_inv_add, I|]. split; [|reflexivity]. destruct (wf_build n s pk sk ops) as [W _]. split.
    + apply (named_dset t_name), T1.
    + intros t Ht. apply in_dvals_dset in Ht. destruct Ht as [->|Ht]; [exact W | apply T2, Ht].
  - destruct (db_inv_drop d n I) as [d1 [-> [I' [Hn Ht]]]]. cbn [bind]. intros E; inversion E; subst. split; [exact I'|]. split; [|exact Hn].
    split; [rewrite Ht; apply named_ddel; [apply I | exact T1]|].
    intros t Hin. apply T2. unfold db_iter in *. rewrite Ht in Hin. apply dvals_in in Hin. destruct Hin as [k Hk]. apply dvals_in.
    exists k. eapply ddel_incl, Hk.
  - destruct (get_table d n) as [t|] eqn:Eg; [|discriminate]. intros E; inversion E; subst. destruct (run_table_op_names t o) as [E1 E2].
    split; [eapply dset_same_name; eassumption|]. split; [|reflexivity]. assert (Hn : t_name t = n) by (apply T1, Eg). split; simpl.
    + rewrite <- Hn, <- E1. apply (named_dset t_name), T1.
    + intros u Hu. apply in_dvals_dset in Hu. destruct Hu as [->|Hu]; [|apply T2, Hu]. apply wf_table_op, T2, dvals_in.
      exists n. apply dget_in, Eg.
Qed.
Lemma api_well_formed ops n0 d : run_api ops (empty_database n0) = Ok d -> well_formed d /\ db_name d = n0.
Proof.
  assert (G : forall ops d0 d, db_inv d0 -> tables_ok d0 -> run_api ops d0 = Ok d -> db_inv d /\ tables_ok d /\ db_name d = db_name d0).
  { clear. induction ops as [|o ops IH]; intros d0 d I T; cbn [run_api].
    - intros E; inversion E; subst; auto.
    - destruct (run_api_op d0 o) as [d1|] eqn:E1; [|discriminate]. cbn [bind]. destruct (run_api_op_ok _ _ _ I T E1) as [I1 [T1 N1]].
      intros E. destruct (IH _ _ I1 T1 E) as [? [? ?]]. split; [|split]; [assumption..|congruence]. }
  assert (T0 : tables_ok (empty_database n0)) by (split; [intros n v H; discriminate | intros t []]).
  intros E. destruct (G _ _ _ (db_inv_empty n0) T0 E) as [I [[T1 T2] N]].
  split; [|exact N]. split.
  - split; [apply I | exact T1].
  - split; [apply I|]. intros t Ht. apply dget_some_in. destruct (inv_cover _ I (t_schema t)) as [k [Hk _]]; [|eauto].
    apply dvals_in in Ht. destruct Ht as [k Hk]. eapply dget_count. apply dget_nodup; [apply I | exact Hk].
  - exact T2.
Qed.
(** and such a program fails only by using a table that is not there *)
Lemma api_fails ops : forall d e, db_inv d -> tables_ok d -> run_api ops d = Err e -> e = AttributeError.
Proof.
  induction ops as [|o ops IH]; intros d e I T; cbn [run_api]; [discriminate|].
  destruct (run_api_op d o) as [d1|e1] eqn:E1; cbn [bind].
  - destruct (run_api_op_ok _ _ _ I T E1) as [I1 [T1 _]]. apply IH; assumption.
  - intros E; inversion E; subst. destruct o as [n s pk sk os|n|n o]; cbn [run_api_op] in E1; [discriminate| |].
    + destruct (db_inv_drop d n I) as [d1 [Hd _]]. rewrite Hd in E1. discriminate.
    + destruct (get_table d n); inversion E1; reflexivity.
Qed.
Lemma api_reachable ops n0 :
  (forall d, run_api ops (empty_database n0) = Ok d -> well_formed d /\ db_name d = n0)
  /\ (forall e, run_api ops (empty_database n0) = Err e -> e = AttributeError).
Proof.
  split; [apply api_well_formed|]. intros e. apply api_fails; [apply db_inv_empty|].
  split; [intros n v H; discriminate | intros t []].
Qed.
