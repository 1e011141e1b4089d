(** * Lemmas: running the ALTER script (C95) *)
From Verif Require Import SpecAlter StrFacts DiffFacts DiffProps CatalogFacts CheckFacts AlterFacts AlterRun AlterOrder.
From Coq Require Import List. Import ListNotations.

Lemma shows_entry cs t : well_formed_table t -> t_schema t = cs -> shows_table cs (entry_of t) (view_table t).
Proof.
  intros W E. constructor; cbn [entry_of ct_cols ct_pk ct_shard ct_fks ct_rels view_table v_col v_pk v_shard v_fk v_rel]; try reflexivity.
  - rewrite map_map. change (NoDup (map column_name (table_iter t))). rewrite (col_names_iter t W). apply (wf_cols _ W).
  - intros k ty. rewrite in_map_iff. split.
    + intros (c & [= <- <-] & I). exists c. split; [|reflexivity]. apply dvals_in in I. destruct I as [k I]. apply (dget_nodup k c) in I; [|apply (wf_cols _ W)].
      rewrite (proj2 (wf_cols _ W) k c I). exact I.
    + intros (c & G & <-). exists c. rewrite (proj2 (wf_cols _ W) _ _ G). split; [reflexivity|]. apply dvals_in. exists k. apply dget_in, G.
  - rewrite map_map. change (NoDup (map fk_name (dvals (t_fks t)))). rewrite (dict_vals_name fk_name (t_fks t)); [apply (wf_fks _ W) | apply (wf_fks _ W) | apply (wf_fks _ W)].
  - intros g. rewrite in_map_iff. split.
    + intros (f & <- & I). cbn [cf_name]. exists f. apply dvals_in in I. destruct I as [k I]. apply (dget_nodup k f) in I; [|apply (wf_fks _ W)].
      rewrite (proj2 (wf_fks _ W) k f I). split; [exact I|]. unfold cfk_of. rewrite E. reflexivity.
    + intros (f & G & Eg). exists f. split.
      * rewrite Eg. unfold cfk_of. rewrite <- (proj2 (wf_fks _ W) _ _ G). rewrite E. reflexivity.
      * apply dvals_in. exists (cf_name g). apply dget_in, G.
  - rewrite map_map. change (NoDup (map rel_name (dvals (t_rels t)))). rewrite (dict_vals_name rel_name (t_rels t)); [apply (wf_rels _ W) | apply (wf_rels _ W) | apply (wf_rels _ W)].
  - intros g. rewrite in_map_iff. split.
    + intros (f & <- & I). cbn [cr_name]. exists f. apply dvals_in in I. destruct I as [k I]. apply (dget_nodup k f) in I; [|apply (wf_rels _ W)].
      rewrite (proj2 (wf_rels _ W) k f I). split; [exact I|]. unfold crel_of. rewrite E. reflexivity.
    + intros (f & G & Eg). exists f. split.
      * rewrite Eg. unfold crel_of. rewrite <- (proj2 (wf_rels _ W) _ _ G). rewrite E. reflexivity.
      * apply dvals_in. exists (cr_name g). apply dget_in, G.
Qed.
Lemma nodup_of_map {A B} (f : A -> B) l : NoDup (map f l) -> NoDup l.
Proof. apply NoDup_map_inv. Qed.
Lemma shows_same cs x y w w' : shows_table cs x w -> shows_table cs y w' -> same_tview w w' ->
  ct_schema x = ct_schema y -> ct_name x = ct_name y -> same_entry x y.
Proof.
  intros X Y (A & B & C & D & E) Es En. constructor; [exact Es | exact En | | | | |].
  - apply NoDup_Permutation; [apply (nodup_of_map fst), (st_ndc _ _ _ X) | apply (nodup_of_map fst), (st_ndc _ _ _ Y)|].
    intros [k ty]. rewrite (st_col _ _ _ X), (st_col _ _ _ Y), A. reflexivity.
  - rewrite (st_pk _ _ _ X), (st_pk _ _ _ Y). exact B.
  - rewrite (st_shard _ _ _ X), (st_shard _ _ _ Y). exact C.
  - apply NoDup_Permutation; [apply (nodup_of_map cf_name), (st_ndf _ _ _ X) | apply (nodup_of_map cf_name), (st_ndf _ _ _ Y)|].
    intros g. rewrite (st_fk _ _ _ X), (st_fk _ _ _ Y), D. reflexivity.
  - apply NoDup_Permutation; [apply (nodup_of_map cr_name), (st_ndr _ _ _ X) | apply (nodup_of_map cr_name), (st_ndr _ _ _ Y)|].
    intros g. rewrite (st_rel _ _ _ X), (st_rel _ _ _ Y), E. reflexivity.
Qed.
Lemma shows_perm cs x y w : shows_table cs y w -> same_entry x y -> shows_table cs x w.
Proof.
  intros Y S. constructor.
  - eapply Permutation_NoDup; [apply Permutation_map, Permutation_sym, (se_cols _ _ S) | exact (st_ndc _ _ _ Y)].
  - intros k ty. rewrite <- (st_col _ _ _ Y). split; apply Permutation_in; [|apply Permutation_sym]; apply (se_cols _ _ S).
  - rewrite (se_pk _ _ S). apply (st_pk _ _ _ Y).
  - rewrite (se_shard _ _ S). apply (st_shard _ _ _ Y).
  - eapply Permutation_NoDup; [apply Permutation_map, Permutation_sym, (se_fks _ _ S) | exact (st_ndf _ _ _ Y)].
  - intros g. rewrite <- (st_fk _ _ _ Y). split; apply Permutation_in; [|apply Permutation_sym]; apply (se_fks _ _ S).
  - eapply Permutation_NoDup; [apply Permutation_map, Permutation_sym, (se_rels _ _ S) | exact (st_ndr _ _ _ Y)].
  - intros g. rewrite <- (st_rel _ _ _ Y). split; apply Permutation_in; [|apply Permutation_sym]; apply (se_rels _ _ S).
Qed.
Lemma all_in_get cs d n t : all_in cs d -> get_table d n = Some t -> t_schema t = cs.
Proof. intros H T. apply H. apply dvals_in. exists n. apply dget_in, T. Qed.
Lemma holds_shows cs c d : well_formed d -> all_in cs d -> holds cs c d -> shows cs c (view d).
Proof.
  intros W A H. constructor; [apply H | apply H|]. intros n. pose proof (ho_tables _ _ _ H n) as Hn. unfold view.
  destruct (get_table d n) as [t|] eqn:T; cbn [option_map].
  - destruct Hn as (x & -> & S). eapply shows_perm; [|exact S]. apply shows_entry; [exact (get_table_wf _ _ _ W T) | exact (all_in_get _ _ _ _ A T)].
  - rewrite Hn. exact I.
Qed.
Lemma shows_holds cs c v d : well_formed d -> all_in cs d -> same_view v (view d) -> shows cs c v -> holds cs c d.
Proof.
  intros W A Sv H. constructor; [apply H | apply H|]. intros n. pose proof (sh_at _ _ _ H n) as Hn. specialize (Sv n). unfold view in Sv.
  destruct (get_table d n) as [t|] eqn:T; cbn [option_map] in Sv.
  - destruct (v n) as [w|]; [|contradiction]. destruct (find_table cs n c) as [x|] eqn:F; [|contradiction]. exists x. split; [reflexivity|].
    apply find_some_table in F. destruct F as (_ & Es & En). pose proof (all_in_get _ _ _ _ A T) as At.
    eapply shows_same; [exact Hn | apply shows_entry; [exact (get_table_wf _ _ _ W T) | exact At] | exact Sv | |].
    + cbn [entry_of ct_schema]. congruence.
    + cbn [entry_of ct_name]. rewrite (proj2 (wf_names _ W) _ _ T). exact En.
  - destruct (v n); [contradiction|]. destruct (find_table cs n c); [contradiction | reflexivity].
Qed.

Section Main.
Variables (cs : str) (d1 d2 : database) (l1 l2 : list difference) (c : cdb) (s : str).
Hypothesis W1 : well_formed d1.
Hypothesis W2 : well_formed d2.
Hypothesis Q1 : writable d1.
Hypothesis Q2 : writable d2.
Hypothesis A1 : all_in cs d1.
Hypothesis A2 : all_in cs d2.
Hypothesis H : compare_databases d1 d2 = Ok (l1, l2).
Hypothesis Hs : concat_results (map get_alter l1) = Ok s.
Hypothesis Hc : holds cs c d1.
Lemma main_steps :
  (forall c', run_alters cs c s = Some c' -> each_possible (view d1) (changes l1) /\ kept c c' /\ shows cs c' (apply_changes (changes l1) (view d1)))
  /\ (each_possible (view d1) (changes l1) -> exists c', run_alters cs c s = Some c').
Proof.
  destruct (c35_script d1 d2 l1 l2 W1 W2 Q1 Q2 H) as [_ R]. destruct (R l1 s (or_introl eq_refl) Hs) as (xs & M & Rs).
  unfold run_alters. rewrite Rs. destruct (compare_ok _ _ _ _ W1 W2 H) as (C & _). rewrite C in *.
  apply steps; [apply holds_shows; assumption | apply db_apt; assumption | | exact M].
  intros ch I. unfold db_changes in I. apply in_flat_map in I. destruct I as (n & _ & I). unfold entry_changes in I. apply in_app_iff in I.
  destruct (get_table d1 n) as [t1|] eqn:T1, (get_table d2 n) as [t2|] eqn:T2; cbn [table_expected in_both In] in I; destruct I as [I|I]; try contradiction.
  - apply in_table_changes in I; [|exact (get_table_wf _ _ _ W1 T1) | exact (get_table_wf _ _ _ W2 T2)]. destruct I as [-> K].
    split; [exact (all_in_get _ _ _ _ A1 T1)|]. intros t ->. destruct K. reflexivity.
  - destruct I as [<-|[]]. split; [exact (all_in_get _ _ _ _ A1 T1)|]. discriminate.
  - destruct I as [<-|[]]. split; [exact (all_in_get _ _ _ _ A2 T2)|]. intros t [= <-]. exact (get_table_wf _ _ _ W2 T2).
Qed.
Lemma c95_exact : (exists c', run_alters cs c s = Some c') <-> each_possible (view d1) (changes l1).
Proof. destruct main_steps as [F G]. split; [intros [c' R]; exact (proj1 (F c' R)) | exact G]. Qed.
Hypothesis Hfk : common_fks d1 d2 (fun f1 f2 => taken_as_same f1 f2 -> f1 = f2).
Hypothesis Hsh : shard_objects d1 d2.
Hypothesis Hnew : forall n t, get_table d1 n = None -> get_table d2 n = Some t -> t_fks t = [] /\ t_rels t = [].
Lemma c95_result c' : run_alters cs c s = Some c' -> holds cs c' d2 /\ cd_name c' = cd_name c /\ cd_schemas c' = cd_schemas c.
Proof.
  intros R. destruct main_steps as [F _]. destruct (F c' R) as (_ & K & S). split; [|exact K].
  eapply shows_holds; [exact W2 | exact A2 | | exact S]. eapply c32; eassumption.
Qed.
Lemma c95_runs : consistent_db d1 -> consistent_db d2 -> alterable d1 d2 ->
  exists c', run_alters cs c s = Some c' /\ holds cs c' d2.
Proof.
  intros K1 K2 Ab. destruct (proj2 c95_exact) as [c' R]; [|exists c'; split; [exact R | apply c95_result, R]].
  destruct (compare_ok _ _ _ _ W1 W2 H) as (-> & _). apply db_possible; try assumption.
  intros n k t1 t2 f1 f2 T1 T2 F1 F2 E. apply (Hfk n k t1 t2 f1 f2 T1 T2 F1 F2). apply fk_eqb_spec in E. tauto.
Qed.
End Main.

(** ** A database the creation script made holds the model *)
Lemma loaded_find cs d n : well_formed d -> all_in cs d -> forall nm ss,
  find_table cs n {| cd_name := nm; cd_schemas := ss; cd_tables := map entry_of (db_iter d) |} = option_map entry_of (get_table d n).
Proof.
  intros W A nm ss. unfold find_table. cbn [cd_tables]. destruct (get_table d n) as [t|] eqn:T; cbn [option_map].
  - destruct (get_table_in d W n t T) as [I En].
    destruct (find (is_table cs n) (map entry_of (db_iter d))) as [x|] eqn:F.
    + apply find_some in F. destruct F as [Ix E]. apply in_map_iff in Ix. destruct Ix as (u & <- & Iu). apply is_table_true in E. destruct E as [_ E]. cbn [entry_of ct_name] in E.
      f_equal. f_equal. apply (same_name d W u t Iu I). congruence.
    + exfalso. pose proof (find_none _ _ F (entry_of t) (in_map entry_of _ _ I)) as N.
      enough (is_table cs n (entry_of t) = true) by congruence. apply is_table_true. split; [exact (A t I) | exact En].
  - destruct (find (is_table cs n) (map entry_of (db_iter d))) as [x|] eqn:F; [|reflexivity].
    apply find_some in F. destruct F as [Ix E]. apply in_map_iff in Ix. destruct Ix as (u & <- & Iu). apply is_table_true in E. destruct E as [_ E]. cbn [entry_of ct_name] in E.
    rewrite <- E, (table_by_name d W u Iu) in T. discriminate.
Qed.
Lemma same_entry_refl x : same_entry x x.
Proof. constructor; reflexivity. Qed.
Lemma loaded_holds cs d nm ss : well_formed d -> all_in cs d -> In cs ss ->
  holds cs {| cd_name := nm; cd_schemas := ss; cd_tables := map entry_of (db_iter d) |} d.
Proof.
  intros W A I. constructor; [exact I | |].
  - intros x Hx. cbn [cd_tables] in Hx. apply in_map_iff in Hx. destruct Hx as (t & <- & It). split; [exact (A t It)|].
    cbn [entry_of ct_name]. rewrite loaded_find, (table_by_name d W t It) by assumption. reflexivity.
  - intros n. rewrite loaded_find by assumption. destruct (get_table d n) as [t|]; [|reflexivity]. exists (entry_of t). split; [reflexivity | apply same_entry_refl].
Qed.

(** ** When a change cannot be made *)
Section Fails.
Variables (d1 d2 : database) (al : foreign_key -> foreign_key -> bool).
Hypothesis W1 : well_formed d1.
Hypothesis W2 : well_formed d2.
Hypothesis P : each_possible (view d1) (db_changes al d1 d2).
Lemma at_turn n t1 t2 ch : get_table d1 n = Some t1 -> get_table d2 n = Some t2 -> In ch (table_changes al t1 t2) ->
  exists k1 k2 pre rest, names (db_tables d1) (db_tables d2) = k1 ++ n :: k2 /\ table_changes al t1 t2 = pre ++ ch :: rest
    /\ possible (apply_changes pre (apply_changes (flat_map (entry_changes al d1 d2) k1) (view d1))) ch.
Proof.
  intros T1 T2 I. assert (Hn : In n (names (db_tables d1) (db_tables d2))). { apply DiffFacts.names_in. left. unfold get_table in T1. congruence. }
  apply in_split in Hn. destruct Hn as (k1 & k2 & Hk). apply in_split in I. destruct I as (pre & rest & Hp). exists k1, k2, pre, rest.
  split; [exact Hk|]. split; [exact Hp|]. apply each_possible_each in P. unfold db_changes in P. rewrite Hk, flat_map_app in P. apply each_app in P. apply proj2 in P.
  cbn [flat_map] in P. apply each_app in P. apply proj1 in P. unfold entry_changes at 2 in P. rewrite T1, T2 in P. cbn [table_expected in_both app] in P.
  rewrite Hp in P. apply each_app in P. apply proj2 in P. exact (proj1 P).
Qed.
Variables (n : str) (t1 t2 : table).
Hypothesis T1 : get_table d1 n = Some t1.
Hypothesis T2 : get_table d2 n = Some t2.
Let X1 := get_table_wf _ _ _ W1 T1.
Let X2 := get_table_wf _ _ _ W2 T2.
Let N1 := proj2 (wf_names _ W1) _ _ T1.
Lemma turn_start k1 k2 : names (db_tables d1) (db_tables d2) = k1 ++ n :: k2 ->
  apply_changes (flat_map (entry_changes al d1 d2) k1) (view d1) n = Some (view_table t1).
Proof. intros Hk. rewrite (turn_now d1 d2 al W1 W2 k1 k2 n Hk). unfold view. rewrite T1. reflexivity. Qed.
Lemma fk_reported m f : get_foreign_key t2 m = Some f -> get_foreign_key t1 m = None -> In (ForeignKeyAdded t1 f) (table_changes al t1 t2).
Proof.
  intros F2 F1. enough (I : In (ForeignKeyAdded t1 f) (fk_expected al m t1 t2)).
  { rewrite <- (pick_fk t1 t2 X1 X2 al m) in I. apply filter_In in I. apply I. }
  unfold fk_expected. rewrite F1, F2. left. reflexivity.
Qed.
Lemma fail_from m f k : get_foreign_key t2 m = Some f -> get_foreign_key t1 m = None -> In k (fk_from_keys f) -> get_column t1 k = None -> False.
Proof.
  intros F2 F1 Ik C. destruct (at_turn n t1 t2 _ T1 T2 (fk_reported m f F2 F1)) as (k1 & k2 & pre & rest & Hk & Hp & Q).
  pose proof (turn_start k1 k2 Hk) as V. cbn [possible change_table] in Q. rewrite N1, (split_at n t1 t2 _ al X1 X2 N1 V pre rest _ Hp) in Q.
  destruct Q as (w & u & [= <-] & _ & Hf & _). specialize (Hf k Ik). unfold has_col in Hf.
  rewrite (col_before n t1 t2 al X1 X2 N1 pre rest _ Hp) in Hf by (cbn [kind]; lia). contradiction.
Qed.
Lemma fail_to m f : get_foreign_key t2 m = Some f -> get_foreign_key t1 m = None -> get_table d1 (fk_to_table f) = None ->
  str_ltb n (fk_to_table f) = true -> False.
Proof.
  intros F2 F1 To L. destruct (at_turn n t1 t2 _ T1 T2 (fk_reported m f F2 F1)) as (k1 & k2 & pre & rest & Hk & Hp & Q).
  pose proof (turn_start k1 k2 Hk) as V. cbn [possible change_table] in Q. destruct Q as (w & u & _ & Vu & _).
  rewrite (split_other n t1 t2 _ al X1 X2 N1 V pre rest _ Hp) in Vu by (intros E; rewrite <- E, str_ltb_irrefl in L; discriminate).
  rewrite turn_later in Vu; [unfold view in Vu; rewrite To in Vu; discriminate | assumption | assumption |].
  intros I. apply (turn_ss d1 d2 W1 W2 k1 k2 n Hk) in I. unfold str_lt in I. rewrite (str_ltb_asym _ _ L) in I. discriminate.
Qed.
Lemma fail_shard z l k : shard_of t2 = Some (z, l) -> t_shard t1 = None -> In k l -> get_column t1 k = None -> False.
Proof.
  intros S2 S1 Ik C. assert (I : In (ShardKeyAdded t1 z l) (table_changes al t1 t2)).
  { enough (I : In (ShardKeyAdded t1 z l) (shard_expected t1 t2)) by (rewrite <- (pick_shard t1 t2 X1 X2 al) in I; apply filter_In in I; apply I).
    unfold shard_expected, shard_of in *. rewrite S1. destruct (t_shard t2); [|discriminate]. injection S2 as <- <-. left. reflexivity. }
  destruct (at_turn n t1 t2 _ T1 T2 I) as (k1 & k2 & pre & rest & Hk & Hp & Q).
  pose proof (turn_start k1 k2 Hk) as V. cbn [possible change_table] in Q. rewrite N1, (split_at n t1 t2 _ al X1 X2 N1 V pre rest _ Hp) in Q.
  destruct Q as (w & [= <-] & Hf). specialize (Hf k Ik). unfold has_col in Hf.
  rewrite (col_before n t1 t2 al X1 X2 N1 pre rest _ Hp) in Hf by (cbn [kind]; lia). contradiction.
Qed.
Lemma fail_name k : common_fks d1 d2 (fun f1 f2 => al f1 f2 = true -> f1 = f2) -> shard_objects d1 d2 ->
  get_relationship t1 k <> None -> get_relationship t2 k = None -> get_foreign_key t2 k <> None -> False.
Proof.
  intros Hf Hs R1 R2 F2. assert (I : In (RelationshipDropped t1 k) (table_changes al t1 t2)).
  { enough (I : In (RelationshipDropped t1 k) (rel_expected k t1 t2)) by (rewrite <- (pick_rel t1 t2 X1 X2 al) in I; apply filter_In in I; apply I).
    unfold rel_expected. rewrite R2. destruct (get_relationship t1 k); [left; reflexivity | contradiction]. }
  destruct (at_turn n t1 t2 _ T1 T2 I) as (k1 & k2 & pre & rest & Hk & Hp & Q).
  pose proof (turn_start k1 k2 Hk) as V. cbn [possible change_table] in Q. rewrite N1, (split_at n t1 t2 _ al X1 X2 N1 V pre rest _ Hp) in Q.
  destruct Q as (w & [= <-] & _ & Hn). rewrite (fk_after n t1 t2 al X1 X2 N1 pre rest _ Hp) in Hn; [contradiction | | cbn [kind]; lia].
  exact (apply_entry d1 d2 W1 W2 al Hf Hs n t1 t2 T1 T2).
Qed.
End Fails.
