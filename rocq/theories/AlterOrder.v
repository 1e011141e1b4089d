(** * Lemmas: when the changes of a comparison can be made in their order (C95) *)
From Verif Require Import SpecAlter StrFacts DiffFacts DiffProps CatalogFacts AlterRun.
From Coq Require Import Sorting.Sorted.
From Coq Require Import List. Import ListNotations.

(** ** Predicates on changes at their turn *)
Section Each.
Variable P : dview -> change -> Prop.
Fixpoint each (v : dview) (l : list change) : Prop :=
  match l with [] => True | ch :: l' => P v ch /\ each (apply_change v ch) l' end.
Lemma each_app : forall a v b, each v (a ++ b) <-> each v a /\ each (apply_changes a v) b.
Proof.
  induction a as [|ch a IH]; intros v b; [cbn [app each apply_changes fold_left]; tauto|].
  cbn [app each]. rewrite IH. change (apply_changes (ch :: a) v) with (apply_changes a (apply_change v ch)). tauto.
Qed.
Lemma each_split : forall l v, (forall pre ch rest, l = pre ++ ch :: rest -> P (apply_changes pre v) ch) -> each v l.
Proof.
  induction l as [|ch l IH]; intros v H; [exact I|]. split; [exact (H [] ch l eq_refl)|].
  apply IH. intros pre c rest E. specialize (H (ch :: pre) c rest). rewrite E in H. exact (H eq_refl).
Qed.
Lemma each_flat (f : str -> list change) ks : forall v,
  (forall k1 k k2, ks = k1 ++ k :: k2 -> each (apply_changes (flat_map f k1) v) (f k)) -> each v (flat_map f ks).
Proof.
  induction ks as [|k ks IH]; intros v H; [exact I|]. cbn [flat_map]. apply each_app. split; [exact (H [] k ks eq_refl)|].
  apply IH. intros k1 m k2 E. specialize (H (k :: k1) m k2). rewrite E in H. specialize (H eq_refl). cbn [flat_map] in H.
  unfold apply_changes in *. rewrite fold_left_app in H. exact H.
Qed.
End Each.
Lemma each_apt_each v l : each_apt v l <-> each apt v l.
Proof. revert v. induction l as [|ch l IH]; intros v; [reflexivity|]. cbn [each_apt each]. rewrite IH. reflexivity. Qed.
Lemma each_possible_each v l : each_possible v l <-> each possible v l.
Proof. revert v. induction l as [|ch l IH]; intros v; [reflexivity|]. cbn [each_possible each]. rewrite IH. reflexivity. Qed.
Lemma apply_app a b v : apply_changes b (apply_changes a v) = apply_changes (a ++ b) v.
Proof. unfold apply_changes. rewrite fold_left_app. reflexivity. Qed.

(** the changes of a table come in the order of their kinds *)
Definition by_kind (l : list change) : Prop := forall pre ch rest, l = pre ++ ch :: rest ->
  (forall c, In c pre -> kind c <= kind ch) /\ (forall c, In c rest -> kind ch <= kind c).
Lemma by_kind_app i a b : (forall c, In c a -> kind c = i) -> (forall c, In c b -> i <= kind c) -> by_kind b -> by_kind (a ++ b).
Proof.
  intros Ha Hb B pre ch rest E. apply app_eq_app in E. destruct E as [l [[E1 E2]|[E1 E2]]].
  - destruct l as [|c l].
    + rewrite app_nil_r in E1. cbn [app] in E2. subst a. destruct (B [] ch rest (eq_sym E2)) as [_ B2]. split; [|exact B2].
      intros c Hc. rewrite (Ha c Hc). apply Hb. rewrite <- E2. left. reflexivity.
    + cbn [app] in E2. injection E2 as -> E2. subst a rest. assert (Hc : kind c = i) by (apply Ha, in_app_iff; right; left; reflexivity). split.
      * intros x Hx. rewrite Hc, (Ha x); [lia|]. apply in_app_iff. left. exact Hx.
      * intros x Hx. rewrite Hc. apply in_app_iff in Hx. destruct Hx as [Hx|Hx]; [|exact (Hb x Hx)].
        rewrite (Ha x); [lia|]. apply in_app_iff. right. right. exact Hx.
  - subst pre. destruct (B l ch rest E2) as [B1 B2]. split; [|exact B2]. intros c Hc. apply in_app_iff in Hc. destruct Hc as [Hc|Hc]; [|exact (B1 c Hc)].
    rewrite (Ha c Hc). apply Hb. rewrite E2. apply in_app_iff. right. left. reflexivity.
Qed.
Lemma by_kind_nil : by_kind [].
Proof. intros pre ch rest E. destruct pre; discriminate. Qed.
Lemma by_kind_all i a : (forall c, In c a -> kind c = i) -> by_kind a.
Proof. intros H. rewrite <- (app_nil_r a). apply (by_kind_app i); [exact H | intros c [] | apply by_kind_nil]. Qed.
Lemma table_by_kind al t1 t2 : well_formed_table t1 -> well_formed_table t2 -> by_kind (table_changes al t1 t2).
Proof.
  intros W1 W2. unfold table_changes.
  assert (K1 : forall c, In c (pk_expected t1 t2) -> kind c = 1) by (intros c H; apply in_pk_expected in H; apply H).
  assert (K2 : forall c, In c (shard_expected t1 t2) -> kind c = 2) by (intros c H; apply in_shard_expected in H; apply H).
  assert (K3 : forall c, In c (flat_map (fun k => fk_expected al k t1 t2) (names (t_fks t1) (t_fks t2))) -> kind c = 3) by (intros c H; eapply fks_kind with (t1 := t1) (t2 := t2); eassumption).
  assert (K4 : forall c, In c (flat_map (fun k => rel_expected k t1 t2) (names (t_rels t1) (t_rels t2))) -> kind c = 4) by (intros c H; eapply rels_kind with (t1 := t1) (t2 := t2); eassumption).
  assert (K5 : forall c, In c (flat_map (fun k => column_expected k t1 t2) (names (t_cols t1) (t_cols t2))) -> kind c = 5) by (intros c H; eapply cols_kind with (t1 := t1) (t2 := t2); eassumption).
  apply (by_kind_app 1); [exact K1 | |apply (by_kind_app 2); [exact K2 | |apply (by_kind_app 3); [exact K3 | |apply (by_kind_app 4); [exact K4 | |apply (by_kind_all 5), K5]]]].
  - intros c H. rewrite !in_app_iff in H. destruct H as [H|[H|[H|H]]]; [rewrite (K2 c H) | rewrite (K3 c H) | rewrite (K4 c H) | rewrite (K5 c H)]; lia.
  - intros c H. rewrite !in_app_iff in H. destruct H as [H|[H|H]]; [rewrite (K3 c H) | rewrite (K4 c H) | rewrite (K5 c H)]; lia.
  - intros c H. rewrite !in_app_iff in H. destruct H as [H|H]; [rewrite (K4 c H) | rewrite (K5 c H)]; lia.
  - intros c H. rewrite (K5 c H). lia.
Qed.

(** ** Inside one table *)
Section Table.
Variables (n : str) (t1 t2 : table) (v : dview) (al : foreign_key -> foreign_key -> bool).
Hypothesis W1 : well_formed_table t1.
Hypothesis W2 : well_formed_table t2.
Hypothesis N1 : t_name t1 = n.
Hypothesis V1 : v n = Some (view_table t1).

Lemma mid pre : (forall c, In c pre -> tname c = n /\ kind c <> 0) ->
  apply_changes pre v n = Some (fold_left tact pre (view_table t1)) /\ forall m, m <> n -> apply_changes pre v m = v m.
Proof.
  intros H. split.
  - rewrite apply_at, filter_all by (intros c Hc; apply str_eqb_eq, H, Hc). rewrite V1. apply fold_tact. intros c Hc. apply H, Hc.
  - intros m Hm. rewrite apply_at, filter_none; [reflexivity|]. intros c Hc. apply str_eqb_neq. rewrite (proj1 (H c Hc)). congruence.
Qed.

Section Split.
Variables (pre rest : list change) (ch : change).
Hypothesis Hl : table_changes al t1 t2 = pre ++ ch :: rest.
Let w := fold_left tact pre (view_table t1).
Lemma split_table c : In c (pre ++ ch :: rest) -> change_table c = t1 /\ kind c <> 0.
Proof. rewrite <- Hl. apply in_table_changes; assumption. Qed.
Lemma split_own : change_table ch = t1.
Proof. apply split_table. apply in_app_iff. right. left. reflexivity. Qed.
Lemma split_pre c : In c pre -> tname c = n /\ kind c <> 0.
Proof. intros H. unfold tname. destruct (split_table c) as [E K]; [apply in_app_iff; auto|]. rewrite E. auto. Qed.
Lemma split_at : apply_changes pre v n = Some w.
Proof. apply mid, split_pre. Qed.
Lemma split_other m : m <> n -> apply_changes pre v m = v m.
Proof. apply mid, split_pre. Qed.
Lemma split_kinds : (forall c, In c pre -> kind c <= kind ch) /\ (forall c, In c rest -> kind ch <= kind c).
Proof. apply (table_by_kind al t1 t2 W1 W2 pre ch rest Hl). Qed.
Lemma pick_before kd k : kind ch < kd -> filter (pick n kd k) pre = [].
Proof. intros H. apply pick_wrong_kind. intros c Hc. apply split_kinds in Hc. lia. Qed.
Lemma pick_after kd k : kd < kind ch -> filter (pick n kd k) pre = filter (pick n kd k) (table_changes al t1 t2).
Proof.
  intros H. rewrite Hl, filter_app, (pick_wrong_kind n kd k (ch :: rest)), app_nil_r; [reflexivity|].
  intros c [<-|Hc]; [lia|]. apply split_kinds in Hc. lia.
Qed.
Lemma pick_now kd k : pick n kd k ch = true -> filter (pick n kd k) pre ++ ch :: filter (pick n kd k) rest = filter (pick n kd k) (table_changes al t1 t2).
Proof. intros H. rewrite Hl, filter_app. cbn [filter]. rewrite H. reflexivity. Qed.
Lemma col_before k : kind ch < 5 -> v_col w k = get_column t1 k.
Proof. intros H. unfold w. rewrite (proj_col n), pick_before by (try exact split_pre; exact H). reflexivity. Qed.
Lemma rel_before k : kind ch < 4 -> v_rel w k = get_relationship t1 k.
Proof. intros H. unfold w. rewrite (proj_rel n), pick_before by (try exact split_pre; exact H). reflexivity. Qed.
Lemma fk_before k : kind ch < 3 -> v_fk w k = get_foreign_key t1 k.
Proof. intros H. unfold w. rewrite (proj_fk n), pick_before by (try exact split_pre; exact H). reflexivity. Qed.
Section Final.
Hypothesis Fin : same_tview (fold_left tact (table_changes al t1 t2) (view_table t1)) (view_table t2).
Lemma all_kinds c : In c (table_changes al t1 t2) -> tname c = n /\ kind c <> 0.
Proof. intros H. unfold tname. rewrite Hl in H. apply split_table in H. destruct H as [-> H]. auto. Qed.
Lemma pk_after : 1 < kind ch -> v_pk w = t_pk t2.
Proof.
  intros H. destruct Fin as (_ & F & _). rewrite (proj_pk n) in F by exact all_kinds. unfold w. rewrite (proj_pk n), pick_after by (try exact split_pre; exact H). exact F.
Qed.
Lemma shard_after : 2 < kind ch -> v_shard w = shard_of t2.
Proof.
  intros H. destruct Fin as (_ & _ & F & _). rewrite (proj_shard n) in F by exact all_kinds. unfold w. rewrite (proj_shard n), pick_after by (try exact split_pre; exact H). exact F.
Qed.
Lemma fk_after k : 3 < kind ch -> v_fk w k = get_foreign_key t2 k.
Proof.
  intros H. destruct Fin as (_ & _ & _ & F & _). specialize (F k). rewrite (proj_fk n) in F by exact all_kinds.
  unfold w. rewrite (proj_fk n), pick_after by (try exact split_pre; exact H). exact F.
Qed.
End Final.
Lemma fk_dropped k : ch = ForeignKeyDropped t1 k -> get_foreign_key t1 k <> None /\ v_fk w k = get_foreign_key t1 k.
Proof.
  intros E. assert (P : pick n 3 (Some k) ch = true). { apply pick_true. rewrite E. split; [exact N1|]. split; [reflexivity|]. intros x [= <-]. reflexivity. }
  apply pick_now in P. rewrite <- N1 in P. rewrite pick_fk in P by assumption. rewrite N1, E in P. unfold fk_expected in P.
  destruct (get_foreign_key t1 k) as [f|] eqn:F1.
  - split; [discriminate|]. rewrite <- F1. unfold w. rewrite (proj_fk n) by exact split_pre.
    destruct (filter (pick n 3 (Some k)) pre) as [|a l]; [reflexivity|]. exfalso. cbn [app] in P.
    destruct (get_foreign_key t2 k); [destruct (al _ _); [discriminate|]|].
    + injection P as _ P. destruct l as [|b [|]]; discriminate.
    + injection P as _ P. destruct l; discriminate.
  - exfalso. destruct (get_foreign_key t2 k); destruct (filter (pick n 3 (Some k)) pre) as [|a [|]]; discriminate.
Qed.
Lemma rel_dropped k : ch = RelationshipDropped t1 k -> get_relationship t1 k <> None /\ v_rel w k = get_relationship t1 k.
Proof.
  intros E. assert (P : pick n 4 (Some k) ch = true). { apply pick_true. rewrite E. split; [exact N1|]. split; [reflexivity|]. intros x [= <-]. reflexivity. }
  apply pick_now in P. rewrite <- N1 in P. rewrite pick_rel in P by assumption. rewrite N1, E in P. unfold rel_expected in P.
  destruct (get_relationship t1 k) as [f|] eqn:F1.
  - split; [discriminate|]. rewrite <- F1. unfold w. rewrite (proj_rel n) by exact split_pre.
    destruct (filter (pick n 4 (Some k)) pre) as [|a l]; [reflexivity|]. exfalso. cbn [app] in P.
    destruct (get_relationship t2 k); [destruct (rel_dec _ _); [discriminate|]|].
    + injection P as _ P. destruct l as [|b [|]]; discriminate.
    + injection P as _ P. destruct l; discriminate.
  - exfalso. destruct (get_relationship t2 k); destruct (filter (pick n 4 (Some k)) pre) as [|a [|]]; discriminate.
Qed.
Lemma fk_added f : ch = ForeignKeyAdded t1 f -> get_foreign_key t2 (fk_name f) = Some f /\ v_fk w (fk_name f) = None.
Proof.
  intros E. assert (P : pick n 3 (Some (fk_name f)) ch = true). { apply pick_true. rewrite E. split; [exact N1|]. split; [reflexivity|]. intros x [= <-]. reflexivity. }
  apply pick_now in P. rewrite <- N1 in P. rewrite pick_fk in P by assumption. rewrite N1, E in P. unfold fk_expected in P.
  unfold w. rewrite (proj_fk n) by exact split_pre. cbn [view_table v_fk].
  destruct (get_foreign_key t1 (fk_name f)) as [f1|] eqn:F1, (get_foreign_key t2 (fk_name f)) as [f2|] eqn:F2; [destruct (al f1 f2)| | |];
    destruct (filter (pick n 3 (Some (fk_name f))) pre) as [|a [|b [|]]]; cbn [app] in P; try discriminate.
  - injection P as -> -> _. split; reflexivity.
  - injection P as -> _. split; reflexivity.
Qed.
Lemma rel_added f : ch = RelationshipAdded t1 f -> get_relationship t2 (rel_name f) = Some f /\ v_rel w (rel_name f) = None.
Proof.
  intros E. assert (P : pick n 4 (Some (rel_name f)) ch = true). { apply pick_true. rewrite E. split; [exact N1|]. split; [reflexivity|]. intros x [= <-]. reflexivity. }
  apply pick_now in P. rewrite <- N1 in P. rewrite pick_rel in P by assumption. rewrite N1, E in P. unfold rel_expected in P.
  unfold w. rewrite (proj_rel n) by exact split_pre. cbn [view_table v_rel].
  destruct (get_relationship t1 (rel_name f)) as [f1|] eqn:F1, (get_relationship t2 (rel_name f)) as [f2|] eqn:F2; [destruct (rel_dec f1 f2)| | |];
    destruct (filter (pick n 4 (Some (rel_name f))) pre) as [|a [|b [|]]]; cbn [app] in P; try discriminate.
  - injection P as -> -> _. split; reflexivity.
  - injection P as -> _. split; reflexivity.
Qed.
Lemma column_now k : (exists c, (ch = ColumnAdded t1 c \/ ch = ColumnDropped t1 c \/ ch = ColumnModified t1 c) /\ column_name c = k) ->
  v_col w k = get_column t1 k /\ column_expected k t1 t2 = [ch].
Proof.
  intros (c & E & En). assert (P : pick n 5 (Some k) ch = true).
  { apply pick_true. unfold tname. rewrite split_own. split; [exact N1|]. destruct E as [->|[->| ->]]; (split; [reflexivity|]); intros x [= <-]; exact En. }
  apply pick_now in P. rewrite <- N1 in P. rewrite pick_column in P by assumption. rewrite N1 in P.
  unfold w. rewrite (proj_col n) by exact split_pre. cbn [view_table v_col].
  assert (L : length (column_expected k t1 t2) <= 1).
  { unfold column_expected. destruct (get_column t1 k), (get_column t2 k); try destruct (eq_str _ _); cbn [length]; lia. }
  destruct (filter (pick n 5 (Some k)) pre) as [|a l].
  - cbn [app] in P. split; [reflexivity|]. rewrite <- P in L |- *. destruct (filter (pick n 5 (Some k)) rest); [reflexivity | cbn [length] in L; lia].
  - rewrite <- P, app_length in L. cbn [length] in L. lia.
Qed.
Lemma split_apt c : ch = c -> apt (apply_changes pre v) c.
Proof.
  intros E. pose proof split_own as O. pose proof split_at as A. rewrite E in O. destruct c; try exact I; cbn [change_table] in O; subst t; cbn [apt]; rewrite N1, A.
  - eexists. split; [reflexivity|]. destruct (fk_dropped name E) as [H ->]. exact H.
  - eexists. split; [reflexivity|]. destruct (rel_dropped name E) as [H ->]. exact H.
Qed.

(** what must hold before the table is dealt with *)
Section Possible.
Hypothesis Fin : same_tview (fold_left tact (table_changes al t1 t2) (view_table t1)) (view_table t2).
Hypothesis Hpk : t_pk t2 = [] \/ t_pk t1 = t_pk t2.
Hypothesis Hsh : forall z l k, shard_of t2 = Some (z, l) -> In k l -> get_column t1 k <> None.
Hypothesis Hfrom : forall m f k, get_foreign_key t2 m = Some f -> In k (fk_from_keys f) -> get_column t1 k <> None.
Hypothesis Hto : forall m f, get_foreign_key t2 m = Some f ->
  exists u, v (fk_to_table f) = Some u /\ forall k, In k (fk_to_keys f) -> has_col u k.
Hypothesis Hrel : forall m r, get_relationship t2 m = Some r -> v (rel_to_table r) <> None.
Hypothesis Hnames : forall k, get_relationship t1 k <> None -> get_foreign_key t1 k = None /\ get_foreign_key t2 k = None.
Hypothesis Hdrop : forall k m u i f, get_column t1 k <> None -> get_column t2 k = None -> m <> n -> v m = Some u ->
  v_fk u i = Some f -> fk_to_table f = n -> ~ In k (fk_to_keys f).
Hypothesis Cpk : forall k, In k (t_pk t2) -> get_column t2 k <> None.
Hypothesis Csh : forall z l k, shard_of t2 = Some (z, l) -> In k l -> get_column t2 k <> None.
Hypothesis Cfk : forall m f k, get_foreign_key t2 m = Some f -> In k (fk_from_keys f) -> get_column t2 k <> None.
Hypothesis Cto : forall m f k, get_foreign_key t2 m = Some f -> fk_to_table f = n -> In k (fk_to_keys f) -> get_column t2 k <> None.

Lemma split_possible c : ch = c -> possible (apply_changes pre v) c.
Proof.
  intros E. pose proof split_own as O. pose proof split_at as A. rewrite E in O.
  assert (In0 : In c (table_changes al t1 t2)) by (rewrite Hl, E; apply in_app_iff; right; left; reflexivity).
  assert (K : kind c <> 0) by (apply (in_table_changes t1 t2 W1 W2 al c In0)).
  destruct c as [t|t|t pk|t|t z l|t|t f|t k|t r|t k|t cl|t cl|t cl]; cbn [change_table kind] in *; try congruence; subst t; cbn [possible change_table]; rewrite ?N1.
  - (* primary key added *)
    assert (P : In (PrimaryKeyAdded t1 pk) (pk_expected t1 t2)).
    { rewrite <- (pick_pk t1 t2 W1 W2 al). apply filter_In. split; [exact In0|]. unfold pick. cbn [tname change_table kind Nat.eqb]. unfold tname. cbn [change_table]. rewrite str_eqb_refl. reflexivity. }
    unfold pk_expected in P. destruct (list_eq_dec eq_str (t_pk t1) (t_pk t2)); [destruct P|]. destruct Hpk as [Hp|]; [|contradiction].
    rewrite Hp, app_nil_r in P. destruct (t_pk t1); [destruct P | destruct P as [P|[]]; discriminate].
  - (* primary key dropped *)
    rewrite A. eexists. split; [reflexivity|].
    assert (P : pick n 1 None ch = true) by (rewrite E; apply pick_true; repeat split; [exact N1 | discriminate]).
    apply pick_now in P. rewrite <- N1 in P. rewrite pick_pk in P by assumption. rewrite N1, E in P. unfold pk_expected in P.
    unfold w. rewrite (proj_pk n) by exact split_pre. cbn [view_table v_pk].
    destruct (list_eq_dec eq_str (t_pk t1) (t_pk t2)) as [|Np]; [destruct (filter (pick n 1 None) pre); discriminate|].
    destruct (t_pk t1) as [|a pk].
    + destruct (t_pk t2); [contradiction|]. destruct (filter (pick n 1 None) pre) as [|b [|]]; discriminate.
    + destruct (filter (pick n 1 None) pre) as [|b l]; [discriminate|]. exfalso. cbn [app] in P. injection P as _ P.
      destruct (t_pk t2); [destruct l; discriminate|]. destruct l as [|? [|]]; discriminate.
  - (* shard key added *)
    rewrite A. eexists. split; [reflexivity|].
    assert (P : In (ShardKeyAdded t1 z l) (shard_expected t1 t2)).
    { rewrite <- (pick_shard t1 t2 W1 W2 al). apply filter_In. split; [exact In0|]. apply pick_true. repeat split. discriminate. }
    assert (Es : shard_of t2 = Some (z, l)).
    { unfold shard_expected, shard_of in *. destruct (t_shard t1), (t_shard t2); try destruct (Nat.eq_dec _ _); cbn [In] in P;
        repeat (match type of P with _ \/ _ => destruct P as [P|P] | False => destruct P end); try discriminate; injection P as <- <-; reflexivity. }
    intros k Hk. unfold has_col. rewrite col_before by (rewrite E; cbn [kind]; lia). exact (Hsh z l k Es Hk).
  - rewrite A. discriminate.
  - (* foreign key added *)
    destruct (fk_added f E) as [F2 Fn]. destruct (Hto _ _ F2) as (u & Vu & Hu). rewrite A.
    assert (X : exists u', apply_changes pre v (fk_to_table f) = Some u' /\ forall k, In k (fk_to_keys f) -> has_col u' k).
    { destruct (eq_str (fk_to_table f) n) as [Et|Nt].
      - rewrite Et in *. rewrite A. eexists. split; [reflexivity|]. intros k Hk. unfold has_col. rewrite col_before by (rewrite E; cbn [kind]; lia).
        rewrite V1 in Vu. injection Vu as <-. exact (Hu k Hk).
      - rewrite split_other by exact Nt. exists u. auto. }
    destruct X as (u' & Vu' & Hu'). eexists. exists u'. split; [reflexivity|]. split; [exact Vu'|]. split.
    { intros k Hk. unfold has_col. rewrite col_before by (rewrite E; cbn [kind]; lia). exact (Hfrom _ _ k F2 Hk). }
    split; [exact Hu'|]. split; [|exact Fn]. apply (wf_paired _ W2). apply dvals_in. exists (fk_name f). apply dget_in, F2.
  - (* foreign key dropped *)
    destruct (fk_dropped k E) as [F1 Fk]. rewrite A. eexists. split; [reflexivity|]. split; [rewrite Fk; exact F1|].
    rewrite rel_before by (rewrite E; cbn [kind]; lia). destruct (get_relationship t1 k) as [r|] eqn:R; [|reflexivity].
    destruct (Hnames k); [congruence | contradiction].
  - (* relationship added *)
    destruct (rel_added r E) as [F2 Fn]. rewrite A. eexists. split; [reflexivity|]. split; [|exact Fn].
    destruct (eq_str (rel_to_table r) n) as [Et|Nt]; [rewrite Et, A; discriminate|]. rewrite split_other by exact Nt. exact (Hrel _ _ F2).
  - (* relationship dropped *)
    destruct (rel_dropped k E) as [F1 Fk]. rewrite A. eexists. split; [reflexivity|]. split; [rewrite Fk; exact F1|].
    rewrite (fk_after Fin) by (rewrite E; cbn [kind]; lia). apply Hnames, F1.
  - (* column added *)
    destruct (column_now (column_name cl)) as [Hc Hx]; [exists cl; auto|]. rewrite A. eexists. split; [reflexivity|]. rewrite Hc.
    unfold column_expected in Hx. rewrite E in Hx. destruct (get_column t1 (column_name cl)), (get_column t2 (column_name cl)); try reflexivity; try destruct (eq_str _ _); discriminate.
  - (* column dropped *)
    destruct (column_now (column_name cl)) as [Hc Hx]; [exists cl; auto|].
    assert (C1 : get_column t1 (column_name cl) <> None /\ get_column t2 (column_name cl) = None).
    { unfold column_expected in Hx. rewrite E in Hx. destruct (get_column t1 (column_name cl)), (get_column t2 (column_name cl)); try destruct (eq_str _ _); try discriminate. split; [discriminate | reflexivity]. }
    destruct C1 as [C1 C2]. rewrite A. eexists. split; [reflexivity|].
    assert (K3 : 3 < kind ch) by (rewrite E; cbn [kind]; lia).
    rewrite pk_after by (try exact Fin; lia). rewrite shard_after by (try exact Fin; lia).
    split; [unfold has_col; rewrite Hc; exact C1|]. split; [intros I; exact (Cpk _ I C2)|]. split; [intros z l Es I; exact (Csh z l _ Es I C2)|].
    split; [intros m f F I; rewrite (fk_after Fin) in F by exact K3; exact (Cfk m f _ F I C2)|].
    intros m u i f Vm F Et I. destruct (eq_str m n) as [->|Nm].
    + rewrite A in Vm. injection Vm as <-. rewrite (fk_after Fin) in F by exact K3. exact (Cto i f _ F Et I C2).
    + rewrite split_other in Vm by exact Nm. exact (Hdrop _ m u i f C1 C2 Nm Vm F Et I).
  - (* column modified *)
    destruct (column_now (column_name cl)) as [Hc Hx]; [exists cl; auto|]. rewrite A. eexists. split; [reflexivity|]. unfold has_col. rewrite Hc.
    unfold column_expected in Hx. rewrite E in Hx. destruct (get_column t1 (column_name cl)), (get_column t2 (column_name cl)); discriminate.
Qed.
End Possible.
End Split.
End Table.

(** ** Table after table *)
Lemma names_ss {A} (a b : dict A) : NoDup (dkeys a) -> NoDup (dkeys b) -> SS (names a b).
Proof. intros. apply mu_sorted; apply sorted_strict; assumption. Qed.
Lemma ss_split k1 k k2 : SS (k1 ++ k :: k2) -> (forall m, In m k1 -> str_lt m k) /\ (forall m, In m k2 -> str_lt k m).
Proof.
  induction k1 as [|a k1 IH]; intros S; cbn [app] in S.
  - split; [intros m [] | intros m Hm; exact (ss_head _ _ S m Hm)].
  - destruct (IH (ss_tail _ _ S)) as [A B]. split; [|exact B]. intros m [<-|Hm]; [|exact (A m Hm)].
    apply (ss_head _ _ S). apply in_app_iff. right. left. reflexivity.
Qed.
Lemma col_in t k : get_column t k <> None <-> In k (get_column_names t).
Proof. unfold get_column, get_column_names. rewrite dget_some_in. destruct (dget k (t_cols t)); split; intros H; [eauto | discriminate | contradiction | destruct H; discriminate]. Qed.
Lemma forall2_l {A B} (P : A -> B -> Prop) l1 l2 : Forall2 P l1 l2 -> forall x, In x l1 -> exists y, P x y.
Proof. induction 1 as [|a b l1 l2 H _ IH]; intros x []; [subst; eauto | auto]. Qed.
Lemma forall2_r {A B} (P : A -> B -> Prop) l1 l2 : Forall2 P l1 l2 -> forall y, In y l2 -> exists x, P x y.
Proof. induction 1 as [|a b l1 l2 H _ IH]; intros x []; [subst; eauto | auto]. Qed.

Definition shard_dec (a b : option (Z * list str)) : {a = b} + {a <> b}.
Proof. decide equality. decide equality; [apply list_eq_dec, eq_str | apply Z.eq_dec]. Defined.
Definition fk_dec (a b : option foreign_key) : {a = b} + {a <> b}.
Proof. decide equality. decide equality; first [apply list_eq_dec, eq_str | apply eq_str]. Defined.
Definition orel_dec (a b : option relationship) : {a = b} + {a <> b}.
Proof. decide equality. apply rel_dec. Defined.
Section Database.
Variables (d1 d2 : database) (al : foreign_key -> foreign_key -> bool).
Hypothesis W1 : well_formed d1.
Hypothesis W2 : well_formed d2.
Section Turn.
Variables (k1 k2 : list str) (n : str).
Hypothesis Hk : names (db_tables d1) (db_tables d2) = k1 ++ n :: k2.
Let v := apply_changes (flat_map (entry_changes al d1 d2) k1) (view d1).
Lemma turn_ss : (forall m, In m k1 -> str_lt m n) /\ (forall m, In m k2 -> str_lt n m).
Proof. apply ss_split. rewrite <- Hk. apply names_ss; [apply (wf_names _ W1) | apply (wf_names _ W2)]. Qed.
Lemma turn_nodup : NoDup k1.
Proof.
  assert (D : NoDup (k1 ++ n :: k2)). { rewrite <- Hk. apply DiffFacts.names_nodup; [apply (wf_names _ W1) | apply (wf_names _ W2)]. }
  clear -D. induction k1 as [|a l IH]; [constructor|]. inversion D as [|? ? N D']; subst. constructor; [|exact (IH D')]. intros I. apply N, in_app_iff. auto.
Qed.
Lemma turn_later m : ~ In m k1 -> v m = view d1 m.
Proof.
  intros N. unfold v. rewrite apply_at, filter_none; [reflexivity|]. intros c Hc. apply in_flat_map in Hc. destruct Hc as (k & Ik & Ic).
  apply entry_tname in Ic; [|assumption..]. apply str_eqb_neq. congruence.
Qed.
Lemma turn_now : v n = view d1 n.
Proof. apply turn_later. intros I. apply turn_ss in I. unfold str_lt in I. rewrite str_ltb_irrefl in I. discriminate. Qed.
Lemma turn_earlier m : In m k1 -> v m = apply_changes (db_changes al d1 d2) (view d1) m.
Proof.
  intros I. unfold v. rewrite !apply_at, named_entry by assumption. f_equal. rewrite (DiffFacts.filter_flat_map _ _ _ m).
  - apply filter_all. intros c Hc. apply entry_tname in Hc; [|assumption..]. apply str_eqb_eq, Hc.
  - apply turn_nodup.
  - intros k N. apply filter_none. intros c Hc. apply entry_tname in Hc; [|assumption..]. apply str_eqb_neq. congruence.
  - contradiction.
Qed.
End Turn.
Lemma db_apt : each_apt (view d1) (db_changes al d1 d2).
Proof.
  apply each_apt_each. unfold db_changes. apply each_flat. intros k1 n k2 Hk. pose proof (turn_now k1 k2 n Hk) as V.
  unfold view at 2 in V. unfold entry_changes at 2. destruct (get_table d1 n) as [t1|] eqn:T1, (get_table d2 n) as [t2|] eqn:T2; cbn [table_expected in_both app each apt]; try tauto.
  apply each_split. intros pre ch rest E. apply (split_apt n t1 t2 _ al (get_table_wf _ _ _ W1 T1) (get_table_wf _ _ _ W2 T2) (proj2 (wf_names _ W1) _ _ T1) V pre rest ch E ch eq_refl).
Qed.

Hypothesis K1 : consistent_db d1.
Hypothesis K2 : consistent_db d2.
Hypothesis Hfk : common_fks d1 d2 (fun f1 f2 => al f1 f2 = true -> f1 = f2).
Hypothesis Hsh : shard_objects d1 d2.
Hypothesis Hnew : forall n t, get_table d1 n = None -> get_table d2 n = Some t -> t_fks t = [] /\ t_rels t = [].
Hypothesis Ab : alterable d1 d2.

Lemma consistent_at d n t : consistent_db d -> get_table d n = Some t -> consistent d t.
Proof using. intros K T. apply K. apply dvals_in. exists n. apply dget_in, T. Qed.
Lemma fk_at d n t m f : consistent_db d -> get_table d n = Some t -> get_foreign_key t m = Some f ->
  (forall k, In k (fk_from_keys f) -> get_column t k <> None)
  /\ exists u, get_table d (fk_to_table f) = Some u /\ forall k, In k (fk_to_keys f) -> get_column u k <> None.
Proof using.
  intros K T F. assert (If : In f (foreign_keys_iter t)) by (apply dvals_in; exists m; apply dget_in, F).
  destruct (ok_fks _ _ (consistent_at d n t K T) f If) as (u & U & _ & P). split.
  - intros k Hk. destruct (forall2_l _ _ _ P k Hk) as (y & fc & tc & -> & _). discriminate.
  - exists u. split; [exact U|]. intros k Hk. destruct (forall2_r _ _ _ P k Hk) as (y & fc & tc & _ & -> & _). discriminate.
Qed.
Lemma rel_at d n t m r : consistent_db d -> get_table d n = Some t -> get_relationship t m = Some r -> get_table d (rel_to_table r) <> None.
Proof using.
  intros K T F. assert (Ir : In r (relationships_iter t)) by (apply dvals_in; exists m; apply dget_in, F).
  destruct (ok_rels _ _ (consistent_at d n t K T) r Ir) as [_ I]. unfold get_table_names in I. apply dget_some_in in I. destruct I as [x I]. unfold get_table. congruence.
Qed.
Lemma shard_at d n t z l k : consistent_db d -> get_table d n = Some t -> shard_of t = Some (z, l) -> In k l -> get_column t k <> None.
Proof using.
  intros K T E I. unfold shard_of in E. destruct (t_shard t) as [sk|] eqn:S; [|discriminate]. injection E as <- <-.
  apply col_in. apply (ok_shard _ _ (consistent_at d n t K T) sk S k I).
Qed.
Lemma col_names_iter t : well_formed_table t -> map column_name (table_iter t) = get_column_names t.
Proof using. intros W. apply dict_vals_name; [apply (wf_cols _ W) | intros k c; apply (wf_cols _ W)]. Qed.
Lemma db_possible : each_possible (view d1) (db_changes al d1 d2).
Proof.
  pose proof (apply_same d1 d2 W1 W2 al Hfk Hsh Hnew) as Fin.
  apply each_possible_each. unfold db_changes. apply each_flat. intros k1 n k2 Hk. pose proof (turn_now k1 k2 n Hk) as V.
  pose proof (turn_ss k1 k2 n Hk) as [L1 L2]. pose proof (turn_earlier k1 k2 n Hk) as Earlier. pose proof (turn_later k1) as Later.
  set (v := apply_changes (flat_map (entry_changes al d1 d2) k1) (view d1)) in *.
  (* the view of a table that was dealt with *)
  assert (Done : forall m u, In m k1 -> get_table d2 m = Some u -> exists w, v m = Some w /\ same_tview w (view_table u)).
  { intros m u I T. rewrite (Earlier m I). specialize (Fin m). assert (F2 : view d2 m = Some (view_table u)) by (unfold view; rewrite T; reflexivity). rewrite F2 in Fin.
    destruct (apply_changes (db_changes al d1 d2) (view d1) m) as [w|]; [|contradiction]. exists w. auto. }
  assert (Where : forall m, get_table d1 m <> None \/ get_table d2 m <> None -> In m k1 \/ m = n \/ In m k2).
  { intros m H. assert (I : In m (names (db_tables d1) (db_tables d2))) by (apply names_in; exact H). rewrite Hk in I. apply in_app_iff in I.
    destruct I as [I|[I|I]]; auto. }
  assert (Before : forall m, str_lt m n -> get_table d2 m <> None -> In m k1).
  { intros m L T. destruct (Where m) as [I|[->|I]]; [auto | exact I | |].
    - unfold str_lt in L. rewrite str_ltb_irrefl in L. discriminate.
    - apply L2 in I. unfold str_lt in *. rewrite (str_ltb_asym _ _ L) in I. discriminate. }
  unfold view at 1 in V. unfold entry_changes. destruct (get_table d1 n) as [t1|] eqn:T1, (get_table d2 n) as [t2|] eqn:T2; cbn [table_expected in_both app each option_map] in *; try tauto.
  - apply each_split. intros pre ch rest E.
    pose proof (get_table_wf _ _ _ W1 T1) as X1. pose proof (get_table_wf _ _ _ W2 T2) as X2.
    apply (split_possible n t1 t2 v al X1 X2 (proj2 (wf_names _ W1) _ _ T1) V pre rest ch E); try reflexivity.
    + exact (apply_entry d1 d2 W1 W2 al Hfk Hsh n t1 t2 T1 T2).
    + exact (ab_pk _ _ Ab n t1 t2 T1 T2).
    + intros z l k Es I. destruct (shard_dec (shard_of t1) (shard_of t2)) as [Eq|Ne].
      * rewrite <- Eq in Es. exact (shard_at d1 n t1 z l k K1 T1 Es I).
      * exact (ab_shard _ _ Ab n t1 t2 z l k T1 T2 Es Ne I).
    + intros m f k F I. destruct (fk_dec (get_foreign_key t1 m) (Some f)) as [Eq|Ne].
      * exact (proj1 (fk_at d1 n t1 m f K1 T1 Eq) k I).
      * exact (ab_from _ _ Ab n t1 t2 m f k T1 T2 F Ne I).
    + intros m f F. destruct (fk_at d2 n t2 m f K2 T2 F) as (_ & u2 & U2 & C2).
      assert (D : In (fk_to_table f) k1 -> exists u, v (fk_to_table f) = Some u /\ forall k, In k (fk_to_keys f) -> has_col u k).
      { intros I. destruct (Done _ _ I U2) as (w & Vw & Sw). exists w. split; [exact Vw|]. intros k Ik. unfold has_col. destruct Sw as (Sc & _). rewrite Sc. exact (C2 k Ik). }
      destruct (in_dec eq_str (fk_to_table f) k1) as [I|I]; [exact (D I)|].
      assert (G : forall u1, get_table d1 (fk_to_table f) = Some u1 -> (forall k, In k (fk_to_keys f) -> get_column u1 k <> None) ->
        exists u, v (fk_to_table f) = Some u /\ forall k, In k (fk_to_keys f) -> has_col u k).
      { intros u1 U1 C1. rewrite (Later _ I). unfold view. rewrite U1. eexists. split; [reflexivity|]. exact C1. }
      destruct (fk_dec (get_foreign_key t1 m) (Some f)) as [Eq|Ne].
      * destruct (fk_at d1 n t1 m f K1 T1 Eq) as (_ & u1 & U1 & C1). exact (G u1 U1 C1).
      * destruct (ab_to _ _ Ab n t1 t2 m f T1 T2 F Ne) as [L|(u1 & U1 & C1)]; [|exact (G u1 U1 C1)].
        destruct I. apply Before; [exact L | congruence].
    + intros m r F. pose proof (rel_at d2 n t2 m r K2 T2 F) as U2.
      destruct (in_dec eq_str (rel_to_table r) k1) as [I|I].
      * destruct (get_table d2 (rel_to_table r)) as [u2|] eqn:U; [|contradiction]. destruct (Done _ _ I U) as (w & -> & _). discriminate.
      * rewrite (Later _ I). unfold view. assert (get_table d1 (rel_to_table r) <> None) as X; [|destruct (get_table d1 (rel_to_table r)); [discriminate | contradiction]].
        destruct (orel_dec (get_relationship t1 m) (Some r)) as [Eq|Ne]; [exact (rel_at d1 n t1 m r K1 T1 Eq)|].
        destruct (ab_rel _ _ Ab n t1 t2 m r T1 T2 F Ne) as [L|X]; [|exact X]. destruct I. apply Before; assumption.
    + intros k. exact (ab_names _ _ Ab n t1 t2 k T1 T2).
    + intros k m u i f C1 C2 Nm Vm F Et I. destruct (in_dec eq_str m k1) as [Im|Im].
      * assert (T : exists t, get_table d2 m = Some t /\ same_tview u (view_table t)).
        { rewrite (Earlier m Im) in Vm. specialize (Fin m). rewrite Vm in Fin. unfold view in Fin. destruct (get_table d2 m) as [t|]; [|contradiction]. exists t. auto. }
        destruct T as (t & T & (_ & _ & _ & Sf & _)). rewrite Sf in F. destruct (fk_at d2 m t i f K2 T F) as (_ & u2 & U2 & H2). rewrite Et in U2.
        assert (u2 = t2) by congruence. subst u2. exact (H2 k I C2).
      * rewrite (Later m Im) in Vm. unfold view in Vm. destruct (get_table d1 m) as [t|] eqn:T; [|discriminate]. injection Vm as <-.
        destruct (Where m) as [?|[?|I2]]; [left; congruence | contradiction | contradiction|]. apply L2 in I2.
        exact (ab_drop _ _ Ab n t1 t2 k m t i f T1 T2 C1 C2 I2 T F Et I).
    + intros k I. apply col_in. exact (ok_pk _ _ (consistent_at d2 n t2 K2 T2) k I).
    + intros z l k Es I. exact (shard_at d2 n t2 z l k K2 T2 Es I).
    + intros m f k F I. exact (proj1 (fk_at d2 n t2 m f K2 T2 F) k I).
    + intros m f k F Et I. destruct (fk_at d2 n t2 m f K2 T2 F) as (_ & u2 & U2 & H2). rewrite Et in U2. assert (u2 = t2) by congruence. subst u2. exact (H2 k I).
  - split; exact I.
  - split; [|exact I]. cbn [possible change_table]. rewrite (proj2 (wf_names _ W2) _ _ T2). pose proof (get_table_wf _ _ _ W2 T2) as X2.
    split; [exact V|]. rewrite (col_names_iter t2 X2). split; [apply (wf_cols _ X2)|].
    split; [intros k I; exact (ok_pk _ _ (consistent_at d2 n t2 K2 T2) k I)|].
    intros z l Es k I. apply col_in. exact (shard_at d2 n t2 z l k K2 T2 Es I).
Qed.
End Database.
