(** * Lemmas for C97 *)
From Verif Require Import SpecReport StrFacts DiffFacts DiffProps OccFacts.
From Coq Require Import List Bool. Import ListNotations.

(** ** A line tells the table and the report *)
Definition report_of (c : change) : report :=
  match c with
  | TableCreated _ => IsCreated | TableDropped _ => IsDropped
  | ColumnAdded _ _ => ColumnsAdded | ColumnDropped _ _ => ColumnsDropped | ColumnModified _ _ => ColumnsModified
  | PrimaryKeyAdded _ _ => KeyAdded | PrimaryKeyDropped _ => KeyDropped
  | ShardKeyAdded _ _ _ => HashAdded | ShardKeyDropped _ => HashDropped
  | ForeignKeyAdded _ _ => ForeignAdded | ForeignKeyDropped _ _ => ForeignDropped
  | RelationshipAdded _ _ => GenericAdded | RelationshipDropped _ _ => GenericDropped
  end.
Lemma repr_line db c : diff_repr {| diff_db := db; diff_change := c |} = report_line db (t_schema (change_table c)) (tname c) (report_of c).
Proof.
  unfold diff_repr, report_line, tname. cbn [diff_db diff_change]. cbn zeta. do 5 f_equal. destruct c; reflexivity.
Qed.
Definition all_reports : list report :=
  [IsCreated; IsDropped; ColumnsAdded; ColumnsDropped; ColumnsModified; KeyAdded; KeyDropped; HashAdded; HashDropped; ForeignAdded; ForeignDropped; GenericAdded; GenericDropped].
Definition decode (s : str) : option report := find (fun r => str_eqb (wording r) s) all_reports.
Lemma decode_wording r : decode (wording r) = Some r.
Proof. destruct r; vm_compute; reflexivity. Qed.
Lemma last_char (c : ascii) a b a' b' : ~ In c b -> ~ In c b' -> a ++ c :: b = a' ++ c :: b' -> a = a' /\ b = b'.
Proof.
  intros N N'. revert a'. induction a as [|x a IH]; intros [|x' a'] E; cbn [app] in E.
  - injection E as ->. auto.
  - injection E as <- E. exfalso. apply N. rewrite E. apply in_or_app. right. left. reflexivity.
  - injection E as -> E. exfalso. apply N'. rewrite <- E. apply in_or_app. right. left. reflexivity.
  - injection E as -> E. destruct (IH _ E) as [-> ->]. auto.
Qed.
Lemma wording_open r : exists w, wording r = "("%char :: w /\ ~ In "("%char w.
Proof. destruct r; (eexists; split; [reflexivity|]; apply not_in_b; reflexivity). Qed.
Lemma name_wording n r n' r' : n ++ $" " ++ wording r = n' ++ $" " ++ wording r' -> n = n' /\ r = r'.
Proof.
  destruct (wording_open r) as (w & Ew & Nw), (wording_open r') as (w' & Ew' & Nw'). intros E.
  assert (E2 : (n ++ $" ") ++ "("%char :: w = (n' ++ $" ") ++ "("%char :: w') by (rewrite <- !app_assoc, <- Ew, <- Ew'; exact E).
  destruct (last_char _ _ _ _ _ Nw Nw' E2) as [A ->]. apply app_inv_tail in A. split; [exact A|].
  pose proof (decode_wording r) as D. rewrite Ew, <- Ew', decode_wording in D. congruence.
Qed.
Lemma first_char (c : ascii) a b a' b' : ~ In c a -> ~ In c a' -> a ++ c :: b = a' ++ c :: b' -> a = a' /\ b = b'.
Proof.
  revert a'. induction a as [|x a IH]; intros [|x' a'] N N' E; cbn [app] in E.
  - injection E as ->. auto.
  - injection E as <- _. exfalso. apply N'. left. reflexivity.
  - injection E as -> _. exfalso. apply N. left. reflexivity.
  - injection E as -> E. destruct (IH a') as [-> ->]; [intros X; apply N; right; exact X | intros X; apply N'; right; exact X | exact E|]. auto.
Qed.

(** ** Counting *)
Lemma count_filter {A} (f : A -> str) x l : count_occ eq_str (map f l) x = length (filter (fun a => str_eqb (f a) x) l).
Proof.
  induction l as [|a l IH]; [reflexivity|]. cbn [map count_occ filter]. destruct (eq_str (f a) x) as [E|N].
  - rewrite E, str_eqb_refl. cbn [length]. rewrite IH. reflexivity.
  - destruct (str_eqb_spec (f a) x) as [E|_]; [contradiction | exact IH].
Qed.
Lemma how_many_same p l1 l2 : NoDup l1 -> NoDup l2 -> (forall k, p k = true -> In k l1 <-> In k l2) -> how_many p l1 = how_many p l2.
Proof.
  intros N1 N2 H. unfold how_many. apply Permutation_length, NoDup_Permutation; [apply NoDup_filter, N1 | apply NoDup_filter, N2|].
  intros k. rewrite !filter_In. split; intros [I P]; (split; [apply (H k P), I | exact P]).
Qed.
Lemma filter_flat {A} (q : A -> bool) (f : str -> list A) (p : str -> bool) l :
  (forall k, length (filter q (f k)) = once (p k)) -> length (filter q (flat_map f l)) = how_many p l.
Proof.
  intros H. induction l as [|k l IH]; [reflexivity|]. cbn [flat_map]. rewrite filter_app, app_length, IH, H. unfold how_many. cbn [filter].
  destruct (p k); reflexivity.
Qed.
Lemma how_many_ext p q l : (forall k, In k l -> p k = q k) -> how_many p l = how_many q l.
Proof. intros H. unfold how_many. rewrite (filter_ext_in _ _ _ H). reflexivity. Qed.

Definition report_dec (a b : report) : {a = b} + {a <> b}.
Proof. decide equality. Defined.
Definition says_r (r : report) (c : change) : bool := if report_dec (report_of c) r then true else false.
Lemma says_kind r c : says_r r c = true -> report_of c = r.
Proof. unfold says_r. destruct (report_dec _ _); [auto | discriminate]. Qed.
Definition kind_of (r : report) : nat :=
  match r with
  | IsCreated | IsDropped => 0 | KeyAdded | KeyDropped => 1 | HashAdded | HashDropped => 2 | ForeignAdded | ForeignDropped => 3
  | GenericAdded | GenericDropped => 4 | ColumnsAdded | ColumnsDropped | ColumnsModified => 5 end.
Lemma kind_report c : kind c = kind_of (report_of c).
Proof. destruct c; reflexivity. Qed.
Lemma other_kind r l kd : (forall c, In c l -> kind c = kd) -> kind_of r <> kd -> filter (says_r r) l = [].
Proof.
  intros H N. apply filter_none. intros c I. destruct (says_r r c) eqn:E; [|reflexivity]. apply says_kind in E. exfalso. apply N.
  rewrite <- E, <- kind_report. apply H, I.
Qed.

Section Table.
Variables t1 t2 : table.
Hypothesis W1 : well_formed_table t1.
Hypothesis W2 : well_formed_table t2.
Variable al : foreign_key -> foreign_key -> bool.

Lemma named_keys {A} (name : A -> str) (D : dict A) : NoDup (dkeys D) -> (forall k v, dget k D = Some v -> name v = k) -> map name (dvals D) = dkeys D.
Proof using.
  intros N H. unfold dvals, dkeys. rewrite map_map. apply map_ext_in. intros [k v] I. cbn [fst snd]. apply H, dget_nodup; assumption.
Qed.
Lemma in_keys {A} k (D : dict A) : In k (dkeys D) <-> dget k D <> None.
Proof using. pose proof (dget_none k D) as H. split; [intros I E; apply H in E; contradiction|]. intros N. destruct (in_dec eq_str k (dkeys D)) as [I|I]; [exact I|]. apply H in I. contradiction. Qed.
Lemma get_table_in d n t : get_table d n = Some t -> In t (db_iter d).
Proof using. intros G. apply dget_in in G. unfold db_iter, dvals. apply in_map_iff. exists (n, t). auto. Qed.
Lemma fks_names t : well_formed_table t -> map fk_name (foreign_keys_iter t) = dkeys (t_fks t).
Proof using. intros W. destruct (wf_fks _ W). apply named_keys; assumption. Qed.
Lemma rels_names t : well_formed_table t -> map rel_name (relationships_iter t) = dkeys (t_rels t).
Proof using. intros W. destruct (wf_rels _ W). apply named_keys; assumption. Qed.

Lemma table_due r : length (filter (says_r r) (table_changes al t1 t2)) = reports_due al same_object r (Some t1) (Some t2).
Proof.
  unfold table_changes. rewrite !filter_app, !app_length.
  assert (Z : forall l kd, (forall c, In c l -> kind c = kd) -> kind_of r <> kd -> length (filter (says_r r) l) = 0) by (intros l kd A B; rewrite (other_kind r l kd A B); reflexivity).
  assert (K1 : forall c, In c (pk_expected t1 t2) -> kind c = 1) by (intros c I; apply (in_pk_expected t1 t2), I).
  assert (K2 : forall c, In c (shard_expected t1 t2) -> kind c = 2) by (intros c I; apply (in_shard_expected t1 t2), I).
  set (F := flat_map (fun k => fk_expected al k t1 t2) _). set (R := flat_map (fun k => rel_expected k t1 t2) _). set (C := flat_map (fun k => column_expected k t1 t2) _).
  assert (K3 : forall c, In c F -> kind c = 3) by (intros c I; apply (fks_kind t1 t2 W2 _ _ _ I)).
  assert (K4 : forall c, In c R -> kind c = 4) by (intros c I; apply (rels_kind t1 t2 W2 _ _ I)).
  assert (K5 : forall c, In c C -> kind c = 5) by (intros c I; apply (cols_kind t1 t2 W1 W2 _ _ I)).
  destruct (wf_cols _ W1) as [N1 Q1], (wf_cols _ W2) as [N2 Q2], (wf_fks _ W1) as [M1 _], (wf_fks _ W2) as [M2 _], (wf_rels _ W1) as [L1 _], (wf_rels _ W2) as [L2 _].
  destruct r; cbn [kind_of] in Z; cbn [reports_due];
    rewrite ?(Z _ _ K1), ?(Z _ _ K2), ?(Z _ _ K3), ?(Z _ _ K4), ?(Z _ _ K5) by discriminate; rewrite ?Nat.add_0_r; cbn [Nat.add]; try reflexivity.
  - unfold C. rewrite (filter_flat _ _ (fun k => negb (has_column t1 k) && has_column t2 k)).
    + rewrite (how_many_same _ _ (get_column_names t2)).
      * apply how_many_ext. intros k I. apply in_keys in I. unfold has_column, dmem. destruct (dget k (t_cols t2)); [apply andb_true_r | congruence].
      * apply names_nodup; assumption.
      * exact N2.
      * intros k H. apply andb_true_iff in H. destruct H as [_ H]. unfold has_column, dmem in H. rewrite names_in. unfold get_column_names. rewrite in_keys. destruct (dget k (t_cols t2)); [|discriminate]. split; [congruence | intros; right; congruence].
    + intros k. unfold column_expected, get_column, has_column, dmem. destruct (dget k (t_cols t1)) as [c1|], (dget k (t_cols t2)) as [c2|]; try reflexivity. destruct (eq_str _ _); reflexivity.
  - unfold C. rewrite (filter_flat _ _ (fun k => negb (has_column t2 k) && has_column t1 k)).
    + rewrite (how_many_same _ _ (get_column_names t1)).
      * apply how_many_ext. intros k I. apply in_keys in I. unfold has_column, dmem. destruct (dget k (t_cols t1)); [apply andb_true_r | congruence].
      * apply names_nodup; assumption.
      * exact N1.
      * intros k H. apply andb_true_iff in H. destruct H as [_ H]. unfold has_column, dmem in H. rewrite names_in. unfold get_column_names. rewrite in_keys. destruct (dget k (t_cols t1)); [|discriminate]. split; [congruence | intros; left; congruence].
    + intros k. unfold column_expected, get_column, has_column, dmem. destruct (dget k (t_cols t1)) as [c1|], (dget k (t_cols t2)) as [c2|]; try reflexivity. destruct (eq_str _ _); reflexivity.
  - unfold C. rewrite (filter_flat _ _ (retyped t1 t2)).
    + apply how_many_same; [apply names_nodup; assumption | exact N1|]. intros k H. rewrite names_in. unfold get_column_names. rewrite in_keys.
      unfold retyped, get_column in H. destruct (dget k (t_cols t1)); [|discriminate]. split; [congruence | intros; left; congruence].
    + intros k. unfold column_expected, retyped. destruct (get_column t1 k) as [c1|], (get_column t2 k) as [c2|]; try reflexivity. destruct (eq_str _ _); reflexivity.
  - unfold pk_expected, same_pk. destruct (list_eq_dec _ _ _); [reflexivity|]. destruct (t_pk t1), (t_pk t2); reflexivity.
  - unfold pk_expected, same_pk. destruct (list_eq_dec _ _ _); [reflexivity|]. destruct (t_pk t1), (t_pk t2); reflexivity.
  - unfold shard_expected, same_object. destruct (t_shard t1), (t_shard t2); try reflexivity. destruct (Nat.eq_dec _ _); reflexivity.
  - unfold shard_expected. destruct (t_shard t1), (t_shard t2); try reflexivity. destruct (Nat.eq_dec _ _); reflexivity.
  - unfold F. rewrite (filter_flat _ _ (lacks_fk al t1 t2)), (fks_names t2 W2).
    + apply how_many_same; [apply names_nodup; assumption | exact M2|]. intros k H. rewrite names_in, in_keys.
      unfold lacks_fk, get_foreign_key in H. destruct (dget k (t_fks t2)); [|destruct (dget k (t_fks t1)); discriminate]. split; [congruence | intros; right; congruence].
    + intros k. unfold fk_expected, lacks_fk. destruct (get_foreign_key t1 k) as [c1|], (get_foreign_key t2 k) as [c2|]; try reflexivity. destruct (al _ _); reflexivity.
  - unfold F. rewrite (filter_flat _ _ (loses_fk al t1 t2)), (fks_names t1 W1).
    + apply how_many_same; [apply names_nodup; assumption | exact M1|]. intros k H. rewrite names_in, in_keys.
      unfold loses_fk, get_foreign_key in H. destruct (dget k (t_fks t1)); [|discriminate]. split; [congruence | intros; left; congruence].
    + intros k. unfold fk_expected, loses_fk. destruct (get_foreign_key t1 k) as [c1|], (get_foreign_key t2 k) as [c2|]; try reflexivity. destruct (al _ _); reflexivity.
  - unfold R. rewrite (filter_flat _ _ (lacks_rel t1 t2)), (rels_names t2 W2).
    + apply how_many_same; [apply names_nodup; assumption | exact L2|]. intros k H. rewrite names_in, in_keys.
      unfold lacks_rel, get_relationship in H. destruct (dget k (t_rels t2)); [|destruct (dget k (t_rels t1)); discriminate]. split; [congruence | intros; right; congruence].
    + intros k. unfold rel_expected, lacks_rel. destruct (get_relationship t1 k) as [c1|], (get_relationship t2 k) as [c2|]; try reflexivity. destruct (rel_dec _ _); reflexivity.
  - unfold R. rewrite (filter_flat _ _ (lacks_rel t2 t1)), (rels_names t1 W1).
    + apply how_many_same; [apply names_nodup; assumption | exact L1|]. intros k H. rewrite names_in, in_keys.
      unfold lacks_rel, get_relationship in H. destruct (dget k (t_rels t1)); [|destruct (dget k (t_rels t2)); discriminate]. split; [congruence | intros; left; congruence].
    + intros k. unfold rel_expected, lacks_rel. destruct (get_relationship t1 k) as [c1|], (get_relationship t2 k) as [c2|]; try reflexivity.
      destruct (rel_dec c1 c2), (rel_dec c2 c1); try reflexivity; exfalso; congruence.
Qed.
End Table.

Section Dbs.
Variables d1 d2 : database.
Hypothesis W1 : well_formed d1.
Hypothesis W2 : well_formed d2.
Variable al : foreign_key -> foreign_key -> bool.
(** the tables whose printed names could be meant *)
Definition clear_name (schema n : str) : Prop :=
  forall t, In t (db_iter d1) \/ In t (db_iter d2) -> forall n', t_schema t ++ $"." ++ n' = schema ++ $"." ++ n -> t_schema t = schema.

Lemma change_in c : In c (db_changes al d1 d2) -> In (change_table c) (db_iter d1) \/ In (change_table c) (db_iter d2).
Proof.
  unfold db_changes. rewrite in_flat_map. intros (n & _ & I). unfold entry_changes in I. apply in_app_or in I.
  destruct (get_table d1 n) as [t1|] eqn:E1, (get_table d2 n) as [t2|] eqn:E2; cbn [table_expected in_both In] in I; destruct I as [I|I];
    try (destruct I as [<-|[]]; cbn [change_table]; first [left; apply (get_table_in d1 n _ E1) | right; apply (get_table_in d2 n _ E2)]); try destruct I.
  apply in_table_changes in I; [|apply (get_table_wf d1 n); assumption | apply (get_table_wf d2 n); assumption]. destruct I as [-> _]. left. apply (get_table_in d1 n _ E1).
Qed.
Lemma lines_counted db schema n r : clear_name schema n ->
  times (report_line db schema n r) (map diff_repr (tag db (db_changes al d1 d2))) = lines_due al same_object schema r (get_table d1 n) (get_table d2 n).
Proof.
  intros CN. unfold times, tag. rewrite map_map, count_filter.
  set (p := fun c => str_eqb (tname c) n && (str_eqb (t_schema (change_table c)) schema && says_r r c)).
  rewrite (filter_ext_in _ p).
  - rewrite (pick_name d1 d2 W1 W2 al p n) by (intros c H; unfold p in H; apply andb_true_iff in H; destruct H as [H _]; apply str_eqb_eq, H).
    assert (D : forall l, (forall c, In c l -> tname c = n) -> length (filter p l) = length (filter (fun c => str_eqb (t_schema (change_table c)) schema && says_r r c) l)).
    { intros l H. f_equal. apply filter_ext_in. intros c I. unfold p. rewrite (H c I), str_eqb_refl. reflexivity. }
    rewrite D by (intros c I; apply (entry_tname d1 d2 W1 W2 al n c I)). clear D.
    assert (E : forall l t, (forall c, In c l -> change_table c = t) -> length (filter (fun c => str_eqb (t_schema (change_table c)) schema && says_r r c) l)
                = if eq_str (t_schema t) schema then length (filter (says_r r) l) else 0).
    { intros l t H. destruct (eq_str (t_schema t) schema) as [Es|Ns].
      - f_equal. apply filter_ext_in. intros c I. rewrite (H c I), Es, str_eqb_refl. reflexivity.
      - rewrite filter_none; [reflexivity|]. intros c I. rewrite (H c I). destruct (str_eqb_spec (t_schema t) schema); [contradiction | reflexivity]. }
    unfold entry_changes, lines_due. destruct (get_table d1 n) as [t1|] eqn:E1, (get_table d2 n) as [t2|] eqn:E2; cbn [table_expected in_both app]; rewrite ?app_nil_r.
    + pose proof (get_table_wf d1 n t1 W1 E1) as Wt1. pose proof (get_table_wf d2 n t2 W2 E2) as Wt2.
      rewrite (E _ t1) by (intros c I; apply (in_table_changes t1 t2 Wt1 Wt2 al c I)). rewrite table_due by assumption. reflexivity.
    + rewrite (E _ t1) by (intros c [<-|[]]; reflexivity). destruct r; reflexivity.
    + rewrite (E _ t2) by (intros c [<-|[]]; reflexivity). destruct r; reflexivity.
    + reflexivity.
  - intros c I. rewrite repr_line. unfold p, report_line. apply eq_iff_eq_true. rewrite !andb_true_iff, !str_eqb_eq. split.
    + intros E. do 2 apply app_inv_head in E.
      assert (S : t_schema (change_table c) = schema).
      { destruct (wording_open r) as (w & Ew & Nw), (wording_open (report_of c)) as (w' & Ew' & Nw').
        assert (E2 : (t_schema (change_table c) ++ $"." ++ tname c ++ $" ") ++ "("%char :: w' = (schema ++ $"." ++ n ++ $" ") ++ "("%char :: w).
        { rewrite <- !app_assoc, <- Ew, <- Ew'. exact E. }
        destruct (last_char _ _ _ _ _ Nw' Nw E2) as [E3 _]. rewrite !app_assoc in E3. apply app_inv_tail in E3. rewrite <- !app_assoc in E3.
        exact (CN _ (change_in c I) _ E3). }
      rewrite S in E. do 2 apply app_inv_head in E. apply name_wording in E. destruct E as [En Er]. split; [exact En|]. split; [exact S|].
      unfold says_r. destruct (report_dec _ _); [reflexivity | contradiction].
    + intros (<- & <- & Hr). apply says_kind in Hr. rewrite Hr. reflexivity.
Qed.
Lemma lines_known db x : In x (map diff_repr (tag db (db_changes al d1 d2))) ->
  exists t r, (In t (db_iter d1) \/ In t (db_iter d2)) /\ x = report_line db (t_schema t) (t_name t) r.
Proof.
  unfold tag. rewrite map_map, in_map_iff. intros (c & <- & I). rewrite repr_line. exists (change_table c), (report_of c). split; [apply change_in, I | reflexivity].
Qed.
End Dbs.
Lemma clear_dotless d1 d2 schema n : dotless_schemas d1 -> dotless_schemas d2 -> dotless schema -> clear_name d1 d2 schema n.
Proof.
  intros D1 D2 D t I n' E. apply (first_char "."%char (t_schema t) n' schema n); [|exact D|exact E]. destruct I as [I|I]; [apply D1, I | apply D2, I].
Qed.
