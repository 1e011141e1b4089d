(** * Consequences: symmetry, self-comparison, emptiness, application *)
From Verif Require Import SpecDiff StrFacts DiffFacts.
From Coq Require Import Sorting.Sorted.
From Coq Require Import List. Import ListNotations.

Lemma compare_ok d1 d2 l1 l2 : well_formed d1 -> well_formed d2 -> compare_databases d1 d2 = Ok (l1, l2) ->
  changes l1 = db_changes fk_eqb d1 d2 /\ changes l2 = db_changes (flip_eq fk_eqb) d2 d1
  /\ Forall (fun x => diff_db x = db_name d1) l1 /\ Forall (fun x => diff_db x = db_name d2) l2.
Proof.
  intros W1 W2 H. rewrite compare_refines in H by assumption. injection H as <- <-. rewrite !changes_tag.
  repeat split; apply Forall_forall; intros x Hx; apply in_map_iff in Hx; destruct Hx as [c [<- _]]; reflexivity.
Qed.

Lemma fk_eqb_spec a b : fk_eqb a b = true <-> fk_name a = fk_name b /\ taken_as_same a b.
Proof.
  unfold fk_eqb, taken_as_same. rewrite !andb_true_iff, !str_eqb_eq, !strs_eqb_eq, sorted_eq_iff. tauto.
Qed.

(** ** C22-C26, C28 *)
Section Exact.
Variables (d1 d2 : database) (l1 l2 : list difference).
Hypothesis W1 : well_formed d1.
Hypothesis W2 : well_formed d2.
Hypothesis H : compare_databases d1 d2 = Ok (l1, l2).
Let C := compare_ok d1 d2 l1 l2 W1 W2 H.

Lemma c22 : (forall n, filter (about_table n) (changes l1) = table_expected (get_table d1 n) (get_table d2 n))
  /\ (forall n, filter (about_table n) (changes l2) = table_expected (get_table d2 n) (get_table d1 n))
  /\ Forall (fun x => diff_db x = db_name d1) l1 /\ Forall (fun x => diff_db x = db_name d2) l2.
Proof. destruct C as (-> & -> & ? & ?). repeat split; try assumption; intros; apply db_table; assumption. Qed.
Lemma c23 n k :
  filter (about_column n k) (changes l1) = in_both (get_table d1 n) (get_table d2 n) (column_expected k)
  /\ filter (about_column n k) (changes l2) = in_both (get_table d2 n) (get_table d1 n) (column_expected k).
Proof. destruct C as (-> & -> & ? & ?). split; apply db_column; assumption. Qed.
Lemma c24 n :
  filter (about_pk n) (changes l1) = in_both (get_table d1 n) (get_table d2 n) pk_expected
  /\ filter (about_pk n) (changes l2) = in_both (get_table d2 n) (get_table d1 n) pk_expected.
Proof. destruct C as (-> & -> & ? & ?). split; apply db_pk; assumption. Qed.
Lemma c25 n k :
  filter (about_rel n k) (changes l1) = in_both (get_table d1 n) (get_table d2 n) (rel_expected k)
  /\ filter (about_rel n k) (changes l2) = in_both (get_table d2 n) (get_table d1 n) (rel_expected k).
Proof. destruct C as (-> & -> & ? & ?). split; apply db_rel; assumption. Qed.
Lemma fk_expected_ext al al' k t1 t2 : 
  (forall f1 f2, get_foreign_key t1 k = Some f1 -> get_foreign_key t2 k = Some f2 -> al f1 f2 = al' f1 f2) ->
  fk_expected al k t1 t2 = fk_expected al' k t1 t2.
Proof using.
  intros E. unfold fk_expected. destruct (get_foreign_key t1 k), (get_foreign_key t2 k); try reflexivity.
  rewrite E by reflexivity. reflexivity.
Qed.
Lemma c26 n k alike : (forall f1 f2, alike f1 f2 = true <-> taken_as_same f1 f2) ->
  filter (about_fk n k) (changes l1) = in_both (get_table d1 n) (get_table d2 n) (fk_expected alike k)
  /\ filter (about_fk n k) (changes l2) = in_both (get_table d2 n) (get_table d1 n) (fk_expected (fun f2 f1 => alike f1 f2) k).
Proof.
  intros Ha. assert (E : forall f1 f2, fk_name f1 = fk_name f2 -> fk_eqb f1 f2 = alike f1 f2).
  { intros f1 f2 Hn. apply Bool.eq_iff_eq_true. rewrite fk_eqb_spec, Ha. tauto. }
  destruct C as (-> & -> & ? & ?). rewrite !db_fk by assumption.
  split; unfold in_both; destruct (get_table d1 n) as [t1|] eqn:E1, (get_table d2 n) as [t2|] eqn:E2; try reflexivity.
  - apply fk_expected_ext. intros f1 f2 F1 F2. apply E.
    rewrite (proj2 (wf_fks _ (get_table_wf _ _ _ W1 E1)) _ _ F1), (proj2 (wf_fks _ (get_table_wf _ _ _ W2 E2)) _ _ F2). reflexivity.
  - apply fk_expected_ext. intros f1 f2 F1 F2. unfold flip_eq. apply E.
    rewrite (proj2 (wf_fks _ (get_table_wf _ _ _ W1 E1)) _ _ F2), (proj2 (wf_fks _ (get_table_wf _ _ _ W2 E2)) _ _ F1). reflexivity.
Qed.
Lemma c28 n :
  filter (about_shard n) (changes l1) = in_both (get_table d1 n) (get_table d2 n) shard_expected
  /\ filter (about_shard n) (changes l2) = in_both (get_table d2 n) (get_table d1 n) shard_expected.
Proof. destruct C as (-> & -> & ? & ?). split; apply db_shard; assumption. Qed.
Lemma c28_content n t1 t2 : shard_objects d1 d2 -> get_table d1 n = Some t1 -> get_table d2 n = Some t2 ->
  shard_of t1 <> shard_of t2 ->
  filter (about_shard n) (changes l1) = [match t_shard t2 with Some s => ShardKeyAdded t1 (sk_shards s) (sk_keys s) | None => ShardKeyDropped t1 end]
  /\ filter (about_shard n) (changes l2) = [match t_shard t1 with Some s => ShardKeyAdded t2 (sk_shards s) (sk_keys s) | None => ShardKeyDropped t2 end].
Proof.
  intros So E1 E2 N. destruct (c28 n) as [-> ->]. rewrite E1, E2. unfold in_both, shard_expected, shard_of in *.
  destruct (t_shard t1) as [s1|] eqn:S1, (t_shard t2) as [s2|] eqn:S2; try (split; reflexivity); [|contradiction].
  destruct (Nat.eq_dec (sk_id s1) (sk_id s2)) as [Ei|Ni].
  - rewrite (So n t1 t2 s1 s2 E1 E2 S1 S2 Ei) in N. contradiction.
  - destruct (Nat.eq_dec (sk_id s2) (sk_id s1)); [congruence|]. split; reflexivity.
Qed.
End Exact.

(** ** C29 *)
Lemma flat_map_ext_in {A B} (f g : A -> list B) l : (forall x, In x l -> f x = g x) -> flat_map f l = flat_map g l.
Proof.
  induction l as [|a l IH]; intros E; [reflexivity|]. cbn [flat_map]. rewrite E by (left; reflexivity).
  rewrite IH; [reflexivity|]. intros. apply E. right. assumption.
Qed.
Lemma db_changes_ext al al' d1 d2 : 
  common_fks d1 d2 (fun f1 f2 => al f1 f2 = al' f1 f2) -> db_changes al d1 d2 = db_changes al' d1 d2.
Proof.
  intros E. unfold db_changes. apply flat_map_ext_in. intros n _. unfold entry_changes. f_equal. unfold in_both.
  destruct (get_table d1 n) as [t1|] eqn:E1, (get_table d2 n) as [t2|] eqn:E2; try reflexivity.
  unfold table_changes. f_equal. f_equal. f_equal. apply flat_map_ext_in. intros k _. apply fk_expected_ext.
  intros f1 f2 F1 F2. eapply E; eassumption.
Qed.
Lemma c29 d1 d2 : well_formed d1 -> well_formed d2 -> common_fks d1 d2 (fun f1 f2 => same_names f1 <-> same_names f2) ->
  exists l1 l2, compare_databases d1 d2 = Ok (l1, l2) /\ compare_databases d2 d1 = Ok (l2, l1).
Proof.
  intros W1 W2 Hc. rewrite !compare_refines by assumption. do 2 eexists. split; [reflexivity|].
  assert (S : forall f1 f2, (same_names f1 <-> same_names f2) -> fk_eqb f1 f2 = fk_eqb f2 f1).
  { intros f1 f2 Hs. apply Bool.eq_iff_eq_true. rewrite !fk_eqb_spec. unfold taken_as_same, same_names in *. intuition congruence. }
  do 3 f_equal.
  - apply db_changes_ext. intros n k t2 t1 f2 f1 T2 T1 F2 F1. unfold flip_eq. symmetry. apply S. eapply Hc; eassumption.
  - apply db_changes_ext. intros n k t1 t2 f1 f2 T1 T2 F1 F2. unfold flip_eq. symmetry. apply S. eapply Hc; eassumption.
Qed.

(** ** C30, C31 *)
Lemma filter_nil_all {A} (l : list A) : (forall p, filter p l = []) -> l = [].
Proof. intros H. specialize (H (fun _ => true)). destruct l; [reflexivity | discriminate]. Qed.
Lemma flat_map_nil {A B} (f : A -> list B) l : (forall x, In x l -> f x = []) -> flat_map f l = [].
Proof. induction l as [|a l IH]; intros H; [reflexivity|]. cbn [flat_map]. rewrite H, IH; [reflexivity | intros; apply H; right; assumption | left; reflexivity]. Qed.
Definition alike_spec (al : foreign_key -> foreign_key -> bool) (P : foreign_key -> foreign_key -> Prop) : Prop :=
  forall f1 f2, fk_name f1 = fk_name f2 -> (al f1 f2 = true <-> P f1 f2).
(** [indistinct] with the criterion for foreign keys left open *)
Definition quiet (P : foreign_key -> foreign_key -> Prop) (t1 t2 : table) : Prop :=
  (forall k, get_column t1 k = get_column t2 k) /\ t_pk t1 = t_pk t2
  /\ (forall k, get_relationship t1 k = get_relationship t2 k)
  /\ (forall k, match get_foreign_key t1 k, get_foreign_key t2 k with
                     | Some f1, Some f2 => P f1 f2
                     | None, None => True
                     | _, _ => False
                     end)
  /\ match t_shard t1, t_shard t2 with
             | Some s1, Some s2 => sk_id s1 = sk_id s2
             | None, None => True
             | _, _ => False
             end.
Definition quiet_dbs (P : foreign_key -> foreign_key -> Prop) (d1 d2 : database) : Prop :=
  forall n, match get_table d1 n, get_table d2 n with
            | Some t1, Some t2 => quiet P t1 t2
            | None, None => True
            | _, _ => False
            end.
Lemma quiet_indistinct t1 t2 : quiet taken_as_same t1 t2 <-> indistinct t1 t2.
Proof. split; [intros (?&?&?&?&?); constructor; assumption | intros []; repeat split; assumption]. Qed.
Lemma quiet_flip P t1 t2 : quiet P t1 t2 <-> quiet (fun a b => P b a) t2 t1.
Proof.
  assert (G : forall P t1 t2, quiet P t1 t2 -> quiet (fun a b => P b a) t2 t1).
  { clear. intros P t1 t2 (A & B & C & D & E). repeat split; auto.
    - intros k. specialize (D k). destruct (get_foreign_key t1 k), (get_foreign_key t2 k); assumption.
    - destruct (t_shard t1), (t_shard t2); auto. }
  split; [apply G|]. intros H. apply G in H. exact H.
Qed.
Section Empty.
Variables (al : foreign_key -> foreign_key -> bool) (P : foreign_key -> foreign_key -> Prop).
Hypothesis Hal : alike_spec al P.
Lemma table_quiet t1 t2 : well_formed_table t1 -> well_formed_table t2 -> table_changes al t1 t2 = [] <-> quiet P t1 t2.
Proof.
  intros W1 W2. unfold quiet. split.
  - intros H. repeat split.
    + intros k. pose proof (pick_column t1 t2 W1 W2 al k) as Hc. rewrite H in Hc. cbn [filter] in Hc. unfold column_expected in Hc.
      destruct (get_column t1 k) as [c1|] eqn:E1, (get_column t2 k) as [c2|] eqn:E2; try discriminate; try reflexivity.
      destruct (eq_str (column_type c1) (column_type c2)) as [E|]; [|discriminate].
      apply (wf_cols _ W1) in E1. apply (wf_cols _ W2) in E2. destruct c1 as [a b], c2 as [c d]. cbn [column_name column_type] in *. congruence.
    + pose proof (pick_pk t1 t2 W1 W2 al) as Hc. rewrite H in Hc. cbn [filter] in Hc. unfold pk_expected in Hc.
      destruct (list_eq_dec eq_str (t_pk t1) (t_pk t2)); [assumption|]. destruct (t_pk t1), (t_pk t2); try discriminate. reflexivity.
    + intros k. pose proof (pick_rel t1 t2 W1 W2 al k) as Hc. rewrite H in Hc. cbn [filter] in Hc. unfold rel_expected in Hc.
      destruct (get_relationship t1 k) as [c1|] eqn:E1, (get_relationship t2 k) as [c2|] eqn:E2; try discriminate; try reflexivity.
      destruct (rel_dec c1 c2) as [->|]; [reflexivity | discriminate].
    + intros k. pose proof (pick_fk t1 t2 W1 W2 al k) as Hc. rewrite H in Hc. cbn [filter] in Hc. unfold fk_expected in Hc.
      destruct (get_foreign_key t1 k) as [c1|] eqn:E1, (get_foreign_key t2 k) as [c2|] eqn:E2; try discriminate; try exact I.
      destruct (al c1 c2) eqn:Ea; [|discriminate]. apply Hal; [|exact Ea]. apply (wf_fks _ W1) in E1. apply (wf_fks _ W2) in E2. congruence.
    + pose proof (pick_shard t1 t2 W1 W2 al) as Hc. rewrite H in Hc. cbn [filter] in Hc. unfold shard_expected in Hc.
      destruct (t_shard t1), (t_shard t2); try discriminate; try exact I. destruct (Nat.eq_dec _ _); [assumption | discriminate].
  - intros (Qc & Qp & Qr & Qf & Qs). unfold table_changes.
    assert (pk_expected t1 t2 = []) as ->. { unfold pk_expected. destruct (list_eq_dec eq_str _ _); [reflexivity | contradiction]. }
    assert (shard_expected t1 t2 = []) as ->.
    { unfold shard_expected. destruct (t_shard t1), (t_shard t2); try contradiction; try reflexivity. destruct (Nat.eq_dec _ _); [reflexivity | contradiction]. }
    rewrite !flat_map_nil; [reflexivity | | |].
    + intros k _. unfold column_expected. rewrite Qc. destruct (get_column t2 k) as [c|]; [|reflexivity]. destruct (eq_str _ _); [reflexivity | contradiction].
    + intros k _. unfold rel_expected. rewrite Qr. destruct (get_relationship t2 k) as [c|]; [|reflexivity]. destruct (rel_dec _ _); [reflexivity | contradiction].
    + intros k _. unfold fk_expected. specialize (Qf k).
      destruct (get_foreign_key t1 k) as [c1|] eqn:E1, (get_foreign_key t2 k) as [c2|] eqn:E2; try contradiction; try reflexivity.
      apply Hal in Qf; [rewrite Qf; reflexivity|]. apply (wf_fks _ W1) in E1. apply (wf_fks _ W2) in E2. congruence.
Qed.
Lemma db_quiet d1 d2 : well_formed d1 -> well_formed d2 -> db_changes al d1 d2 = [] <-> quiet_dbs P d1 d2.
Proof.
  intros W1 W2. split.
  - intros H n. pose proof (pick_name d1 d2 W1 W2 al (fun c => str_eqb (tname c) n) n) as Hn.
    rewrite H in Hn. cbn [filter] in Hn. rewrite filter_all in Hn.
    2:{ intros c Hc. apply entry_tname in Hc; try assumption. apply str_eqb_eq, Hc. }
    specialize (Hn (fun c Hc => proj1 (str_eqb_eq _ _) Hc)). unfold entry_changes in Hn.
    destruct (get_table d1 n) as [t1|] eqn:E1, (get_table d2 n) as [t2|] eqn:E2; try discriminate; [|exact I].
    apply table_quiet; [exact (get_table_wf _ _ _ W1 E1) | exact (get_table_wf _ _ _ W2 E2)|]. symmetry. exact Hn.
  - intros H. unfold db_changes. apply flat_map_nil. intros n _. unfold entry_changes. specialize (H n).
    destruct (get_table d1 n) as [t1|] eqn:E1, (get_table d2 n) as [t2|] eqn:E2; try contradiction; [|reflexivity].
    cbn [table_expected in_both app]. apply table_quiet; [exact (get_table_wf _ _ _ W1 E1) | exact (get_table_wf _ _ _ W2 E2) | exact H].
Qed.
End Empty.
Lemma quiet_dbs_indistinct d1 d2 : quiet_dbs taken_as_same d1 d2 <-> indistinct_dbs d1 d2.
Proof.
  unfold quiet_dbs, indistinct_dbs. split; intros H n; specialize (H n); destruct (get_table d1 n), (get_table d2 n); try exact H; apply quiet_indistinct, H.
Qed.
Lemma quiet_dbs_flip P d1 d2 : quiet_dbs P d1 d2 <-> quiet_dbs (fun a b => P b a) d2 d1.
Proof.
  unfold quiet_dbs. split; intros H n; specialize (H n); destruct (get_table d1 n), (get_table d2 n); try exact H; apply quiet_flip, H.
Qed.
Lemma changes_nil l : changes l = [] <-> l = [].
Proof. destruct l; split; intros H; try reflexivity; discriminate. Qed.
Lemma c31 d1 d2 l1 l2 : well_formed d1 -> well_formed d2 -> compare_databases d1 d2 = Ok (l1, l2) ->
  (l1 = [] <-> indistinct_dbs d1 d2) /\ (l2 = [] <-> indistinct_dbs d1 d2).
Proof.
  intros W1 W2 H. destruct (compare_ok _ _ _ _ W1 W2 H) as (C1 & C2 & _). rewrite <- !changes_nil, C1, C2, <- quiet_dbs_indistinct. split.
  - apply db_quiet; try assumption. intros f1 f2 E. rewrite fk_eqb_spec. tauto.
  - rewrite quiet_dbs_flip. apply db_quiet; try assumption. intros f1 f2 E. unfold flip_eq. rewrite fk_eqb_spec. intuition congruence.
Qed.
Lemma c30 d : well_formed d ->
  compare_databases d d = Ok ([], []) <-> forall t fk, In t (db_iter d) -> In fk (foreign_keys_iter t) -> same_names fk.
Proof.
  intros W. pose proof (compare_refines d d W W) as R.
  destruct (compare_databases d d) as [[l1 l2]|e] eqn:E; [|discriminate R]. destruct (c31 _ _ _ _ W W E) as [H1 H2].
  split.
  - intros H. injection H as -> ->. apply proj1 in H1. specialize (H1 eq_refl). intros t fk Ht Hf.
    apply dvals_in in Ht. destruct Ht as [n Ht]. apply (dget_nodup n t) in Ht; [|apply (wf_names _ W)].
    specialize (H1 n). unfold get_table in H1. rewrite Ht in H1. pose proof (in_fks _ _ H1) as Hk.
    apply dvals_in in Hf. destruct Hf as [k Hf].
    apply (dget_nodup k fk) in Hf; [|apply (wf_fks _ (get_table_wf d n t W Ht))].
    specialize (Hk k). unfold get_foreign_key in Hk. rewrite Hf in Hk. apply Hk.
  - intros H. assert (I : indistinct_dbs d d).
    { intros n. destruct (get_table d n) as [t|] eqn:Et; [|exact I]. constructor; try reflexivity.
      - intros k. destruct (get_foreign_key t k) as [fk|] eqn:Ef; [|exact I]. repeat split.
        apply (H t); [apply dvals_in; exists n; apply dget_in, Et | apply dvals_in; exists k; apply dget_in, Ef].
      - destruct (t_shard t); [reflexivity | exact I]. }
    apply H1 in I as J1. apply H2 in I as J2. subst. reflexivity.
Qed.

(** ** C32 *)
Lemma put_same {A} k (x : option A) f : put k x f k = x.
Proof. unfold put. rewrite str_eqb_refl. reflexivity. Qed.
Lemma put_other {A} k (x : option A) f m : m <> k -> put k x f m = f m.
Proof. intros H. unfold put. apply str_eqb_neq in H. rewrite H. reflexivity. Qed.
Lemma apply_at n : forall l d,
  apply_changes l d n = fold_left (fun v c => act c v) (filter (fun c => str_eqb (tname c) n) l) (d n).
Proof.
  induction l as [|c l IH]; intros d; [reflexivity|]. unfold apply_changes in *. cbn [fold_left filter]. rewrite IH. unfold apply_change.
  destruct (str_eqb_spec (tname c) n) as [E|E].
  - cbn [fold_left]. unfold tname in E. rewrite E, put_same. reflexivity.
  - rewrite put_other by (unfold tname in E; congruence). reflexivity.
Qed.
(** the effect inside an existing table *)
Definition tact (v : tview) (c : change) : tview := match act c (Some v) with Some v' => v' | None => v end.
Lemma fold_tact : forall l v, (forall c, In c l -> kind c <> 0) -> fold_left (fun v c => act c v) l (Some v) = Some (fold_left tact l v).
Proof.
  induction l as [|c l IH]; intros v H; [reflexivity|]. cbn [fold_left]. rewrite <- IH by (intros; apply H; right; assumption).
  specialize (H c (or_introl eq_refl)). f_equal. unfold tact. destruct c; cbn [act option_map kind] in *; try reflexivity; congruence.
Qed.
Definition col_act (x : option column) (c : change) : option column :=
  match c with ColumnAdded _ y | ColumnModified _ y => Some y | ColumnDropped _ _ => None | _ => x end.
Definition fk_act (x : option foreign_key) (c : change) : option foreign_key :=
  match c with ForeignKeyAdded _ y => Some y | ForeignKeyDropped _ _ => None | _ => x end.
Definition rel_act (x : option relationship) (c : change) : option relationship :=
  match c with RelationshipAdded _ y => Some y | RelationshipDropped _ _ => None | _ => x end.
Definition pk_act (x : list str) (c : change) : list str :=
  match c with PrimaryKeyAdded _ y => y | PrimaryKeyDropped _ => [] | _ => x end.
Definition shard_act (x : option (Z * list str)) (c : change) : option (Z * list str) :=
  match c with ShardKeyAdded _ z k => Some (z, k) | ShardKeyDropped _ => None | _ => x end.
Ltac proj_tac :=
  let l := fresh "l" in let c := fresh "c" in let l' := fresh "l" in let IH := fresh "IH" in let v := fresh "v" in let H := fresh "H" in
  intros l; induction l as [|c l' IH]; intros v H; [reflexivity|]; cbn [fold_left filter];
  rewrite IH by (intros; apply H; right; assumption);
  specialize (H c (or_introl eq_refl)); unfold pick; rewrite (proj1 H), str_eqb_refl; cbn [andb]; apply proj2 in H;
  destruct c; cbn [kind obj Nat.eqb andb]; unfold tact; cbn [act option_map]; try reflexivity; try (exfalso; apply H; reflexivity).
Ltac proj_key := 
  match goal with |- context [str_eqb ?a ?k] => let N := fresh "N" in destruct (str_eqb_spec a k) as [->|N];
    cbn [v_col v_fk v_rel set_col set_fk set_rel fold_left]; [rewrite put_same; reflexivity | rewrite put_other by congruence; reflexivity] end.
Lemma proj_col n k : forall l v, (forall c, In c l -> tname c = n /\ kind c <> 0) -> v_col (fold_left tact l v) k = fold_left col_act (filter (pick n 5 (Some k)) l) (v_col v k).
Proof. proj_tac; proj_key. Qed.
Lemma proj_fk n k : forall l v, (forall c, In c l -> tname c = n /\ kind c <> 0) -> v_fk (fold_left tact l v) k = fold_left fk_act (filter (pick n 3 (Some k)) l) (v_fk v k).
Proof. proj_tac; proj_key. Qed.
Lemma proj_rel n k : forall l v, (forall c, In c l -> tname c = n /\ kind c <> 0) -> v_rel (fold_left tact l v) k = fold_left rel_act (filter (pick n 4 (Some k)) l) (v_rel v k).
Proof. proj_tac; proj_key. Qed.
Lemma proj_pk n : forall l v, (forall c, In c l -> tname c = n /\ kind c <> 0) -> v_pk (fold_left tact l v) = fold_left pk_act (filter (pick n 1 None) l) (v_pk v).
Proof. proj_tac. Qed.
Lemma proj_shard n : forall l v, (forall c, In c l -> tname c = n /\ kind c <> 0) -> v_shard (fold_left tact l v) = fold_left shard_act (filter (pick n 2 None) l) (v_shard v).
Proof. proj_tac. Qed.

Lemma column_ext a b : column_name a = column_name b -> column_type a = column_type b -> a = b.
Proof. destruct a as [a1 a2], b as [b1 b2]. cbn [column_name column_type]. congruence. Qed.

Section Apply.
Variables d1 d2 : database.
Hypothesis W1 : well_formed d1.
Hypothesis W2 : well_formed d2.
Variable al : foreign_key -> foreign_key -> bool.
Hypothesis Hfk : common_fks d1 d2 (fun f1 f2 => al f1 f2 = true -> f1 = f2).
Hypothesis Hsh : shard_objects d1 d2.
Hypothesis Hnew : forall n t, get_table d1 n = None -> get_table d2 n = Some t -> t_fks t = [] /\ t_rels t = [].

Lemma apply_entry n t1 t2 : get_table d1 n = Some t1 -> get_table d2 n = Some t2 ->
  same_tview (fold_left tact (table_changes al t1 t2) (view_table t1)) (view_table t2).
Proof using d1 d2 W1 W2 al Hfk Hsh.
  intros E1 E2. pose proof (get_table_wf _ _ _ W1 E1) as T1. pose proof (get_table_wf _ _ _ W2 E2) as T2.
  assert (Hn : forall c, In c (table_changes al t1 t2) -> tname c = t_name t1 /\ kind c <> 0).
  { intros c Hc. apply in_table_changes in Hc; [|assumption..]. unfold tname. destruct Hc as [-> Hc]. split; [reflexivity | exact Hc]. }
  repeat split.
  - intros k. rewrite (proj_col (t_name t1)), pick_column by assumption. unfold column_expected. cbn [view_table v_col].
    destruct (get_column t1 k) as [a|] eqn:Ea, (get_column t2 k) as [b|] eqn:Eb; cbn [fold_left col_act]; try reflexivity.
    destruct (eq_str _ _) as [Ety|]; [|reflexivity]. cbn [fold_left]. f_equal. apply column_ext; [|exact Ety].
    apply (wf_cols _ T1) in Ea. apply (wf_cols _ T2) in Eb. congruence.
  - rewrite (proj_pk (t_name t1)), pick_pk by assumption. unfold pk_expected. cbn [view_table v_pk].
    destruct (list_eq_dec eq_str (t_pk t1) (t_pk t2)) as [E|N]; [exact E|].
    destruct (t_pk t1), (t_pk t2); reflexivity.
  - rewrite (proj_shard (t_name t1)), pick_shard by assumption. unfold shard_expected. cbn [view_table v_shard]. unfold shard_of.
    destruct (t_shard t1) as [a|] eqn:Ea, (t_shard t2) as [b|] eqn:Eb; cbn [fold_left shard_act]; try reflexivity.
    destruct (Nat.eq_dec _ _) as [E|]; [|reflexivity]. cbn [fold_left].
    rewrite (Hsh n t1 t2 a b E1 E2 Ea Eb E). reflexivity.
  - intros k. rewrite (proj_fk (t_name t1)), pick_fk by assumption. unfold fk_expected. cbn [view_table v_fk].
    destruct (get_foreign_key t1 k) as [a|] eqn:Ea, (get_foreign_key t2 k) as [b|] eqn:Eb; cbn [fold_left fk_act]; try reflexivity.
    destruct (al a b) eqn:Eal; [|reflexivity]. cbn [fold_left]. f_equal. exact (Hfk n k t1 t2 a b E1 E2 Ea Eb Eal).
  - intros k. rewrite (proj_rel (t_name t1)), pick_rel by assumption. unfold rel_expected. cbn [view_table v_rel].
    destruct (get_relationship t1 k) as [a|] eqn:Ea, (get_relationship t2 k) as [b|] eqn:Eb; cbn [fold_left rel_act]; try reflexivity.
    destruct (rel_dec _ _) as [->|]; reflexivity.
Qed.
Lemma named_entry n : filter (fun c => str_eqb (tname c) n) (db_changes al d1 d2) = entry_changes al d1 d2 n.
Proof using d1 d2 W1 W2 al.
  rewrite (pick_name d1 d2 W1 W2 al _ n) by (intros c; apply str_eqb_eq).
  apply filter_all. intros c Hc. apply entry_tname in Hc; try assumption. apply str_eqb_eq, Hc.
Qed.
Lemma apply_same : same_view (apply_changes (db_changes al d1 d2) (view d1)) (view d2).
Proof.
  intros n. rewrite apply_at, named_entry. unfold entry_changes, view.
  destruct (get_table d1 n) as [t1|] eqn:E1, (get_table d2 n) as [t2|] eqn:E2; cbn [table_expected in_both app fold_left act option_map]; try exact I.
  - rewrite fold_tact.
    + apply (apply_entry n); assumption.
    + intros c Hc. apply in_table_changes in Hc; [apply Hc | exact (get_table_wf _ _ _ W1 E1) | exact (get_table_wf _ _ _ W2 E2)].
  - destruct (Hnew n t2 E1 E2) as [Hf Hr]. repeat split; intros k; unfold view_table, created_view, get_foreign_key, get_relationship; cbn [v_fk v_rel]; rewrite ?Hf, ?Hr; reflexivity.
Qed.
End Apply.

Lemma c32 d1 d2 l1 l2 : well_formed d1 -> well_formed d2 -> compare_databases d1 d2 = Ok (l1, l2) ->
  common_fks d1 d2 (fun f1 f2 => taken_as_same f1 f2 -> f1 = f2) -> shard_objects d1 d2 ->
  (forall n t, get_table d1 n = None -> get_table d2 n = Some t -> t_fks t = [] /\ t_rels t = []) ->
  same_view (apply_changes (changes l1) (view d1)) (view d2).
Proof.
  intros W1 W2 H Hf Hs Hn. destruct (compare_ok _ _ _ _ W1 W2 H) as (-> & _). apply apply_same; try assumption.
  intros n k t1 t2 f1 f2 T1 T2 F1 F2 E. apply (Hf n k t1 t2 f1 f2 T1 T2 F1 F2). apply fk_eqb_spec in E. tauto.
Qed.
