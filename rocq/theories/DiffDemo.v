(** * Demonstration databases for the comparison, and the counterexamples *)
From Verif Require Import CheckFacts SpecDiff StrFacts DiffFacts DiffProps AlterFacts Writer.
From Coq Require Import List. Import ListNotations.

(** the shop a version later: another key and shard key, a changed, a dropped and a new column, a
    changed foreign key, a dropped relationship, a table gone and a table new *)
Definition shop_orders' : table :=
  {| t_name := $"Orders"; t_schema := DEFAULT_SCHEMA; t_pk := [$"Id"];
     t_shard := Some {| sk_id := 7; sk_keys := [$"Id"]; sk_shards := 64 |};
     t_cols := [($"Id", col ($"Id") ($"BIGINT")); ($"Cust", col ($"Cust") ($"VARCHAR(20)")); ($"At", col ($"At") ($"DATE"))];
     t_fks := [($"fk1", {| fk_name := $"fk1"; fk_from_table := $"Orders"; fk_from_keys := [$"Cust"];
                           fk_to_table := $"Clients"; fk_to_keys := [$"Id"] |})];
     t_rels := [] |}.
Definition shop_clients : table :=
  {| t_name := $"Clients"; t_schema := DEFAULT_SCHEMA; t_pk := [$"Id"]; t_shard := None;
     t_cols := [($"Id", col ($"Id") ($"VARCHAR(20)"))]; t_fks := []; t_rels := [] |}.
Definition shop' : database :=
  add_table (add_table (add_table (empty_database ($"shop")) shop_orders') shop_clients) shop_log.
Lemma shop'_usable : usable shop'.
Proof. apply usable_ok. vm_compute. reflexivity. Qed.

(** decidable forms of the hypotheses *)
Definition fk_ok_pair (d1 d2 : database) : bool :=
  forallb (fun kt => match get_table d2 (fst kt) with
    | None => true
    | Some t2 => forallb (fun kf => match get_foreign_key t2 (fst kf) with
        | None => true
        | Some f2 => negb (strs_eqb (sorted (fk_from_keys (snd kf))) (sorted (fk_to_keys (snd kf))))
                     && negb (strs_eqb (sorted (fk_from_keys f2)) (sorted (fk_to_keys f2)))
        end) (t_fks (snd kt)) end) (db_tables d1).
Lemma not_same_names f : negb (strs_eqb (sorted (fk_from_keys f)) (sorted (fk_to_keys f))) = true -> ~ same_names f.
Proof. intros H Hs. apply sorted_eq_iff in Hs. rewrite Hs, strs_eqb_refl in H. discriminate. Qed.
Lemma fk_ok_pair_spec d1 d2 : fk_ok_pair d1 d2 = true -> common_fks d1 d2 (fun f1 f2 => ~ same_names f1 /\ ~ same_names f2).
Proof.
  unfold fk_ok_pair. rewrite forallb_forall. intros H n k t1 t2 f1 f2 T1 T2 F1 F2.
  specialize (H (n, t1) (dget_in _ _ _ T1)). cbn [fst snd] in H. rewrite T2, forallb_forall in H.
  specialize (H (k, f1) (dget_in _ _ _ F1)). cbn [fst snd] in H. rewrite F2 in H. apply andb_true_iff in H.
  split; apply not_same_names; apply H.
Qed.
Definition shards_differ (d1 d2 : database) : bool :=
  forallb (fun kt => match get_table d2 (fst kt) with
    | None => true
    | Some t2 => match t_shard (snd kt), t_shard t2 with Some a, Some b => negb (Nat.eqb (sk_id a) (sk_id b)) | _, _ => true end end) (db_tables d1).
Lemma shards_differ_spec d1 d2 : shards_differ d1 d2 = true -> shard_objects d1 d2.
Proof.
  unfold shards_differ. rewrite forallb_forall. intros H n t1 t2 s1 s2 T1 T2 S1 S2 E.
  specialize (H (n, t1) (dget_in _ _ _ T1)). cbn [fst snd] in H. rewrite T2, S1, S2, E, Nat.eqb_refl in H. discriminate.
Qed.
Definition new_bare (d1 d2 : database) : bool :=
  forallb (fun kt => match get_table d1 (fst kt) with Some _ => true | None => is_nil (t_fks (snd kt)) && is_nil (t_rels (snd kt)) end) (db_tables d2).
Lemma new_bare_spec d1 d2 : new_bare d1 d2 = true -> forall n t, get_table d1 n = None -> get_table d2 n = Some t -> t_fks t = [] /\ t_rels t = [].
Proof.
  unfold new_bare. rewrite forallb_forall. intros H n t T1 T2. specialize (H (n, t) (dget_in _ _ _ T2)). cbn [fst snd] in H. rewrite T1 in H.
  destruct (t_fks t), (t_rels t); try discriminate. auto.
Qed.

(** ** Counterexamples *)
Definition fk_a : foreign_key :=
  {| fk_name := $"f"; fk_from_table := $"A"; fk_from_keys := [$"x"]; fk_to_table := $"B"; fk_to_keys := [$"y"] |}.
Definition fk_b : foreign_key :=
  {| fk_name := $"f"; fk_from_table := $"A"; fk_from_keys := [$"y"]; fk_to_table := $"B"; fk_to_keys := [$"y"] |}.
Lemma c27_refuted :
  (exists f, fk_eqb f f = false)
  /\ (exists f g, fk_eqb f g = true /\ fk_from_keys f <> fk_from_keys g)
  /\ (exists f g, fk_eqb f g = true /\ fk_eqb g f = false).
Proof.
  split; [exists fk_a; reflexivity|]. split; exists fk_b, fk_a; split; try reflexivity. discriminate.
Qed.

Definition tab (n : str) (fks : dict foreign_key) (sh : option shard_key) : table :=
  {| t_name := n; t_schema := DEFAULT_SCHEMA; t_pk := []; t_shard := sh;
     t_cols := [($"x", col ($"x") ($"INT")); ($"y", col ($"y") ($"INT"))]; t_fks := fks; t_rels := [] |}.
Definition db1 (t : table) : database := add_table (empty_database ($"d")) t.
Lemma db1_wf t : wf_b (db1 t) = true -> well_formed (db1 t).
Proof. apply wf_ok. Qed.
Definition sk (i : nat) : shard_key := {| sk_id := i; sk_keys := [$"x"]; sk_shards := 4 |}.
Lemma c28_refuted : exists d1 d2 l1 l2 t1 t2, well_formed d1 /\ well_formed d2 /\ compare_databases d1 d2 = Ok (l1, l2)
  /\ get_table d1 ($"A") = Some t1 /\ get_table d2 ($"A") = Some t2 /\ shard_of t1 = shard_of t2 /\ shard_of t1 <> None
  /\ filter (about_shard ($"A")) (changes l1) <> [] /\ filter (about_shard ($"A")) (changes l2) <> [].
Proof.
  exists (db1 (tab ($"A") [] (Some (sk 1)))), (db1 (tab ($"A") [] (Some (sk 2)))). do 4 eexists.
  split; [apply wf_ok; reflexivity|]. split; [apply wf_ok; reflexivity|].
  split; [vm_compute; reflexivity|]. split; [reflexivity|]. split; [reflexivity|]. split; [reflexivity|].
  split; [discriminate|]. split; discriminate.
Qed.
Lemma c29_refuted : exists d1 d2 l1 l2, well_formed d1 /\ well_formed d2 /\ compare_databases d1 d2 = Ok (l1, l2)
  /\ compare_databases d2 d1 <> Ok (l2, l1).
Proof.
  exists (db1 (tab ($"A") [($"f", fk_a)] None)), (db1 (tab ($"A") [($"f", fk_b)] None)). do 2 eexists.
  split; [apply wf_ok; reflexivity|]. split; [apply wf_ok; reflexivity|]. split; [vm_compute; reflexivity|]. vm_compute. discriminate.
Qed.
Lemma c30_shop : compare_databases shop shop <> Ok ([], []).
Proof. intros H0. pose proof (proj1 (c30 shop (proj1 shop_usable)) H0) as H. specialize (H shop_orders _ (or_introl eq_refl) (or_introl eq_refl)).
  apply Permutation_length_1 in H. discriminate. Qed.

(** a table only the second database has, with a foreign key *)
Lemma c33_refuted : exists d1 d2 l1 l2 t s xs, usable d1 /\ usable d2 /\ compare_databases d1 d2 = Ok (l1, l2)
  /\ get_table d1 ($"Orders") = None /\ get_table d2 ($"Orders") = Some t /\ t_fks t <> [] /\ t_rels t <> []
  /\ concat_results (map get_alter l1) = Ok s /\ read_script s = Some xs /\ Forall (fun x => adds_constraint x = false) xs.
Proof.
  exists (add_table (add_table (empty_database ($"shop")) shop_customers) shop_log), shop. do 5 eexists.
  split; [apply usable_ok; vm_compute; reflexivity|]. split; [exact shop_usable|]. split; [vm_compute; reflexivity|].
  split; [reflexivity|]. split; [reflexivity|]. split; [discriminate|]. split; [discriminate|].
  split; [vm_compute; reflexivity|]. split; [vm_compute; reflexivity|]. repeat constructor.
Qed.
Lemma c33_bare d1 d2 l1 l2 : well_formed d1 -> well_formed d2 -> compare_databases d1 d2 = Ok (l1, l2) ->
  forall n t, get_table d1 n = None -> get_table d2 n = Some t ->
  filter (fun c => str_eqb (t_name (change_table c)) n) (changes l1) = [TableCreated t].
Proof.
  intros W1 W2 H n t E1 E2. destruct (compare_ok _ _ _ _ W1 W2 H) as (-> & _).
  pose proof (named_entry d1 d2 W1 W2 fk_eqb n) as N. unfold tname in N. rewrite N. unfold entry_changes. rewrite E1, E2. reflexivity.
Qed.
Lemma c34_refuted : exists d1 d2 l1 l2 d, usable d1 /\ usable d2 /\ compare_databases d1 d2 = Ok (l1, l2) /\ In d l1
  /\ get_alter d = Err ValueError.
Proof.
  exists shop, shop'. do 2 eexists. exists {| diff_db := $"shop"; diff_change := PrimaryKeyAdded shop_orders [$"Id"] |}.
  split; [exact shop_usable|]. split; [exact shop'_usable|]. split; [vm_compute; reflexivity|]. split; [|reflexivity].
  vm_compute. tauto.
Qed.
Lemma c34 d1 d2 l1 l2 : well_formed d1 -> well_formed d2 -> compare_databases d1 d2 = Ok (l1, l2) ->
  (forall d, In d (l1 ++ l2) -> (exists s, get_alter d = Ok s) <-> forall t pk, diff_change d <> PrimaryKeyAdded t pk)
  /\ ((exists s, concat_results (map get_alter l1) = Ok s) <->
      forall n t1 t2, get_table d1 n = Some t1 -> get_table d2 n = Some t2 -> t_pk t2 = [] \/ t_pk t1 = t_pk t2).
Proof.
  intros W1 W2 H.
  assert (A : forall d, (exists s, get_alter d = Ok s) <-> forall t pk, diff_change d <> PrimaryKeyAdded t pk).
  { intros d. pose proof (alter_total d) as T. destruct (diff_change d); split; intros X; try (intros; discriminate); try exact T.
    - destruct X as [s X]. congruence.
    - exfalso. eapply X. reflexivity. }
  split; [intros d _; apply A|].
  assert (B : (exists s, concat_results (map get_alter l1) = Ok s) <-> forall d, In d l1 -> exists s, get_alter d = Ok s).
  { clear. induction l1 as [|a l IH]; [split; [intros _ d [] | intros _; exists []; reflexivity]|]. cbn [map concat_results]. split.
    - intros [s Hs]. destruct (get_alter a) as [x|] eqn:Ea; [|discriminate]. cbn [bind] in Hs.
      destruct (concat_results (map get_alter l)) as [y|]; [|discriminate]. intros d [<-|Hd]; [exists x; exact Ea|]. apply IH; [exists y; reflexivity | exact Hd].
    - intros Hd. destruct (Hd a (or_introl eq_refl)) as [x ->]. destruct (proj2 IH) as [y ->]; [intros d Hi; apply Hd; right; exact Hi|].
      cbn [bind]. eexists. reflexivity. }
  rewrite B. split.
  - intros Hd n t1 t2 T1 T2. destruct (c24 _ _ _ _ W1 W2 H n) as [P _]. rewrite T1, T2 in P. unfold in_both, pk_expected in P.
    destruct (list_eq_dec eq_str (t_pk t1) (t_pk t2)) as [|N]; [auto|]. left. destruct (t_pk t2) as [|x pk] eqn:E2; [reflexivity|].
    exfalso. assert (I : In (PrimaryKeyAdded t1 (t_pk t2)) (filter (about_pk n) (changes l1))).
    { rewrite P, E2. apply in_app_iff. right. left. reflexivity. }
    apply filter_In in I. destruct I as [I _]. apply in_map_iff in I. destruct I as [d [Ed I]]. exact (proj1 (A d) (Hd d I) _ _ Ed).
  - intros Hp d Hd. apply A. intros t pk E.
    assert (I : In (PrimaryKeyAdded t pk) (changes l1)) by (rewrite <- E; apply in_map, Hd).
    assert (P : In (PrimaryKeyAdded t pk) (filter (about_pk (t_name t)) (changes l1))).
    { apply filter_In. split; [exact I|]. cbn [about_pk]. apply str_eqb_refl. }
    destruct (c24 _ _ _ _ W1 W2 H (t_name t)) as [Q _]. rewrite Q in P. unfold in_both in P.
    destruct (get_table d1 (t_name t)) as [t1|] eqn:T1, (get_table d2 (t_name t)) as [t2|] eqn:T2; try contradiction.
    specialize (Hp _ _ _ T1 T2). unfold pk_expected in P. destruct (list_eq_dec eq_str (t_pk t1) (t_pk t2)); [contradiction|].
    destruct Hp as [Hp|]; [|contradiction]. rewrite Hp, app_nil_r in P. destruct (t_pk t1); [contradiction|]. destruct P as [P|[]]. discriminate.
Qed.
Lemma c35_drop_same : exists d1 d2 l1 l2 a b s, usable d1 /\ usable d2 /\ compare_databases d1 d2 = Ok (l1, l2) /\ In a l1 /\ In b l1
  /\ a <> b /\ get_alter a = Ok s /\ get_alter b = Ok s.
Proof.
  set (t := with_rels (tab ($"A") [($"f", {| fk_name := $"f"; fk_from_table := $"A"; fk_from_keys := [$"x"]; fk_to_table := $"A"; fk_to_keys := [$"y"] |})] None)
     [($"f", {| rel_name := $"f"; rel_from_table := $"A"; rel_to_table := $"A"; rel_conditions := $"a = b" |})]).
  exists (db1 (with_pk t [$"y"])), (db1 (with_pk (tab ($"A") [] None) [$"y"])). do 2 eexists.
  exists {| diff_db := $"d"; diff_change := ForeignKeyDropped (with_pk t [$"y"]) ($"f") |}, {| diff_db := $"d"; diff_change := RelationshipDropped (with_pk t [$"y"]) ($"f") |}.
  eexists. split; [apply usable_ok; vm_compute; reflexivity|]. split; [apply usable_ok; vm_compute; reflexivity|]. split; [vm_compute; reflexivity|].
  split; [vm_compute; tauto|]. split; [vm_compute; tauto|]. split; [discriminate|]. split; reflexivity.
Qed.
