(** * Lemmas about clients taking turns (for C110) *)
From Verif Require Import StrFacts RenumFacts.
From Verif Require Import SpecClients ObjectFacts.
From Coq Require Import Lia.

(** ** Values up to shard key identity *)
Lemma plain_name t : t_name (plain_t t) = t_name t. Proof. reflexivity. Qed.
Lemma plain_op t o : plain_t (run_table_op (plain_t t) o) = plain_t (run_table_op t o).
Proof.
  destruct o as [[c|cs|n]|[ft fk tb tk n|fk tb tk n|ft tb c n|tb n c]|k|sk]; cbn [run_table_op run_col_op run_con_op].
  - unfold plain_t, add_column, with_cols, with_shard; cbn; destruct (t_shard t); reflexivity.
  - unfold add_columns. revert t. induction cs as [|c cs IH]; intros t; cbn [fold_left].
    + unfold plain_t, with_shard; cbn; destruct (t_shard t); reflexivity.
    + rewrite <- (IH (add_column (plain_t t) c)). rewrite <- (IH (add_column t c)).
      assert (Q : plain_t (add_column (plain_t t) c) = plain_t (add_column t c)) by (unfold plain_t, add_column, with_cols, with_shard; cbn; destruct (t_shard t); reflexivity).
      rewrite Q. reflexivity.
  - unfold plain_t, drop_column, with_cols, with_shard; cbn; destruct (t_shard t); reflexivity.
  - destruct (mk_foreign_key ft fk tb tk n); cbn [bind fst]; unfold plain_t, add_fk_obj, with_fks, with_shard; cbn; destruct (t_shard t); reflexivity.
  - unfold add_fk_parts. rewrite plain_name. destruct (mk_foreign_key _ _ _ _ _); cbn [bind fst]; unfold plain_t, add_fk_obj, with_fks, with_shard; cbn; destruct (t_shard t); reflexivity.
  - destruct (mk_relationship _ _ _ _); cbn [bind fst]; unfold plain_t, add_rel_obj, with_rels, with_shard; cbn; destruct (t_shard t); reflexivity.
  - unfold add_rel_parts. rewrite plain_name. destruct (mk_relationship _ _ _ _); cbn [bind fst]; unfold plain_t, add_rel_obj, with_rels, with_shard; cbn; destruct (t_shard t); reflexivity.
  - destruct k; cbn [set_primary_key]; unfold plain_t, with_pk, with_shard; cbn; destruct (t_shard t); reflexivity.
  - reflexivity.
Qed.
Lemma plain_op_eq t t' o : plain_t t = plain_t t' -> plain_t (run_table_op t o) = plain_t (run_table_op t' o).
Proof. intros E. rewrite <- (plain_op t), <- (plain_op t'), E. reflexivity. Qed.
Lemma plain_add d t d' t' : plain d = plain d' -> plain_t t = plain_t t' -> plain (add_table d t) = plain (add_table d' t').
Proof.
  intros E F. assert (N : t_name t = t_name t') by (rewrite <- (plain_name t), F; reflexivity). assert (C : t_schema t = t_schema t') by exact (f_equal t_schema F).
  unfold add_table, plain in *. cbn [db_name db_tables db_schemas] in *. injection E as E1 E2 E3. rewrite <- !dset_map, E1, E2, E3, F, N, C. reflexivity.
Qed.
Lemma plain_get d n : get_table (plain d) n = option_map plain_t (get_table d n).
Proof. unfold get_table, plain. cbn [db_tables]. apply dget_map. Qed.
Definition same_outcome (a b : result database) : Prop :=
  match a, b with Ok x, Ok y => plain x = plain y | Err e, Err e' => e = e' | _, _ => False end.
Lemma plain_drop d d' n : plain d = plain d' ->
  same_outcome (run_api_op d (ApiDropTable n)) (run_api_op d' (ApiDropTable n)).
Proof.
  intros E. cbn [run_api_op]. unfold drop_table. pose proof (plain_get d n) as G. rewrite E, plain_get in G. unfold get_table in G.
  pose proof (f_equal db_name E) as E1. pose proof (f_equal db_tables E) as E2. pose proof (f_equal db_schemas E) as E3. cbn [plain db_name db_tables db_schemas] in E1, E2, E3.
  destruct (dget n (db_tables d)) as [t|], (dget n (db_tables d')) as [t'|]; try discriminate; [|exact E].
  cbn [option_map] in G. assert (F : plain_t t = plain_t t') by congruence. clear G. assert (C : t_schema t = t_schema t') by exact (f_equal t_schema F).
  rewrite <- C, <- E3. destruct (dget (t_schema t) (db_schemas d)) as [k|]; [|reflexivity]. cbn [bind same_outcome].
  unfold plain. cbn [db_name db_tables db_schemas]. rewrite <- !ddel_map, E1, E2, E3. reflexivity.
Qed.
Lemma plain_api_op d d' o : plain d = plain d' -> same_outcome (run_api_op d o) (run_api_op d' o).
Proof.
  intros E. destruct o as [n s pk sk ops|n|n o]; [|apply plain_drop, E|].
  - cbn [run_api_op same_outcome]. apply plain_add; [exact E | reflexivity].
  - cbn [run_api_op]. pose proof (plain_get d n) as G. rewrite E, plain_get in G.
    pose proof (f_equal db_name E) as E1. pose proof (f_equal db_tables E) as E2. pose proof (f_equal db_schemas E) as E3. cbn [plain db_name db_tables db_schemas] in E1, E2, E3.
    destruct (get_table d n) as [t|], (get_table d' n) as [t'|]; try discriminate; [|reflexivity].
    cbn [option_map] in G. assert (F : plain_t t = plain_t t') by congruence. cbn [same_outcome]. unfold plain. cbn [db_name db_tables db_schemas].
    rewrite <- !dset_map, E1, E2, E3, (plain_op_eq t t' o F). reflexivity.
Qed.
Lemma plain_api ops : forall d d', plain d = plain d' -> same_outcome (run_api ops d) (run_api ops d').
Proof.
  induction ops as [|o ops IH]; intros d d' E; cbn [run_api]; [exact E|].
  pose proof (plain_api_op d d' o E) as K. destruct (run_api_op d o), (run_api_op d' o); cbn [bind same_outcome] in *; try contradiction; auto.
Qed.

(** ** Single steps with objects *)
Lemma key_param_spec k h : sound h -> sound (snd (key_param k h)) /\ extends h (snd (key_param k h)) /\ fit_keys (snd (key_param k h)) (fst (key_param k h)) /\
  (forall h', extends (snd (key_param k h)) h' -> option_map keys_list (option_map (keys_value h') (fst (key_param k h))) = option_map keys_list k) /\
  (fst (key_param k h) = None <-> k = None).
Proof.
  intros S. destruct k as [[s|l]|]; cbn [key_param].
  - cbn [fst snd]. split; [exact S|]. split; [apply extends_refl|]. split; [exact I|]. split; [reflexivity | split; discriminate].
  - destruct (alloc_news (OList true l) h S I) as (A & B & C & _). destruct (alloc _ h) as [r h1]. cbn [fst snd] in *.
    split; [exact A|]. split; [exact B|]. split; [exists true, l; exact C|]. split; [|split; discriminate].
    intros h' X. cbn. unfold list_of. rewrite X by (rewrite C; discriminate). rewrite C. reflexivity.
  - cbn [fst snd]. split; [exact S|]. split; [apply extends_refl|]. split; [exact I|]. split; [reflexivity | tauto].
Qed.
Lemma fit_extends h h' k : extends h h' -> fit_keys h k -> fit_keys h' k.
Proof. intros X F. destruct k as [[s|r]|]; auto. destruct F as (m & l & E). exists m, l. rewrite X; [exact E | rewrite E; discriminate]. Qed.
Lemma mk_fk_lists ft fk fk' tb tk tk' n : option_map keys_list fk = option_map keys_list fk' -> option_map keys_list tk = option_map keys_list tk' ->
  mk_foreign_key ft fk tb tk n = mk_foreign_key ft fk' tb tk' n.
Proof. destruct ft, fk, fk', tb, tk, tk'; cbn; intros A B; try discriminate; try reflexivity. injection A as ->. injection B as ->. reflexivity. Qed.
Lemma shard_param_spec s h : sound h -> let r := fst (shard_param s h) in let h' := snd (shard_param s h) in
  sound h' /\ extends h h' /\ match r with Some x => is_shard h' x | None => True end /\
  option_map (fun s => (sk_keys s, sk_shards s)) (match r with Some x => shard_of h' x | None => None end) = option_map (fun s => (sk_keys s, sk_shards s)) s.
Proof.
  intros S. destruct s as [s|]; cbn [shard_param].
  - destruct (alloc_news (OList true (sk_keys s)) h S I) as (A & B & C & _). destruct (alloc _ h) as [l h1]. cbn [fst snd] in *.
    destruct (new_shard_news (ListAt l) (sk_shards s) h1 A) as (A2 & B2 & C2). destruct (new_shard _ _ h1) as [r h2]. cbn [fst snd] in *.
    split; [exact A2|]. split; [exact (extends_trans _ _ _ B B2)|]. split.
    + unfold shard_of in C2. destruct (mem h2 r) eqn:E; try discriminate. exists s0. exact E.
    + rewrite C2. cbn [option_map sk_keys sk_shards names_of]. unfold list_of. rewrite C. reflexivity.
  - cbn. split; [exact S|]. split; [apply extends_refl|]. split; [exact I | reflexivity].
Qed.
Lemma plain_shard t a b : option_map (fun s => (sk_keys s, sk_shards s)) a = option_map (fun s => (sk_keys s, sk_shards s)) b -> plain_t (with_shard t a) = plain_t (with_shard t b).
Proof. intros E. unfold plain_t, with_shard. cbn. destruct a as [a|], b as [b|]; cbn in *; try discriminate; [injection E as -> ->|]; reflexivity. Qed.

Lemma step_after h h1 h2 t v : sound h -> extends h h1 -> is_tab h t -> table_step h1 h2 t v -> table_step h h2 t v.
Proof.
  intros S X [o E] (A & B & C & D). split; [exact A|]. split; [exact (evolves_trans _ _ _ (extends_evolves _ _ X) B)|]. split; [|exact D].
  intros r N L. rewrite C; [apply X, L | exact N | rewrite X; exact L].
Qed.
Lemma on_table_step h t c : sound h -> is_tab h t -> fit_table_call h c -> table_step h (on_table t c h) t (table_after h c (table_of h t)).
Proof. intros S [o E] F. unfold on_table, table_of. cbn [run_call]. rewrite E. apply call_table_step; assumption. Qed.
Lemma tab_extends h h' t : extends h h' -> is_tab h t -> is_tab h' t.
Proof. intros X. apply tab_evolves, extends_evolves, X. Qed.
Lemma table_extends h h' t : sound h -> extends h h' -> is_tab h t -> table_of h' t = table_of h t.
Proof. intros S X T. apply table_same; [apply extends_evolves, X | exact S | exact T|]. destruct T as [o E]. apply X. rewrite E. discriminate. Qed.

Lemma none_step h h1 t : sound h -> sound h1 -> extends h h1 -> is_tab h t -> table_step h h1 t (table_of h t).
Proof.
  intros S S1 X T. split; [exact S1|]. split; [apply extends_evolves, X|]. split; [intros r _; apply X|]. exact (table_extends h h1 t S X T).
Qed.
Lemma do_table_op_step h t o : sound h -> is_tab h t ->
  exists v, table_step h (do_table_op t o h) t v /\ plain_t v = plain_t (run_table_op (table_of h t) o).
Proof.
  intros S T. destruct o as [[c|cs|n]|[ft fk tb tk n|fk tb tk n|ft tb c n|tb n c]|k|sk]; cbn [do_table_op].
  - eexists. split; [apply on_table_step; [exact S | exact T | exact I] | reflexivity].
  - eexists. split; [apply on_table_step; [exact S | exact T | exact I] | reflexivity].
  - eexists. split; [apply on_table_step; [exact S | exact T | exact I] | reflexivity].
  - destruct (key_param_spec fk h S) as (S1 & X1 & F1 & L1 & _). destruct (key_param fk h) as [a1 h1]. cbn [fst snd] in *.
    destruct (key_param_spec tk h1 S1) as (S2 & X2 & F2 & L2 & _). destruct (key_param tk h1) as [a2 h2]. cbn [fst snd] in *.
    destruct (new_fk_spec ft a1 tb a2 n h2 S2 (fit_extends _ _ _ X2 F1) F2) as (S3 & X3 & W).
    rewrite (mk_fk_lists ft _ fk tb _ tk n (L1 h2 X2) (L2 h2 (extends_refl h2))) in W.
    pose proof (extends_trans _ _ _ X1 (extends_trans _ _ _ X2 X3)) as X.
    destruct (new_fk ft a1 tb a2 n h2) as [[f|e] h3]; cbn [fst snd] in *.
    + destruct (mk_foreign_key ft fk tb tk n) as [v|] eqn:E; [|contradiction]. destruct W as [W <-].
      eexists. split.
      * apply (step_after h h3); [exact S | exact X | exact T|]. apply on_table_step; [exact S3 | exact (tab_extends _ _ _ X T) | exact W].
      * cbn [table_after run_table_op run_con_op]. rewrite E. cbn [bind fst]. rewrite (table_extends h h3 t S X T). reflexivity.
    + destruct (mk_foreign_key ft fk tb tk n) as [v|] eqn:E; [contradiction|]. eexists. split; [apply none_step; assumption|].
      cbn [run_table_op run_con_op]. rewrite E. reflexivity.
  - destruct (key_param_spec fk h S) as (S1 & X1 & F1 & L1 & _). destruct (key_param fk h) as [a1 h1]. cbn [fst snd] in *.
    destruct (key_param_spec tk h1 S1) as (S2 & X2 & F2 & L2 & _). destruct (key_param tk h1) as [a2 h2]. cbn [fst snd] in *.
    pose proof (extends_trans _ _ _ X1 X2) as X. eexists. split.
    + apply (step_after h h2); [exact S | exact X | exact T|]. apply on_table_step; [exact S2 | exact (tab_extends _ _ _ X T) | split; [exact (fit_extends _ _ _ X2 F1) | exact F2]].
    + cbn [table_after run_table_op run_con_op]. rewrite (table_extends h h2 t S X T). unfold add_fk_parts.
      rewrite (mk_fk_lists _ _ fk tb _ tk n (L1 h2 X2) (L2 h2 (extends_refl h2))). destruct (mk_foreign_key _ _ _ _ _); reflexivity.
  - cbn [run_table_op run_con_op]. destruct (mk_relationship ft tb c n) as [r|e].
    + eexists. split; [apply on_table_step; [exact S | exact T | exact I] | reflexivity].
    + eexists. split; [apply none_step; [exact S | exact S | apply extends_refl | exact T] | reflexivity].
  - eexists. split; [apply on_table_step; [exact S | exact T | exact I]|]. cbn [table_after run_table_op run_con_op]. destruct (add_rel_parts _ _ _ _); reflexivity.
  - destruct (key_param_spec k h S) as (S1 & X1 & F1 & L1 & _). destruct (key_param k h) as [a h1]. cbn [fst snd] in *.
    eexists. split; [apply (step_after h h1); [exact S | exact X1 | exact T|]; apply on_table_step; [exact S1 | exact (tab_extends _ _ _ X1 T) | exact F1]|].
    cbn [table_after run_table_op]. rewrite (table_extends h h1 t S X1 T). pose proof (L1 h1 (extends_refl h1)) as L.
    destruct a as [a|], k as [k|]; cbn [option_map] in L; try discriminate; [|reflexivity]. cbn [option_map set_primary_key or_same]. injection L as ->. reflexivity.
  - destruct (shard_param_spec sk h S) as (S1 & X1 & F1 & L1). destruct (shard_param sk h) as [a h1]. cbn [fst snd] in *.
    eexists. split; [apply (step_after h h1); [exact S | exact X1 | exact T|]; apply on_table_step; [exact S1 | exact (tab_extends _ _ _ X1 T) | exact F1]|].
    cbn [table_after run_table_op]. rewrite (table_extends h h1 t S X1 T). apply plain_shard, L1.
Qed.
Lemma tab_step h h' t v : table_step h h' t v -> is_tab h t -> is_tab h' t.
Proof. intros (_ & V & _). apply tab_evolves, V. Qed.
Lemma do_table_ops_step ops : forall h t w, sound h -> is_tab h t -> plain_t (table_of h t) = plain_t w ->
  exists v, table_step h (fold_left (fun h o => do_table_op t o h) ops h) t v /\ plain_t v = plain_t (fold_left run_table_op ops w).
Proof.
  induction ops as [|o ops IH]; intros h t w S T P; cbn [fold_left].
  - eexists. split; [apply none_step; [exact S | exact S | apply extends_refl | exact T] | exact P].
  - destruct (do_table_op_step h t o S T) as (v & K & E). pose proof (tab_step _ _ _ _ K T) as T'. pose proof K as (S' & V & Q & W).
    destruct (IH _ t (run_table_op w o) S' T') as (v2 & K2 & E2).
    { rewrite W, E. apply plain_op_eq, P. }
    exists v2. split; [|exact E2]. destruct K2 as (S2 & V2 & Q2 & W2). split; [exact S2|]. split; [exact (evolves_trans _ _ _ V V2)|]. split; [|exact W2].
    intros r N L. rewrite Q2; [apply Q; assumption | exact N | rewrite Q; assumption].
Qed.

(** ** One turn of one client *)
Section Turn.
Variable D : nat -> Prop.
Definition fine (h : heap) : Prop := sound h /\ (forall d, D d -> is_base h d) /\ forall d1 d2 t, D d1 -> D d2 -> holds h d1 t -> holds h d2 t -> d1 = d2.
Definition turn (h : heap) (d : nat) (h' : heap) : Prop := fine h' /\ forall d', D d' -> d' <> d -> base_of h' d' = base_of h d'.

Lemma held_tab h d t : sound h -> holds h d t -> is_tab h t.
Proof. intros S (b & n & E & I). exact (proj2 (holds_name h d t b n S E I)). Qed.
Lemma held_same h h' d t : mem h' d = mem h d -> holds h' d t <-> holds h d t.
Proof. intros E. unfold holds. rewrite E. tauto. Qed.

Lemma table_turn h h' d t v : fine h -> D d -> holds h d t -> table_step h h' t v ->
  turn h d h' /\ base_of h' d = changed (base_of h d) (t_name (table_of h t)) (fun _ => v).
Proof.
  intros (S & B & U) Dd H (S' & V & Q & W). pose proof (held_tab h d t S H) as [o T].
  assert (M : forall d', D d' -> mem h' d' = mem h d').
  { intros d' D'. destruct (B d' D') as [b E]. apply Q; [intros ->; congruence | rewrite E; discriminate]. }
  split.
  - split.
    + split; [exact S'|]. split; [intros d' D'; apply (base_evolves _ _ V), B, D'|]. intros d1 d2 x D1 D2 H1 H2.
      apply (U d1 d2 x D1 D2); [apply (held_same h h' d1 x (M d1 D1)), H1 | apply (held_same h h' d2 x (M d2 D2)), H2].
    + intros d' D' N. apply base_same; [exact S | exact V | apply B, D' | apply M, D'|]. intros x Hx. pose proof (held_tab h d' x S Hx) as [ox X].
      apply Q; [|rewrite X; discriminate]. intros ->. apply N. exact (U d' d t D' Dd Hx H).
  - destruct (B d Dd) as [b E]. unfold base_of. rewrite (M d Dd), E. unfold changed. cbn [db_name db_tables db_schemas]. f_equal. rewrite map_map. apply map_ext_in. intros [n x] I. cbn [fst snd].
    destruct (holds_name h d x b n S E I) as [Nx [ox X]]. f_equal. destruct (str_eqb n (t_name (table_of h t))) eqn:K.
    + apply str_eqb_eq in K. assert (x = t).
      { destruct H as (b' & n' & E2 & I2). rewrite E in E2. injection E2 as <-. destruct (holds_name h d t b n' S E I2) as [N2 _].
        pose proof (proj2 S d) as Z. rewrite E in Z. destruct Z as [Z _].
        pose proof (dget_nodup _ _ _ Z I) as G1. pose proof (dget_nodup _ _ _ Z I2) as G2. rewrite K, N2 in G1. congruence. }
      subst x. exact W.
    + apply table_same; [exact V | exact S | exists ox; exact X|]. apply Q; [|rewrite X; discriminate]. intros ->. rewrite Nx, str_eqb_refl in K. discriminate.
Qed.
Lemma grow_turn h h' d : fine h -> sound h' -> evolves h h' -> (forall r, mem h r <> Nothing -> mem h' r = mem h r) ->
  turn h d h' /\ forall d', D d' -> base_of h' d' = base_of h d'.
Proof.
  intros (S & B & U) S' V Q.
  assert (M : forall d', D d' -> mem h' d' = mem h d') by (intros d' D'; destruct (B d' D') as [b E]; apply Q; rewrite E; discriminate).
  assert (R : forall d', D d' -> base_of h' d' = base_of h d').
  { intros d' D'. apply base_same; [exact S | exact V | apply B, D' | apply M, D'|]. intros x Hx. pose proof (held_tab h d' x S Hx) as [ox X]. apply Q. rewrite X. discriminate. }
  split; [|exact R]. split; [|intros d' D' _; apply R, D'].
  split; [exact S'|]. split; [intros d' D'; apply (base_evolves _ _ V), B, D'|]. intros d1 d2 x D1 D2 H1 H2.
  apply (U d1 d2 x D1 D2); [apply (held_same h h' d1 x (M d1 D1)), H1 | apply (held_same h h' d2 x (M d2 D2)), H2].
Qed.
Lemma dset_changed (d : dict table) n t v : NoDup (dkeys d) -> dget n d = Some t ->
  map (fun x => (fst x, if str_eqb (fst x) n then v else snd x)) d = dset n v d.
Proof.
  induction d as [|[k w] d IH]; intros N G; [discriminate|]. cbn [map fst snd dset dget dkeys] in *. rewrite (str_eqb_sym k n).
  inversion N as [|y l Hn Nd]; subst. destruct (str_eqb n k) eqn:K.
  - apply str_eqb_eq in K. subst k. f_equal. rewrite <- (map_id d) at 2. apply map_ext_in. intros [a b] I. cbn [fst snd].
    destruct (str_eqb a n) eqn:Q; [|reflexivity]. apply str_eqb_eq in Q. subst a. destruct Hn. exact (in_map fst _ _ I).
  - f_equal. apply IH; assumption.
Qed.

Lemma do_turn h d o : fine h -> D d -> turn h d (do_api_op d o h) /\
  forall v, run_api_op (base_of h d) o = Ok v -> plain (base_of (do_api_op d o h) d) = plain v.
Proof.
  intros Fh Dd. pose proof Fh as (S & B & U). destruct (B d Dd) as [b E]. destruct o as [n s pk sk ops|n|n o]; cbn [do_api_op run_api_op].
  - destruct (key_param_spec pk h S) as (S1 & X1 & F1 & L1 & _). destruct (key_param pk h) as [a1 h1]. cbn [fst snd] in *.
    destruct (shard_param_spec sk h1 S1) as (S2 & X2 & F2 & L2). destruct (shard_param sk h1) as [a2 h2]. cbn [fst snd] in *.
    destruct (new_table_news n s a1 a2 h2 S2 F2) as (S3 & X3 & T3 & N3 & W3). destruct (new_table n s a1 a2 h2) as [t h3]. cbn [fst snd] in *.
    pose proof (extends_trans _ _ _ X1 X2) as X02. pose proof (extends_trans _ _ _ X02 X3) as X03.
    assert (N0 : mem h t = Nothing) by (destruct (mem h t) eqn:Q; [reflexivity|..]; rewrite X02 in N3 by (rewrite Q; discriminate); congruence).
    destruct (do_table_ops_step ops h3 t (mk_table n s pk sk) S3 T3) as (v & K & Ev).
    { rewrite W3. unfold mk_table, plain_t, with_shard. cbn [t_name t_schema t_pk t_shard t_cols t_fks t_rels]. f_equal.
      - pose proof (L1 h2 X2) as L. destruct a1, pk; cbn [option_map] in *; try discriminate; [injection L as ->|]; reflexivity.
      - destruct a2 as [a2|]; [destruct (shard_of h2 a2)|]; destruct sk; cbn in *; try discriminate; try reflexivity. injection L2 as -> ->. reflexivity. }
    set (h4 := fold_left (fun h o => do_table_op t o h) ops h3) in *. pose proof (tab_step _ _ _ _ K T3) as T4. destruct K as (S4 & V4 & Q4 & W4).
    assert (Q04 : forall r, mem h r <> Nothing -> mem h4 r = mem h r).
    { intros r L. rewrite Q4; [apply X03, L | intros ->; contradiction | rewrite X03; exact L]. }
    pose proof (evolves_trans _ _ _ (extends_evolves _ _ X03) V4) as V04.
    destruct (grow_turn h h4 d Fh S4 V04 Q04) as [[(_ & B4 & U4) _] R4].
    assert (M4 : mem h4 d = OBase b) by (rewrite Q04; [exact E | rewrite E; discriminate]). destruct T4 as [o T4].
    cbn [run_call]. rewrite M4, T4. destruct (add_step h4 d t b o S4 M4 T4) as (S5 & V5 & W5). set (h5 := store d _ h4) in *.
    assert (Nt : forall d', D d' -> ~ holds h4 d' t).
    { intros d' D' H. destruct (B d' D') as [b' E']. assert (H0 : holds h d' t) by (apply (held_same h h4 d' t); [apply Q04; rewrite E'; discriminate | exact H]).
      destruct (held_tab h d' t S H0). congruence. }
    split.
    + split.
      * split; [exact S5|]. split; [intros d' D'; apply (base_evolves _ _ V5), B4, D'|].
        assert (Hh : forall d' x, D d' -> holds h5 d' x -> holds h4 d' x \/ (d' = d /\ x = t)).
        { intros d' x D' H. destruct (Nat.eq_dec d' d) as [->|N]; [|left; apply (held_same h4 h5 d' x); [apply store_else, N | exact H]].
          destruct H as (b' & m & E' & I). unfold h5 in E'. rewrite store_at in E'. injection E' as <-. cbn [add_to_base bo_tables] in I.
          pose proof (proj2 S4 d) as Z. rewrite M4 in Z. destruct Z as [Z _].
          pose proof (dget_nodup _ _ _ (nodup_dset (ob_name o) t _ Z) I) as G. rewrite dget_dset in G. destruct (str_eqb m (ob_name o)).
          - right. injection G as ->. auto.
          - left. exists b, m. split; [exact M4 | apply dget_in, G]. }
        intros d1 d2 x D1 D2 H1 H2. pose proof (Hh d1 x D1 H1) as K1. pose proof (Hh d2 x D2 H2) as K2.
        destruct K1 as [K1|[K1 K1']], K2 as [K2|[K2 K2']].
        -- exact (U4 d1 d2 x D1 D2 K1 K2).
        -- subst x. destruct (Nt d1 D1 K1).
        -- subst x. destruct (Nt d2 D2 K2).
        -- congruence.
      * intros d' D' N. rewrite <- (R4 d' D'). apply base_same; [exact S4 | exact V5 | apply B4, D' | apply store_else, N|].
        intros x H. destruct (held_tab h4 d' x S4 H). apply store_else. intros ->. congruence.
    + intros w [= <-]. rewrite W5, (R4 d Dd). apply plain_add; [reflexivity|]. rewrite W4, Ev. reflexivity.
  - cbn [run_call]. rewrite E. destruct (dget n (bo_tables b)) as [t|] eqn:G.
    + destruct (holds_name h d t b n S E (dget_in _ _ _ G)) as [_ [o T]]. rewrite T. destruct (drop_step h d n b t o S E G T) as (S5 & V5 & W5). set (h5 := store d _ h) in *.
      split.
      * split.
        -- split; [exact S5|]. split; [intros d' D'; apply (base_evolves _ _ V5), B, D'|].
           assert (Hh : forall d' x, D d' -> holds h5 d' x -> holds h d' x).
           { intros d' x D' H. destruct (Nat.eq_dec d' d) as [->|N]; [|apply (held_same h h5 d' x); [apply store_else, N | exact H]].
             destruct H as (b' & m & E' & I). unfold h5 in E'. rewrite store_at in E'. injection E' as <-. exists b, m. split; [exact E | apply (ddel_incl n), I]. }
           intros d1 d2 x D1 D2 H1 H2. apply (U d1 d2 x D1 D2); apply Hh; assumption.
        -- intros d' D' N. apply base_same; [exact S | exact V5 | apply B, D' | apply store_else, N|]. intros x H. destruct (held_tab h d' x S H). apply store_else. intros ->. congruence.
      * intros w Ew. rewrite W5. unfold without_table. destruct (drop_table (base_of h d) n) as [[d' x]|e]; [|discriminate]. cbn [bind] in Ew. injection Ew as <-. reflexivity.
    + split; [apply (grow_turn h h d Fh S); [apply extends_evolves, extends_refl | reflexivity]|].
      intros w Ew. unfold drop_table in Ew. unfold base_of in Ew at 1. rewrite E in Ew. cbn [db_tables] in Ew. rewrite (dget_map (table_of h)), G in Ew. cbn [option_map bind] in Ew. injection Ew as <-. reflexivity.
  - rewrite E. destruct (dget n (bo_tables b)) as [t|] eqn:G.
    + destruct (holds_name h d t b n S E (dget_in _ _ _ G)) as [Nt T]. assert (H : holds h d t) by (exists b, n; split; [exact E | exact (dget_in _ _ _ G)]).
      destruct (do_table_op_step h t o S T) as (v & K & Ev). destruct (table_turn h _ d t v Fh Dd H K) as [Tn Wn]. split; [exact Tn|].
      assert (Gv : dget n (db_tables (base_of h d)) = Some (table_of h t)) by (unfold base_of; rewrite E; cbn [db_tables]; rewrite (dget_map (table_of h)), G; reflexivity).
      intros w Ew. unfold get_table in Ew. rewrite Gv in Ew. injection Ew as <-. rewrite Wn, Nt. unfold changed, plain. cbn [db_name db_tables db_schemas]. f_equal.
      rewrite (dset_changed _ n (table_of h t)).
      * rewrite <- !(dset_map plain_t), Ev. reflexivity.
      * unfold base_of. rewrite E. cbn [db_tables]. unfold dkeys. rewrite map_map. pose proof (proj2 S d) as Z. rewrite E in Z. exact (proj1 Z).
      * exact Gv.
    + split; [apply (grow_turn h h d Fh S); [apply extends_evolves, extends_refl | reflexivity]|].
      intros w Ew. unfold get_table in Ew. unfold base_of in Ew at 1. rewrite E in Ew. cbn [db_tables] in Ew. rewrite (dget_map (table_of h)), G in Ew. discriminate.
Qed.

Lemma do_all_turns prog : forall h, fine h -> (forall x, In x prog -> D (fst x)) ->
  forall d v, D d -> run_api (of_client d prog) (base_of h d) = Ok v -> plain (base_of (do_all prog h) d) = plain v.
Proof.
  induction prog as [|[d1 o] prog IH]; intros h Fh A d v Dd E.
  - cbn in E. injection E as <-. reflexivity.
  - assert (D1 : D d1) by exact (A (d1, o) (or_introl eq_refl)). destruct (do_turn h d1 o Fh D1) as [[F' O] W].
    unfold do_all. cbn [fold_left fst snd]. fold (do_all prog (do_api_op d1 o h)).
    unfold of_client in E. cbn [filter fst] in E. destruct (Nat.eqb_spec d1 d) as [->|N]; cbn [map snd] in E; fold (of_client d prog) in E.
    + cbn [run_api] in E. destruct (run_api_op (base_of h d) o) as [w|e] eqn:Ew; [|discriminate]. cbn [bind] in E.
      pose proof (plain_api (of_client d prog) _ _ (W w eq_refl)) as K. rewrite E in K.
      destruct (run_api (of_client d prog) (base_of (do_api_op d o h) d)) as [v'|] eqn:E'; [|contradiction]. cbn [same_outcome] in K. rewrite <- K.
      apply (IH _ F' (fun x I => A x (or_intror I)) d v' Dd E').
    + apply (IH _ F' (fun x I => A x (or_intror I)) d v Dd). rewrite (O d Dd) by congruence. exact E.
Qed.
End Turn.
