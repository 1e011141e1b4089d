(** * Lemmas: a whole script read back (for C45) *)
From Verif Require Export RoundHash.
From Verif Require Import MessageSame.

(** ** The text of a script *)
Definition texts_read (l : list (result str)) (es : list str) : Prop := exists s, concat_results l = Ok s /\ reads s es.
Lemma texts_nil : texts_read [] [].
Proof. exists []. split; [reflexivity|exact reads_nil]. Qed.
Lemma texts_cons r s l es fs : r = Ok s -> reads s es -> texts_read l fs -> texts_read (r :: l) (es ++ fs).
Proof. intros -> R [s' [E R']]. exists (s ++ s'). split; [cbn [concat_results bind]; rewrite E; reflexivity|apply reads_app; assumption]. Qed.
Lemma texts_app l l' es fs : texts_read l es -> texts_read l' fs -> texts_read (l ++ l') (es ++ fs).
Proof.
  revert es. induction l as [|r l IH]; intros es [s [E R]] H.
  - injection E as <-. destruct H as [s' [E' R']]. exists ([] ++ s'). split; [exact E'|apply reads_app; assumption].
  - destruct H as [s' [E' R']]. exists (s ++ s'). split; [|apply reads_app; assumption].
    assert (C : forall l l' s s', concat_results l = Ok s -> concat_results l' = Ok s' -> concat_results (l ++ l') = Ok (s ++ s')).
    { clear. induction l as [|r l IH]; intros l' s s' A B; [injection A as <-; exact B|]. cbn [concat_results app] in *. destruct r as [x|e]; [|discriminate A]. cbn [bind] in *.
      destruct (concat_results l) as [y|e] eqn:Ey; [|discriminate A]. cbn [bind] in A. injection A as <-. rewrite (IH l' y s' eq_refl B). cbn [bind]. rewrite <- app_assoc. reflexivity. }
    apply C; assumption.
Qed.
Lemma texts_one r s es : r = Ok s -> reads s es -> texts_read [r] es.
Proof. intros E R. pose proof (texts_cons r s [] es [] E R texts_nil) as T. rewrite app_nil_r in T. exact T. Qed.
Lemma texts_flat {A} (f : A -> list (result str)) (g : A -> list str) l : (forall x, In x l -> texts_read (f x) (g x)) -> texts_read (flat_map f l) (flat_map g l).
Proof.
  induction l as [|x l IH]; intros H; [exact texts_nil|]. cbn [flat_map]. apply texts_app; [apply H; left; reflexivity|]. apply IH. intros y Hy. apply H. right. exact Hy.
Qed.
Lemma texts_map {A} (f : A -> result str) (g : A -> str) l : (forall x, In x l -> exists s, f x = Ok s /\ reads s [g x]) -> texts_read (map f l) (map g l).
Proof.
  induction l as [|x l IH]; intros H; [exact texts_nil|]. cbn [map]. destruct (H x) as [s [E R]]; [left; reflexivity|].
  change (g x :: map g l) with ([g x] ++ map g l). eapply texts_cons; [exact E|exact R|]. apply IH. intros y Hy. apply H. right. exact Hy.
Qed.

Definition prefix_texts (create_db : bool) (d : database) : list str :=
  (if create_db then [$"CREATE DATABASE " ++ quoted (db_name d)] else []) ++ [$"USE " ++ quoted (db_name d)]
  ++ (if create_db then map (fun s => $"CREATE SCHEMA " ++ quoted s) (filter (fun s => negb (str_eqb s DEFAULT_SCHEMA)) (get_schema_names d)) else []).
Definition table_text (t : table) : list str := [drop_text (t_schema t) (t_name t); create_text t].
Definition script_texts (create_db : bool) (d : database) : list str :=
  prefix_texts create_db d ++ flat_map table_text (db_iter d)
  ++ flat_map (fun t => map (fk_text (t_schema t) (t_name t)) (foreign_keys_iter t)) (db_iter d)
  ++ flat_map (fun t => map (rel_text (t_schema t) (t_name t)) (relationships_iter t)) (db_iter d).

Section Script.
Variable d : database.
Hypothesis W : well_formed d.
Hypothesis P : plain_db d.

Lemma round_reads create_db : exists s, tql_script no_case create_db d = Ok s /\ reads s (script_texts create_db d).
Proof.
  change (texts_read (tql_texts no_case create_db d) (script_texts create_db d)). unfold tql_texts, script_texts, prefix_texts. rewrite <- !app_assoc.
  apply texts_app.
  { destruct create_db; [|exact texts_nil]. destruct (create_database_reads [] _ (pb_name _ P)) as [s [E [R _]]]. exact (texts_one _ _ _ E R). }
  apply texts_app.
  { destruct (use_database_reads [] _ (pb_name _ P)) as [s [E [R _]]]. exact (texts_one _ _ _ E R). }
  apply texts_app.
  { destruct create_db; [|exact texts_nil]. apply texts_map. intros s Hs. apply filter_In in Hs. destruct Hs as [Hs _].
    destruct (create_schema_reads [] _ (pb_schemas _ P s Hs)) as [x [E [R _]]]. exists x. split; assumption. }
  apply texts_app.
  { apply texts_flat. intros t Ht. pose proof (pb_tables _ P t Ht) as Pt. pose proof (wf_tables _ W t Ht) as Wt. unfold table_texts, table_text.
    destruct (drop_table_reads [] t (schema_plain t Pt) (name_plain t Pt)) as [s [E [R _]]].
    refine (texts_cons _ _ _ [] _ eq_refl reads_newline _). refine (texts_cons _ _ _ [drop_text (t_schema t) (t_name t)] [create_text t] E R _).
    refine (texts_cons _ _ _ [] _ eq_refl reads_newline _). exact (texts_one _ _ _ (gen_create_text t Pt) (create_reads t Pt Wt)). }
  apply texts_app; apply texts_flat; intros t Ht; pose proof (pb_tables _ P t Ht) as Pt; apply texts_map.
  - intros fk Hfk. pose proof (pt_all_fks _ Pt fk Hfk) as F. exists (fk_text (t_schema t) (t_name t) fk ++ $";" ++ [newline]). split.
    + unfold gen_foreign_key. rewrite !to_case_none. cbn [bind]. rewrite (pk_from _ _ F). unfold fk_text, fk_body, alter_head. do 4 (rewrite <- ?app_assoc; cbn [app list_ascii_of_string]). reflexivity.
    + apply reads_one; [|discriminate|reflexivity]. apply fk_text_line; [exact (schema_plain t Pt)|exact (name_plain t Pt)|exact (pk_names _ _ F)|exact (proj1 (pk_some _ _ F))|exact (proj2 (pk_some _ _ F))].
  - intros r Hr. pose proof (pt_all_rels _ Pt r Hr) as F. exists (rel_text (t_schema t) (t_name t) r ++ $";" ++ [newline]). split.
    + unfold gen_relationships. rewrite !to_case_none. cbn [bind]. rewrite (pl_from _ _ F). unfold rel_text, alter_head. do 4 (rewrite <- ?app_assoc; cbn [app list_ascii_of_string]). reflexivity.
    + apply reads_one; [|discriminate|reflexivity]. apply rel_text_line; [exact (schema_plain t Pt)|exact (name_plain t Pt)|exact (proj1 (pl_names _ _ F))|exact (proj2 (pl_names _ _ F))|exact (pl_cond _ _ F)].
Qed.

(** ** Parsing it *)
Variable schema : str.
Definition goes (id : nat) (es : list str) (d0 d1 : database) : Prop :=
  forall rest, exists id', heard_statements schema id (es ++ rest) d0 = heard_statements schema id' rest d1.
Lemma quiet_on {A} (p : A * list message) : (let '(r, ms) := p in (r, [] ++ ms)) = p.
Proof. destruct p; reflexivity. Qed.
Lemma goes_nil id d0 : goes id [] d0 d0.
Proof. intros rest. exists id. reflexivity. Qed.
Lemma passive_goes es : (forall e, In e es -> passive schema e) -> forall id d0, goes id es d0 d0.
Proof.
  induction es as [|e es IH]; intros H id d0; [apply goes_nil|]. intros rest. cbn [app heard_statements]. rewrite (H e (or_introl eq_refl)). rewrite quiet_on.
  apply IH. intros x Hx. apply H. right. exact Hx.
Qed.
Lemma prefix_passive create_db e : In e (prefix_texts create_db d) -> passive schema e.
Proof.
  unfold prefix_texts. intros H. apply in_app_or in H. destruct H as [H|H].
  { destruct create_db; [|destruct H]. destruct H as [<-|[]]. destruct (create_database_reads schema _ (pb_name _ P)) as [s [_ [_ Q]]]. exact Q. }
  destruct H as [<-|H].
  { destruct (use_database_reads schema _ (pb_name _ P)) as [s [_ [_ Q]]]. exact Q. }
  destruct create_db; [|destruct H]. apply in_map_iff in H. destruct H as [s [<- Hs]]. apply filter_In in Hs. destruct Hs as [Hs _].
  destruct (create_schema_reads schema _ (pb_schemas _ P s Hs)) as [x [_ [_ Q]]]. exact Q.
Qed.
Definition named (c : table) : str * table := (t_name c, c).
Lemma creates_goes ts : (forall t, In t ts -> In t (db_iter d)) -> forall id d0, NoDup (dkeys (db_tables d0) ++ map t_name ts) ->
  exists d1 cs, goes id (flat_map table_text ts) d0 d1 /\ db_name d1 = db_name d0 /\ Forall2 (fun t c => exists i, c = created t schema i) ts cs
    /\ db_tables d1 = db_tables d0 ++ map named cs.
Proof.
  induction ts as [|t ts IH]; intros I id d0 N.
  - exists d0, []. split; [apply goes_nil|]. split; [reflexivity|]. split; [constructor|]. cbn [map]. rewrite app_nil_r. reflexivity.
  - assert (Ht : In t (db_iter d)) by (apply I; left; reflexivity). pose proof (pb_tables _ P t Ht) as Pt. pose proof (wf_tables _ W t Ht) as Wt.
    assert (Nt : ~ In (t_name t) (dkeys (db_tables d0))).
    { cbn [map] in N. apply NoDup_remove in N. destruct N as [_ N]. intros X. apply N, in_or_app. left. exact X. }
    destruct (IH ltac:(intros x Hx; apply I; right; exact Hx) (S (S id)) (add_table d0 (created t schema (S id)))) as [d1 [cs [G [Nm [F T]]]]].
    { cbn [add_table db_tables created t_name]. rewrite dkeys_dset_new by exact Nt. rewrite <- app_assoc. exact N. }
    exists d1, (created t schema (S id) :: cs). split; [|split; [exact Nm|split]].
    + intros rest. cbn [flat_map table_text app heard_statements]. destruct (drop_table_reads schema t (schema_plain t Pt) (name_plain t Pt)) as [s [_ [_ Q]]]. rewrite Q, quiet_on.
      rewrite (parse_create_text t Pt Wt), quiet_on. apply G.
    + constructor; [eexists; reflexivity|exact F].
    + rewrite T. cbn [add_table db_tables created t_name]. rewrite dset_new by exact Nt. rewrite <- app_assoc. reflexivity.
Qed.
Lemma dset_middle {A} k (v w : A) a b : ~ In k (dkeys a) -> dset k w (a ++ (k, v) :: b) = a ++ (k, w) :: b.
Proof.
  induction a as [|[k' x] a IH]; intros H; cbn [app dset].
  - rewrite str_eqb_refl. reflexivity.
  - destruct (str_eqb_spec k k') as [->|N]; [exfalso; apply H; left; reflexivity|]. rewrite IH; [reflexivity|]. intros X. apply H. right. exact X.
Qed.
Lemma dget_middle {A} k (v : A) a b : ~ In k (dkeys a) -> dget k (a ++ (k, v) :: b) = Some v.
Proof.
  induction a as [|[k' x] a IH]; intros H; cbn [app dget].
  - rewrite str_eqb_refl. reflexivity.
  - destruct (str_eqb_spec k k') as [->|N]; [exfalso; apply H; left; reflexivity|]. apply IH. intros X. apply H. right. exact X.
Qed.

Section Steps.
Variable A : Type.
Variable items : table -> list A.
Variable text : table -> A -> str.
Variable step : table -> A -> table.
Hypothesis step_name : forall c a, t_name (step c a) = t_name c.
Hypothesis step_goes : forall t a d0 c id, In t (db_iter d) -> In a (items t) -> get_table d0 (t_name t) = Some c -> t_name c = t_name t ->
  heard_statement schema id d0 (text t a) = (Ok (store_table d0 (t_name t) (step c a)), []).
Lemma step_one t l : In t (db_iter d) -> (forall a, In a l -> In a (items t)) -> forall d0 c before after,
  db_tables d0 = before ++ (t_name t, c) :: after -> ~ In (t_name t) (dkeys before) -> t_name c = t_name t ->
  exists d1, (forall id, goes id (map (text t) l) d0 d1) /\ db_name d1 = db_name d0 /\ db_tables d1 = before ++ (t_name t, fold_left step l c) :: after.
Proof.
  intros Ht. induction l as [|a l IH]; intros I d0 c before after E N Nc.
  - exists d0. split; [intros id; apply goes_nil|]. split; [reflexivity|exact E].
  - destruct (IH ltac:(intros x Hx; apply I; right; exact Hx) (store_table d0 (t_name t) (step c a)) (step c a) before after) as [d1 [G [Nm T]]].
    + cbn [store_table db_tables]. rewrite E, dset_middle by exact N. reflexivity.
    + exact N.
    + rewrite step_name. exact Nc.
    + exists d1. split; [|split; [exact Nm|exact T]]. intros id rest. cbn [map app heard_statements].
      rewrite (step_goes t a d0 c id Ht (I a (or_introl eq_refl))); [|unfold get_table; rewrite E; apply dget_middle, N|exact Nc]. rewrite quiet_on. apply G.
Qed.
Lemma step_names l : forall c, t_name (fold_left step l c) = t_name c.
Proof. induction l as [|a l IH]; intros c; [reflexivity|]. cbn [fold_left]. rewrite IH. apply step_name. Qed.
Lemma steps_all (R : table -> table -> Prop) ts : (forall t, In t ts -> In t (db_iter d)) -> (forall t c, R t c -> t_name c = t_name t) -> forall cs, Forall2 R ts cs -> forall d0 before,
  db_tables d0 = before ++ map named cs -> NoDup (dkeys before ++ map t_name ts) ->
  exists d1 cs', (forall id, goes id (flat_map (fun t => map (text t) (items t)) ts) d0 d1) /\ db_name d1 = db_name d0
    /\ Forall2 (fun t c' => exists c, R t c /\ c' = fold_left step (items t) c) ts cs' /\ db_tables d1 = before ++ map named cs'.
Proof.
  intros I Rn. induction ts as [|t ts IH]; intros cs F d0 before E N; inversion F as [|x c y cs1 Hc F1]; subst.
  - exists d0, []. split; [intros id; apply goes_nil|]. split; [reflexivity|]. split; [constructor|exact E].
  - cbn [map] in E, N. assert (Nt : ~ In (t_name t) (dkeys before)).
    { apply NoDup_remove in N. destruct N as [_ N]. intros X. apply N, in_or_app. left. exact X. }
    pose proof (Rn t c Hc) as Nc. unfold named at 1 in E. rewrite Nc in E.
    destruct (step_one t (items t) (I t (or_introl eq_refl)) ltac:(intros a Ha; exact Ha) d0 c before (map named cs1) E Nt Nc) as [d1 [G [Nm T]]].
    set (c' := fold_left step (items t) c) in *.
    destruct (IH ltac:(intros x Hx; apply I; right; exact Hx) cs1 F1 d1 (before ++ [(t_name t, c')])) as [d2 [cs' [G2 [Nm2 [F2 T2]]]]].
    { rewrite T, <- app_assoc. reflexivity. }
    { unfold dkeys. rewrite map_app. cbn [map fst]. rewrite <- app_assoc. exact N. }
    exists d2, (c' :: cs'). split; [|split; [congruence|split]].
    + intros id rest. cbn [flat_map]. rewrite <- app_assoc. destruct (G id (flat_map (fun t => map (text t) (items t)) ts ++ rest)) as [i Gi]. rewrite Gi. apply G2.
    + constructor; [exists c; split; [exact Hc|reflexivity]|exact F2].
    + rewrite T2, <- app_assoc. cbn [map app]. unfold named at 2. replace (t_name c') with (t_name t) by (unfold c'; rewrite step_names; symmetry; exact Nc). reflexivity.
Qed.
End Steps.

Lemma goes_app id es fs d0 d1 d2 : goes id es d0 d1 -> (forall i, goes i fs d1 d2) -> goes id (es ++ fs) d0 d2.
Proof. intros A B rest. rewrite <- app_assoc. destruct (A (fs ++ rest)) as [i E]. rewrite E. apply B. Qed.
Lemma rebuild {A} (name : A -> str) (D : dict A) : NoDup (dkeys D) -> (forall k v, dget k D = Some v -> name v = k) ->
  fold_left (fun m v => dset (name v) v m) (dvals D) [] = D.
Proof.
  intros N H. assert (G : forall D acc, NoDup (dkeys acc ++ dkeys D) -> (forall k v, In (k, v) D -> name v = k) -> fold_left (fun m v => dset (name v) v m) (dvals D) acc = acc ++ D).
  { clear. induction D as [|[k v] D IH]; intros acc N H; [rewrite app_nil_r; reflexivity|]. unfold dvals. cbn [map snd fold_left]. fold (dvals D).
    rewrite (H k v) by (left; reflexivity). assert (Nk : ~ In k (dkeys acc)) by (unfold dkeys in N at 2; cbn [map fst] in N; apply NoDup_remove in N; destruct N as [_ N]; intros X; apply N, in_or_app; left; exact X).
    rewrite IH.
    - rewrite dset_new by exact Nk. rewrite <- app_assoc. reflexivity.
    - rewrite dkeys_dset_new by exact Nk. rewrite <- app_assoc. exact N.
    - intros k' v' X. apply H. right. exact X. }
  apply (G D []); [exact N|]. intros k v X. apply H. apply dget_nodup; assumption.
Qed.
Lemma fold_fks l : forall c, fold_left add_fk_obj l c = with_fks c (fold_left (fun m v => dset (fk_name v) v m) l (t_fks c)).
Proof. induction l as [|a l IH]; intros c; [destruct c; reflexivity|]. cbn [fold_left]. rewrite IH. destruct c; reflexivity. Qed.
Lemma fold_rels l : forall c, fold_left add_rel_obj l c = with_rels c (fold_left (fun m v => dset (rel_name v) v m) l (t_rels c)).
Proof. induction l as [|a l IH]; intros c; [destruct c; reflexivity|]. cbn [fold_left]. rewrite IH. destruct c; reflexivity. Qed.

Lemma round_heard create_db name : exists s d', tql_script no_case create_db d = Ok s /\ heard_text name schema s = (Ok d', [])
  /\ db_name d' = name /\ get_table_names d' = get_table_names d /\ Forall2 (read_back schema) (db_iter d) (db_iter d').
Proof.
  destruct (round_reads create_db) as [s [Es R]]. exists s. apply reads_statements in R.
  assert (Nn : map t_name (db_iter d) = get_table_names d).
  { destruct (wf_names _ W) as [Nd H]. unfold get_table_names, db_iter, dkeys, dvals. rewrite map_map. apply map_ext_in. intros [k t] Hk. cbn [fst snd]. apply (H k t). apply dget_nodup; assumption. }
  destruct (wf_names _ W) as [Nd _].
  destruct (passive_goes (prefix_texts create_db d) (prefix_passive create_db) 0 (empty_database name) (flat_map table_text (db_iter d)
    ++ flat_map (fun t => map (fk_text (t_schema t) (t_name t)) (foreign_keys_iter t)) (db_iter d)
    ++ flat_map (fun t => map (rel_text (t_schema t) (t_name t)) (relationships_iter t)) (db_iter d))) as [i0 G0].
  destruct (creates_goes (db_iter d) ltac:(intros t H; exact H) i0 (empty_database name)) as [d1 [cs1 [G1 [N1 [F1 T1]]]]].
  { cbn [empty_database db_tables dkeys map app]. rewrite Nn. exact Nd. }
  destruct (steps_all foreign_key foreign_keys_iter (fun t => fk_text (t_schema t) (t_name t)) add_fk_obj ltac:(reflexivity)) with
    (R := fun t c => exists i, c = created t schema i) (ts := db_iter d) (cs := cs1) (d0 := d1) (before := [] : dict table) as [d2 [cs2 [G2 [N2 [F2 T2]]]]].
  { intros t fk d0 c id Ht Hfk Hg Hn. pose proof (pb_tables _ P t Ht) as Pt. pose proof (pt_all_fks _ Pt fk Hfk) as F.
    apply parse_fk_text; try assumption; [exact (schema_plain t Pt)|exact (name_plain t Pt)|exact (pk_names _ _ F)|exact (proj1 (pk_some _ _ F))|exact (proj2 (pk_some _ _ F))|exact (pk_constraint _ _ F)|exact (pk_from _ _ F)|].
    exact (wf_paired _ (wf_tables _ W t Ht) fk Hfk). }
  { intros t H. exact H. }
  { intros t c [i ->]. reflexivity. }
  { exact F1. }
  { exact T1. }
  { cbn [dkeys map app]. rewrite Nn. exact Nd. }
  destruct (steps_all relationship relationships_iter (fun t => rel_text (t_schema t) (t_name t)) add_rel_obj ltac:(reflexivity)) with
    (R := fun t c' => exists c, (exists i, c = created t schema i) /\ c' = fold_left add_fk_obj (foreign_keys_iter t) c) (ts := db_iter d) (cs := cs2) (d0 := d2) (before := [] : dict table) as [d3 [cs3 [G3 [N3 [F3 T3]]]]].
  { intros t r d0 c id Ht Hr Hg Hn. pose proof (pb_tables _ P t Ht) as Pt. pose proof (pt_all_rels _ Pt r Hr) as F.
    apply parse_rel_text; try assumption; [exact (schema_plain t Pt)|exact (name_plain t Pt)|exact (proj1 (pl_names _ _ F))|exact (proj2 (pl_names _ _ F))|exact (pl_foreign _ _ F)|exact (pl_cond _ _ F)|exact (pl_from _ _ F)]. }
  { intros t H. exact H. }
  { intros t c' [c [[i ->] ->]]. rewrite fold_fks. reflexivity. }
  { exact F2. }
  { exact T2. }
  { cbn [dkeys map app]. rewrite Nn. exact Nd. }
  exists d3. split; [exact Es|]. split.
  { unfold heard_text. rewrite R. unfold script_texts. rewrite G0.
    destruct (G1 (flat_map (fun t => map (fk_text (t_schema t) (t_name t)) (foreign_keys_iter t)) (db_iter d)
      ++ flat_map (fun t => map (rel_text (t_schema t) (t_name t)) (relationships_iter t)) (db_iter d))) as [i1 E1]. rewrite E1.
    destruct (G2 i1 (flat_map (fun t => map (rel_text (t_schema t) (t_name t)) (relationships_iter t)) (db_iter d))) as [i2 E2]. rewrite E2.
    destruct (G3 i2 []) as [i3 E3]. rewrite app_nil_r in E3. rewrite E3. reflexivity. }
  split; [rewrite N3, N2, N1; reflexivity|].
  assert (Di : db_iter d3 = cs3) by (unfold db_iter, dvals; rewrite T3; cbn [app]; rewrite map_map; cbn [named snd]; apply map_id).
  assert (Fr : Forall2 (read_back schema) (db_iter d) (db_iter d3)).
  { rewrite Di. assert (Wt : forall t, In t (db_iter d) -> well_formed_table t) by exact (wf_tables _ W). revert F3 Wt. generalize (db_iter d). clear. intros ts F3. induction F3 as [|t c' ts cs3 H F IH]; intros Wt; [constructor|].
    constructor; [|apply IH; intros x Hx; apply Wt; right; exact Hx]. destruct H as [c [[c0 [[i ->] ->]] ->]]. pose proof (Wt t (or_introl eq_refl)) as Wf.
    rewrite fold_fks, fold_rels. split; try reflexivity.
    - unfold table_iter at 1. cbn [t_cols with_rels with_fks created]. unfold dvals, named_cols. rewrite !map_map. reflexivity.
    - unfold shard_of. cbn [t_shard with_rels with_fks created]. unfold read_shard. destruct (t_shard t); reflexivity.
    - cbn [t_fks with_rels with_fks created]. destruct (wf_fks _ Wf) as [A B]. apply rebuild; assumption.
    - cbn [t_rels with_rels with_fks created]. destruct (wf_rels _ Wf) as [A B]. apply rebuild; assumption. }
  split; [|exact Fr]. rewrite <- Nn. unfold get_table_names. rewrite T3. cbn [app]. unfold dkeys. rewrite map_map. cbn [named fst].
  rewrite Di in Fr. revert Fr. generalize (db_iter d). clear. intros ts F. induction F as [|t c ts cs H F IH]; [reflexivity|]. cbn [map]. rewrite IH, (rb_name _ _ _ H). reflexivity.
Qed.
Lemma round_db create_db name : exists s d', tql_script no_case create_db d = Ok s /\ parse_text name schema s = Ok d'
  /\ db_name d' = name /\ get_table_names d' = get_table_names d /\ Forall2 (read_back schema) (db_iter d) (db_iter d').
Proof.
  destruct (round_heard create_db name) as (s & d' & E & H & R). exists s, d'. split; [exact E|]. split; [|exact R].
  unfold parse_text. rewrite <- heard_statements_same. unfold heard_text in H. rewrite H. reflexivity.
Qed.
End Script.
