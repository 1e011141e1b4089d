(** * Lemmas: executing the statement of one change (C95) *)
From Verif Require Import SpecAlter StrFacts DiffFacts DiffProps CatalogFacts AlterFacts.
From Coq Require Import List. Import ListNotations.

(** ** A catalog entry shows a table *)
Definition cfk_of (cs k : str) (f : foreign_key) : cfk :=
  {| cf_name := k; cf_cols := fk_from_keys f; cf_schema := cs; cf_table := fk_to_table f; cf_to_cols := fk_to_keys f |}.
Definition crel_of (cs k : str) (r : relationship) : crel :=
  {| cr_name := k; cr_schema := cs; cr_table := rel_to_table r; cr_cond := rel_conditions r |}.
Record shows_table (cs : str) (x : ctable) (w : tview) : Prop := {
  st_ndc : NoDup (map fst (ct_cols x));
  st_col : forall k ty, In (k, ty) (ct_cols x) <-> exists c, v_col w k = Some c /\ column_type c = ty;
  st_pk : ct_pk x = v_pk w;
  st_shard : ct_shard x = v_shard w;
  st_ndf : NoDup (map cf_name (ct_fks x));
  st_fk : forall g, In g (ct_fks x) <-> exists f, v_fk w (cf_name g) = Some f /\ g = cfk_of cs (cf_name g) f;
  st_ndr : NoDup (map cr_name (ct_rels x));
  st_rel : forall g, In g (ct_rels x) <-> exists r, v_rel w (cr_name g) = Some r /\ g = crel_of cs (cr_name g) r }.
Record shows (cs : str) (c : cdb) (v : dview) : Prop := {
  sh_schema : In cs (cd_schemas c);
  sh_only : forall x, In x (cd_tables c) -> ct_schema x = cs /\ find_table cs (ct_name x) c = Some x;
  sh_at : forall n, match find_table cs n c, v n with
                    | Some x, Some w => shows_table cs x w
                    | None, None => True
                    | _, _ => False
                    end }.

Lemma col_names_in cs x w k : shows_table cs x w -> In k (map fst (ct_cols x)) <-> v_col w k <> None.
Proof.
  intros S. rewrite in_map_iff. split.
  - intros [[a ty] [E I]]. cbn [fst] in E. subst a. apply (st_col _ _ _ S) in I. destruct I as (c & -> & _). discriminate.
  - intros H. destruct (v_col w k) as [c|] eqn:E; [|contradiction]. exists (k, column_type c). split; [reflexivity|].
    apply (st_col _ _ _ S). exists c. auto.
Qed.
Lemma fk_names_in cs x w k : shows_table cs x w -> In k (map cf_name (ct_fks x)) <-> v_fk w k <> None.
Proof.
  intros S. rewrite in_map_iff. split.
  - intros [g [E I]]. subst k. apply (st_fk _ _ _ S) in I. destruct I as (c & -> & _). discriminate.
  - intros H. destruct (v_fk w k) as [c|] eqn:E; [|contradiction]. exists (cfk_of cs k c). split; [reflexivity|].
    apply (st_fk _ _ _ S). exists c. auto.
Qed.
Lemma rel_names_in cs x w k : shows_table cs x w -> In k (map cr_name (ct_rels x)) <-> v_rel w k <> None.
Proof.
  intros S. rewrite in_map_iff. split.
  - intros [g [E I]]. subst k. apply (st_rel _ _ _ S) in I. destruct I as (c & -> & _). discriminate.
  - intros H. destruct (v_rel w k) as [c|] eqn:E; [|contradiction]. exists (crel_of cs k c). split; [reflexivity|].
    apply (st_rel _ _ _ S). exists c. auto.
Qed.
Lemma has_cols_shows cs x w l : shows_table cs x w -> has_cols x l = true <-> forall k, In k l -> has_col w k.
Proof.
  intros S. rewrite has_cols_spec. unfold has_col. split; intros H k Hk; apply (col_names_in _ _ _ _ S), H, Hk.
Qed.

(** ** Updating, adding and removing entries *)
Lemma is_table_true s t x : is_table s t x = true <-> ct_schema x = s /\ ct_name x = t.
Proof. unfold is_table. rewrite andb_true_iff, !str_eqb_eq. tauto. Qed.
Lemma find_some_table s t c x : find_table s t c = Some x -> In x (cd_tables c) /\ ct_schema x = s /\ ct_name x = t.
Proof. intros H. apply find_some in H. rewrite is_table_true in H. exact H. Qed.
Section Update.
Variables (s t : str) (f : ctable -> ctable).
Hypothesis Hs : forall x, ct_schema (f x) = ct_schema x.
Hypothesis Hn : forall x, ct_name (f x) = ct_name x.
Lemma is_table_f a b x : is_table a b (f x) = is_table a b x.
Proof. unfold is_table. rewrite Hs, Hn. reflexivity. Qed.
Lemma find_update a b c : find_table a b (update_table s t f c)
  = option_map (fun x => if is_table s t x then f x else x) (find_table a b c).
Proof.
  unfold find_table, update_table, with_tables. cbn [cd_tables]. induction (cd_tables c) as [|x l IH]; [reflexivity|].
  cbn [map find]. destruct (is_table s t x) eqn:E.
  - rewrite is_table_f. destruct (is_table a b x); [cbn [option_map]; rewrite E; reflexivity | exact IH].
  - destruct (is_table a b x); [cbn [option_map]; rewrite E; reflexivity | exact IH].
Qed.
End Update.
Lemma shows_update cs c v n f x w w' : shows cs c v -> find_table cs n c = Some x -> v n = Some w ->
  (forall x, ct_schema (f x) = ct_schema x) -> (forall x, ct_name (f x) = ct_name x) ->
  (shows_table cs x w -> shows_table cs (f x) w') -> shows cs (update_table cs n f c) (put n (Some w') v).
Proof.
  intros S F V Hs Hn Hw. constructor.
  - exact (sh_schema _ _ _ S).
  - intros y Hy. unfold update_table, with_tables in Hy. cbn [cd_tables] in Hy. apply in_map_iff in Hy. destruct Hy as [z [E Iz]].
    destruct (sh_only _ _ _ S z Iz) as [Ez Fz]. assert (En : ct_schema y = ct_schema z /\ ct_name y = ct_name z).
    { subst y. destruct (is_table cs n z); [rewrite Hs, Hn|]; split; reflexivity. }
    destruct En as [E1 E2]. split; [congruence|]. rewrite E2, find_update, Fz by assumption. cbn [option_map]. rewrite E. reflexivity.
  - intros m. rewrite find_update by assumption. pose proof (sh_at _ _ _ S m) as Sm. unfold put. destruct (str_eqb_spec m n) as [->|N].
    + rewrite F in *. rewrite V in Sm. cbn [option_map]. apply find_some_table in F. destruct F as (_ & F).
      rewrite (proj2 (is_table_true cs n x) F). apply Hw, Sm.
    + destruct (find_table cs m c) as [y|] eqn:Fy; cbn [option_map]; [|exact Sm].
      apply find_some_table in Fy. destruct Fy as (_ & _ & Fy). destruct (is_table cs n y) eqn:E; [|exact Sm].
      apply is_table_true in E. destruct E as [_ E]. congruence.
Qed.
Lemma find_drop s t a b c : find_table a b (with_tables c (filter (fun x => negb (is_table s t x)) (cd_tables c)))
  = if str_eqb a s && str_eqb b t then None else find_table a b c.
Proof.
  unfold find_table, with_tables. cbn [cd_tables].
  induction (cd_tables c) as [|x l IH]; [destruct (str_eqb a s && str_eqb b t); reflexivity|].
  cbn [filter find]. destruct (is_table s t x) eqn:E; cbn [negb].
  - rewrite IH. destruct (is_table a b x) eqn:E2; [|reflexivity].
    apply is_table_true in E, E2. destruct E as [<- <-], E2 as [<- <-]. rewrite !str_eqb_refl. reflexivity.
  - cbn [find]. destruct (is_table a b x) eqn:E2; [|exact IH]. apply is_table_true in E2. destruct E2 as [<- <-].
    unfold is_table in E. rewrite E. reflexivity.
Qed.
Lemma shows_drop cs c v n : shows cs c v ->
  shows cs (with_tables c (filter (fun x => negb (is_table cs n x)) (cd_tables c))) (put n None v).
Proof.
  intros S. constructor.
  - exact (sh_schema _ _ _ S).
  - intros x Hx. cbn [with_tables cd_tables] in Hx. apply filter_In in Hx. destruct Hx as [Hx Hi].
    destruct (sh_only _ _ _ S x Hx) as [E F]. split; [exact E|]. rewrite find_drop, F.
    unfold is_table in Hi. rewrite E in Hi. destruct (str_eqb cs cs && str_eqb (ct_name x) n); [discriminate Hi | reflexivity].
  - intros m. rewrite find_drop. rewrite str_eqb_refl. cbn [andb]. unfold put.
    destruct (str_eqb m n); [exact I | apply (sh_at _ _ _ S)].
Qed.
Lemma find_app_one (p : ctable -> bool) l x : find p (l ++ [x]) = match find p l with Some y => Some y | None => if p x then Some x else None end.
Proof. induction l as [|a l IH]; [reflexivity|]. cbn [app find]. destruct (p a); [reflexivity | exact IH]. Qed.
Lemma shows_add cs c v n x w : shows cs c v -> v n = None -> ct_schema x = cs -> ct_name x = n -> shows_table cs x w ->
  shows cs (with_tables c (cd_tables c ++ [x])) (put n (Some w) v).
Proof.
  intros S V Es En Sx.
  assert (Fn : find_table cs n c = None). { pose proof (sh_at _ _ _ S n) as H. rewrite V in H. destruct (find_table cs n c); [contradiction | reflexivity]. }
  assert (Ix : is_table cs n x = true) by (apply is_table_true; auto).
  constructor.
  - exact (sh_schema _ _ _ S).
  - intros y Hy. cbn [with_tables cd_tables] in Hy. apply in_app_iff in Hy. unfold find_table, with_tables. cbn [cd_tables]. rewrite find_app_one.
    destruct Hy as [Hy|[<-|[]]].
    + destruct (sh_only _ _ _ S y Hy) as [E F]. split; [exact E|]. unfold find_table in F. rewrite F. reflexivity.
    + split; [exact Es|]. rewrite En. unfold find_table in Fn. rewrite Fn, Ix. reflexivity.
  - intros m. unfold find_table, with_tables. cbn [cd_tables]. rewrite find_app_one. pose proof (sh_at _ _ _ S m) as Sm. unfold find_table in *.
    unfold put. destruct (str_eqb_spec m n) as [->|N].
    + rewrite Fn, Ix. exact Sx.
    + destruct (find (is_table cs m) (cd_tables c)); [exact Sm|]. destruct (is_table cs m x) eqn:E; [|exact Sm].
      apply is_table_true in E. destruct E as [_ E]. congruence.
Qed.

(** ** The effect on one entry *)
Lemma nodup_app {A} (l1 l2 : list A) : NoDup l1 -> NoDup l2 -> (forall x, In x l1 -> ~ In x l2) -> NoDup (l1 ++ l2).
Proof.
  induction l1 as [|a l IH]; intros D1 D2 H; [exact D2|]. inversion D1 as [|? ? N D]; subst. cbn [app]. constructor.
  - rewrite in_app_iff. intros [I|I]; [contradiction | exact (H a (or_introl eq_refl) I)].
  - apply IH; [exact D | exact D2|]. intros x Hx. apply H. right. exact Hx.
Qed.
Ltac st_frame S := constructor; cbn [ct_cols ct_pk ct_shard ct_fks ct_rels alter_cols alter_pk alter_shard alter_fks alter_rels add_cfk add_crel
    v_col v_pk v_shard v_fk v_rel set_col set_pk set_shard set_fk set_rel];
  try exact (st_ndc _ _ _ S); try exact (st_col _ _ _ S); try exact (st_pk _ _ _ S); try exact (st_shard _ _ _ S);
  try exact (st_ndf _ _ _ S); try exact (st_fk _ _ _ S); try exact (st_ndr _ _ _ S); try exact (st_rel _ _ _ S).
Lemma nodup_filter_map {A} (f : A -> str) (p : A -> bool) l : NoDup (map f l) -> NoDup (map f (filter p l)).
Proof.
  induction l as [|a l IH]; intros H; [exact H|]. cbn [map filter] in *. inversion H as [|? ? N D]; subst.
  destruct (p a); [|exact (IH D)]. cbn [map]. constructor; [|exact (IH D)].
  intros I. apply N. apply in_map_iff in I. destruct I as [b [E I]]. apply filter_In in I. apply in_map_iff. exists b. tauto.
Qed.
Lemma nodup_add {A} (f : A -> str) l a : NoDup (map f l) -> ~ In (f a) (map f l) -> NoDup (map f (l ++ [a])).
Proof.
  intros D N. rewrite map_app. cbn [map]. apply nodup_app; [exact D | constructor; [intros []|constructor] |].
  intros k Hk [E|[]]. subst k. contradiction.
Qed.
Section Entry.
Variables (cs : str) (x : ctable) (w : tview).
Hypothesis S : shows_table cs x w.
Lemma st_set_pk pk : shows_table cs (alter_pk pk x) (set_pk pk w).
Proof. st_frame S. reflexivity. Qed.
Lemma st_set_shard sh : shows_table cs (alter_shard sh x) (set_shard sh w).
Proof. st_frame S. reflexivity. Qed.
Lemma st_add_fk k f : v_fk w k = None -> shows_table cs (add_cfk (cfk_of cs k f) x) (set_fk k (Some f) w).
Proof.
  intros N. st_frame S.
  - apply nodup_add; [exact (st_ndf _ _ _ S)|]. cbn [cf_name cfk_of]. rewrite (fk_names_in _ _ _ _ S). congruence.
  - intros g. rewrite in_app_iff, (st_fk _ _ _ S). cbn [In]. unfold put. destruct (str_eqb_spec (cf_name g) k) as [E|E].
    + rewrite E, N. split.
      * intros [(? & ? & _)|[<-|[]]]; [discriminate|]. exists f. split; reflexivity.
      * intros (f' & [= <-] & ->). right. left. reflexivity.
    + split; [intros [H|[<-|[]]]; [exact H | cbn [cf_name cfk_of] in E; congruence] | auto].
Qed.
Lemma st_drop_fk k : shows_table cs (alter_fks (filter (fun f => negb (str_eqb (cf_name f) k))) x) (set_fk k None w).
Proof.
  st_frame S.
  - apply nodup_filter_map, (st_ndf _ _ _ S).
  - intros g. rewrite filter_In, (st_fk _ _ _ S). unfold put. destruct (str_eqb_spec (cf_name g) k) as [E|E]; cbn [negb].
    + split; [intros [_ ?]; discriminate | intros (? & ? & _); discriminate].
    + tauto.
Qed.
Lemma st_add_rel k r : v_rel w k = None -> shows_table cs (add_crel (crel_of cs k r) x) (set_rel k (Some r) w).
Proof.
  intros N. st_frame S.
  - apply nodup_add; [exact (st_ndr _ _ _ S)|]. cbn [cr_name crel_of]. rewrite (rel_names_in _ _ _ _ S). congruence.
  - intros g. rewrite in_app_iff, (st_rel _ _ _ S). cbn [In]. unfold put. destruct (str_eqb_spec (cr_name g) k) as [E|E].
    + rewrite E, N. split.
      * intros [(? & ? & _)|[<-|[]]]; [discriminate|]. exists r. split; reflexivity.
      * intros (f' & [= <-] & ->). right. left. reflexivity.
    + split; [intros [H|[<-|[]]]; [exact H | cbn [cr_name crel_of] in E; congruence] | auto].
Qed.
Lemma st_drop_rel k : shows_table cs (alter_rels (filter (fun f => negb (str_eqb (cr_name f) k))) x) (set_rel k None w).
Proof.
  st_frame S.
  - apply nodup_filter_map, (st_ndr _ _ _ S).
  - intros g. rewrite filter_In, (st_rel _ _ _ S). unfold put. destruct (str_eqb_spec (cr_name g) k) as [E|E]; cbn [negb].
    + split; [intros [_ ?]; discriminate | intros (? & ? & _); discriminate].
    + tauto.
Qed.
Lemma st_add_col k c : v_col w k = None -> shows_table cs (alter_cols (fun l => l ++ [(k, column_type c)]) x) (set_col k (Some c) w).
Proof.
  intros N. st_frame S.
  - apply nodup_add; [exact (st_ndc _ _ _ S)|]. cbn [fst]. rewrite (col_names_in _ _ _ _ S). congruence.
  - intros m ty. rewrite in_app_iff, (st_col _ _ _ S). cbn [In]. unfold put. destruct (str_eqb_spec m k) as [->|E].
    + rewrite N. split.
      * intros [(? & ? & _)|[E|[]]]; [discriminate|]. injection E as <-. exists c. split; reflexivity.
      * intros (f' & [= <-] & <-). right. left. reflexivity.
    + split; [intros [H|[E'|[]]]; [exact H | congruence] | auto].
Qed.
Lemma st_mod_col k c : v_col w k <> None ->
  shows_table cs (alter_cols (map (fun p => if str_eqb (fst p) k then (k, column_type c) else p)) x) (set_col k (Some c) w).
Proof.
  intros N. st_frame S.
  - rewrite map_map. rewrite (map_ext _ fst); [exact (st_ndc _ _ _ S)|]. intros [a b]. cbn [fst]. destruct (str_eqb_spec a k) as [->|]; reflexivity.
  - intros m ty. rewrite in_map_iff. unfold put. destruct (str_eqb_spec m k) as [->|E].
    + split.
      * intros [[a b] [E I]]. cbn [fst] in E. destruct (str_eqb_spec a k) as [->|]; [|congruence]. injection E as <-. exists c. auto.
      * intros (c' & [= <-] & <-). destruct (v_col w k) as [c0|] eqn:Ev; [|contradiction]. exists (k, column_type c0). cbn [fst].
        rewrite str_eqb_refl. split; [reflexivity|]. apply (st_col _ _ _ S). exists c0. auto.
    + rewrite <- (st_col _ _ _ S). split.
      * intros [[a b] [E' I]]. cbn [fst] in E'. destruct (str_eqb_spec a k) as [->|]; congruence.
      * intros I. exists (m, ty). cbn [fst]. apply str_eqb_neq in E. rewrite E. auto.
Qed.
Lemma st_drop_col k : shows_table cs (alter_cols (filter (fun p => negb (str_eqb (fst p) k))) x) (set_col k None w).
Proof.
  st_frame S.
  - apply nodup_filter_map, (st_ndc _ _ _ S).
  - intros m ty. rewrite filter_In, (st_col _ _ _ S). cbn [fst]. unfold put. destruct (str_eqb_spec m k) as [E|E]; cbn [negb].
    + split; [intros [_ ?]; discriminate | intros (? & ? & _); discriminate].
    + tauto.
Qed.
Lemma uses_column_spec k : uses_column k x = false <->
  ~ In k (v_pk w) /\ (forall z l, v_shard w = Some (z, l) -> ~ In k l) /\ (forall m f, v_fk w m = Some f -> ~ In k (fk_from_keys f)).
Proof.
  unfold uses_column. rewrite !orb_false_iff, str_in_false, (st_pk _ _ _ S), (st_shard _ _ _ S). split.
  - intros [[A B] C]. split; [exact A|]. split.
    + intros z l E. rewrite E in B. apply str_in_false, B.
    + intros m f Hf I. assert (X : existsb (fun f => str_in k (cf_cols f)) (ct_fks x) = true); [|congruence].
      apply existsb_exists. exists (cfk_of cs m f). split; [apply (st_fk _ _ _ S); exists f; split; [exact Hf | reflexivity] | apply str_in_true, I].
  - intros (A & B & C). split; [split|]; [exact A | |].
    + destruct (v_shard w) as [[z l]|]; [|reflexivity]. apply str_in_false. eapply B. reflexivity.
    + destruct (existsb _ _) eqn:E; [|reflexivity]. apply existsb_exists in E. destruct E as (g & Ig & Hg).
      apply (st_fk _ _ _ S) in Ig. destruct Ig as (f & Hf & E). rewrite E in Hg. cbn [cf_cols cfk_of] in Hg.
      apply str_in_true in Hg. destruct (C _ _ Hf Hg).
Qed.
End Entry.
Lemma referenced_spec cs c v n k : shows cs c v ->
  referenced cs n k c = false <-> forall m u i f, v m = Some u -> v_fk u i = Some f -> fk_to_table f = n -> ~ In k (fk_to_keys f).
Proof.
  intros S. unfold referenced. split.
  - intros H m u i f V F E I. pose proof (sh_at _ _ _ S m) as Sm. rewrite V in Sm. destruct (find_table cs m c) as [x|] eqn:Fx; [|contradiction].
    apply find_some_table in Fx. destruct Fx as (Ix & _).
    enough (X : existsb (fun y => existsb (fun f => str_eqb (cf_schema f) cs && str_eqb (cf_table f) n && str_in k (cf_to_cols f)) (ct_fks y)) (cd_tables c) = true) by congruence.
    apply existsb_exists. exists x. split; [exact Ix|]. apply existsb_exists. exists (cfk_of cs i f). split.
    + apply (st_fk _ _ _ Sm). exists f. split; [exact F | reflexivity].
    + cbn [cf_schema cf_table cf_to_cols cfk_of]. rewrite E, !str_eqb_refl. apply str_in_true, I.
  - intros H. destruct (existsb _ _) eqn:E; [|reflexivity]. apply existsb_exists in E. destruct E as (x & Ix & E).
    apply existsb_exists in E. destruct E as (g & Ig & E). rewrite !andb_true_iff, !str_eqb_eq, str_in_true in E. destruct E as ((_ & Et) & Ek).
    destruct (sh_only _ _ _ S x Ix) as [_ Fx]. pose proof (sh_at _ _ _ S (ct_name x)) as Sm. rewrite Fx in Sm.
    destruct (v (ct_name x)) as [u|] eqn:V; [|contradiction]. apply (st_fk _ _ _ Sm) in Ig. destruct Ig as (f & F & Eg).
    rewrite Eg in Et, Ek. destruct (H _ _ _ _ V F Et Ek).
Qed.

(** ** One statement *)
Lemma guard_some {A} b (a y : A) : guard b a = Some y <-> b = true /\ y = a.
Proof. destruct b; cbn [guard]; split; [intros [= <-]; auto | intros [_ ->]; reflexivity | discriminate | intros [? _]; discriminate]. Qed.
Lemma shows_absent cs c v n : shows cs c v -> v n = None <-> find_table cs n c = None.
Proof. intros S. pose proof (sh_at _ _ _ S n) as H. destruct (v n), (find_table cs n c); split; intros; try reflexivity; try discriminate; contradiction. Qed.
Lemma shows_found cs c v n x : shows cs c v -> find_table cs n c = Some x -> exists w, v n = Some w /\ shows_table cs x w.
Proof. intros S F. pose proof (sh_at _ _ _ S n) as H. rewrite F in H. destruct (v n) as [w|]; [|contradiction]. eauto. Qed.
Lemma shows_seen cs c v n w : shows cs c v -> v n = Some w -> exists x, find_table cs n c = Some x /\ shows_table cs x w.
Proof. intros S F. pose proof (sh_at _ _ _ S n) as H. rewrite F in H. destruct (find_table cs n c) as [x|]; [|contradiction]. eauto. Qed.
Lemma shows_created cs t : well_formed_table t -> t_schema t = cs -> NoDup (map column_name (table_iter t)) ->
  shows_table cs {| ct_schema := cs; ct_name := t_name t; ct_cols := map (fun c => (column_name c, column_type c)) (table_iter t);
                    ct_pk := t_pk t; ct_shard := shard_of t; ct_fks := []; ct_rels := [] |} (created_view t).
Proof.
  intros W E D. constructor; cbn [ct_cols ct_pk ct_shard ct_fks ct_rels created_view v_col v_pk v_shard v_fk v_rel map]; try reflexivity; try constructor.
  - rewrite map_map. cbn [fst]. exact D.
  - rewrite in_map_iff. intros (c & [= <- <-] & I). exists c. split; [|reflexivity].
    apply dvals_in in I. destruct I as [k I]. apply (dget_nodup k c) in I; [|apply (wf_cols _ W)].
    pose proof (proj2 (wf_cols _ W) k c I) as En. rewrite En. exact I.
  - intros (c & G & <-). apply in_map_iff. exists c. rewrite (proj2 (wf_cols _ W) _ _ G). split; [reflexivity|].
    apply dvals_in. exists k. apply dget_in, G.
  - intros [].
  - intros (f & ? & _). discriminate.
  - intros [].
  - intros (f & ? & _). discriminate.
Qed.
Definition kept (c c' : cdb) : Prop := cd_name c' = cd_name c /\ cd_schemas c' = cd_schemas c.
Section Step.
Variables (cs : str) (c : cdb) (v : dview).
Hypothesis S : shows cs c v.
Lemma step_created t : t_schema t = cs -> well_formed_table t ->
  let x := SCreateTable cs (t_name t) (map (fun c => (column_name c, column_type c)) (table_iter t)) (t_pk t) (shard_of t) in
  (forall c', exec_alter cs c x = Some c' -> possible v (TableCreated t) /\ kept c c' /\ shows cs c' (apply_change v (TableCreated t)))
  /\ (possible v (TableCreated t) -> exists c', exec_alter cs c x = Some c').
Proof.
  intros E W x.
  assert (Hnew : forall l, has_cols {| ct_schema := cs; ct_name := t_name t; ct_cols := map (fun c => (column_name c, column_type c)) (table_iter t);
      ct_pk := t_pk t; ct_shard := shard_of t; ct_fks := []; ct_rels := [] |} l = true <-> incl l (map column_name (table_iter t))).
  { intros l. rewrite has_cols_spec. cbn [ct_cols]. rewrite map_map. cbn [fst]. reflexivity. }
  subst x. cbn [exec_alter exec_db possible change_table]. pose proof (shows_absent _ _ _ (t_name t) S) as Ab.
  destruct (find_table cs (t_name t) c) as [a|] eqn:F; [split; [discriminate | intros [Hp _]; apply Ab in Hp; discriminate]|].
  set (g := str_in cs (cd_schemas c) && no_dups _ && _ && _).
  assert (G : g = true <-> NoDup (map column_name (table_iter t)) /\ incl (t_pk t) (map column_name (table_iter t))
     /\ forall z l, shard_of t = Some (z, l) -> incl l (map column_name (table_iter t))).
  { unfold g. rewrite !andb_true_iff, str_in_true, no_dups_spec, map_map, Hnew. cbn [fst]. pose proof (sh_schema _ _ _ S) as Is.
    destruct (shard_of t) as [[z l]|].
    - rewrite Hnew. split; [intros (((_ & A) & B) & C); repeat split; auto; intros ? ? [= <- <-]; exact C|].
      intros (A & B & C). repeat split; auto. eapply C. reflexivity.
    - split; [intros (((_ & A) & B) & C); repeat split; auto; intros; discriminate|]. intros (A & B & C). repeat split; auto. }
  clearbody g. split.
  - intros c' Hc. apply guard_some in Hc. destruct Hc as [Hg ->]. apply G in Hg. split; [split; [apply Ab; reflexivity | exact Hg]|]. split; [split; reflexivity|].
    unfold apply_change. cbn [change_table act]. apply shows_add; [exact S | apply Ab; reflexivity | reflexivity | reflexivity |].
    apply shows_created; [exact W | exact E | exact (proj1 Hg)].
  - intros [_ Hp]. apply G in Hp. rewrite Hp. eexists. reflexivity.
Qed.
Lemma put_act n ch w : tname ch = n -> v n = Some w -> apply_change v ch = put n (act ch (Some w)) v.
Proof. intros <- V. unfold apply_change, tname in *. rewrite V. reflexivity. Qed.
Lemma step_update n f w' ch w x : find_table cs n c = Some x -> v n = Some w -> tname ch = n -> act ch (Some w) = Some w' ->
  (forall x, ct_schema (f x) = ct_schema x) -> (forall x, ct_name (f x) = ct_name x) ->
  (shows_table cs x w -> shows_table cs (f x) w') ->
  kept c (update_table cs n f c) /\ shows cs (update_table cs n f c) (apply_change v ch).
Proof.
  intros F V N A Hs Hn Hw. split; [split; reflexivity|]. rewrite (put_act n ch w N V), A. eapply shows_update; eassumption.
Qed.
Ltac upd := eapply step_update; [eassumption | eassumption | reflexivity | reflexivity | intros; reflexivity | intros; reflexivity |].
(** what is dropped is there *)
Definition apt (v : dview) (ch : change) : Prop :=
  match ch with
  | ForeignKeyDropped t k => exists w, v (t_name t) = Some w /\ v_fk w k <> None
  | RelationshipDropped t k => exists w, v (t_name t) = Some w /\ v_rel w k <> None
  | _ => True
  end.
Lemma step_one ch x : t_schema (change_table ch) = cs -> apt v ch -> (forall t, ch = TableCreated t -> well_formed_table t) -> alter_stmt ch = Some x ->
  (forall c', exec_alter cs c x = Some c' -> possible v ch /\ kept c c' /\ shows cs c' (apply_change v ch))
  /\ (possible v ch -> exists c', exec_alter cs c x = Some c').
Proof.
  intros E Ap W. unfold alter_stmt. destruct ch as [t|t|t pk|t|t z l|t|t f|t k|t r|t k|t cl|t cl|t cl]; cbn [change_table] in *; rewrite ?E; intros [= <-].
  - apply step_created; [exact E | apply W; reflexivity].
  - split; [|intros _; eexists; reflexivity]. cbn [exec_alter exec_db]. intros c' [= <-]. split; [exact I|]. split; [split; reflexivity|].
    unfold apply_change. cbn [change_table act]. apply shows_drop, S.
  - (* primary key dropped *)
    cbn [exec_alter possible change_table]. split.
    + intros c' H. destruct (find_table cs (t_name t) c) as [a|] eqn:F; [|discriminate].
      destruct (shows_found _ _ _ _ _ S F) as (w & V & Sw). destruct (ct_pk a) as [|p0 pk] eqn:Ep; [discriminate|].
      injection H as <-. split; [exists w; split; [exact V | rewrite <- (st_pk _ _ _ Sw), Ep; discriminate]|].
      upd. intros Sx. apply st_set_pk, Sx.
    + intros (w & V & Hp). destruct (shows_seen _ _ _ _ _ S V) as (a & -> & Sw). rewrite (st_pk _ _ _ Sw).
      destruct (v_pk w); [contradiction|]. eexists. reflexivity.
  - (* shard key added *)
    cbn [exec_alter possible change_table]. split.
    + intros c' H. destruct (find_table cs (t_name t) c) as [a|] eqn:F; [|discriminate].
      destruct (shows_found _ _ _ _ _ S F) as (w & V & Sw). apply guard_some in H. destruct H as [H ->].
      split; [exists w; split; [exact V | apply (has_cols_shows _ _ _ _ Sw), H]|].
      upd. intros Sx. apply st_set_shard, Sx.
    + intros (w & V & Hp). destruct (shows_seen _ _ _ _ _ S V) as (a & -> & Sw). apply (has_cols_shows _ _ _ _ Sw) in Hp. rewrite Hp. eexists. reflexivity.
  - (* shard key dropped *)
    cbn [exec_alter possible change_table]. split.
    + intros c' H. destruct (find_table cs (t_name t) c) as [a|] eqn:F; [|discriminate].
      destruct (shows_found _ _ _ _ _ S F) as (w & V & Sw). injection H as <-. split; [congruence|].
      upd. intros Sx. apply st_set_shard, Sx.
    + intros Hp. destruct (v (t_name t)) as [w|] eqn:V; [|contradiction]. destruct (shows_seen _ _ _ _ _ S V) as (a & -> & Sw). eexists. reflexivity.
  - (* foreign key added *)
    cbn [exec_alter exec_db possible change_table]. split.
    + intros c' H. destruct (find_table cs (t_name t) c) as [a|] eqn:F; [|discriminate].
      destruct (shows_found _ _ _ _ _ S F) as (w & V & Sw). destruct (find_table cs (fk_to_table f) c) as [b|] eqn:Fb; [|discriminate].
      destruct (shows_found _ _ _ _ _ S Fb) as (u & Vu & Su). apply guard_some in H. destruct H as [H ->].
      rewrite !andb_true_iff, negb_true_iff, str_in_false, (has_cols_shows _ _ _ _ Sw), (has_cols_shows _ _ _ _ Su), (fk_names_in _ _ _ _ Sw), Nat.eqb_eq in H.
      destruct H as (((H1 & H2) & H3) & H4). assert (N : v_fk w (fk_name f) = None) by (destruct (v_fk w (fk_name f)); [destruct H4; discriminate | reflexivity]).
      split; [exists w, u; repeat split; assumption|].
      upd. intros Sx. apply st_add_fk; assumption.
    + intros (w & u & V & Vu & H1 & H2 & H3 & N). destruct (shows_seen _ _ _ _ _ S V) as (a & -> & Sw). destruct (shows_seen _ _ _ _ _ S Vu) as (b & -> & Su).
      eexists. apply guard_some. split; [|reflexivity].
      rewrite !andb_true_iff, negb_true_iff, str_in_false, (has_cols_shows _ _ _ _ Sw), (has_cols_shows _ _ _ _ Su), (fk_names_in _ _ _ _ Sw), Nat.eqb_eq.
      repeat split; try assumption. congruence.
  - (* foreign key dropped *)
    cbn [exec_alter possible change_table]. split.
    + intros c' H. destruct (find_table cs (t_name t) c) as [a|] eqn:F; [|discriminate].
      destruct (shows_found _ _ _ _ _ S F) as (w & V & Sw). destruct Ap as (w0 & V0 & Hk). assert (w0 = w) by congruence. subst w0.
      apply (fk_names_in _ _ _ _ Sw), str_in_true in Hk. rewrite Hk in H.
      destruct (str_in k (map cr_name (ct_rels a))) eqn:E2; [discriminate|]. injection H as <-.
      apply str_in_false in E2. rewrite (rel_names_in _ _ _ _ Sw) in E2. apply str_in_true in Hk. apply (fk_names_in _ _ _ _ Sw) in Hk.
      split; [exists w; repeat split; [exact V | exact Hk | destruct (v_rel w k); [destruct E2; discriminate | reflexivity]]|].
      upd. intros Sx. apply st_drop_fk, Sx.
    + intros (w & V & Hk & Hr). destruct (shows_seen _ _ _ _ _ S V) as (a & -> & Sw).
      apply (fk_names_in _ _ _ _ Sw), str_in_true in Hk. rewrite Hk.
      assert (N : str_in k (map cr_name (ct_rels a)) = false) by (apply str_in_false; rewrite (rel_names_in _ _ _ _ Sw); congruence).
      rewrite N. eexists. reflexivity.
  - (* relationship added *)
    cbn [exec_alter exec_db possible change_table]. split.
    + intros c' H. destruct (find_table cs (t_name t) c) as [a|] eqn:F; [|discriminate].
      destruct (shows_found _ _ _ _ _ S F) as (w & V & Sw). destruct (find_table cs (rel_to_table r) c) as [b|] eqn:Fb; [|discriminate].
      destruct (shows_found _ _ _ _ _ S Fb) as (u & Vu & Su). apply guard_some in H. destruct H as [H ->].
      rewrite negb_true_iff, str_in_false, (rel_names_in _ _ _ _ Sw) in H.
      assert (N : v_rel w (rel_name r) = None) by (destruct (v_rel w (rel_name r)); [destruct H; discriminate | reflexivity]).
      split; [exists w; repeat split; [exact V | congruence | exact N]|].
      upd. intros Sx. apply st_add_rel; assumption.
    + intros (w & V & Vu & N). destruct (shows_seen _ _ _ _ _ S V) as (a & -> & Sw).
      destruct (v (rel_to_table r)) as [u|] eqn:Eu; [|contradiction]. destruct (shows_seen _ _ _ _ _ S Eu) as (b & -> & Su).
      eexists. apply guard_some. split; [|reflexivity]. rewrite negb_true_iff, str_in_false, (rel_names_in _ _ _ _ Sw). congruence.
  - (* relationship dropped *)
    cbn [exec_alter possible change_table]. split.
    + intros c' H. destruct (find_table cs (t_name t) c) as [a|] eqn:F; [|discriminate].
      destruct (shows_found _ _ _ _ _ S F) as (w & V & Sw). destruct Ap as (w0 & V0 & Hk). assert (w0 = w) by congruence. subst w0.
      apply (rel_names_in _ _ _ _ Sw), str_in_true in Hk. rewrite Hk in H.
      destruct (str_in k (map cf_name (ct_fks a))) eqn:E2; [discriminate|]. injection H as <-.
      apply str_in_false in E2. rewrite (fk_names_in _ _ _ _ Sw) in E2. apply str_in_true in Hk. apply (rel_names_in _ _ _ _ Sw) in Hk.
      split; [exists w; repeat split; [exact V | exact Hk | destruct (v_fk w k); [destruct E2; discriminate | reflexivity]]|].
      upd. intros Sx. apply st_drop_rel, Sx.
    + intros (w & V & Hk & Hr). destruct (shows_seen _ _ _ _ _ S V) as (a & -> & Sw).
      apply (rel_names_in _ _ _ _ Sw), str_in_true in Hk. rewrite Hk.
      assert (N : str_in k (map cf_name (ct_fks a)) = false) by (apply str_in_false; rewrite (fk_names_in _ _ _ _ Sw); congruence).
      rewrite N. eexists. reflexivity.
  - (* column added *)
    cbn [exec_alter possible change_table]. split.
    + intros c' H. destruct (find_table cs (t_name t) c) as [a|] eqn:F; [|discriminate].
      destruct (shows_found _ _ _ _ _ S F) as (w & V & Sw). apply guard_some in H. destruct H as [H ->].
      rewrite negb_true_iff, str_in_false, (col_names_in _ _ _ _ Sw) in H.
      assert (N : v_col w (column_name cl) = None) by (destruct (v_col w (column_name cl)); [destruct H; discriminate | reflexivity]).
      split; [exists w; split; [exact V | exact N]|]. upd. intros Sx. apply st_add_col; assumption.
    + intros (w & V & N). destruct (shows_seen _ _ _ _ _ S V) as (a & -> & Sw).
      eexists. apply guard_some. split; [|reflexivity]. rewrite negb_true_iff, str_in_false, (col_names_in _ _ _ _ Sw). congruence.
  - (* column dropped *)
    cbn [exec_alter possible change_table]. split.
    + intros c' H. destruct (find_table cs (t_name t) c) as [a|] eqn:F; [|discriminate].
      destruct (shows_found _ _ _ _ _ S F) as (w & V & Sw). apply guard_some in H. destruct H as [H ->].
      rewrite !andb_true_iff, !negb_true_iff, str_in_true, (col_names_in _ _ _ _ Sw), (uses_column_spec _ _ _ Sw), (referenced_spec _ _ _ _ _ S) in H.
      destruct H as ((H1 & H2 & H3 & H4) & H5).
      split; [exists w; repeat split; assumption|]. upd. intros Sx. apply st_drop_col, Sx.
    + intros (w & V & H1 & H2 & H3 & H4 & H5). destruct (shows_seen _ _ _ _ _ S V) as (a & -> & Sw).
      eexists. apply guard_some. split; [|reflexivity].
      rewrite !andb_true_iff, !negb_true_iff, str_in_true, (col_names_in _ _ _ _ Sw), (uses_column_spec _ _ _ Sw), (referenced_spec _ _ _ _ _ S).
      repeat split; assumption.
  - (* column modified *)
    cbn [exec_alter possible change_table]. split.
    + intros c' H. destruct (find_table cs (t_name t) c) as [a|] eqn:F; [|discriminate].
      destruct (shows_found _ _ _ _ _ S F) as (w & V & Sw). apply guard_some in H. destruct H as [H ->].
      rewrite str_in_true, (col_names_in _ _ _ _ Sw) in H.
      split; [exists w; split; [exact V | exact H]|]. upd. intros Sx. apply st_mod_col; assumption.
    + intros (w & V & N). destruct (shows_seen _ _ _ _ _ S V) as (a & -> & Sw).
      eexists. apply guard_some. split; [|reflexivity]. rewrite str_in_true, (col_names_in _ _ _ _ Sw). exact N.
Qed.
End Step.

(** ** The whole list *)
Fixpoint each_apt (v : dview) (l : list change) : Prop :=
  match l with [] => True | ch :: l' => apt v ch /\ each_apt (apply_change v ch) l' end.
Lemma steps cs : forall l xs c v, shows cs c v -> each_apt v l ->
  (forall ch, In ch l -> t_schema (change_table ch) = cs /\ forall t, ch = TableCreated t -> well_formed_table t) ->
  map alter_stmt l = map Some xs ->
  (forall c', exec_alters cs c xs = Some c' -> each_possible v l /\ kept c c' /\ shows cs c' (apply_changes l v))
  /\ (each_possible v l -> exists c', exec_alters cs c xs = Some c').
Proof.
  induction l as [|ch l IH]; intros xs c v S A W M.
  - destruct xs; [|discriminate]. cbn [exec_alters each_possible apply_changes fold_left]. split; [|intros _; eexists; reflexivity].
    intros c' [= <-]. split; [exact I|]. split; [split; reflexivity | exact S].
  - destruct xs as [|x xs]; [discriminate|]. cbn [map] in M. injection M as Mx M. destruct A as [A Al].
    destruct (W ch (or_introl eq_refl)) as [Ws Wt].
    destruct (step_one cs c v S ch x Ws A Wt Mx) as [F G]. cbn [exec_alters each_possible]. split.
    + intros c' H. destruct (exec_alter cs c x) as [c1|] eqn:E; [|discriminate]. destruct (F c1 eq_refl) as (P & [K1 K2] & S1).
      destruct (IH xs c1 (apply_change v ch) S1 Al (fun y Hy => W y (or_intror Hy)) M) as [F1 _].
      destruct (F1 c' H) as (P1 & [K3 K4] & S2). split; [split; assumption|]. split; [split; congruence | exact S2].
    + intros [P P1]. destruct (G P) as [c1 E]. destruct (F c1 E) as (_ & _ & S1). rewrite E.
      apply (IH xs c1 (apply_change v ch) S1 Al (fun y Hy => W y (or_intror Hy)) M), P1.
Qed.
