(** * Lemmas: executing the written script rebuilds the model in the catalog *)
From Verif Require Export ScriptFacts.

(** ** From the catalog to the database in use *)
Fixpoint exec_db_all (c : cdb) (l : list stmt) : option cdb :=
  match l with [] => Some c | x :: l' => match exec_db c x with Some c' => exec_db_all c' l' | None => None end end.
Lemma exec_db_all_app c a b : exec_db_all c (a ++ b) = match exec_db_all c a with Some c' => exec_db_all c' b | None => None end.
Proof. revert c; induction a as [|x a IH]; intros c; simpl; [reflexivity|]. destruct (exec_db c x); [apply IH | reflexivity]. Qed.
Lemma exec_all_app c a b : exec_all c (a ++ b) = match exec_all c a with Some c' => exec_all c' b | None => None end.
Proof. revert c; induction a as [|x a IH]; intros c; simpl; [reflexivity|]. destruct (exec c x); [apply IH | reflexivity]. Qed.

Definition inner (x : stmt) : Prop := match x with SCreateDatabase _ | SUse _ => False | _ => True end.
Lemma exec_inner c x : inner x -> exec c x =
  match cat_use c with
  | None => None
  | Some n => match List.find (is_db n) (cat_dbs c) with
              | None => None
              | Some db => match exec_db db x with
                           | None => None
                           | Some db' => Some {| cat_dbs := replace_db n db' (cat_dbs c); cat_use := cat_use c |}
                           end
              end
  end.
Proof. destruct x; simpl; intros []; reflexivity. Qed.
Lemma exec_db_name c x c' : exec_db c x = Some c' -> cd_name c' = cd_name c.
Proof.
  destruct x; simpl; try discriminate; unfold guard;
    repeat match goal with |- context[match ?e with _ => _ end] => destruct e end;
    intros H; inversion H; reflexivity.
Qed.
Lemma find_replace n db l db0 : List.find (is_db n) l = Some db0 -> is_db n db = true ->
  List.find (is_db n) (replace_db n db l) = Some db.
Proof.
  intros H Hd. induction l as [|c l IH]; [discriminate|]. simpl in *. destruct (is_db n c) eqn:E; simpl.
  - rewrite Hd. reflexivity.
  - rewrite E. apply IH, H.
Qed.
Lemma replace_replace n a b l : is_db n a = true -> replace_db n b (replace_db n a l) = replace_db n b l.
Proof.
  intros Ha. induction l as [|c l IH]; [reflexivity|]. simpl. destruct (is_db n c) eqn:E; simpl.
  - rewrite Ha. reflexivity.
  - rewrite E, IH. reflexivity.
Qed.
Lemma replace_same n l db : List.find (is_db n) l = Some db -> replace_db n db l = l.
Proof.
  induction l as [|c l IH]; [discriminate|]. simpl. destruct (is_db n c).
  - intros H; inversion H; reflexivity.
  - intros H. rewrite IH by exact H. reflexivity.
Qed.
Lemma exec_all_inner n l c db db' : Forall inner l -> cat_use c = Some n -> List.find (is_db n) (cat_dbs c) = Some db ->
  exec_db_all db l = Some db' -> exec_all c l = Some {| cat_dbs := replace_db n db' (cat_dbs c); cat_use := Some n |}.
Proof.
  intros Hl. revert c db. induction Hl as [|x l Hx Hl IH]; intros c db Hu Hf He; simpl in *.
  - inversion He; subst. rewrite (replace_same _ _ _ Hf). destruct c; simpl in *; subst; reflexivity.
  - rewrite (exec_inner _ _ Hx), Hu, Hf. destruct (exec_db db x) as [db1|] eqn:E1; [|discriminate].
    assert (Hn : is_db n db1 = true).
    { unfold is_db. rewrite (exec_db_name _ _ _ E1). apply find_some in Hf. apply Hf. }
    rewrite (IH _ db1); simpl.
    + rewrite (replace_replace _ _ _ _ Hn). reflexivity.
    + reflexivity.
    + eapply find_replace; eassumption.
    + exact He.
Qed.

(** ** Tables with given constraints *)
Definition bare (t : table) (fr : list cfk * list crel) : ctable :=
  {| ct_schema := t_schema t; ct_name := t_name t;
     ct_cols := map (fun c => (column_name c, column_type c)) (table_iter t);
     ct_pk := t_pk t; ct_shard := shard_of t; ct_fks := fst fr; ct_rels := snd fr |}.
Definition fks_of (t : table) : list cfk :=
  map (fun fk => {| cf_name := fk_name fk; cf_cols := fk_from_keys fk; cf_schema := t_schema t;
                    cf_table := fk_to_table fk; cf_to_cols := fk_to_keys fk |}) (foreign_keys_iter t).
Definition rels_of (t : table) : list crel :=
  map (fun r => {| cr_name := rel_name r; cr_schema := t_schema t; cr_table := rel_to_table r;
                   cr_cond := rel_conditions r |}) (relationships_iter t).
Lemma entry_bare t : entry_of t = bare t (fks_of t, rels_of t).
Proof. reflexivity. Qed.

Definition in_model (ts : list table) (x : ctable) : bool := existsb (fun t => is_table (t_schema t) (t_name t) x) ts.
Lemma is_table_bare t u fr : is_table (t_schema t) (t_name t) (bare u fr) = str_eqb (t_schema u) (t_schema t) && str_eqb (t_name u) (t_name t).
Proof. reflexivity. Qed.

Lemma no_dups_spec l : no_dups l = true <-> NoDup l.
Proof.
  induction l as [|x l IH]; simpl; [split; auto using NoDup_nil|].
  destruct (str_in_spec x l) as [H|H]; simpl.
  - split; [discriminate|]. intros N; inversion N; contradiction.
  - rewrite IH. split; [intros; constructor; auto | intros N; inversion N; auto].
Qed.
Lemma has_cols_spec c l : has_cols c l = true <-> forall n, In n l -> In n (map fst (ct_cols c)).
Proof. unfold has_cols. rewrite forallb_forall. split; intros H n Hn; specialize (H n Hn); apply str_in_true; exact H. Qed.

Section Build.
Variable d : database.
Hypothesis W : well_formed d.
Hypothesis C : consistent_db d.
Hypothesis own : own_fks d.
Hypothesis loc : schema_local d.

Lemma dict_vals_name {A} (f : A -> str) (x : dict A) : NoDup (dkeys x) -> (forall n v, dget n x = Some v -> f v = n) ->
  map f (dvals x) = dkeys x.
Proof.
  intros Hn Hf. unfold dvals, dkeys. rewrite map_map. apply map_ext_in. intros [k v] Hin. simpl.
  apply Hf. apply dget_nodup; assumption.
Qed.
Lemma names_of_tables : map t_name (db_iter d) = get_table_names d.
Proof. destruct (wf_names _ W) as [H1 H2]. apply dict_vals_name; assumption. Qed.
Lemma names_nodup : NoDup (map t_name (db_iter d)).
Proof. rewrite names_of_tables. apply (wf_names _ W). Qed.
Lemma table_by_name t : In t (db_iter d) -> get_table d (t_name t) = Some t.
Proof.
  intros H. apply dvals_in in H. destruct H as [k Hk]. destruct (wf_names _ W) as [Hn Hname].
  pose proof (dget_nodup _ _ _ Hn Hk) as Hg. rewrite (Hname _ _ Hg). exact Hg.
Qed.
Lemma get_table_in n t : get_table d n = Some t -> In t (db_iter d) /\ t_name t = n.
Proof.
  intros H. split; [|apply (wf_names _ W), H]. apply dvals_in. exists n. apply dget_in, H.
Qed.
Lemma same_name t u : In t (db_iter d) -> In u (db_iter d) -> t_name t = t_name u -> t = u.
Proof. intros Ht Hu E. apply table_by_name in Ht, Hu. rewrite E in Ht. congruence. Qed.
Lemma col_names t : In t (db_iter d) -> map fst (map (fun c => (column_name c, column_type c)) (table_iter t)) = get_column_names t.
Proof.
  intros H. rewrite map_map. simpl. destruct (wf_cols _ (wf_tables _ W _ H)). apply dict_vals_name; assumption.
Qed.

(** *** The tables *)
Lemma exec_tables ts : forall (pre : list table) (c : cdb) kept,
  (exists post, db_iter d = pre ++ ts ++ post) ->
  (forall t, In t ts -> In (t_schema t) (cd_schemas c)) ->
  cd_tables c = kept ++ map (fun t => bare t ([], [])) pre ->
  exec_db_all c (flat_map (table_stmts id id) ts)
  = Some (with_tables c (filter (fun x => negb (in_model ts x)) kept ++ map (fun t => bare t ([], [])) (pre ++ ts))).
Proof.
  induction ts as [|t ts IH]; intros pre c kept [post Hd] Hs Hc.
  - simpl. rewrite app_nil_r. f_equal. destruct c; simpl in *; unfold with_tables; simpl. f_equal. rewrite Hc. f_equal.
    clear. induction kept; simpl; congruence.
  - assert (Hin : In t (db_iter d)) by (rewrite Hd; apply in_app_iff; right; left; reflexivity).
    assert (Hpre : forall u, In u pre -> t_name u <> t_name t).
    { intros u Hu E. pose proof names_nodup as N. rewrite Hd, map_app in N. simpl in N. apply NoDup_remove_2 in N.
      apply N, in_app_iff. left. rewrite <- E. apply in_map, Hu. }
    assert (Hfb : filter (fun x => negb (is_table (t_schema t) (t_name t) x)) (map (fun u => bare u ([], [])) pre)
                  = map (fun u => bare u ([], [])) pre).
    { clear - Hpre. induction pre as [|u pre IHp]; [reflexivity|]. simpl. rewrite is_table_bare.
      destruct (str_eqb_spec (t_name u) (t_name t)) as [E|E]; [destruct (Hpre u (or_introl eq_refl) E)|].
      rewrite andb_false_r. simpl. rewrite IHp; [reflexivity|]. intros; apply Hpre; right; assumption. }
    cbn [flat_map table_stmts app exec_db_all]. cbn [exec_db].
    change (id (t_schema t)) with (t_schema t). change (id (t_name t)) with (t_name t).
    rewrite Hc, filter_app, Hfb. set (kept' := filter _ kept).
    change (find_table (t_schema t) (t_name t) (with_tables c (kept' ++ map (fun u => bare u ([], [])) pre)))
      with (List.find (is_table (t_schema t) (t_name t)) (kept' ++ map (fun u => bare u ([], [])) pre)).
    destruct (List.find _ _) as [x|] eqn:Ef.
    { apply find_some in Ef. destruct Ef as [Hx Hit]. exfalso. apply in_app_iff in Hx. destruct Hx as [Hx|Hx].
      - apply filter_In in Hx. destruct Hx as [_ Hx]. rewrite Hit in Hx. discriminate.
      - rewrite <- Hfb in Hx. apply filter_In in Hx. destruct Hx as [_ Hx]. rewrite Hit in Hx. discriminate. }
    assert (Hg : str_in (id (t_schema t)) (cd_schemas c)
                 && no_dups (map fst (map (fun c0 => (id (column_name c0), column_type c0)) (table_iter t)))
                 && has_cols (bare t ([], [])) (t_pk t)
                 && match shard_of t with Some (_, l) => has_cols (bare t ([], [])) l | None => true end = true).
    { pose proof (col_names t Hin) as Hcn. pose proof (C _ Hin) as Ct.
      repeat (apply andb_true_intro; split).
      - apply str_in_true. apply Hs. left. reflexivity.
      - apply no_dups_spec. change (fun c0 => (id (column_name c0), column_type c0)) with (fun c0 => (column_name c0, column_type c0)).
        rewrite Hcn. apply (wf_cols _ (wf_tables _ W _ Hin)).
      - apply has_cols_spec. intros n Hn. simpl. rewrite Hcn. apply (ok_pk _ _ Ct), Hn.
      - unfold shard_of. destruct (t_shard t) as [sk|] eqn:Esk; [|reflexivity]. apply has_cols_spec. intros n Hn.
        simpl. rewrite Hcn. apply (ok_shard _ _ Ct _ Esk _ Hn). }
    cbn [cd_schemas with_tables cd_tables].
    replace (guard _ _) with
      (Some (with_tables c ((kept' ++ map (fun u => bare u ([], [])) pre) ++ [bare t ([], [])]))).
    2: { unfold guard. match goal with |- _ = (if ?b then _ else _) => replace b with true by (symmetry; exact Hg) end.
         reflexivity. }
    rewrite (IH (pre ++ [t]) _ kept').
    + unfold with_tables; simpl. do 2 f_equal. f_equal; [|rewrite <- app_assoc; reflexivity].
      subst kept'. clear. induction kept as [|x l IHl]; [reflexivity|]. simpl. unfold id.
      destruct (is_table (t_schema t) (t_name t) x); simpl; [exact IHl|]. destruct (in_model ts x); simpl; congruence.
    + exists post. rewrite Hd, <- !app_assoc. reflexivity.
    + intros u Hu. simpl. apply Hs. right. exact Hu.
    + simpl. rewrite map_app, app_assoc. reflexivity.
Qed.

(** *** The constraints: [f] gives each table's constraints so far *)
Definition upd (f : str -> list cfk * list crel) n v : str -> list cfk * list crel :=
  fun m => if str_eqb m n then v else f m.
Definition state (kept : list ctable) (f : str -> list cfk * list crel) : list ctable :=
  kept ++ map (fun t => bare t (f (t_name t))) (db_iter d).
Definition foreign (kept : list ctable) : Prop := forall x, In x kept -> in_model (db_iter d) x = false.

Lemma not_kept kept t : foreign kept -> In t (db_iter d) -> forall x, In x kept -> is_table (t_schema t) (t_name t) x = false.
Proof.
  intros Hk Ht x Hx. specialize (Hk _ Hx). destruct (is_table _ _ x) eqn:E; [|reflexivity].
  unfold in_model in Hk. rewrite <- Hk. symmetry. apply existsb_exists. exists t. auto.
Qed.
Lemma find_state kept f t : foreign kept -> In t (db_iter d) ->
  List.find (is_table (t_schema t) (t_name t)) (state kept f) = Some (bare t (f (t_name t))).
Proof.
  intros Hk Ht. unfold state. pose proof (not_kept _ _ Hk Ht) as Hnk. clear Hk. induction kept as [|x kept IH]; simpl.
  - assert (Hall : forall u, In u (db_iter d) -> t_name u = t_name t -> u = t) by (intros u Hu E; apply same_name; assumption).
    revert Ht Hall. generalize (db_iter d) as l. induction l as [|u l IHl]; intros Ht Hall; [destruct Ht|]. simpl.
    rewrite is_table_bare. destruct (str_eqb_spec (t_name u) (t_name t)) as [E|E].
    + rewrite (Hall u (or_introl eq_refl) E), str_eqb_refl. reflexivity.
    + rewrite andb_false_r. apply IHl; [|intros v Hv; apply Hall; right; exact Hv].
      destruct Ht as [->|Ht]; [destruct (E eq_refl) | exact Ht].
  - rewrite (Hnk x (or_introl eq_refl)). apply IH. intros y Hy. apply Hnk. right. exact Hy.
Qed.
Lemma update_state kept f t g v c : foreign kept -> In t (db_iter d) -> cd_tables c = state kept f ->
  g (bare t (f (t_name t))) = bare t v ->
  update_table (t_schema t) (t_name t) g c = with_tables c (state kept (upd f (t_name t) v)).
Proof.
  intros Hk Ht Hc Hg. unfold update_table. f_equal. rewrite Hc. unfold state. rewrite map_app. f_equal.
  - rewrite <- map_id. apply map_ext_in. intros x Hx. rewrite (not_kept _ _ Hk Ht _ Hx). reflexivity.
  - rewrite map_map. apply map_ext_in. intros u Hu. rewrite is_table_bare. unfold upd.
    destruct (str_eqb_spec (t_name u) (t_name t)) as [E|E].
    + assert (u = t) by (apply same_name; assumption). subst u. rewrite str_eqb_refl. exact Hg.
    + rewrite andb_false_r. reflexivity.
Qed.

Lemma exec_fks_of t fks : forall f kept c pre, foreign kept -> In t (db_iter d) -> foreign_keys_iter t = pre ++ fks ->
  cd_tables c = state kept f ->
  map cf_name (fst (f (t_name t))) = map fk_name pre ->
  exec_db_all c (map (fk_stmt id t) fks)
  = Some (with_tables c (state kept (upd f (t_name t)
       (fst (f (t_name t)) ++ map (fun fk => {| cf_name := fk_name fk; cf_cols := fk_from_keys fk; cf_schema := t_schema t;
                          cf_table := fk_to_table fk; cf_to_cols := fk_to_keys fk |}) fks, snd (f (t_name t)))))).
Proof.
  induction fks as [|fk fks IH]; intros f kept c pre Hk Ht Hpre Hc Hn.
  - simpl. rewrite app_nil_r. f_equal. destruct c; simpl in *; unfold with_tables; simpl; f_equal. rewrite Hc. unfold state. f_equal.
    apply map_ext. intros u. unfold upd. destruct (str_eqb_spec (t_name u) (t_name t)) as [E|E]; [|reflexivity].
    rewrite E. destruct (f (t_name t)); reflexivity.
  - assert (Hfk : In fk (foreign_keys_iter t)) by (rewrite Hpre; apply in_app_iff; right; left; reflexivity).
    pose proof (C _ Ht) as Ct. pose proof (wf_tables _ W _ Ht) as Wt.
    destruct (ok_fks _ _ Ct _ Hfk) as [tot [Htot [_ Hp]]]. destruct (get_table_in _ _ Htot) as [Htin Htn].
    assert (Hsch : t_schema tot = t_schema t).
    { apply (loc t tot); auto. unfold get_all_related_tables. apply in_app_iff. left. rewrite Htn.
      apply in_map_iff. exists fk. auto. }
    cbn [map exec_db_all]. unfold fk_stmt at 1. unfold id at 1 2 3 4. cbn [exec_db]. unfold find_table.
    rewrite Hc, (own _ _ Ht Hfk), (find_state _ f t Hk Ht), <- Htn, <- Hsch, (find_state _ f tot Hk Htin).
    rewrite Hsch.
    assert (Hnodup : NoDup (map fk_name (foreign_keys_iter t))).
    { unfold foreign_keys_iter. destruct (wf_fks _ Wt) as [N1 N2]. rewrite (dict_vals_name fk_name _ N1 N2). exact N1. }
    assert (Hg : has_cols (bare t (f (t_name t))) (fk_from_keys fk) && has_cols (bare tot (f (t_name tot))) (fk_to_keys fk)
       && Nat.eqb (length (fk_from_keys fk)) (length (fk_to_keys fk))
       && negb (str_in (fk_name fk) (map cf_name (ct_fks (bare t (f (t_name t)))))) = true).
    { repeat (apply andb_true_intro; split).
      - apply has_cols_spec. intros n Hnn. simpl. rewrite (col_names _ Ht).
        clear - Hp Hnn. induction Hp as [|a b la lb Hab Hp IHp]; [destruct Hnn|]. destruct Hnn as [<-|Hnn]; [|auto].
        destruct Hab as [fc [tc [Hf _]]]. apply get_column_names_in. eauto.
      - apply has_cols_spec. intros n Hnn. simpl. rewrite (col_names _ Htin).
        clear - Hp Hnn. induction Hp as [|a b la lb Hab Hp IHp]; [destruct Hnn|]. destruct Hnn as [<-|Hnn]; [|auto].
        destruct Hab as [fc [tc [_ [Hf _]]]]. apply get_column_names_in. eauto.
      - apply Nat.eqb_eq, (wf_paired _ Wt), Hfk.
      - apply negb_true_iff, str_in_false. simpl. rewrite Hn. rewrite Hpre, map_app in Hnodup. simpl in Hnodup.
        apply NoDup_remove_2 in Hnodup. intros Hin. apply Hnodup, in_app_iff. left. exact Hin. }
    rewrite Hg. cbn [guard].
    set (new := {| cf_name := fk_name fk; cf_cols := fk_from_keys fk; cf_schema := t_schema t;
                   cf_table := t_name tot; cf_to_cols := fk_to_keys fk |}).
    rewrite (update_state kept f t (add_cfk new) (fst (f (t_name t)) ++ [new], snd (f (t_name t))) c Hk Ht Hc eq_refl).
    rewrite (IH (upd f (t_name t) (fst (f (t_name t)) ++ [new], snd (f (t_name t)))) kept _ (pre ++ [fk]) Hk Ht).
    + f_equal. unfold with_tables; simpl. f_equal. unfold state. f_equal. apply map_ext. intros u. f_equal. unfold upd.
      rewrite str_eqb_refl. destruct (str_eqb_spec (t_name u) (t_name t)); [|reflexivity]. simpl. rewrite <- app_assoc.
      simpl. subst new. rewrite Htn. reflexivity.
    + rewrite Hpre, <- app_assoc. reflexivity.
    + reflexivity.
    + unfold upd. rewrite str_eqb_refl. simpl. rewrite !map_app, Hn. reflexivity.
Qed.

Lemma exec_rels_of t rels : forall f kept c pre, foreign kept -> In t (db_iter d) -> relationships_iter t = pre ++ rels ->
  cd_tables c = state kept f ->
  map cr_name (snd (f (t_name t))) = map rel_name pre ->
  exec_db_all c (map (rel_stmt id t) rels)
  = Some (with_tables c (state kept (upd f (t_name t)
       (fst (f (t_name t)), snd (f (t_name t)) ++ map (fun r => {| cr_name := rel_name r; cr_schema := t_schema t;
                          cr_table := rel_to_table r; cr_cond := rel_conditions r |}) rels)))).
Proof.
  induction rels as [|r rels IH]; intros f kept c pre Hk Ht Hpre Hc Hn.
  - simpl. rewrite app_nil_r. f_equal. destruct c; simpl in *; unfold with_tables; simpl; f_equal. rewrite Hc. unfold state. f_equal.
    apply map_ext. intros u. unfold upd. destruct (str_eqb_spec (t_name u) (t_name t)) as [E|E]; [|reflexivity].
    rewrite E. destruct (f (t_name t)); reflexivity.
  - assert (Hr : In r (relationships_iter t)) by (rewrite Hpre; apply in_app_iff; right; left; reflexivity).
    pose proof (C _ Ht) as Ct. pose proof (wf_tables _ W _ Ht) as Wt.
    destruct (ok_rels _ _ Ct _ Hr) as [Hfrom Hto]. apply dget_some_in in Hto. destruct Hto as [tot Htot].
    destruct (get_table_in _ _ Htot) as [Htin Htn].
    assert (Hsch : t_schema tot = t_schema t).
    { apply (loc t tot); auto. unfold get_all_related_tables. apply in_app_iff. right. rewrite Htn.
      apply in_map_iff. exists r. auto. }
    cbn [map exec_db_all]. unfold rel_stmt at 1. unfold id at 1 2 3 4. cbn [exec_db]. unfold find_table.
    rewrite Hc, Hfrom, (find_state _ f t Hk Ht), <- Htn, <- Hsch, (find_state _ f tot Hk Htin).
    rewrite Hsch.
    assert (Hnodup : NoDup (map rel_name (relationships_iter t))).
    { unfold relationships_iter. destruct (wf_rels _ Wt) as [N1 N2]. rewrite (dict_vals_name rel_name _ N1 N2). exact N1. }
    assert (Hg : negb (str_in (rel_name r) (map cr_name (ct_rels (bare t (f (t_name t)))))) = true).
    { apply negb_true_iff, str_in_false. simpl. rewrite Hn. rewrite Hpre, map_app in Hnodup. simpl in Hnodup.
      apply NoDup_remove_2 in Hnodup. intros Hin. apply Hnodup, in_app_iff. left. exact Hin. }
    rewrite Hg. cbn [guard].
    set (new := {| cr_name := rel_name r; cr_schema := t_schema t; cr_table := t_name tot; cr_cond := rel_conditions r |}).
    rewrite (update_state kept f t (add_crel new) (fst (f (t_name t)), snd (f (t_name t)) ++ [new]) c Hk Ht Hc eq_refl).
    rewrite (IH (upd f (t_name t) (fst (f (t_name t)), snd (f (t_name t)) ++ [new])) kept _ (pre ++ [r]) Hk Ht).
    + f_equal. unfold with_tables; simpl. f_equal. unfold state. f_equal. apply map_ext. intros u. f_equal. unfold upd.
      rewrite str_eqb_refl. destruct (str_eqb_spec (t_name u) (t_name t)); [|reflexivity]. simpl. rewrite <- app_assoc.
      simpl. subst new. rewrite Htn. reflexivity.
    + rewrite Hpre, <- app_assoc. reflexivity.
    + reflexivity.
    + unfold upd. rewrite str_eqb_refl. simpl. rewrite !map_app, Hn. reflexivity.
Qed.

Lemma upd_state_ext kept f g : (forall t, In t (db_iter d) -> f (t_name t) = g (t_name t)) -> state kept f = state kept g.
Proof. intros H. unfold state. f_equal. apply map_ext_in. intros t Ht. rewrite H by exact Ht. reflexivity. Qed.

Lemma exec_fks kept c : foreign kept -> cd_tables c = state kept (fun _ => ([], [])) ->
  exec_db_all c (flat_map (fun t => map (fk_stmt id t) (foreign_keys_iter t)) (db_iter d))
  = Some (with_tables c (kept ++ map (fun t => bare t (fks_of t, [])) (db_iter d))).
Proof.
  intros Hk.
  assert (G : forall ts pre f c, db_iter d = pre ++ ts -> cd_tables c = state kept f ->
    (forall t, In t ts -> f (t_name t) = ([], [])) -> (forall t, In t pre -> f (t_name t) = (fks_of t, [])) ->
    exec_db_all c (flat_map (fun t => map (fk_stmt id t) (foreign_keys_iter t)) ts)
    = Some (with_tables c (kept ++ map (fun t => bare t (fks_of t, [])) (db_iter d)))).
  { induction ts as [|t ts IH]; intros pre f c' Hd Hc Hts Hpre.
    - rewrite app_nil_r in Hd. simpl. f_equal. destruct c'; simpl in *; unfold with_tables; simpl; f_equal. rewrite Hc.
      unfold state. f_equal. apply map_ext_in. intros u Hu. rewrite Hd in Hu. rewrite (Hpre _ Hu). reflexivity.
    - assert (Hin : In t (db_iter d)) by (rewrite Hd; apply in_app_iff; right; left; reflexivity).
      cbn [flat_map]. rewrite exec_db_all_app.
      rewrite (exec_fks_of t (foreign_keys_iter t) f kept c' [] Hk Hin eq_refl Hc) by (rewrite Hts by (left; reflexivity); reflexivity).
      set (v := (_, _)). rewrite (IH (pre ++ [t]) (upd f (t_name t) v)).
      + reflexivity.
      + rewrite Hd, <- app_assoc. reflexivity.
      + reflexivity.
      + intros u Hu. unfold upd. destruct (str_eqb_spec (t_name u) (t_name t)) as [E|E]; [|apply Hts; right; exact Hu].
        exfalso. pose proof names_nodup as N. rewrite Hd, map_app in N. simpl in N. apply NoDup_remove_2 in N.
        apply N, in_app_iff. right. rewrite <- E. apply in_map, Hu.
      + intros u Hu. unfold upd. apply in_app_iff in Hu. destruct (str_eqb_spec (t_name u) (t_name t)) as [E|E].
        * assert (u = t). { apply same_name; auto. rewrite Hd. apply in_app_iff. destruct Hu as [Hu|[<-|[]]]; [left|right; left]; auto. }
          subst u. subst v. rewrite (Hts t (or_introl eq_refl)). reflexivity.
        * destruct Hu as [Hu|[<-|[]]]; [apply Hpre, Hu | destruct (E eq_refl)]. }
  intros Hc. apply (G (db_iter d) [] (fun _ => ([], []))); auto. intros t [].
Qed.
Lemma exec_rels kept c : foreign kept -> cd_tables c = kept ++ map (fun t => bare t (fks_of t, [])) (db_iter d) ->
  exec_db_all c (flat_map (fun t => map (rel_stmt id t) (relationships_iter t)) (db_iter d))
  = Some (with_tables c (kept ++ map entry_of (db_iter d))).
Proof.
  intros Hk.
  assert (G : forall ts pre f c, db_iter d = pre ++ ts -> cd_tables c = state kept f ->
    (forall t, In t ts -> f (t_name t) = (fks_of t, [])) -> (forall t, In t pre -> f (t_name t) = (fks_of t, rels_of t)) ->
    exec_db_all c (flat_map (fun t => map (rel_stmt id t) (relationships_iter t)) ts)
    = Some (with_tables c (kept ++ map entry_of (db_iter d)))).
  { induction ts as [|t ts IH]; intros pre f c' Hd Hc Hts Hpre.
    - rewrite app_nil_r in Hd. simpl. f_equal. destruct c'; simpl in *; unfold with_tables; simpl; f_equal. rewrite Hc.
      unfold state. f_equal. apply map_ext_in. intros u Hu. rewrite Hd in Hu. rewrite (Hpre _ Hu). reflexivity.
    - assert (Hin : In t (db_iter d)) by (rewrite Hd; apply in_app_iff; right; left; reflexivity).
      cbn [flat_map]. rewrite exec_db_all_app.
      rewrite (exec_rels_of t (relationships_iter t) f kept c' [] Hk Hin eq_refl Hc) by (rewrite Hts by (left; reflexivity); reflexivity).
      set (v := (_, _)). rewrite (IH (pre ++ [t]) (upd f (t_name t) v)).
      + reflexivity.
      + rewrite Hd, <- app_assoc. reflexivity.
      + reflexivity.
      + intros u Hu. unfold upd. destruct (str_eqb_spec (t_name u) (t_name t)) as [E|E]; [|apply Hts; right; exact Hu].
        exfalso. pose proof names_nodup as N. rewrite Hd, map_app in N. simpl in N. apply NoDup_remove_2 in N.
        apply N, in_app_iff. right. rewrite <- E. apply in_map, Hu.
      + intros u Hu. unfold upd. apply in_app_iff in Hu. destruct (str_eqb_spec (t_name u) (t_name t)) as [E|E].
        * assert (u = t). { apply same_name; auto. rewrite Hd. apply in_app_iff. destruct Hu as [Hu|[<-|[]]]; [left|right; left]; auto. }
          subst u. subst v. rewrite (Hts t (or_introl eq_refl)). reflexivity.
        * destruct Hu as [Hu|[<-|[]]]; [apply Hpre, Hu | destruct (E eq_refl)]. }
  intros Hc.
  set (f := fun n => match get_table d n with Some t => (fks_of t, []) | None => ([], []) end : list cfk * list crel).
  assert (Hf : forall t, In t (db_iter d) -> f (t_name t) = (fks_of t, [])).
  { intros t Ht. unfold f. rewrite (table_by_name _ Ht). reflexivity. }
  apply (G (db_iter d) [] f); auto; [|intros t []]. rewrite Hc. unfold state. f_equal. apply map_ext_in. intros t Ht.
  rewrite (Hf _ Ht). reflexivity.
Qed.

(** *** Tables and constraints together *)
Definition others (l : list ctable) : list ctable := filter (fun x => negb (in_model (db_iter d) x)) l.
Definition body_stmts : list stmt :=
  flat_map (table_stmts id id) (db_iter d)
  ++ flat_map (fun t => map (fk_stmt id t) (foreign_keys_iter t)) (db_iter d)
  ++ flat_map (fun t => map (rel_stmt id t) (relationships_iter t)) (db_iter d).
Lemma exec_body c : (forall t, In t (db_iter d) -> In (t_schema t) (cd_schemas c)) ->
  exec_db_all c body_stmts = Some (with_tables c (others (cd_tables c) ++ map entry_of (db_iter d))).
Proof.
  intros Hs. unfold body_stmts. rewrite exec_db_all_app.
  rewrite (exec_tables (db_iter d) [] c (cd_tables c)); [|exists []; rewrite app_nil_r; reflexivity | exact Hs | simpl; rewrite app_nil_r; reflexivity].
  assert (Hf : foreign (others (cd_tables c))).
  { intros x Hx. apply filter_In in Hx. destruct Hx as [_ Hx]. apply negb_true_iff, Hx. }
  rewrite exec_db_all_app. rewrite (exec_fks (others (cd_tables c))); [|exact Hf | reflexivity].
  rewrite (exec_rels (others (cd_tables c))); [|exact Hf | reflexivity]. reflexivity.
Qed.
Lemma body_inner : Forall inner body_stmts.
Proof.
  unfold body_stmts. apply Forall_app; split; [|apply Forall_app; split]; apply Forall_forall; intros x Hx;
    apply in_flat_map in Hx; destruct Hx as [t [_ Hx]].
  - destruct Hx as [<-|[<-|[]]]; exact I.
  - apply in_map_iff in Hx. destruct Hx as [fk [<- _]]. exact I.
  - apply in_map_iff in Hx. destruct Hx as [r [<- _]]. exact I.
Qed.
Lemma exec_schemas l c : NoDup l -> (forall s, In s l -> ~ In s (cd_schemas c)) ->
  exec_db_all c (map (fun s => SCreateSchema (id s)) l)
  = Some {| cd_name := cd_name c; cd_schemas := cd_schemas c ++ l; cd_tables := cd_tables c |}.
Proof.
  intros N. revert c. induction N as [|s l Hs N IH]; intros c Hc; cbn [map exec_db_all].
  - rewrite app_nil_r. destruct c; reflexivity.
  - cbn [exec_db]. unfold id at 1. destruct (str_in_spec s (cd_schemas c)) as [H|H]; [destruct (Hc s (or_introl eq_refl) H)|].
    cbn [negb guard]. rewrite IH; simpl.
    + unfold id. rewrite <- app_assoc. reflexivity.
    + intros s' Hs' Hin. apply in_app_iff in Hin. destruct Hin as [Hin|[<-|[]]]; [exact (Hc s' (or_intror Hs') Hin)|].
      contradiction.
Qed.

Lemma find_app_new l n x : existsb (is_db n) l = false -> is_db n x = true -> List.find (is_db n) (l ++ [x]) = Some x.
Proof.
  intros H Hx. induction l as [|c l IH]; simpl in *; [rewrite Hx; reflexivity|].
  apply orb_false_iff in H. destruct H as [-> H]. apply IH, H.
Qed.
Lemma replace_app_new l n x y : existsb (is_db n) l = false -> is_db n x = true -> replace_db n y (l ++ [x]) = l ++ [y].
Proof.
  intros H Hx. induction l as [|c l IH]; simpl in *; [rewrite Hx; reflexivity|].
  apply orb_false_iff in H. destruct H as [-> H]. rewrite IH by exact H. reflexivity.
Qed.

Lemma script_create_db c : existsb (is_db (db_name d)) (cat_dbs c) = false ->
  exec_all c (script_stmts id id true d)
  = Some {| cat_dbs := cat_dbs c ++ [{| cd_name := db_name d; cd_schemas := default_schema :: new_schemas d;
                                        cd_tables := map entry_of (db_iter d) |}];
            cat_use := Some (db_name d) |}.
Proof.
  intros Hno. unfold script_stmts. cbn [app]. cbn [exec_all exec].
  change (id (db_name d)) with (db_name d). rewrite Hno. cbn [negb guard cat_dbs].
  set (new := {| cd_name := db_name d; cd_schemas := [default_schema]; cd_tables := [] |}).
  assert (Hnew : is_db (db_name d) new = true) by apply str_eqb_refl.
  assert (Hex : existsb (is_db (db_name d)) (cat_dbs c ++ [new]) = true).
  { rewrite existsb_app. cbn [existsb]. rewrite Hnew, orb_true_r. reflexivity. }
  rewrite Hex. cbn [guard].
  set (c1 := {| cat_dbs := cat_dbs c ++ [new]; cat_use := Some (db_name d) |}).
  assert (Hns : NoDup (new_schemas d)) by (unfold new_schemas; apply NoDup_filter, (wf_schemas _ W)).
  assert (Hnd : forall s, In s (new_schemas d) -> ~ In s [default_schema]).
  { intros s Hs [Hin|[]]. unfold new_schemas in Hs. apply filter_In in Hs. destruct Hs as [_ Hs]. subst s.
    rewrite str_eqb_refl in Hs. discriminate. }
  rewrite (exec_all_inner (db_name d) _ c1 new
            {| cd_name := db_name d; cd_schemas := default_schema :: new_schemas d; cd_tables := map entry_of (db_iter d) |}).
  - subst c1. cbn [cat_dbs]. rewrite (replace_app_new _ _ _ _ Hno Hnew). reflexivity.
  - apply Forall_app. split; [|apply body_inner]. apply Forall_forall. intros x Hx. apply in_map_iff in Hx.
    destruct Hx as [s [<- _]]. exact I.
  - reflexivity.
  - apply find_app_new; assumption.
  - rewrite exec_db_all_app, (exec_schemas _ new Hns Hnd). fold body_stmts. rewrite exec_body.
    + reflexivity.
    + intros t Ht. cbn [cd_schemas new app]. destruct (str_dec (t_schema t) default_schema) as [->|Hne]; [left; reflexivity|].
      right. unfold new_schemas. apply filter_In. split; [apply (wf_schemas _ W), Ht|].
      apply negb_true_iff, str_eqb_neq, Hne.
Qed.
Lemma script_existing c db : List.find (is_db (db_name d)) (cat_dbs c) = Some db ->
  (forall t, In t (db_iter d) -> In (t_schema t) (cd_schemas db)) ->
  exec_all c (script_stmts id id false d)
  = Some {| cat_dbs := replace_db (db_name d) (with_tables db (others (cd_tables db) ++ map entry_of (db_iter d))) (cat_dbs c);
            cat_use := Some (db_name d) |}.
Proof.
  intros Hf Hs. unfold script_stmts. cbn [app]. cbn [exec_all exec]. change (id (db_name d)) with (db_name d).
  assert (Hex : existsb (is_db (db_name d)) (cat_dbs c) = true).
  { apply existsb_exists. apply find_some in Hf. eauto. }
  rewrite Hex. cbn [guard]. fold body_stmts.
  rewrite (exec_all_inner (db_name d) _ _ db (with_tables db (others (cd_tables db) ++ map entry_of (db_iter d)))).
  - reflexivity.
  - apply body_inner.
  - reflexivity.
  - exact Hf.
  - apply exec_body, Hs.
Qed.
End Build.

Lemma cased_none n : cased no_case n = n.
Proof. unfold cased, to_case. destruct (str_eqb n DEFAULT_SCHEMA); reflexivity. Qed.
Lemma flat_map_ext_all {A B} (f g : A -> list B) l : (forall x, f x = g x) -> flat_map f l = flat_map g l.
Proof. intros H. induction l; simpl; congruence. Qed.
Lemma script_stmts_ext cn cn' cc cc' b d : (forall n, cn n = cn' n) -> (forall n, cc n = cc' n) ->
  script_stmts cn cc b d = script_stmts cn' cc' b d.
Proof.
  intros Hn Hc. unfold script_stmts. rewrite !Hn. f_equal. f_equal. f_equal.
  - destruct b; [|reflexivity]. apply map_ext. intros s. rewrite Hn. reflexivity.
  - f_equal; [|f_equal].
    + apply flat_map_ext_all. intros t. unfold table_stmts. rewrite !Hn. do 2 f_equal. f_equal. apply map_ext. intros c. rewrite Hc. reflexivity.
    + apply flat_map_ext_all. intros t. apply map_ext. intros fk. unfold fk_stmt. rewrite !Hn. reflexivity.
    + apply flat_map_ext_all. intros t. apply map_ext. intros r. unfold rel_stmt. rewrite !Hn. reflexivity.
Qed.
Theorem run_create d s c : well_formed d -> writable d -> consistent_db d -> own_fks d -> schema_local d ->
  tql_script no_case true d = Ok s -> existsb (is_db (db_name d)) (cat_dbs c) = false ->
  run_script c s
  = Some {| cat_dbs := cat_dbs c ++ [{| cd_name := db_name d; cd_schemas := default_schema :: new_schemas d;
                                        cd_tables := map entry_of (db_iter d) |}];
            cat_use := Some (db_name d) |}.
Proof.
  intros W Wr C O L Hs Hno. unfold run_script. rewrite (script_reads _ _ _ _ Wr Hs).
  rewrite (script_stmts_ext _ id _ id) by (intros; first [apply cased_none | reflexivity]).
  apply script_create_db; assumption.
Qed.
Theorem run_existing d s c db : well_formed d -> writable d -> consistent_db d -> own_fks d -> schema_local d ->
  tql_script no_case false d = Ok s -> List.find (is_db (db_name d)) (cat_dbs c) = Some db ->
  (forall t, In t (db_iter d) -> In (t_schema t) (cd_schemas db)) ->
  run_script c s
  = Some {| cat_dbs := replace_db (db_name d) (with_tables db (others d (cd_tables db) ++ map entry_of (db_iter d))) (cat_dbs c);
            cat_use := Some (db_name d) |}.
Proof.
  intros W Wr C O L Hs Hf Hsch. unfold run_script. rewrite (script_reads _ _ _ _ Wr Hs).
  rewrite (script_stmts_ext _ id _ id) by (intros; first [apply cased_none | reflexivity]).
  apply script_existing; assumption.
Qed.
