(** * Running a script written with a case option *)
From Verif Require Import StrFacts ParsedFacts SpecScript SpecGen Writer GenFacts ScriptFacts CatalogFacts ArgTools CasedFacts.
From Coq Require Import List. Import ListNotations.

Section Cased.
Variable o : case_opts.
Variable d : database.
Hypothesis W : well_formed d.
Hypothesis C : consistent_db d.
Hypothesis own : own_fks d.
Hypothesis loc : schema_local d.
Hypothesis A1 : NoDup (map (cased o) (get_table_names d)).
Hypothesis A2 : forall t, In t (db_iter d) -> NoDup (map (col_cased o) (get_column_names t)).
Hypothesis A3 : NoDup (map (cased o) (get_schema_names d)).
Hypothesis A4 : forall s, In s (get_schema_names d) -> s = default_schema \/ cased o s <> default_schema.
Hypothesis K : forall n, In n (key_columns d) -> col_cased o n = n.

(** ** The converted model is well formed and consistent *)
Lemma many_formed : well_formed (cased_db o d).
Proof.
  split.
  - split; [unfold get_table_names, cased_db; cbn [db_tables]; rewrite mapped_keys; exact A1|]. destruct (wf_names _ W) as [N F]. apply (mapped_filed (cased o) (cased_table o) t_name (db_tables d) N F). reflexivity.
  - assert (E : get_schema_names (cased_db o d) = map (cased o) (get_schema_names d)) by (unfold get_schema_names, cased_db; cbn [db_schemas]; apply mapped_keys). rewrite E. split; [exact A3|].
    intros t I. rewrite cased_iter in I. apply in_map_iff in I. destruct I as [u [<- I]]. cbn [cased_table t_schema]. apply in_map, (wf_schemas _ W), I.
  - intros t I. rewrite cased_iter in I. apply in_map_iff in I. destruct I as [u [<- I]]. destruct (wf_tables _ W u I) as [[C1 C2] [F1 F2] [R1 R2] P]. split.
    + split; [unfold get_column_names, cased_table; cbn [t_cols]; rewrite mapped_keys; apply A2, I|]. apply (mapped_filed (col_cased o) (cased_column o) column_name (t_cols u) C1 C2). reflexivity.
    + split; [cbn [cased_table t_fks]; rewrite mapped_keys, map_id; exact F1|]. apply (mapped_filed (fun k => k) (cased_fk o) fk_name (t_fks u) F1 F2). reflexivity.
    + split; [cbn [cased_table t_rels]; rewrite mapped_keys, map_id; exact R1|]. apply (mapped_filed (fun k => k) (cased_rel o) rel_name (t_rels u) R1 R2). reflexivity.
    + intros fk J. rewrite cased_fks in J. apply in_map_iff in J. destruct J as [k [<- J]]. exact (P k J).
Qed.
Lemma mapped_get {A} f (g : A -> A) x n v : NoDup (map f (dkeys x)) -> dget n x = Some v -> dget (f n) (mapped f g x) = Some (g v).
Proof.
  intros N G. apply dget_nodup; [rewrite mapped_keys; exact N|]. unfold mapped. apply in_map_iff. exists (n, v). split; [reflexivity|apply dget_in, G].
Qed.
Lemma key_of_table t n : In t (db_iter d) -> In n (t_pk t) \/ (exists sk, t_shard t = Some sk /\ In n (sk_keys sk)) \/ (exists fk, In fk (foreign_keys_iter t) /\ In n (fk_from_keys fk ++ fk_to_keys fk)) -> col_cased o n = n.
Proof.
  intros I J. apply K. unfold key_columns. apply in_flat_map. exists t. split; [exact I|]. apply in_app_iff. destruct J as [J|[[sk [E J]]|[fk [F J]]]]; [left; exact J|right; apply in_app_iff; left; rewrite E; exact J|].
  right. apply in_app_iff. right. apply in_flat_map. exists fk. auto.
Qed.
Lemma column_kept t n : In n (get_column_names t) -> col_cased o n = n -> In n (get_column_names (cased_table o t)).
Proof. intros I E. unfold get_column_names, cased_table. cbn [t_cols]. rewrite mapped_keys, <- E. apply in_map, I. Qed.
Lemma pairs_kept t u : In t (db_iter d) -> In u (db_iter d) -> forall f k, (forall n, In n f -> col_cased o n = n) -> (forall n, In n k -> col_cased o n = n) ->
  Forall2 (pair_ok t u) f k -> Forall2 (pair_ok (cased_table o t) (cased_table o u)) f k.
Proof.
  intros It Iu f k Hf Hk F. induction F as [|x y f k [fc [tc (E1 & E2 & P & S)]] F IH]; [constructor|]. constructor; [|apply IH; intros n I; [apply Hf|apply Hk]; right; exact I].
  exists (cased_column o fc), (cased_column o tc). split; [|split; [|split]].
  - rewrite <- (Hf x (or_introl eq_refl)). apply (mapped_get (col_cased o) (cased_column o)); [apply A2, It|exact E1].
  - rewrite <- (Hk y (or_introl eq_refl)). apply (mapped_get (col_cased o) (cased_column o)); [apply A2, Iu|exact E2].
  - exact P.
  - exact S.
Qed.
Lemma in_iter n t : get_table d n = Some t -> In t (db_iter d).
Proof. intros G. unfold db_iter. apply dvals_in. exists n. apply dget_in, G. Qed.
Lemma cased_consistent : consistent_db (cased_db o d).
Proof.
  intros t I. rewrite cased_iter in I. apply in_map_iff in I. destruct I as [u [<- I]]. destruct (C u I) as [T P S F R]. split.
  - intros c J. rewrite cased_columns in J. apply in_map_iff in J. destruct J as [x [<- J]]. exact (T x J).
  - intros k J. cbn [cased_table t_pk] in J. apply column_kept; [apply P, J|]. apply (key_of_table u k I). left. exact J.
  - intros sk E k J. cbn [cased_table t_shard t_pk] in *. destruct (S sk E k J) as [X Y]. split; [|exact Y]. apply column_kept; [exact X|]. apply (key_of_table u k I). right. left. exists sk. auto.
  - intros fk J. rewrite cased_fks in J. apply in_map_iff in J. destruct J as [k [<- J]]. destruct (F k J) as [v (G & L & Q)]. exists (cased_table o v). split; [|split].
    + cbn [cased_fk fk_to_table]. apply (mapped_get (cased o) (cased_table o)); [exact A1|exact G].
    + exact L.
    + cbn [cased_fk fk_from_keys fk_to_keys]. apply pairs_kept; [exact I|exact (in_iter _ _ G)| | |exact Q]; intros n X; apply (key_of_table u n I); right; right; exists k; (split; [exact J|]); apply in_app_iff; [left|right]; exact X.
  - intros r J. rewrite cased_rels in J. apply in_map_iff in J. destruct J as [k [<- J]]. destruct (R k J) as [E X]. split.
    + cbn [cased_rel rel_from_table cased_table t_name]. rewrite E. reflexivity.
    + unfold get_table_names, cased_db. cbn [db_tables cased_rel rel_to_table]. rewrite mapped_keys. apply in_map, X.
Qed.
Lemma cased_own : own_fks (cased_db o d).
Proof.
  intros t fk I J. rewrite cased_iter in I. apply in_map_iff in I. destruct I as [u [<- I]]. rewrite cased_fks in J. apply in_map_iff in J. destruct J as [k [<- J]].
  cbn [cased_fk fk_from_table cased_table t_name]. rewrite (own u k I J). reflexivity.
Qed.
Lemma related_known t n : In t (db_iter d) -> In n (get_all_related_tables t) -> In n (get_table_names d).
Proof.
  intros I J. destruct (C t I) as [_ _ _ F R]. unfold get_all_related_tables in J. apply in_app_iff in J. destruct J as [J|J]; apply in_map_iff in J; destruct J as [k [<- J]].
  - destruct (F k J) as [v [G _]]. apply dget_in in G. unfold get_table_names. apply (in_map fst) in G. exact G.
  - apply (R k J).
Qed.
Lemma name_known t : In t (db_iter d) -> In (t_name t) (get_table_names d).
Proof.
  intros I. destruct (wf_names _ W) as [N F]. unfold db_iter in I. apply dvals_in in I. destruct I as [n I]. rewrite (F n t (dget_nodup _ _ _ N I)). apply (in_map fst) in I. exact I.
Qed.
Lemma cased_local : schema_local (cased_db o d).
Proof.
  intros t tot I J Q. rewrite cased_iter in I, Q. apply in_map_iff in I, Q. destruct I as [u [<- I]], Q as [v [<- Q]].
  unfold get_all_related_tables in J. rewrite cased_fks, cased_rels, !map_map in J. cbn [cased_table t_name t_schema] in *.
  assert (X : exists w, In w (get_all_related_tables u) /\ cased o w = cased o (t_name v)).
  { apply in_app_iff in J. destruct J as [J|J]; apply in_map_iff in J; destruct J as [k [E J]]; [exists (fk_to_table k)|exists (rel_to_table k)]; (split; [|exact E]); unfold get_all_related_tables; apply in_app_iff; [left|right]; apply in_map, J. }
  destruct X as [w [Hw E]]. apply (nodup_map_inj (cased o) (get_table_names d)) in E; [|exact A1|exact (related_known u w I Hw)|exact (name_known v Q)]. subst w.
  rewrite (loc u v I Hw Q). reflexivity.
Qed.

(** ** Its statements *)
Lemma cased_new : new_schemas (cased_db o d) = map (cased o) (new_schemas d).
Proof.
  unfold new_schemas. assert (E : get_schema_names (cased_db o d) = map (cased o) (get_schema_names d)) by (unfold get_schema_names, cased_db; cbn [db_schemas]; apply mapped_keys). rewrite E. clear E.
  pose proof A4 as Q. clear -Q. induction (get_schema_names d) as [|s l IH]; [reflexivity|]. specialize (IH (fun x I => Q x (or_intror I))). cbn [map filter]. rewrite IH.
  destruct (Q s (or_introl eq_refl)) as [-> |N].
  - assert (Z : cased o default_schema = default_schema) by reflexivity. rewrite Z. destruct (str_eqb default_schema default_schema); reflexivity.
  - assert (Z : str_eqb (cased o s) default_schema = false) by (apply str_eqb_neq, N).
    assert (Y : str_eqb s default_schema = false) by (apply str_eqb_neq; intros ->; apply N; reflexivity). rewrite Z, Y. reflexivity.
Qed.
Lemma flat_map_map {X Y Z} (f : Y -> list Z) (g : X -> Y) l : flat_map f (map g l) = flat_map (fun x => f (g x)) l.
Proof. rewrite !flat_map_concat_map, map_map. reflexivity. Qed.
Lemma cased_stmts b : script_stmts (cased o) (col_cased o) b d = script_stmts id id b (cased_db o d).
Proof.
  unfold script_stmts. rewrite cased_new, cased_iter, !flat_map_map, map_map. do 3 f_equal. f_equal; [|f_equal].
  - apply flat_map_ext_all. intros t. unfold table_stmts. rewrite cased_columns, map_map. reflexivity.
  - apply flat_map_ext_all. intros t. rewrite cased_fks, map_map. reflexivity.
  - apply flat_map_ext_all. intros t. rewrite cased_rels, map_map. reflexivity.
Qed.
Lemma cased_runs c : existsb (is_db (cased o (db_name d))) (cat_dbs c) = false ->
  exec_all c (script_stmts (cased o) (col_cased o) true d)
  = Some {| cat_dbs := cat_dbs c ++ [{| cd_name := cased o (db_name d); cd_schemas := default_schema :: map (cased o) (new_schemas d);
                                        cd_tables := map (fun t => entry_of (cased_table o t)) (db_iter d) |}];
            cat_use := Some (cased o (db_name d)) |}.
Proof.
  intros N. rewrite cased_stmts. rewrite (script_create_db (cased_db o d) many_formed cased_consistent cased_own cased_local c N). rewrite cased_new, cased_iter, map_map. reflexivity.
Qed.
End Cased.

(** ** What a run without an error shows *)
Lemma inner_runs n l : forall c db c', Forall inner l -> cat_use c = Some n -> List.find (is_db n) (cat_dbs c) = Some db -> exec_all c l = Some c' -> exists db', exec_db_all db l = Some db'.
Proof.
  induction l as [|x l IH]; intros c db c' Hl U F E; [exists db; reflexivity|]. inversion Hl as [|? ? Hx Hl']. subst. cbn [exec_all] in E. rewrite (exec_inner _ _ Hx), U, F in E. cbn [exec_db_all].
  destruct (exec_db db x) as [db1|] eqn:E1; [|discriminate E]. assert (Hn : is_db n db1 = true) by (unfold is_db; rewrite (exec_db_name _ _ _ E1); apply find_some in F; apply F).
  apply (IH {| cat_dbs := replace_db n db1 (cat_dbs c); cat_use := Some n |} db1 c' Hl'); [reflexivity| |exact E]. cbn [cat_dbs]. exact (find_replace n db1 (cat_dbs c) db F Hn).
Qed.
Lemma schemas_show l : forall c c', exec_db_all c (map SCreateSchema l) = Some c' -> NoDup l /\ forall s, In s l -> ~ In s (cd_schemas c).
Proof.
  induction l as [|s l IH]; intros c c' E; [split; [constructor|intros s []]|]. cbn [map exec_db_all exec_db] in E. destruct (str_in_spec s (cd_schemas c)) as [I|I]; [discriminate E|]. cbn [negb guard] in E.
  apply IH in E. cbn [cd_schemas] in E. destruct E as [N Q]. split.
  - constructor; [|exact N]. intros J. apply (Q s J), in_app_iff. right. left. reflexivity.
  - intros x [<-|J] Y; [exact (I Y)|]. apply (Q x J), in_app_iff. left. exact Y.
Qed.
(** every table of a database was created by one of these statements *)
Definition all_from (l : list stmt) (c : cdb) : Prop := forall x, In x (cd_tables c) -> created l (ct_schema x) (ct_name x) (map fst (ct_cols x)).
Lemma created_more l m s t cols : incl l m -> created l s t cols -> created m s t cols.
Proof. intros H (a & b & k & I & E). exists a, b, k. auto. Qed.
Lemma find_shows s t c x : find_table s t c = Some x -> In x (cd_tables c) /\ ct_schema x = s /\ ct_name x = t.
Proof.
  unfold find_table. intros F. apply find_some in F. destruct F as [I Q]. unfold is_table in Q. apply Bool.andb_true_iff in Q. destruct Q as [Q1 Q2]. apply str_eqb_eq in Q1, Q2. auto.
Qed.
Lemma update_shows l s t f c : (forall x, ct_schema (f x) = ct_schema x /\ ct_name (f x) = ct_name x /\ ct_cols (f x) = ct_cols x) -> all_from l c -> all_from l (update_table s t f c).
Proof.
  intros H Q x I. unfold update_table, with_tables in I. cbn [cd_tables] in I. apply in_map_iff in I. destruct I as [y [<- I]]. destruct (is_table s t y); [|exact (Q y I)].
  destruct (H y) as [-> [-> ->]]. exact (Q y I).
Qed.
Lemma step_shows l c x c' : all_from l c -> exec_db c x = Some c' ->
  all_from (l ++ [x]) c'
  /\ match x with
     | SCreateTable s t cols pk sh => NoDup (map fst cols) /\ incl pk (map fst cols) /\ match sh with Some (_, k) => incl k (map fst cols) | None => True end
     | SAddFk s t n fc ts tn tc => (exists cols, created l s t cols /\ incl fc cols) /\ (exists cols, created l ts tn cols /\ incl tc cols)
     | _ => True
     end.
Proof.
  intros Q E. assert (M : all_from (l ++ [x]) c) by (intros y I; apply (created_more l); [intros z J; apply in_app_iff; left; exact J|exact (Q y I)]).
  destruct x; cbn [exec_db] in E; try discriminate E.
  - destruct (negb _); cbn [guard] in E; [|discriminate E]. injection E as <-. split; [exact M|exact I].
  - injection E as <-. split; [|exact I]. intros y J. unfold with_tables in J. cbn [cd_tables] in J. apply filter_In in J. exact (M y (proj1 J)).
  - destruct (find_table _ _ c); [discriminate E|]. match type of E with guard ?b _ = _ => destruct b eqn:G end; [|discriminate E]. cbn [guard] in E. injection E as <-.
    apply Bool.andb_true_iff in G. destruct G as [G G4]. apply Bool.andb_true_iff in G. destruct G as [G G3]. apply Bool.andb_true_iff in G. destruct G as [_ G2]. split.
    + intros y J. unfold with_tables in J. cbn [cd_tables] in J. apply in_app_iff in J. destruct J as [J|[<-|[]]]; [exact (M y J)|]. cbn [ct_schema ct_name ct_cols].
      eexists _, _, _. split; [apply in_app_iff; right; left; reflexivity|reflexivity].
    + split; [apply no_dups_spec, G2|]. split; [exact (proj1 (has_cols_spec _ _) G3)|]. match goal with |- match ?q with _ => _ end => destruct q as [[z k]|] end; [exact (proj1 (has_cols_spec _ _) G4)|exact I].
  - match type of E with match ?q with _ => _ end = _ => destruct q as [a|] eqn:F1 end; [|discriminate E]. match type of E with match ?q with _ => _ end = _ => destruct q as [b|] eqn:F2 end; [|discriminate E].
    match type of E with guard ?b _ = _ => destruct b eqn:G end; [|discriminate E]. cbn [guard] in E. injection E as <-.
    apply Bool.andb_true_iff in G. destruct G as [G _]. apply Bool.andb_true_iff in G. destruct G as [G _]. apply Bool.andb_true_iff in G. destruct G as [G1 G2]. split.
    + apply update_shows; [intros z; repeat split|exact M].
    + apply find_shows in F1, F2. destruct F1 as [I1 [<- <-]], F2 as [I2 [<- <-]]. split; [exists (map fst (ct_cols a))|exists (map fst (ct_cols b))]; (split; [apply Q; assumption|]); [exact (proj1 (has_cols_spec _ _) G1)|exact (proj1 (has_cols_spec _ _) G2)].
  - match type of E with match ?q with _ => _ end = _ => destruct q as [a|] eqn:F1 end; [|discriminate E]. match type of E with match ?q with _ => _ end = _ => destruct q as [b|] eqn:F2 end; [|discriminate E].
    match type of E with guard ?b _ = _ => destruct b eqn:G end; [|discriminate E]. cbn [guard] in E. injection E as <-. split; [|exact I]. apply update_shows; [intros z; repeat split|exact M].
Qed.
Lemma run_shows : forall l m c c', all_from m c -> exec_db_all c l = Some c' ->
  (forall s t cols pk sh, In (SCreateTable s t cols pk sh) l -> NoDup (map fst cols) /\ incl pk (map fst cols) /\ match sh with Some (_, k) => incl k (map fst cols) | None => True end)
  /\ (forall s t n fc ts tn tc, In (SAddFk s t n fc ts tn tc) l -> (exists cols, created (m ++ l) s t cols /\ incl fc cols) /\ (exists cols, created (m ++ l) ts tn cols /\ incl tc cols)).
Proof.
  induction l as [|x l IH]; intros m c c' Q E; [split; intros; contradiction|]. cbn [exec_db_all] in E. destruct (exec_db c x) as [c1|] eqn:E1; [|discriminate E].
  destruct (step_shows m c x c1 Q E1) as [Q1 X]. destruct (IH _ _ _ Q1 E) as [A B]. rewrite <- app_assoc in B. split.
  - intros s t cols pk sh [J|J]; [subst x; exact X|exact (A _ _ _ _ _ J)].
  - intros s t n fc ts tn tc [J|J]; [|exact (B _ _ _ _ _ _ _ J)]. subst x. destruct X as [[c2 [X1 X2]] [c3 [X3 X4]]].
    split; [exists c2|exists c3]; (split; [|assumption]); (apply (created_more m); [intros z Z; apply in_app_iff; left; exact Z|assumption]).
Qed.
