(** * Lemmas: the written script reads back as the expected statements, and rebuilds the model *)
From Verif Require Export TqlFacts.

Lemma map_quote_free f n : (forall c, f c = quote_char -> c = quote_char) -> quote_free n -> quote_free (map f n).
Proof. intros Hf Hn Hin. apply in_map_iff in Hin. destruct Hin as [c [Hc Hin]]. apply Hf in Hc. subst. contradiction. Qed.
Lemma lower_char_quote c : lower_char c = quote_char -> c = quote_char.
Proof.
  unfold lower_char. destruct (Nat.leb_spec 65 (ord c)), (Nat.leb_spec (ord c) 90); simpl; auto.
  intros H'. apply (f_equal ord) in H'. rewrite ord_chr in H' by lia. change (ord quote_char) with 34 in H'. lia.
Qed.
Lemma upper_char_quote c : upper_char c = quote_char -> c = quote_char.
Proof.
  unfold upper_char. destruct (Nat.leb_spec 97 (ord c)), (Nat.leb_spec (ord c) 122); simpl; auto.
  intros H'. apply (f_equal ord) in H'. rewrite ord_chr in H' by lia. change (ord quote_char) with 34 in H'. lia.
Qed.
Lemma col_cased_quote_free o n : quote_free n -> quote_free (col_cased o n).
Proof.
  unfold col_cased. destruct (lowercase o); [|destruct (uppercase o)]; auto; apply map_quote_free;
    [apply lower_char_quote | apply upper_char_quote].
Qed.
Lemma cased_quote_free o n : quote_free n -> quote_free (cased o n).
Proof. intros H. unfold cased. destruct (to_case o n) eqn:E; [eapply to_case_quote_free; eassumption | exact H]. Qed.

(** ** Readable texts *)
Definition readable (r : list (result str)) (xs : list stmt) : Prop :=
  forall s, concat_results r = Ok s -> exists items, Forall item_ok items /\ s = flat_map item_text items
                                                   /\ flat_map item_stmt items = xs.
Lemma concat_results_app a b s : concat_results (a ++ b) = Ok s ->
  exists s1 s2, concat_results a = Ok s1 /\ concat_results b = Ok s2 /\ s = s1 ++ s2.
Proof.
  revert s; induction a as [|r a IH]; intros s; simpl.
  - intros H. exists [], s. auto.
  - destruct r as [x|e]; [|discriminate]. cbn [bind]. destruct (concat_results (a ++ b)) as [y|e] eqn:E; [|discriminate].
    cbn [bind]. intros H. apply Ok_inj in H. subst s. destruct (IH y eq_refl) as [s1 [s2 [H1 [H2 ->]]]].
    exists (x ++ s1), s2. rewrite H1. cbn [bind]. rewrite app_assoc. auto.
Qed.
Lemma concat_results_app_ok a b s1 s2 : concat_results a = Ok s1 -> concat_results b = Ok s2 ->
  concat_results (a ++ b) = Ok (s1 ++ s2).
Proof.
  revert s1; induction a as [|r a IH]; intros s1; simpl.
  - intros H. apply Ok_inj in H. subst. auto.
  - destruct r as [x|e]; [|discriminate]. cbn [bind]. destruct (concat_results a) as [y|e] eqn:E; [|discriminate].
    cbn [bind]. intros H Hb. apply Ok_inj in H. subst s1. rewrite (IH y eq_refl Hb). cbn [bind]. rewrite app_assoc. reflexivity.
Qed.
Lemma readable_app r1 x1 r2 x2 : readable r1 x1 -> readable r2 x2 -> readable (r1 ++ r2) (x1 ++ x2).
Proof.
  intros H1 H2 s Hs. apply concat_results_app in Hs. destruct Hs as [s1 [s2 [E1 [E2 ->]]]].
  destruct (H1 _ E1) as [i1 [A1 [-> <-]]], (H2 _ E2) as [i2 [A2 [-> <-]]].
  exists (i1 ++ i2). rewrite !flat_map_app. split; [apply Forall_app; auto | auto].
Qed.
Lemma readable_nil : readable [] [].
Proof. intros s H. apply Ok_inj in H. subst. exists []. auto. Qed.
Lemma readable_one r x : (forall s, r = Ok s -> exists b, s = b ++ $";" ++ [nl] /\ item_ok (Stmt b x)) -> readable [r] [x].
Proof.
  intros H s Hs. cbn [concat_results] in Hs. destruct r as [y|]; [|discriminate]. cbn [bind] in Hs. apply Ok_inj in Hs.
  destruct (H y eq_refl) as [b [-> Hb]]. exists [Stmt b x]. split; [auto|]. split; [|reflexivity].
  cbn [flat_map item_text]. rewrite <- Hs. reflexivity.
Qed.
Lemma readable_blank : readable [Ok [nl]] [].
Proof. intros s H. apply Ok_inj in H. subst. exists [Blank [nl]]. repeat split. repeat constructor. Qed.
Lemma readable_flat_map {A} (f : A -> list (result str)) g l :
  (forall t, In t l -> readable (f t) (g t)) -> readable (flat_map f l) (flat_map g l).
Proof.
  induction l as [|t l IH]; intros H; [apply readable_nil|]. cbn [flat_map].
  apply readable_app; [apply H; left; reflexivity | apply IH; intros; apply H; right; assumption].
Qed.
Lemma readable_map {A} (f : A -> result str) (g : A -> stmt) l :
  (forall t, In t l -> readable [f t] [g t]) -> readable (map f l) (map g l).
Proof.
  induction l as [|t l IH]; intros H; [apply readable_nil|]. cbn [map].
  apply (readable_app [f t] [g t]); [apply H; left; reflexivity | apply IH; intros; apply H; right; assumption].
Qed.
Lemma readable_script r xs s : readable r xs -> concat_results r = Ok s -> read_script s = Some xs.
Proof.
  intros H Hs. destruct (H _ Hs) as [items [Hi [-> <-]]]. apply (read_items items []); [exact Hi | reflexivity].
Qed.

(** ** The texts of [write_tql] *)
Lemma readable_create_database o n : quote_free n -> readable [gen_create_database o n] [SCreateDatabase (cased o n)].
Proof.
  intros H. apply readable_one. intros s Hs. unfold gen_create_database in Hs.
  destruct (to_case o n) as [n'|] eqn:E; [|discriminate]. apply Ok_inj in Hs. subst s.
  rewrite (cased_ok _ _ _ E). exists (create_db_body n'). unfold create_db_body. rewrite <- !app_assoc.
  split; [reflexivity | apply create_db_ok; eapply to_case_quote_free; eassumption].
Qed.
Lemma readable_use o n : quote_free n -> readable [gen_use_database o n] [SUse (cased o n)].
Proof.
  intros H. apply readable_one. intros s Hs. unfold gen_use_database in Hs.
  destruct (to_case o n) as [n'|] eqn:E; [|discriminate]. apply Ok_inj in Hs. subst s.
  rewrite (cased_ok _ _ _ E). exists (use_body n'). unfold use_body. rewrite <- !app_assoc.
  split; [reflexivity | apply use_ok; eapply to_case_quote_free; eassumption].
Qed.
Lemma readable_create_schema o n : quote_free n -> readable [gen_create_schema o n] [SCreateSchema (cased o n)].
Proof.
  intros H. apply readable_one. intros s Hs. unfold gen_create_schema in Hs.
  destruct (to_case o n) as [n'|] eqn:E; [|discriminate]. apply Ok_inj in Hs. subst s.
  rewrite (cased_ok _ _ _ E). exists (create_schema_body n'). unfold create_schema_body. rewrite <- !app_assoc.
  split; [reflexivity | apply create_schema_ok; eapply to_case_quote_free; eassumption].
Qed.

Lemma cased_names_ok o t s n : cased_names o t = Ok (s, n) -> s = cased o (t_schema t) /\ n = cased o (t_name t).
Proof.
  unfold cased_names. destruct (to_case o (t_name t)) as [n'|] eqn:E1; [|discriminate].
  destruct (to_case o (t_schema t)) as [s'|] eqn:E2; [|discriminate]. cbn [bind]. intros H. inversion H; subst.
  rewrite (cased_ok _ _ _ E1), (cased_ok _ _ _ E2). auto.
Qed.
Ltac names H := let p := fresh in let s := fresh "s" in let n := fresh "n" in let E := fresh in
  match type of H with context[cased_names ?o ?t] =>
    destruct (cased_names o t) as [[s n]|] eqn:E; [|discriminate];
    apply cased_names_ok in E; destruct E as [-> ->]; cbn [bind] in H; apply Ok_inj in H; subst end.

Lemma readable_drop_table o t : quote_free (t_schema t) -> quote_free (t_name t) ->
  readable [gen_drop_table o t] [SDropTable (cased o (t_schema t)) (cased o (t_name t))].
Proof.
  intros Hs Hn. apply readable_one. intros s H. unfold gen_drop_table in H. names H.
  exists (drop_table_body (cased o (t_schema t)) (cased o (t_name t))). unfold drop_table_body. rewrite <- !app_assoc.
  split; [reflexivity | apply drop_table_ok; apply cased_quote_free; assumption].
Qed.
Lemma cols_of_ok o t : (forall c, In c (table_iter t) -> quote_free (column_name c) /\ plain_type (column_type c)) ->
  Forall col_ok (cols_of o t).
Proof.
  intros H. unfold cols_of. apply Forall_forall. intros x Hx. apply in_map_iff in Hx. destruct Hx as [c [<- Hc]].
  destruct (H _ Hc). split; simpl; [apply col_cased_quote_free|]; assumption.
Qed.
Lemma readable_create_table o t : writable_table t ->
  readable [gen_create_table o t]
    [SCreateTable (cased o (t_schema t)) (cased o (t_name t))
      (map (fun c => (col_cased o (column_name c), column_type c)) (table_iter t)) (t_pk t) (shard_of t)].
Proof.
  intros W. apply readable_one. intros s H. destruct (gen_create_table_body _ _ _ H) as [_ [_ ->]].
  eexists. split; [reflexivity|]. pose proof (wt_pk_cols _ W) as Wpc. pose proof (wt_shard _ W) as Wsh.
  destruct W. apply create_table_ok; auto using cased_quote_free.
  - apply cols_of_ok. assumption.
  - intros Hp. unfold cols_of. specialize (Wpc Hp). destruct (table_iter t); [contradiction|discriminate].
  - unfold shard_of. destruct (t_shard t) as [sk|]; [|exact I]. simpl. apply Wsh. reflexivity.
Qed.
Lemma readable_table o t : writable_table t -> readable (table_texts o t) (table_stmts (cased o) (col_cased o) t).
Proof.
  intros W. unfold table_texts, table_stmts.
  apply (readable_app [Ok [nl]] []); [apply readable_blank|].
  apply (readable_app [gen_drop_table o t] [_]); [apply readable_drop_table; apply W|].
  apply (readable_app [Ok [nl]] []); [apply readable_blank|]. apply readable_create_table, W.
Qed.
Lemma readable_fk o t fk : writable_table t -> In fk (foreign_keys_iter t) ->
  readable [gen_foreign_key o t fk] [fk_stmt (cased o) t fk].
Proof.
  intros W Hin. destruct (wt_fks _ W _ Hin) as (H1&H2&H3&H4&H5).
  apply readable_one. intros s H. unfold gen_foreign_key in H.
  destruct (to_case o (t_schema t)) as [sn|] eqn:E1; [|discriminate]. cbn [bind] in H.
  destruct (to_case o (fk_from_table fk)) as [fn|] eqn:E2; [|discriminate]. cbn [bind] in H.
  destruct (to_case o (fk_to_table fk)) as [tn|] eqn:E3; [|discriminate]. cbn [bind] in H.
  apply Ok_inj in H. subst s. unfold fk_stmt. rewrite (cased_ok _ _ _ E1), (cased_ok _ _ _ E2), (cased_ok _ _ _ E3).
  exists (alter_head sn fn ++ fk_rest (fk_name fk) (fk_from_keys fk) sn tn (fk_to_keys fk)).
  unfold fk_rest. change ($");") with ($")" ++ $";"). split; [rewrite <- !app_assoc; reflexivity|].
  pose proof (wt_schema _ W). apply fk_ok; eauto using to_case_quote_free.
Qed.
Lemma readable_rel o t r : writable_table t -> In r (relationships_iter t) ->
  readable [gen_relationships o t r] [rel_stmt (cased o) t r].
Proof.
  intros W Hin. destruct (wt_rels _ W _ Hin) as (H1&H2&H3&H4).
  apply readable_one. intros s H. unfold gen_relationships in H.
  destruct (to_case o (t_schema t)) as [sn|] eqn:E1; [|discriminate]. cbn [bind] in H.
  destruct (to_case o (rel_from_table r)) as [fn|] eqn:E2; [|discriminate]. cbn [bind] in H.
  destruct (to_case o (rel_to_table r)) as [tn|] eqn:E3; [|discriminate]. cbn [bind] in H.
  apply Ok_inj in H. subst s. unfold rel_stmt. rewrite (cased_ok _ _ _ E1), (cased_ok _ _ _ E2), (cased_ok _ _ _ E3).
  exists (alter_head sn fn ++ rel_rest (rel_name r) sn tn (rel_conditions r)).
  unfold rel_rest. split; [rewrite <- !app_assoc; reflexivity|].
  pose proof (wt_schema _ W). apply rel_ok_stmt; eauto using to_case_quote_free.
Qed.

Theorem script_reads o create_db d s : writable d -> tql_script o create_db d = Ok s ->
  read_script s = Some (script_stmts (cased o) (col_cased o) create_db d).
Proof.
  intros W Hs. eapply readable_script; [|exact Hs]. unfold tql_texts, script_stmts.
  apply readable_app; [destruct create_db; [apply readable_create_database, W | apply readable_nil]|].
  apply readable_app; [apply readable_use, W|].
  apply readable_app.
  { destruct create_db; [|apply readable_nil]. apply readable_map. intros x Hx. apply readable_create_schema.
    apply filter_In in Hx. destruct Hx as [Hx _]. pose proof (wd_schemas _ W) as Hq. rewrite Forall_forall in Hq. auto. }
  apply readable_app; [apply readable_flat_map; intros t Ht; apply readable_table, (wd_tables _ W), Ht|].
  apply readable_app.
  - apply readable_flat_map. intros t Ht. apply readable_map. intros fk Hfk. apply readable_fk; [apply (wd_tables _ W), Ht | exact Hfk].
  - apply readable_flat_map. intros t Ht. apply readable_map. intros r Hr. apply readable_rel; [apply (wd_tables _ W), Ht | exact Hr].
Qed.

(** without the camel case option a script always results *)
Lemma to_case_total o n : camelcase o = false -> exists n', to_case o n = Ok n'.
Proof. intros H. unfold to_case. rewrite H. destruct (str_eqb _ _), (lowercase o), (uppercase o); eauto. Qed.
Lemma concat_results_total l : (forall r, In r l -> exists s, r = Ok s) -> exists s, concat_results l = Ok s.
Proof.
  induction l as [|r l IH]; intros H; [exists []; reflexivity|]. destruct (H r (or_introl eq_refl)) as [x ->].
  destruct IH as [y Hy]; [intros; apply H; right; assumption|]. exists (x ++ y). cbn [concat_results bind]. rewrite Hy. reflexivity.
Qed.
Theorem script_total o create_db d : camelcase o = false \/ lowercase o = true \/ uppercase o = true ->
  exists s, tql_script o create_db d = Ok s.
Proof.
  intros Hc. assert (Hn : forall n, exists n', to_case o n = Ok n').
  { intros n. unfold to_case. destruct (str_eqb _ _), (lowercase o), (uppercase o), (camelcase o); eauto; destruct Hc as [?|[?|?]]; discriminate. }
  apply concat_results_total. intros r Hr. unfold tql_texts in Hr.
  assert (Hdb : forall n, exists s, gen_create_database o n = Ok s) by (intros n; unfold gen_create_database; destruct (Hn n) as [? ->]; cbn [bind]; eauto).
  assert (Huse : forall n, exists s, gen_use_database o n = Ok s) by (intros n; unfold gen_use_database; destruct (Hn n) as [? ->]; cbn [bind]; eauto).
  assert (Hsch : forall n, exists s, gen_create_schema o n = Ok s) by (intros n; unfold gen_create_schema; destruct (Hn n) as [? ->]; cbn [bind]; eauto).
  repeat (apply in_app_iff in Hr; destruct Hr as [Hr|Hr]).
  - destruct create_db; [|destruct Hr]. destruct Hr as [<-|[]]. apply Hdb.
  - destruct Hr as [<-|[]]. apply Huse.
  - destruct create_db; [|destruct Hr]. apply in_map_iff in Hr. destruct Hr as [n [<- _]]. apply Hsch.
  - apply in_flat_map in Hr. destruct Hr as [t [_ Hr]].
    destruct Hr as [<-|[<-|[<-|[<-|[]]]]]; eauto.
    + unfold gen_drop_table, cased_names. destruct (Hn (t_name t)) as [? ->], (Hn (t_schema t)) as [? ->]. cbn [bind]. eauto.
    + unfold gen_create_table. destruct (Hn (t_name t)) as [? ->], (Hn (t_schema t)) as [? ->]. cbn [bind].
      destruct (t_shard t); eauto.
  - apply in_flat_map in Hr. destruct Hr as [t [_ Hr]]. apply in_map_iff in Hr. destruct Hr as [fk [<- _]].
    unfold gen_foreign_key. destruct (Hn (t_schema t)) as [? ->], (Hn (fk_from_table fk)) as [? ->], (Hn (fk_to_table fk)) as [? ->].
    cbn [bind]. eauto.
  - apply in_flat_map in Hr. destruct Hr as [t [_ Hr]]. apply in_map_iff in Hr. destruct Hr as [rr [<- _]].
    unfold gen_relationships. destruct (Hn (t_schema t)) as [? ->], (Hn (rel_from_table rr)) as [? ->], (Hn (rel_to_table rr)) as [? ->].
    cbn [bind]. eauto.
Qed.
