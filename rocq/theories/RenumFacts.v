(** * The numbers given to shard keys do not matter to the parser and the writers *)
From Verif Require Import ParsedFacts.
From Verif Require MessageSame.
From Verif Require Export Cli.

Definition renum_sk (k : nat) (s : shard_key) : shard_key := {| sk_id := k + sk_id s; sk_keys := sk_keys s; sk_shards := sk_shards s |}.
Definition renum_t (k : nat) (t : table) : table := with_shard t (option_map (renum_sk k) (t_shard t)).
Definition renum (k : nat) (d : database) : database :=
  {| db_name := db_name d; db_tables := map (fun x => (fst x, renum_t k (snd x))) (db_tables d); db_schemas := db_schemas d |}.
Definition map_ok {A B} (f : A -> B) (r : result A) : result B := match r with Ok a => Ok (f a) | Err e => Err e end.

Lemma dget_map {A B} (f : A -> B) n (d : dict A) : dget n (map (fun x => (fst x, f (snd x))) d) = option_map f (dget n d).
Proof. induction d as [|[m v] d IH]; [reflexivity|]. cbn [map dget fst snd]. destruct (str_eqb n m); [reflexivity|apply IH]. Qed.
Lemma dset_map {A B} (f : A -> B) n v (d : dict A) : dset n (f v) (map (fun x => (fst x, f (snd x))) d) = map (fun x => (fst x, f (snd x))) (dset n v d).
Proof. induction d as [|[m w] d IH]; [reflexivity|]. cbn [map dset fst snd]. destruct (str_eqb n m); [reflexivity|]. cbn [map fst snd]. rewrite IH. reflexivity. Qed.

Lemma renum_get k d n : get_table (renum k d) n = option_map (renum_t k) (get_table d n).
Proof. unfold get_table, renum. apply dget_map. Qed.
Lemma renum_store k d n t : store_table (renum k d) n (renum_t k t) = renum k (store_table d n t).
Proof. unfold store_table, renum. cbn [db_name db_tables db_schemas]. rewrite (dset_map (renum_t k)). reflexivity. Qed.
Lemma renum_add k d t : add_table (renum k d) (renum_t k t) = renum k (add_table d t).
Proof. unfold add_table, renum. cbn [db_name db_tables db_schemas]. change (t_name (renum_t k t)) with (t_name t). rewrite (dset_map (renum_t k)). reflexivity. Qed.
Lemma renum_iter k d : db_iter (renum k d) = map (renum_t k) (db_iter d).
Proof. unfold db_iter, dvals, renum. cbn [db_tables]. rewrite !map_map. reflexivity. Qed.
Lemma renum_names k d : get_table_names (renum k d) = get_table_names d.
Proof. unfold get_table_names, dkeys, renum. cbn [db_tables]. rewrite !map_map. reflexivity. Qed.
Lemma renum_t_none k t : t_shard t = None -> renum_t k t = t.
Proof. intros E. unfold renum_t, with_shard. rewrite E. destruct t. cbn in *. subst. reflexivity. Qed.

Lemma fields_shard : forall rfs t cs t' cs', fields_loop rfs t cs = Ok (t', cs') -> t_shard t' = t_shard t.
Proof.
  induction rfs as [|rf rfs IH]; intros t cs t' cs' E; cbn [fields_loop] in E; [injection E as <- _; reflexivity|].
  destruct (contains ($"key ") (lower rf)).
  - destruct (contains ($"primary") (lower rf)); [|apply (IH _ _ _ _ E)]. unfold set_primary_key in E. cbn [bind] in E. rewrite (IH _ _ _ _ E). reflexivity.
  - unfold bind in E. destruct (field_name rf) as [[name q]|e]; [|discriminate]. destruct (convert_type _) as [ty|e]; [|discriminate].
    destruct (mk_column _ _) as [c|e]; [|discriminate]. apply (IH _ _ _ _ E).
Qed.
Lemma add_columns_shard : forall cs t, t_shard (add_columns t cs) = t_shard t.
Proof. unfold add_columns. induction cs as [|c cs IH]; intros t; [reflexivity|]. cbn [fold_left]. rewrite IH. reflexivity. Qed.
Lemma parse_columns_shard t s t' : parse_columns t s = Ok t' -> t_shard t' = t_shard t.
Proof.
  unfold parse_columns, bind. destruct (fields_loop _ _ _) as [[u cs]|e] eqn:E; [|discriminate]. intros K. injection K as <-.
  rewrite add_columns_shard. exact (fields_shard _ _ _ _ _ E).
Qed.

Lemma create_renum schema id k d s : parse_create_table schema (k + id) (renum k d) s = map_ok (renum k) (parse_create_table schema id d s).
Proof.
  unfold parse_create_table, bind. destruct (parse_columns _ _) as [t|e] eqn:E; [|reflexivity]. cbn [map_ok]. rewrite <- renum_add. do 2 f_equal.
  pose proof (parse_columns_shard _ _ _ E) as N. cbn [mk_table t_shard] in N. destruct (contains _ _); [|symmetry; apply renum_t_none, N].
  unfold add_hashkey. destruct (rsearch _ _) as [[|g1 [|g2 [|g3 l]]]|]; try (symmetry; apply renum_t_none, N).
  destruct (py_int g1); [|symmetry; apply renum_t_none, N]. reflexivity.
Qed.
Lemma pk_renum k d s : parse_primary_key (renum k d) s = renum k (parse_primary_key d s).
Proof.
  unfold parse_primary_key. destruct (rmatch _ _) as [[|g1 [|g2 [|g3 l]]]|]; try reflexivity. destruct (extract_table_name g1) as [n|]; [|reflexivity].
  rewrite renum_get. destruct (get_table d n) as [t|]; [|reflexivity]. cbn [option_map set_primary_key]. rewrite <- renum_store. reflexivity.
Qed.
Lemma add_fk_renum k t a b c e : add_fk_parts (renum_t k t) a b c e = map_ok (renum_t k) (add_fk_parts t a b c e).
Proof.
  unfold add_fk_parts, bind. change (t_name (renum_t k t)) with (t_name t). destruct (mk_foreign_key _ _ _ _ _); reflexivity.
Qed.
Lemma add_rel_renum k t a b c : add_rel_parts (renum_t k t) a b c = map_ok (renum_t k) (add_rel_parts t a b c).
Proof.
  unfold add_rel_parts, bind. change (t_name (renum_t k t)) with (t_name t). destruct (mk_relationship _ _ _ _); reflexivity.
Qed.
Lemma fk_loop_renum n k : forall cs d, fk_loop n cs (renum k d) = renum k (fk_loop n cs d).
Proof.
  induction cs as [|c cs IH]; intros d; cbn [fk_loop]; [reflexivity|]. destruct (fk_parts _) as [[[[name fc] [tot|]] tc]|]; try reflexivity.
  rewrite renum_get. destruct (get_table d n) as [t|]; [|apply IH]. cbn [option_map]. rewrite add_fk_renum. destruct (add_fk_parts _ _ _ _ _) as [t'|]; cbn [map_ok]; [|reflexivity].
  rewrite renum_store. apply IH.
Qed.
Lemma fk_renum k d s : parse_foreign_key (renum k d) s = renum k (parse_foreign_key d s).
Proof. unfold parse_foreign_key. destruct (rmatch _ _) as [[|g1 [|g2 l]]|]; try reflexivity. apply fk_loop_renum. Qed.
Lemma rel_renum k d s : parse_relationship (renum k d) s = renum k (parse_relationship d s).
Proof.
  unfold parse_relationship. destruct (rel_parts s) as [[[[[n|] name] [tot|]] c]|]; try reflexivity.
  rewrite renum_get. destruct (get_table d n) as [t|]; [|reflexivity]. cbn [option_map]. rewrite add_rel_renum. destruct (add_rel_parts _ _ _ _) as [t'|]; cbn [map_ok]; [|reflexivity].
  apply renum_store.
Qed.
Lemma statement_renum schema id k d s : parse_statement schema (k + id) (renum k d) s = map_ok (renum k) (parse_statement schema id d s).
Proof.
  unfold parse_statement. destruct (contains _ _); [reflexivity|]. destruct (_ || _); [apply create_renum|]. destruct (contains _ _); [|reflexivity].
  destruct (contains _ _); [cbn [map_ok]; rewrite pk_renum; reflexivity|]. destruct (contains _ _); [cbn [map_ok]; rewrite fk_renum; reflexivity|].
  destruct (contains _ _); [cbn [map_ok]; rewrite rel_renum; reflexivity|reflexivity].
Qed.
Lemma statements_renum schema k : forall l id d, parse_statements schema (k + id) l (renum k d) = map_ok (renum k) (parse_statements schema id l d).
Proof.
  induction l as [|s l IH]; intros id d; cbn [parse_statements]; [reflexivity|]. rewrite statement_renum. destruct (parse_statement schema id d s) as [d'|e]; cbn [map_ok bind]; [|reflexivity].
  rewrite plus_n_Sm. apply IH.
Qed.
(** a parse that starts numbering at [k] *)
Lemma parse_from k name schema text :
  parse_statements schema k (get_statements text) (empty_database name) = map_ok (renum k) (parse_text name schema text).
Proof. unfold parse_text. rewrite <- statements_renum, Nat.add_0_r. reflexivity. Qed.

(** the messages do not depend on the numbers *)
Lemma pk_said k d s : snd (Messages.heard_primary_key (renum k d) s) = snd (Messages.heard_primary_key d s).
Proof.
  unfold Messages.heard_primary_key. destruct (rmatch _ _) as [[|g1 [|g2 [|g3 l]]]|]; try reflexivity. destruct (extract_table_name g1) as [n|]; [|reflexivity].
  rewrite renum_get. destruct (get_table d n) as [t|]; reflexivity.
Qed.
Lemma fk_loop_said s n k : forall cs d, snd (Messages.heard_fk_loop s n cs (renum k d)) = snd (Messages.heard_fk_loop s n cs d).
Proof.
  induction cs as [|c cs IH]; intros d; cbn [Messages.heard_fk_loop]; cbn zeta; [reflexivity|]. destruct (fk_parts _) as [[[[name fc] [tot|]] tc]|]; try reflexivity.
  rewrite renum_get. destruct (get_table d n) as [t|]; cbn [option_map].
  - rewrite add_fk_renum. destruct (add_fk_parts _ _ _ _ _) as [t'|]; cbn [map_ok]; [|reflexivity]. rewrite renum_store. apply IH.
  - specialize (IH d). destruct (Messages.heard_fk_loop s n cs (renum k d)), (Messages.heard_fk_loop s n cs d). cbn [snd] in *. congruence.
Qed.
Lemma fk_said k d s : snd (Messages.heard_foreign_key (renum k d) s) = snd (Messages.heard_foreign_key d s).
Proof. unfold Messages.heard_foreign_key. destruct (rmatch _ _) as [[|g1 [|g2 l]]|]; try reflexivity. apply fk_loop_said. Qed.
Lemma rel_said k d s : snd (Messages.heard_relationship (renum k d) s) = snd (Messages.heard_relationship d s).
Proof.
  unfold Messages.heard_relationship. destruct (rel_parts s) as [[[[[n|] name] [tot|]] c]|]; try reflexivity.
  rewrite renum_get. destruct (get_table d n) as [t|]; [|reflexivity]. cbn [option_map]. rewrite add_rel_renum. destruct (add_rel_parts _ _ _ _); reflexivity.
Qed.
Lemma shard_said k d : Messages.heard_shard_key (renum k d) = Messages.heard_shard_key d.
Proof. unfold Messages.heard_shard_key. rewrite renum_get. destruct (get_table d []); reflexivity. Qed.
Lemma statement_said schema id k d s : snd (Messages.heard_statement schema (k + id) (renum k d) s) = snd (Messages.heard_statement schema id d s).
Proof.
  unfold Messages.heard_statement. cbn zeta. destruct (contains _ _); [reflexivity|]. destruct (_ || _).
  - unfold Messages.heard_create_table. cbn zeta. destruct (parse_columns _ _); [|reflexivity]. destruct (contains _ _); reflexivity.
  - destruct (contains _ _); [|reflexivity]. destruct (contains _ _).
    { pose proof (pk_said k d s) as E. destruct (Messages.heard_primary_key (renum k d) s), (Messages.heard_primary_key d s). exact E. }
    destruct (contains _ _).
    { pose proof (fk_said k d s) as E. destruct (Messages.heard_foreign_key (renum k d) s), (Messages.heard_foreign_key d s). exact E. }
    destruct (contains _ _).
    { pose proof (rel_said k d s) as E. destruct (Messages.heard_relationship (renum k d) s), (Messages.heard_relationship d s). exact E. }
    destruct (contains _ _); [apply shard_said | reflexivity].
Qed.
Lemma heard_renum schema k : forall l id d, Messages.heard_statements schema (k + id) l (renum k d)
  = (map_ok (renum k) (fst (Messages.heard_statements schema id l d)), snd (Messages.heard_statements schema id l d)).
Proof.
  induction l as [|s l IH]; intros id d; cbn [Messages.heard_statements]; [reflexivity|].
  pose proof (statement_said schema id k d s) as S. pose proof (statement_renum schema id k d s) as R. rewrite <- !MessageSame.heard_statement_same in R.
  destruct (Messages.heard_statement schema (k + id) (renum k d) s) as [r1 m1], (Messages.heard_statement schema id d s) as [r2 m2]. cbn [fst snd] in S, R. subst r1 m1.
  destruct r2 as [d'|e]; cbn [map_ok]; [|reflexivity]. rewrite plus_n_Sm, IH. destruct (Messages.heard_statements schema (S id) l d') as [r m]. reflexivity.
Qed.
Lemma heard_from k name schema text : Messages.heard_statements schema k (get_statements text) (empty_database name)
  = (map_ok (renum k) (parse_text name schema text), snd (Messages.heard_text name schema text)).
Proof.
  change (empty_database name) with (renum k (empty_database name)). rewrite <- (Nat.add_0_r k) at 1. rewrite heard_renum. f_equal. unfold parse_text.
  rewrite <- MessageSame.heard_statements_same. reflexivity.
Qed.

(** numbers stay below the number of statements *)
Definition numbered (k : nat) (d : database) : Prop := forall t s, In t (db_iter d) -> t_shard t = Some s -> sk_id s < k.
Lemma in_dset {A} n (v w : A) d : In w (dvals (dset n v d)) -> w = v \/ In w (dvals d).
Proof.
  induction d as [|[m u] d IH]; cbn [dset dvals map snd]; [intros [<-|[]]; left; reflexivity|]. destruct (str_eqb n m); cbn [map snd]; intros [<-|I].
  - left; reflexivity.
  - right; right; exact I.
  - right; left; reflexivity.
  - destruct (IH I) as [->|J]; [left; reflexivity|right; right; exact J].
Qed.
Lemma numbered_store k d n t t' : numbered k d -> get_table d n = Some t -> t_shard t' = t_shard t -> numbered k (store_table d n t').
Proof.
  intros N G E x s I S. unfold db_iter, store_table in I. cbn [db_tables] in I. destruct (in_dset _ _ _ _ I) as [->|J].
  - rewrite E in S. refine (N t s _ S). unfold db_iter, get_table in *. clear -G. induction (db_tables d) as [|[m u] l IH]; [discriminate|]. cbn [dget] in G. destruct (str_eqb n m); [injection G as ->; left; reflexivity|right; apply IH, G].
  - exact (N x s J S).
Qed.
Lemma numbered_fk n k : forall cs d, numbered k d -> numbered k (fk_loop n cs d).
Proof.
  induction cs as [|c cs IH]; intros d N; cbn [fk_loop]; [exact N|]. destruct (fk_parts _) as [[[[name fc] [tot|]] tc]|]; try exact N.
  destruct (get_table d n) as [t|] eqn:G; [|apply IH, N]. destruct (add_fk_parts _ _ _ _ _) as [t'|] eqn:E; [|exact N]. apply IH.
  refine (numbered_store _ _ _ _ _ N G _). unfold add_fk_parts, bind in E. destruct (mk_foreign_key _ _ _ _ _); [|discriminate]. injection E as <-. reflexivity.
Qed.
Lemma numbered_statement schema id d s d' : numbered id d -> parse_statement schema id d s = Ok d' -> numbered (S id) d'.
Proof.
  intros N. assert (M : numbered (S id) d) by (intros t k I S; pose proof (N t k I S); lia).
  unfold parse_statement. destruct (contains _ _); [intros E; injection E as <-; exact M|]. destruct (_ || _).
  - unfold parse_create_table, bind. destruct (parse_columns _ _) as [t|e] eqn:P; [|discriminate]. pose proof (parse_columns_shard _ _ _ P) as Q. cbn [mk_table t_shard] in Q.
    intros E. injection E as <-. intros u k I S. unfold db_iter, add_table in I. cbn [db_tables] in I. destruct (in_dset _ _ _ _ I) as [->|J]; [|exact (M u k J S)].
    destruct (contains _ _) in S; [|congruence]. unfold add_hashkey in S. destruct (rsearch _ _) as [[|g1 [|g2 [|g3 l]]]|]; try congruence. destruct (py_int g1); [|congruence]. cbn [with_shard t_shard] in S. injection S as <-. cbn [sk_id]. lia.
  - destruct (contains _ _); [|intros E; injection E as <-; exact M]. destruct (contains _ _); [|destruct (contains _ _); [|destruct (contains _ _)]]; intros E; injection E as <-.
    + unfold parse_primary_key. destruct (rmatch _ _) as [[|g1 [|g2 [|g3 l]]]|]; try exact M. destruct (extract_table_name g1) as [n|]; [|exact M].
      destruct (get_table d n) as [t|] eqn:G; [|exact M]. cbn [set_primary_key]. apply (numbered_store _ _ _ t); [exact M|exact G|reflexivity].
    + unfold parse_foreign_key. destruct (rmatch _ _) as [[|g1 [|g2 l]]|]; try exact M. apply numbered_fk, M.
    + unfold parse_relationship. destruct (rel_parts s) as [[[[[n|] name] [tot|]] c]|]; try exact M. destruct (get_table d n) as [t|] eqn:G; [|exact M].
      destruct (add_rel_parts _ _ _ _) as [t'|] eqn:E; [|exact M]. refine (numbered_store _ _ _ _ _ M G _). unfold add_rel_parts, bind in E. destruct (mk_relationship _ _ _ _); [|discriminate]. injection E as <-. reflexivity.
    + exact M.
Qed.
Lemma numbered_statements schema : forall l id d d', numbered id d -> parse_statements schema id l d = Ok d' -> numbered (id + length l) d'.
Proof.
  induction l as [|s l IH]; intros id d d' N E; cbn [parse_statements length] in *; [injection E as <-; rewrite Nat.add_0_r; exact N|].
  unfold bind in E. destruct (parse_statement schema id d s) as [x|e] eqn:P; [|discriminate]. rewrite <- plus_n_Sm. exact (IH _ _ _ (numbered_statement _ _ _ _ _ N P) E).
Qed.
Lemma numbered_text name schema text d : parse_text name schema text = Ok d -> numbered (length (get_statements text)) d.
Proof. intros E. refine (numbered_statements _ _ 0 _ _ _ E). intros t s []. Qed.

(** the writers do not look at the numbers *)
Lemma flat_map_renum {A} (f : table -> list A) k l : (forall t, f (renum_t k t) = f t) -> flat_map f (map (renum_t k) l) = flat_map f l.
Proof. intros E. induction l as [|t l IH]; [reflexivity|]. cbn [map flat_map]. rewrite E, IH. reflexivity. Qed.
Lemma texts_renum k o b d : tql_texts o b (renum k d) = tql_texts o b d.
Proof.
  unfold tql_texts. rewrite renum_iter. change (db_name (renum k d)) with (db_name d). change (get_schema_names (renum k d)) with (get_schema_names d).
  rewrite !flat_map_renum; [reflexivity|intros t; reflexivity..|]. intros t. unfold table_texts.
  assert (Q : gen_create_table o (renum_t k t) = gen_create_table o t) by (destruct t as [n sch pk [s|] cs fs rs]; reflexivity).
  rewrite Q. reflexivity.
Qed.
Lemma script_renum k o b d : tql_script o b (renum k d) = tql_script o b d.
Proof. unfold tql_script. rewrite texts_renum. reflexivity. Qed.
Lemma write_tql_renum k E o b d f : write_tql E o b (renum k d) f = write_tql E o b d f.
Proof. unfold write_tql. rewrite texts_renum. reflexivity. Qed.

Lemma column_rows_renum n k t : forall cs i, column_rows n (renum_t k t) i cs = column_rows n t i cs.
Proof. induction cs as [|c cs IH]; intros i; cbn [column_rows]; [reflexivity|]. rewrite IH. reflexivity. Qed.
Lemma table_rows_renum n k : forall l i, table_rows n i (map (renum_t k) l) = table_rows n i l.
Proof. induction l as [|t l IH]; intros i; cbn [map table_rows]; [reflexivity|]. rewrite IH. f_equal. destruct t as [m sch pk [s|] cs fs rs]; reflexivity. Qed.
Lemma write_database_renum k fresh w d f : write_database fresh w (renum k d) f = write_database fresh w d f.
Proof.
  unfold write_database. assert (E1 : columns_rows (renum k d) = columns_rows d).
  { unfold columns_rows. rewrite renum_iter. apply flat_map_renum. intros t. apply column_rows_renum. }
  assert (E2 : tables_rows (renum k d) = tables_rows d) by (unfold tables_rows; rewrite renum_iter; apply table_rows_renum).
  assert (E3 : fks_rows (renum k d) = fks_rows d) by (unfold fks_rows; rewrite renum_iter; apply flat_map_renum; reflexivity).
  assert (E4 : rels_rows (renum k d) = rels_rows d) by (unfold rels_rows; rewrite renum_iter; apply flat_map_renum; reflexivity).
  unfold write_columns_worksheet. rewrite E1, E2, E3, E4. reflexivity.
Qed.
