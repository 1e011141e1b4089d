(** * Converting what was converted *)
From Verif Require Import StrFacts ParsedFacts RoundDemo SpecRound SpecCliDiff SpecCliFlow ScriptFacts CliFacts GenFacts CasedFacts PropsRound PropsCliFlow.
From Coq Require Import List Lia. Import ListNotations.

(** ** The second conversion starts from a model like the first *)
Lemma settled_plain s t t' : well_formed_table t -> well_formed_table t' -> plain s -> (t_fks t <> [] -> ~ mentions ($"constraint") s) -> (t_rels t <> [] -> ~ mentions ($"foreign") s) ->
  plain_table t -> read_back s t t' -> plain_table t'.
Proof.
  intros W W' Ps Nc Nf P R. destruct (read_back_cols _ _ _ W W' R) as [Cn Ct]. split.
  - intros w Hw. rewrite (rb_schema _ _ _ R), (rb_name _ _ _ R), Cn, (rb_pk _ _ _ R) in Hw. destruct Hw as [<-|Hw]; [exact Ps|]. apply (pt_names _ P). right. exact Hw.
  - intros c Hc. apply (in_map column_type) in Hc. rewrite Ct, map_map in Hc. apply in_map_iff in Hc. destruct Hc as [c0 [<- Hc0]]. apply read_type_readable, (pt_coltypes _ P c0 Hc0).
  - intros sk Hs. pose proof (rb_shard _ _ _ R) as S. unfold shard_of in S. rewrite Hs in S. destruct (t_shard t) as [sk0|] eqn:Q; [|discriminate S]. injection S as _ ->. exact (pt_keys _ P sk0 Q).
  - intros X. assert (Y : t_cols t = []).
    { unfold get_column_names in Cn. rewrite X in Cn. symmetry in Cn. apply map_eq_nil in Cn. exact Cn. }
    destruct (pt_columns _ P Y) as [A B]. split; [rewrite (rb_pk _ _ _ R); exact A|]. pose proof (rb_shard _ _ _ R) as S. unfold shard_of in S. rewrite B in S. destruct (t_shard t'); [discriminate S|reflexivity].
  - intros fk Hfk. unfold foreign_keys_iter in Hfk. rewrite (rb_fks _ _ _ R) in Hfk. destruct (pt_all_fks _ P fk Hfk) as [F1 F2 F3 F4]. split; [rewrite (rb_name _ _ _ R); exact F1|exact F2|exact F3|].
    rewrite (rb_schema _ _ _ R), (rb_name _ _ _ R). intros w [<-|Hw]; [apply Nc; intros Z; rewrite Z in Hfk; destruct Hfk|]. apply F4. right. exact Hw.
  - intros r Hr. unfold relationships_iter in Hr. rewrite (rb_rels _ _ _ R) in Hr. destruct (pt_all_rels _ P r Hr) as [F1 F2 F3 F4]. split; [rewrite (rb_name _ _ _ R); exact F1|exact F2| |exact F4].
    rewrite (rb_schema _ _ _ R), (rb_name _ _ _ R). intros w [<-|Hw]; [apply Nf; intros Z; rewrite Z in Hr; destruct Hr|]. apply F3. right. exact Hw.
Qed.

(** ** The length of a script *)
Definition size (r : result str) : nat := match r with Ok s => length s | Err _ => 0 end.
Definition sizes (l : list (result str)) : nat := list_sum (map size l).
Lemma script_size o b d s : tql_script o b d = Ok s -> length s = sizes (tql_texts o b d).
Proof.
  intros E. destruct (concat_ok _ _ E) as [l [-> ->]]. unfold sizes. clear E. induction l as [|x l IH]; [reflexivity|]. cbn [concat map]. rewrite app_length, IH. reflexivity.
Qed.
Lemma sizes_app l m : sizes (l ++ m) = sizes l + sizes m.
Proof. unfold sizes. rewrite map_app, list_sum_app. reflexivity. Qed.
Definition weight (cs : list column) : nat := list_sum (map (fun c => length (column_type c)) cs).
Lemma lines_size o : forall cs cs' b, map (fun c => col_cased o (column_name c)) cs' = map (fun c => col_cased o (column_name c)) cs ->
  length (column_lines o b cs') + weight cs = length (column_lines o b cs) + weight cs'.
Proof.
  induction cs as [|c cs IH]; intros [|c' cs'] b E; try discriminate; [reflexivity|]. cbn [map] in E. injection E as E1 E2. specialize (IH cs' false E2).
  cbn [column_lines]. change (column_case o) with (col_cased o). rewrite E1. rewrite !app_length. unfold weight in *. cbn [map list_sum fold_right]. fold (list_sum (map (fun c0 => length (column_type c0)) cs)). fold (list_sum (map (fun c0 => length (column_type c0)) cs')). lia.
Qed.
Lemma lines_same o : forall cs cs' b, map (fun c => (col_cased o (column_name c), column_type c)) cs' = map (fun c => (col_cased o (column_name c), column_type c)) cs ->
  column_lines o b cs' = column_lines o b cs.
Proof.
  induction cs as [|c cs IH]; intros [|c' cs'] b E; try discriminate; [reflexivity|]. cbn [map] in E. injection E as E1 E2 E3. cbn [column_lines]. change (column_case o) with (col_cased o). rewrite E1, E2, (IH cs' false E3). reflexivity.
Qed.

(** no column has the type INT, which a reader takes for BIGINT *)
Definition no_ints (d : database) : Prop := forall t c, In t (db_iter d) -> In c (table_iter t) -> column_type c <> $"INT".
Lemma type_grows ty : In ty target_types -> length ty <= length (read_type ty) /\ (ty = $"INT" -> length ty < length (read_type ty)).
Proof. intros I. unfold target_types in I. repeat (destruct I as [<-|I]; [split; [vm_compute; lia|intros E; try discriminate E; vm_compute; lia]|]). destruct I. Qed.
Lemma weight_grows l : (forall c, In c l -> In (column_type c) target_types) ->
  weight l <= weight (map reread l) /\ ((exists c, In c l /\ column_type c = $"INT") -> weight l < weight (map reread l)).
Proof.
  induction l as [|c l IH]; intros T; [split; [apply le_n|intros [c [[] _]]]|].
  destruct (IH (fun c I => T c (or_intror I))) as [A B]. destruct (type_grows _ (T c (or_introl eq_refl))) as [C D].
  change (weight (c :: l)) with (length (column_type c) + weight l). change (weight (map reread (c :: l))) with (length (read_type (column_type c)) + weight (map reread l)).
  split; [lia|]. intros [c0 [[<-|I] Q]]; [specialize (D Q); lia|]. assert (K : exists c1, In c1 l /\ column_type c1 = $"INT") by (exists c0; auto). specialize (B K). lia.
Qed.
Lemma one_schema n s text d : parse_text n s text = Ok d -> db_iter d <> [] -> get_schema_names d = [s].
Proof.
  intros P NE. destruct (c44 _ _ _ _ P) as [_ [W PT]]. apply single; [apply W| |apply (c44_schemas _ _ _ _ P)].
  destruct (db_iter d) as [|t l] eqn:DI; [destruct (NE eq_refl)|]. rewrite <- (pt_schema _ _ (PT t (or_introl eq_refl))). apply (wf_schemas _ W). rewrite DI. left. reflexivity.
Qed.

Section Again.
Variables (n s : str) (b : bool) (o : case_opts).
Hypothesis O : lowercase o = true \/ uppercase o = true \/ camelcase o = false.
Hypothesis D : s = DEFAULT_SCHEMA \/ cased o s <> DEFAULT_SCHEMA.

(** a table, and what is read from its text *)
Section Table.
Variables t t1 : table.
Hypothesis P : parsed_table s t.
Hypothesis R : read_back s (cased_table o t) t1.

Lemma cols_again : table_iter t1 = map reread (map (cased_column o) (table_iter t)).
Proof. rewrite <- cased_columns. apply columns_eq, (rb_columns _ _ _ R). Qed.
Lemma names_again : map (fun c => col_cased o (column_name c)) (table_iter t1) = map (fun c => col_cased o (column_name c)) (table_iter t).
Proof. rewrite cols_again, !map_map. apply map_ext. intros c. cbn [reread cased_column column_name]. apply (cc_idem o O). Qed.
Lemma heads_again : to_case o (t_name t1) = Ok (cased o (t_name t)) /\ to_case o (t_name t) = Ok (cased o (t_name t)) /\ t_schema t1 = t_schema t /\ to_case o (t_schema t) = Ok (cased o (t_schema t)).
Proof.
  rewrite (rb_name _ _ _ R), (rb_schema _ _ _ R), (pt_schema _ _ P). cbn [cased_table t_name]. rewrite !(cn_ok o O), (cn_idem o O). auto.
Qed.
Lemma fks_again : fk_texts o t1 = fk_texts o t.
Proof.
  destruct heads_again as [_ [_ [E _]]]. unfold fk_texts. rewrite (rb_fks _ _ _ R). change (dvals (t_fks (cased_table o t))) with (foreign_keys_iter (cased_table o t)). rewrite cased_fks, map_map.
  apply map_ext. intros k. unfold gen_foreign_key. rewrite E. cbn [cased_fk fk_name fk_from_table fk_to_table fk_from_keys fk_to_keys]. rewrite !(cn_ok o O), !(cn_idem o O). reflexivity.
Qed.
Lemma rels_again : rel_texts o t1 = rel_texts o t.
Proof.
  destruct heads_again as [_ [_ [E _]]]. unfold rel_texts. rewrite (rb_rels _ _ _ R). change (dvals (t_rels (cased_table o t))) with (relationships_iter (cased_table o t)). rewrite cased_rels, map_map.
  apply map_ext. intros k. unfold gen_relationships. rewrite E. cbn [cased_rel rel_name rel_from_table rel_to_table rel_conditions]. rewrite !(cn_ok o O), !(cn_idem o O). reflexivity.
Qed.
Lemma shard_again : shard_of t1 = shard_of t.
Proof. rewrite (rb_shard _ _ _ R). reflexivity. Qed.
Lemma create_size : sizes (table_texts o t1) + weight (table_iter t) = sizes (table_texts o t) + weight (table_iter t1).
Proof.
  destruct heads_again as [H1 [H2 [H3 H4]]]. pose proof (lines_size o (table_iter t) (table_iter t1) true names_again) as L. pose proof shard_again as S. unfold shard_of in S.
  unfold table_texts, sizes. cbn [map list_sum fold_right size]. unfold gen_drop_table, gen_create_table, cased_names. rewrite H3, H1, H2, H4, (rb_pk _ _ _ R). cbn [bind cased_table t_pk].
  destruct (t_shard t) as [k|], (t_shard t1) as [k'|]; try discriminate S; [injection S as -> ->|]; cbn [size];
    destruct (negb (Nat.eqb (length (t_pk t)) 0)); rewrite !app_length; lia.
Qed.
Lemma grows : sizes (table_texts o t) <= sizes (table_texts o t1) /\ ((exists c, In c (table_iter t) /\ column_type c = $"INT") -> sizes (table_texts o t) < sizes (table_texts o t1)).
Proof.
  pose proof create_size as S. rewrite cols_again in S. assert (W : weight (map (cased_column o) (table_iter t)) = weight (table_iter t)) by (unfold weight; rewrite map_map; reflexivity).
  destruct (weight_grows (map (cased_column o) (table_iter t))) as [A B]; [intros c I; apply in_map_iff in I; destruct I as [c0 [<- I]]; exact (pt_types _ _ P c0 I)|]. rewrite W in A, B. split; [lia|].
  intros [c [I Q]]. assert (K : exists c0, In c0 (map (cased_column o) (table_iter t)) /\ column_type c0 = $"INT") by (exists (cased_column o c); split; [apply in_map, I|exact Q]). specialize (B K). lia.
Qed.
Lemma tables_again : (forall c, In c (table_iter t) -> column_type c <> $"INT") -> table_texts o t1 = table_texts o t.
Proof.
  intros N. destruct heads_again as [H1 [H2 [H3 H4]]]. pose proof shard_again as S. unfold shard_of in S.
  assert (L : column_lines o true (table_iter t1) = column_lines o true (table_iter t)).
  { apply lines_same. rewrite cols_again, !map_map. apply map_ext_in. intros c I. cbn [reread cased_column column_name column_type]. rewrite (cc_idem o O), (target_same _ (pt_types _ _ P c I) (N c I)). reflexivity. }
  unfold table_texts, gen_drop_table, gen_create_table, cased_names. rewrite H3, H1, H2, H4, (rb_pk _ _ _ R), L. cbn [bind cased_table t_pk].
  destruct (t_shard t) as [k|], (t_shard t1) as [k'|]; try discriminate S; [injection S as -> ->|]; reflexivity.
Qed.
End Table.

Lemma all_again : forall l l1, Forall2 (fun t t1 => read_back s (cased_table o t) t1) l l1 -> (forall t, In t l -> parsed_table s t) ->
  flat_map (fk_texts o) l1 = flat_map (fk_texts o) l /\ flat_map (rel_texts o) l1 = flat_map (rel_texts o) l
  /\ sizes (flat_map (table_texts o) l) <= sizes (flat_map (table_texts o) l1)
  /\ ((exists t c, In t l /\ In c (table_iter t) /\ column_type c = $"INT") -> sizes (flat_map (table_texts o) l) < sizes (flat_map (table_texts o) l1))
  /\ ((forall t c, In t l -> In c (table_iter t) -> column_type c <> $"INT") -> flat_map (table_texts o) l1 = flat_map (table_texts o) l).
Proof.
  induction 1 as [|t t1 l l1 R _ IH]; intros P; [repeat (split; [try reflexivity; try apply le_n; intros [t [c [[] _]]]|]); intros _; reflexivity|].
  destruct (IH (fun u I => P u (or_intror I))) as [A [B [C [E F]]]]. clear IH. pose proof (P t (or_introl eq_refl)) as Pt. destruct (grows t t1 Pt R) as [G1 G2].
  cbn [flat_map]. rewrite (fks_again t t1 Pt R), (rels_again t t1 Pt R), A, B, !sizes_app. split; [reflexivity|]. split; [reflexivity|]. split; [lia|]. split.
  - intros [u [c [[<-|I] [J Q]]]].
    + assert (K : exists c0, In c0 (table_iter t) /\ column_type c0 = $"INT") by (exists c; auto). specialize (G2 K). lia.
    + assert (K : exists u0 c0, In u0 l /\ In c0 (table_iter u0) /\ column_type c0 = $"INT") by (exists u, c; auto). specialize (E K). lia.
  - intros N. rewrite (tables_again t t1 Pt R (fun c => N t c (or_introl eq_refl))), F; [reflexivity|]. intros u c I. apply N. right. exact I.
Qed.

(** one conversion: the model read, its script, and the model read from that *)
Lemma step text d : parse_text n s text = Ok d -> plain_db d -> db_iter d <> [] -> apart o d ->
  exists x d1, tql_script o b d = Ok x /\ parse_text n s x = Ok d1 /\ plain_db d1 /\ db_iter d1 <> [] /\ apart o d1 /\ no_ints d1
    /\ exists y, tql_script o b d1 = Ok y /\ (y = x <-> no_ints d).
Proof.
  intros P PL NE AP. destruct (c44 _ _ _ _ P) as [DN [W PT]]. pose proof (one_schema _ _ _ _ P NE) as SN.
  pose proof (cased_formed o d s W AP SN) as WC. pose proof (cased_plain o O d PL) as PC.
  destruct (C45_read_back (cased_db o d) b n s WC PC) as [x [d1 [S [P1 [DN1 [TN RB]]]]]]. unfold tql_script in S. rewrite (cased_texts o O b d s SN D) in S. fold (tql_script o b d) in S.
  rewrite cased_iter in RB.
  destruct (c44 _ _ _ _ P1) as [_ [W1 PT1]]. assert (NE1 : db_iter d1 <> []) by (intros Q; rewrite Q in RB; inversion RB as [Z|]; symmetry in Z; apply map_eq_nil in Z; exact (NE Z)).
  pose proof (one_schema _ _ _ _ P1 NE1) as SN1. exists x, d1. split; [exact S|]. split; [exact P1|].
  assert (Ps : plain s) by (apply (pb_schemas _ PL); rewrite SN; left; reflexivity).
  assert (BK : forall t1, In t1 (db_iter d1) -> exists t, In t (db_iter d) /\ read_back s (cased_table o t) t1).
  { intros t1 I. destruct (forall2_in _ _ _ _ RB I) as [c [J R]]. apply in_map_iff in J. destruct J as [t [<- J]]. exists t. auto. }
  assert (PL1 : plain_db d1).
  { split; [rewrite DN1, <- DN; apply PL|intros u I; rewrite SN1, <- SN in I; exact (pb_schemas _ PL u I)|].
    intros t1 I. destruct (BK t1 I) as [t [J R]]. assert (JC : In (cased_table o t) (db_iter (cased_db o d))) by (rewrite cased_iter; apply in_map, J).
    apply (settled_plain s (cased_table o t) t1 (wf_tables _ WC _ JC) (wf_tables _ W1 t1 I) Ps); [| |exact (pb_tables _ PC _ JC)|exact R].
    - cbn [cased_table t_fks]. intros Z. destruct (t_fks t) as [|[k v] l] eqn:E; [destruct (Z eq_refl)|]. rewrite <- (pt_schema _ _ (PT t J)).
      apply (pk_constraint _ v (pt_all_fks _ (pb_tables _ PL t J) v ltac:(unfold foreign_keys_iter; rewrite E; left; reflexivity))). left. reflexivity.
    - cbn [cased_table t_rels]. intros Z. destruct (t_rels t) as [|[k v] l] eqn:E; [destruct (Z eq_refl)|]. rewrite <- (pt_schema _ _ (PT t J)).
      apply (pl_foreign _ v (pt_all_rels _ (pb_tables _ PL t J) v ltac:(unfold relationships_iter; rewrite E; left; reflexivity))). left. reflexivity. }
  split; [exact PL1|]. split; [exact NE1|]. split.
  { split.
    - rewrite TN. unfold get_table_names, cased_db. cbn [db_tables]. rewrite mapped_keys, map_map, (map_ext _ _ (cn_idem o O)). apply AP.
    - intros t1 I. destruct (BK t1 I) as [t [J R]]. assert (JC : In (cased_table o t) (db_iter (cased_db o d))) by (rewrite cased_iter; apply in_map, J).
      destruct (read_back_cols _ _ _ (wf_tables _ WC _ JC) (wf_tables _ W1 t1 I) R) as [-> _]. unfold get_column_names, cased_table. cbn [t_cols]. rewrite mapped_keys, map_map, (map_ext _ _ (cc_idem o O)). apply AP, J. }
  split.
  { intros t1 c I J. destruct (BK t1 I) as [t [_ R]]. rewrite (cols_again t t1 R) in J. apply in_map_iff in J. destruct J as [c0 [<- _]].
    cbn [reread column_type]. intros Z. pose proof (read_type_idem (column_type c0)) as Y. rewrite Z in Y. pose proof Y as V. vm_compute in V. discriminate V. }
  assert (Y : exists y, tql_script o b d1 = Ok y) by (apply script_total; tauto). destruct Y as [y S1]. exists y. split; [exact S1|].
  assert (RB' : Forall2 (fun t t1 => read_back s (cased_table o t) t1) (db_iter d) (db_iter d1)).
  { clear - RB. remember (map (cased_table o) (db_iter d)) as m eqn:M. revert M. generalize (db_iter d) as l. induction RB as [|a c m l1 R _ IH]; intros l M; destruct l as [|t l]; try discriminate M; [constructor|].
    cbn [map] in M. injection M as -> M. constructor; [exact R|apply IH, M]. }
  destruct (all_again _ _ RB' PT) as [A1 [A2 [_ [A3 A4]]]]. split.
  - intros ->. intros t c I J Q. pose proof (script_size _ _ _ _ S) as L. pose proof (script_size _ _ _ _ S1) as L1. rewrite L in L1. clear L. unfold tql_texts in L1. rewrite DN1, <- DN, SN, SN1, A1, A2 in L1.
    rewrite !sizes_app in L1. assert (K : exists t0 c0, In t0 (db_iter d) /\ In c0 (table_iter t0) /\ column_type c0 = $"INT") by (exists t, c; auto). specialize (A3 K). lia.
  - intros NI. assert (T : tql_texts o b d1 = tql_texts o b d) by (unfold tql_texts; rewrite DN1, <- DN, SN, SN1, A1, A2, (A4 NI); reflexivity).
    unfold tql_script in S, S1. rewrite T, S in S1. injection S1 as <-. reflexivity.
Qed.
End Again.
