(** * Deciding the hypotheses of C45 for concrete cases, and the fixed point of the round trip *)
From Verif Require Export RoundDb CheckFacts.

Definition plain_b (w : str) : bool := forallb word_char w.
Definition silent_b (w s : str) : bool := negb (contains w (lower s)).
Lemma silent_ok w s : silent_b w s = true -> ~ mentions w s.
Proof. unfold silent_b, mentions. rewrite negb_true_iff. apply contains_false. Qed.
Definition readable_b (ty : str) : bool := str_in ty VALID_TYPES || existsb (fun n => str_eqb ty ($"VARCHAR(" ++ n_to_str n ++ $")")) [0; 10; 20]%N.
Lemma readable_ok ty : readable_b ty = true -> readable_type ty.
Proof.
  unfold readable_b. rewrite orb_true_iff. intros [H|H]; [left; apply str_in_true, H|]. apply existsb_exists in H. destruct H as [n [_ E]]. apply str_eqb_eq in E. right. exists n. exact E.
Qed.
Definition condition_b (c : str) : bool :=
  negb (str_eqb c []) && noch ";" c && noch (ascii_of_nat 10) c && noch (ascii_of_nat 9) c && ends_hard c && lacks ($"  ") c && noch cr c
  && lacks ($"--") c && lacks ($"/*") c
  && forallb (fun w => silent_b w c) [$"create database"; $"create table"; $"create or replace table"; $"primary key"; $"foreign"]
  && forallb (fun w => silent_b w ($" " ++ c)) [$" add relationship "; $" with "; $" as "].
Lemma hard_trimmed s : ends_hard s = true -> trimmed s.
Proof.
  rewrite ends_hard_eq, andb_true_iff. intros [A B]. split.
  - intros c r ->. cbn in A. apply negb_true_iff, A.
  - intros c r ->. rewrite last_hard_app in B by discriminate. cbn in B. rewrite <- negb_true_iff. destruct (negb (is_space c)); [reflexivity|discriminate B].
Qed.
Lemma condition_ok c : condition_b c = true -> readable_condition c.
Proof.
  unfold condition_b. rewrite !andb_true_iff, !noch_ok. unfold lacks. rewrite !negb_true_iff, !contains_false. intros [[[[[[[[[[A B] C] D] E] F] G] H] I] J] K].
  split; try assumption.
  - intros ->. discriminate A.
  - split; try assumption. apply hard_trimmed, E.
  - split; assumption.
  - intros w Hw. rewrite forallb_forall in J. apply silent_ok, J, Hw.
  - intros w Hw. rewrite forallb_forall in K. apply silent_ok, K, Hw.
Qed.
Definition plain_table_b (t : table) : bool :=
  forallb plain_b ([t_schema t; t_name t] ++ get_column_names t ++ t_pk t)
  && forallb (fun c => readable_b (column_type c)) (table_iter t)
  && match t_shard t with Some sk => negb (Nat.eqb (length (sk_keys sk)) 0) && forallb plain_b (sk_keys sk) | None => true end
  && negb (Nat.eqb (length (t_cols t)) 0)
  && forallb (fun fk => str_eqb (fk_from_table fk) (t_name t) && negb (Nat.eqb (length (fk_from_keys fk)) 0) && negb (Nat.eqb (length (fk_to_keys fk)) 0)
       && forallb plain_b ([fk_name fk; fk_to_table fk] ++ fk_from_keys fk ++ fk_to_keys fk)
       && forallb (silent_b ($"constraint")) ([t_schema t; t_name t; fk_name fk; fk_to_table fk] ++ fk_from_keys fk ++ fk_to_keys fk)) (foreign_keys_iter t)
  && forallb (fun r => str_eqb (rel_from_table r) (t_name t) && plain_b (rel_name r) && plain_b (rel_to_table r)
       && forallb (silent_b ($"foreign")) [t_schema t; t_name t; rel_name r; rel_to_table r] && condition_b (rel_conditions r)) (relationships_iter t).
Lemma nonzero {A} (l : list A) : negb (Nat.eqb (length l) 0) = true -> l <> [].
Proof. intros H ->. discriminate H. Qed.
Lemma plain_table_ok t : plain_table_b t = true -> plain_table t.
Proof.
  unfold plain_table_b. rewrite !andb_true_iff, !forallb_forall. intros [[[[[A B] C] D] E] F]. split.
  - exact A.
  - intros c Hc. apply readable_ok, B, Hc.
  - intros sk Hs. rewrite Hs in C. apply andb_true_iff in C. destruct C as [C1 C2]. rewrite forallb_forall in C2. split; [apply nonzero, C1|exact C2].
  - intros X. apply nonzero in D. contradiction.
  - intros fk Hfk. specialize (E fk Hfk). rewrite !andb_true_iff, !forallb_forall in E. destruct E as [[[[E1 E2] E3] E4] E5]. split.
    + apply str_eqb_eq, E1.
    + split; apply nonzero; assumption.
    + exact E4.
    + intros w Hw. apply silent_ok, E5, Hw.
  - intros r Hr. specialize (F r Hr). rewrite !andb_true_iff, forallb_forall in F. destruct F as [[[[F1 F2] F3] F4] F5]. split.
    + apply str_eqb_eq, F1.
    + split; assumption.
    + intros w Hw. apply silent_ok, F4, Hw.
    + apply condition_ok, F5.
Qed.
Definition plain_db_b (d : database) : bool := plain_b (db_name d) && forallb plain_b (get_schema_names d) && forallb plain_table_b (db_iter d).
Lemma plain_db_ok d : plain_db_b d = true -> plain_db d.
Proof.
  unfold plain_db_b. rewrite !andb_true_iff, !forallb_forall. intros [[A B] C]. split; [exact A|exact B|]. intros t Ht. apply plain_table_ok, C, Ht.
Qed.
Lemma shop_plain : plain_db shop.
Proof. apply plain_db_ok. vm_compute. reflexivity. Qed.

(** ** Reading back again *)
Lemma read_type_readable ty : readable_type ty -> readable_type (read_type ty).
Proof.
  intros [H|[n ->]].
  - assert (F : forallb (fun ty => readable_b (read_type ty)) VALID_TYPES = true) by reflexivity. rewrite forallb_forall in F. apply readable_ok, F, H.
  - right. exists 0%N. reflexivity.
Qed.
Lemma read_type_idem ty : read_type (read_type ty) = read_type ty.
Proof.
  unfold read_type at 2 3. destruct (str_eqb ty ($"INT") || str_eqb ty ($"BIGINT")) eqn:A; [reflexivity|]. destruct (str_eqb ty ($"FLOAT") || str_eqb ty ($"DOUBLE")) eqn:B; [reflexivity|].
  destruct (str_eqb ty ($"TIMESTAMP") || str_eqb ty ($"DATETIME")) eqn:C; [reflexivity|]. destruct (starts_with ($"VARCHAR") ty) eqn:D; [reflexivity|]. unfold read_type. rewrite A, B, C, D. reflexivity.
Qed.
Lemma read_back_cols schema t t' : well_formed_table t -> well_formed_table t' -> read_back schema t t' -> get_column_names t' = get_column_names t
  /\ map column_type (table_iter t') = map read_type (map column_type (table_iter t)).
Proof.
  intros W W' R. assert (N : forall t, well_formed_table t -> get_column_names t = map column_name (table_iter t)).
  { clear. intros t W. destruct (wf_cols _ W) as [Nd Wc]. unfold get_column_names, table_iter, dkeys, dvals. rewrite map_map. apply map_ext_in. intros [k c] Hk. cbn [fst snd]. symmetry. apply (Wc k c). apply dget_nodup; assumption. }
  pose proof (rb_columns _ _ _ R) as C. split.
  - rewrite (N t W), (N t' W'). apply (f_equal (map fst)) in C. rewrite !map_map in C. exact C.
  - apply (f_equal (map snd)) in C. rewrite !map_map in C. rewrite map_map. exact C.
Qed.
Lemma read_back_plain schema t t' : plain schema -> ~ mentions ($"constraint") schema -> ~ mentions ($"foreign") schema ->
  well_formed_table t -> well_formed_table t' -> plain_table t -> read_back schema t t' -> plain_table t'.
Proof.
  intros Ps Nc Nf W W' P R. destruct (read_back_cols _ _ _ W W' R) as [Cn Ct]. split.
  - intros w Hw. rewrite (rb_schema _ _ _ R), (rb_name _ _ _ R), Cn, (rb_pk _ _ _ R) in Hw. destruct Hw as [<-|Hw]; [exact Ps|]. apply (pt_names _ P). right. exact Hw.
  - intros c Hc. apply (in_map column_type) in Hc. rewrite Ct, map_map in Hc. apply in_map_iff in Hc. destruct Hc as [c0 [<- Hc0]]. apply read_type_readable, (pt_coltypes _ P c0 Hc0).
  - intros sk Hs. pose proof (rb_shard _ _ _ R) as S. unfold shard_of in S. rewrite Hs in S. destruct (t_shard t) as [sk0|] eqn:E; [|discriminate S]. injection S as _ ->. exact (pt_keys _ P sk0 E).
  - intros X. assert (Y : t_cols t = []).
    { unfold get_column_names in Cn. rewrite X in Cn. symmetry in Cn. apply map_eq_nil in Cn. exact Cn. }
    destruct (pt_columns _ P Y) as [A B]. split; [rewrite (rb_pk _ _ _ R); exact A|]. pose proof (rb_shard _ _ _ R) as S. unfold shard_of in S. rewrite B in S. destruct (t_shard t'); [discriminate S|reflexivity].
  - intros fk Hfk. unfold foreign_keys_iter in Hfk. rewrite (rb_fks _ _ _ R) in Hfk. destruct (pt_all_fks _ P fk Hfk) as [F1 F2 F3 F4]. split; [rewrite (rb_name _ _ _ R); exact F1|exact F2|exact F3|].
    rewrite (rb_schema _ _ _ R), (rb_name _ _ _ R). intros w [<-|Hw]; [exact Nc|]. apply F4. right. exact Hw.
  - intros r Hr. unfold relationships_iter in Hr. rewrite (rb_rels _ _ _ R) in Hr. destruct (pt_all_rels _ P r Hr) as [F1 F2 F3 F4]. split; [rewrite (rb_name _ _ _ R); exact F1|exact F2| |exact F4].
    rewrite (rb_schema _ _ _ R), (rb_name _ _ _ R). intros w [<-|Hw]; [exact Nf|]. apply F3. right. exact Hw.
Qed.
Lemma forall2_in {A B} (R : A -> B -> Prop) l m y : Forall2 R l m -> In y m -> exists x, In x l /\ R x y.
Proof.
  induction 1 as [|a b l m H F IH]; intros Hy; [destruct Hy|]. destruct Hy as [<-|Hy]; [exists a; split; [left; reflexivity|exact H]|]. destruct (IH Hy) as [x [X Y]]. exists x. split; [right; exact X|exact Y].
Qed.
Lemma round_plain d name schema create_db s d' : well_formed d -> plain_db d -> plain name -> plain schema -> ~ mentions ($"constraint") schema -> ~ mentions ($"foreign") schema ->
  tql_script no_case create_db d = Ok s -> parse_text name schema s = Ok d' -> well_formed d' /\ plain_db d'.
Proof.
  intros W P Pn Ps Nc Nf Es Ep. destruct (c44 _ _ _ _ Ep) as [En [W' _]]. split; [exact W'|].
  destruct (round_db d W P schema create_db name) as [s0 [d0 [Es0 [Ep0 [_ [_ F]]]]]]. rewrite Es in Es0. injection Es0 as <-. rewrite Ep in Ep0. injection Ep0 as <-.
  split.
  - rewrite En. exact Pn.
  - intros x Hx. rewrite (c44_schemas _ _ _ _ Ep x Hx). exact Ps.
  - intros t' Ht'. destruct (forall2_in _ _ _ _ F Ht') as [t [Ht R]]. exact (read_back_plain _ _ _ Ps Nc Nf (wf_tables _ W t Ht) (wf_tables _ W' t' Ht') (pb_tables _ P t Ht) R).
Qed.
Lemma forall2_map {A B C} (R : A -> B -> Prop) (f : A -> C) (g : B -> C) l m : (forall x y, R x y -> f x = g y) -> Forall2 R l m -> map f l = map g m.
Proof. intros H. induction 1 as [|x y l m Hxy F IH]; [reflexivity|]. cbn [map]. rewrite IH, (H _ _ Hxy). reflexivity. Qed.
