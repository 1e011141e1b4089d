(** * Writing twice with one writer (C71), and deciding [excel_db] for examples *)
From Verif Require Export ExcelRows OccFacts CleanFacts ParseFacts.

Lemma dget_app {A} n (a b : dict A) : dget n (a ++ b) = match dget n a with Some v => Some v | None => dget n b end.
Proof. induction a as [|[k v] a IH]; [reflexivity|]. cbn [app dget]. destruct (str_eqb n k); [reflexivity|exact IH]. Qed.
Lemma write_again fresh w0 d f w' f' t rows : write_database fresh ((t, rows) :: w0) d f = Ok (w', f') ->
  exists rows' more, w' = ($"Columns", rows') :: w0 ++ more.
Proof.
  unfold write_database, write_columns_worksheet, add_sheet. intros E. destruct (write_rows 0 (columns_header :: columns_rows d) rows) as [r1|]; [|discriminate]. cbn [bind] in E.
  destruct (write_rows 0 (tables_header :: tables_rows d) []) as [r2|]; [|discriminate]. cbn [bind] in E. destruct (write_rows 0 (fks_header :: fks_rows d) []) as [r3|]; [|discriminate]. cbn [bind] in E. destruct (write_rows 0 (rels_header :: rels_rows d) []) as [r4|]; [|discriminate]. cbn [bind] in E.
  apply (f_equal (fun r => match r with Ok p => fst p | Err _ => [] end)) in E. cbn [fst] in E. subst w'. eexists r1, _. cbn [app]. rewrite <- !app_assoc. reflexivity.
Qed.
Lemma write_new fresh d f w f' : write_database fresh new_writer d f = Ok (w, f') ->
  exists r1 r2 r3 r4, w = [($"Columns", r1); ($"Tables", r2); ($"Foreign Keys", r3); ($"Relationships", r4)] /\ f' = xls_filename f.
Proof.
  unfold write_database, write_columns_worksheet, add_sheet, new_writer. intros E. destruct (write_rows 0 (columns_header :: columns_rows d) []) as [r1|]; [|discriminate]. cbn [bind] in E.
  destruct (write_rows 0 (tables_header :: tables_rows d) []) as [r2|]; [|discriminate]. cbn [bind] in E. destruct (write_rows 0 (fks_header :: fks_rows d) []) as [r3|]; [|discriminate]. cbn [bind] in E. destruct (write_rows 0 (rels_header :: rels_rows d) []) as [r4|]; [|discriminate]. cbn [bind] in E.
  exists r1, r2, r3, r4. split; [apply (f_equal (fun r => match r with Ok p => fst p | Err _ => [] end)) in E; symmetry; exact E|apply (f_equal (fun r => match r with Ok p => snd p | Err _ => [] end)) in E; symmetry; exact E].
Qed.
Lemma reuse_keeps fresh d1 f1 w1 n1 d2 f2 w2 n2 s : write_database fresh new_writer d1 f1 = Ok (w1, n1) -> write_database fresh w1 d2 f2 = Ok (w2, n2) ->
  In s [$"Tables"; $"Foreign Keys"; $"Relationships"] -> dget s w2 = dget s w1.
Proof.
  intros E1 E2 I. destruct (write_new _ _ _ _ _ E1) as [r1 [r2 [r3 [r4 [-> _]]]]]. destruct (write_again _ _ _ _ _ _ _ _ E2) as [rows' [more ->]].
  destruct I as [<-|[<-|[<-|[]]]]; reflexivity.
Qed.
Lemma dget_saved calc w s : dget s (saved calc w) = match dget s w with Some rows => Some (map (map (as_read calc)) rows) | None => None end.
Proof. unfold saved. induction w as [|[k v] w IH]; [reflexivity|]. cbn [map fst snd dget]. destruct (str_eqb s k); [reflexivity|exact IH]. Qed.
Lemma reuse_lost fresh calc base d1 f1 w1 n1 d2 f2 w2 n2 dbs ms : well_formed d1 -> excel_db d1 -> db_name d2 <> db_name d1 ->
  write_database fresh new_writer d1 f1 = Ok (w1, n1) -> write_database fresh w1 d2 f2 = Ok (w2, n2) -> read_xls base [] (saved calc w2) = Ok (dbs, ms) -> ~ In (db_name d2) (dkeys dbs).
Proof.
  intros W X N E1 E2 R I. destruct (read_ok_format _ _ _ _ _ R) as [F|[F B]]; [|rewrite read_not_ok in R by assumption; injection R as <- <-; destruct I].
  pose proof (reuse_keeps _ _ _ _ _ _ _ _ _ ($"Tables") E1 E2 ltac:(left; reflexivity)) as K. rewrite (written d1 W X) in E1. apply (f_equal (fun r => match r with Ok p => fst p | Err _ => [] end)) in E1. cbn [fst] in E1. subst w1.
  assert (D : dget ($"Tables") (saved calc w2) = Some (tables_h :: map (map (seen calc)) (tables_rows d1))).
  { rewrite dget_saved, K. pose proof (saved_sheets calc d1) as S. apply (f_equal (dget ($"Tables"))) in S. rewrite dget_saved in S. rewrite S. unfold sheets_of. rewrite <- (tables_header_seen calc). reflexivity. }
  destruct (read_status _ _ _ _ _ _ _ F D R) as [A _]. assert (Q : dget (db_name d2) dbs <> None) by (apply ExcelSheets.dget_in in I; destruct I as [v I]; congruence).
  apply A in Q. destruct Q as [Q|[_ [row [J G]]]]; [apply Q; reflexivity|]. apply in_map_iff in J. destruct J as [r [<- J]]. apply N. unfold tables_rows in J.
  assert (T : forall ts n, In r (table_rows (db_name d1) n ts) -> exists m t, r = table_row (db_name d1) m t).
  { induction ts as [|t ts IH]; intros n Kt; [destruct Kt|]. cbn [table_rows] in Kt. destruct Kt as [<-|Kt]; [exists n, t; reflexivity|]. exact (IH _ Kt). }
  destruct (T _ _ J) as [m [t ->]]. apply get_text_cell in G. destruct (th_cells (map (seen calc) (table_row (db_name d1) m t))) as [G0 _]. rewrite G0 in G.
  rewrite (nth_seen calc _ 0 (db_name d1)) in G; [congruence| |apply (proj2 (ed_name _ X))]. unfold table_row. destruct (match t_shard t with Some sk => _ | None => _ end). reflexivity.
Qed.

(** ** Deciding what a workbook can hold *)
Definition trimmed_b (s : str) : bool := str_eqb (strip s) s.
Lemma trimmed_b_ok s : trimmed_b s = true -> trimmed s.
Proof. intros H. apply str_eqb_eq in H. rewrite <- H. apply strip_trimmed. Qed.
Definition nonempty_b {A} (l : list A) : bool := match l with [] => false | _ => true end.
Lemma nonempty_b_ok {A} (l : list A) : nonempty_b l = true -> l <> [].
Proof. destruct l; discriminate. Qed.
Definition key_list_b (l : list str) : bool := forallb (fun k => nonempty_b k && trimmed_b k && negb (existsb (Ascii.eqb ",") k)) l && cell_text_b (join ($", ") l).
Lemma key_list_ok l : key_list_b l = true -> key_list l.
Proof.
  unfold key_list_b. rewrite andb_true_iff, forallb_forall. intros [H1 H2]. split; [|apply cell_text_ok, H2]. intros k I. specialize (H1 k I). rewrite !andb_true_iff, negb_true_iff in H1. destruct H1 as [[A B] C].
  split; [apply nonempty_b_ok, A|]. split; [apply trimmed_b_ok, B|apply not_in_b, C].
Qed.
Definition valid_type_b (ty : str) : bool := str_in ty VALID_TYPES || starts_with ($"VARCHAR") ty.
Lemma valid_type_ok ty : valid_type_b ty = true -> valid_type ty.
Proof. unfold valid_type_b. rewrite orb_true_iff. intros [H|H]; [left; apply str_in_true, H|right; apply starts_with_spec, H]. Qed.
Definition excel_table_b (t : table) : bool :=
  cell_text_b (t_name t) && cell_text_b (t_schema t)
  && forallb (fun c => cell_text_b (column_name c) && cell_text_b (column_type c) && valid_type_b (column_type c)) (table_iter t)
  && key_list_b (t_pk t)
  && match t_shard t with Some sk => nonempty_b (sk_keys sk) && key_list_b (sk_keys sk) && negb (sk_shards sk =? 0)%Z && (Z.abs (sk_shards sk) <=? 2 ^ 53)%Z | None => true end
  && forallb (fun fk => str_eqb (fk_from_table fk) (t_name t) && cell_text_b (fk_name fk) && cell_text_b (fk_to_table fk) && nonempty_b (fk_from_keys fk) && key_list_b (fk_from_keys fk) && nonempty_b (fk_to_keys fk) && key_list_b (fk_to_keys fk)) (foreign_keys_iter t)
  && forallb (fun r => str_eqb (rel_from_table r) (t_name t) && cell_text_b (rel_name r) && cell_text_b (rel_to_table r) && cell_text_b (rel_conditions r)) (relationships_iter t).
Lemma excel_table_ok t : excel_table_b t = true -> excel_table t.
Proof.
  unfold excel_table_b. rewrite !andb_true_iff, !forallb_forall. intros [[[[[[H1 H2] H3] H4] H5] H6] H7]. constructor.
  - split; apply cell_text_ok; assumption.
  - intros c I. specialize (H3 c I). rewrite !andb_true_iff in H3. destruct H3 as [[A B] C]. split; [apply cell_text_ok, A|]. split; [apply cell_text_ok, B|apply valid_type_ok, C].
  - apply key_list_ok, H4.
  - intros sk E. rewrite E in H5. rewrite !andb_true_iff in H5. destruct H5 as [[[A B] C] D]. split; [apply nonempty_b_ok, A|]. split; [apply key_list_ok, B|]. split; [|apply Z.leb_le, D]. apply negb_true_iff, Z.eqb_neq in C. exact C.
  - intros fk I. specialize (H6 fk I). rewrite !andb_true_iff in H6. destruct H6 as [[[[[[A B] C] D] E] F] G]. split; [apply str_eqb_eq, A|]. split; [apply cell_text_ok, B|]. split; [apply cell_text_ok, C|]. split; [apply nonempty_b_ok, D|]. split; [apply key_list_ok, E|]. split; [apply nonempty_b_ok, F|apply key_list_ok, G].
  - intros r I. specialize (H7 r I). rewrite !andb_true_iff in H7. destruct H7 as [[[A B] C] D]. split; [apply str_eqb_eq, A|]. split; [apply cell_text_ok, B|]. split; apply cell_text_ok; assumption.
Qed.
Definition excel_db_b (d : database) : bool := nonempty_b (db_name d) && cell_text_b (db_name d) && nonempty_b (db_iter d) && forallb excel_table_b (db_iter d).
Lemma excel_db_ok d : excel_db_b d = true -> excel_db d.
Proof.
  unfold excel_db_b. rewrite !andb_true_iff, forallb_forall. intros [[[A B] C] D]. split; [split; [apply nonempty_b_ok, A|apply cell_text_ok, B]|apply nonempty_b_ok, C|]. intros t I. apply excel_table_ok, D, I.
Qed.
Lemma ends_with_spec p s : ends_with p s = true <-> exists a, s = a ++ p.
Proof.
  unfold ends_with. rewrite starts_with_spec. split; intros [b E].
  - exists (rev b). apply (f_equal (@rev _)) in E. rewrite rev_involutive, rev_app_distr, rev_involutive in E. exact E.
  - exists (rev b). rewrite E, rev_app_distr. reflexivity.
Qed.
