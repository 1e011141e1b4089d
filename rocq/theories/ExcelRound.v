(** * Reading back a written workbook (C48, C49) *)
From Verif Require Export ExcelFacts CheckFacts.

(** ** Headers *)
Definition tables_h : list cell := map CText [$"Database"; $"Schema"; $"Table"; $"Updated"; $"Update Type"; $"# Rows"; $"# Columns"; $"Primary Key";
             $"Shard Key"; $"# Shards"; $"RLS Column"; $"# FKs From"; $"# FKs To"; $"# Rels From"; $"# Rels To"].
Definition columns_h : list cell := map CText [$"Database"; $"Schema"; $"Table"; $"Column"; $"Name"; $"Type"].
Definition fks_h : list cell := map CText [$"Name"; $"Database"; $"Schema"; $"From Table"; $"From Columns"; $"To Table"; $"To Columns"].
Definition rels_h : list cell := map CText [$"Name"; $"Database"; $"Schema"; $"From Table"; $"To Table"; $"Conditions"].
Section Headers.
Variable calc : value -> cell.
Lemma tables_header_seen : map (seen calc) tables_header = tables_h.
Proof. unfold tables_header. rewrite seen_texts; [reflexivity|]. apply cell_texts_ok. vm_compute. reflexivity. Qed.
Lemma columns_header_seen : map (seen calc) columns_header = columns_h.
Proof. unfold columns_header. rewrite seen_texts; [reflexivity|]. apply cell_texts_ok. vm_compute. reflexivity. Qed.
Lemma fks_header_seen : map (seen calc) fks_header = fks_h.
Proof. unfold fks_header. rewrite seen_texts; [reflexivity|]. apply cell_texts_ok. vm_compute. reflexivity. Qed.
Lemma rels_header_seen : map (seen calc) rels_header = rels_h.
Proof. unfold rels_header. rewrite seen_texts; [reflexivity|]. apply cell_texts_ok. vm_compute. reflexivity. Qed.
End Headers.
(** the places of the columns *)
Lemma th_cells row : get_cell tables_h ($"Database") row = Ok (nth 0 row (CText [])) /\ get_cell tables_h ($"Schema") row = Ok (nth 1 row (CText []))
  /\ get_cell tables_h ($"Table") row = Ok (nth 2 row (CText [])) /\ get_cell tables_h ($"Primary Key") row = Ok (nth 7 row (CText []))
  /\ get_cell tables_h ($"Shard Key") row = Ok (nth 8 row (CText [])) /\ get_cell tables_h ($"# Shards") row = Ok (nth 9 row (CText [])).
Proof. repeat split; reflexivity. Qed.
Lemma ch_cells row : get_cell columns_h ($"Database") row = Ok (nth 0 row (CText [])) /\ get_cell columns_h ($"Table") row = Ok (nth 2 row (CText []))
  /\ get_cell columns_h ($"Name") row = Ok (nth 4 row (CText [])) /\ get_cell columns_h ($"Type") row = Ok (nth 5 row (CText [])).
Proof. repeat split; reflexivity. Qed.
Lemma fh_cells row : get_cell fks_h ($"Name") row = Ok (nth 0 row (CText [])) /\ get_cell fks_h ($"Database") row = Ok (nth 1 row (CText []))
  /\ get_cell fks_h ($"From Table") row = Ok (nth 3 row (CText [])) /\ get_cell fks_h ($"From Columns") row = Ok (nth 4 row (CText []))
  /\ get_cell fks_h ($"To Table") row = Ok (nth 5 row (CText [])) /\ get_cell fks_h ($"To Columns") row = Ok (nth 6 row (CText [])).
Proof. repeat split; reflexivity. Qed.
Lemma rh_cells row : get_cell rels_h ($"Database") row = Ok (nth 1 row (CText [])) /\ get_cell rels_h ($"From Table") row = Ok (nth 3 row (CText []))
  /\ get_cell rels_h ($"To Table") row = Ok (nth 4 row (CText [])) /\ get_cell rels_h ($"Conditions") row = Ok (nth 5 row (CText [])).
Proof. repeat split; reflexivity. Qed.

Lemma read_rows_app f a b : forall id st, read_rows f id (a ++ b) st = bind (read_rows f id a st) (read_rows f (id + length a) b).
Proof.
  induction a as [|r a IH]; intros id st; cbn [app read_rows length]; [rewrite Nat.add_0_r; reflexivity|].
  destruct (f id st r) as [st'|e]; [|reflexivity]. cbn [bind]. rewrite IH. replace (S id + length a) with (id + S (length a)) by lia. reflexivity.
Qed.

(** ** Tables *)
Definition bare (id : nat) (t : table) : table :=
  {| t_name := t_name t; t_schema := t_schema t; t_pk := t_pk t;
     t_shard := match t_shard t with Some sk => Some {| sk_id := id; sk_keys := sk_keys sk; sk_shards := sk_shards sk |} | None => None end;
     t_cols := []; t_fks := []; t_rels := [] |}.
Section Round.
Variable calc : value -> cell.
Notation seen := (seen calc).

Lemma nth_seen row i s : nth_error row i = Some (VText s) -> cell_text s -> nth i (map seen row) (CText []) = CText s.
Proof.
  intros E H. rewrite (nth_indep _ _ (seen (VText []))), map_nth.
  - rewrite (nth_error_nth _ _ _ E). apply seen_text, H.
  - rewrite map_length. apply nth_error_Some. rewrite E. discriminate.
Qed.
Lemma read_table dbn r t id dbs ms : dbn <> [] -> cell_text dbn -> excel_table t ->
  read_table_row tables_h id (dbs, ms) (map seen (table_row dbn r t))
  = Ok (dset dbn (add_table (match dget dbn dbs with Some d => d | None => empty_database dbn end) (bare id t)) dbs, ms).
Proof.
  intros Nd Hd H. destruct (et_names _ H) as [Hn Hs]. pose proof (keys_words _ (et_pk _ H)) as Kp.
  unfold read_table_row, get_text, text_method. destruct (th_cells (map seen (table_row dbn r t))) as [E0 [E1 [E2 [E7 [E8 E9]]]]]. rewrite E0, E1, E2, E7, E8, E9. clear E0 E1 E2 E7 E8 E9.
  assert (R : exists v8 v9, (v8, v9) = match t_shard t with Some sk => (list_to_string (sk_keys sk) false, VNum (sk_shards sk)) | None => ([], VText []) end
            /\ nth_error (table_row dbn r t) 0 = Some (VText dbn) /\ nth_error (table_row dbn r t) 1 = Some (VText (t_schema t)) /\ nth_error (table_row dbn r t) 2 = Some (VText (t_name t))
            /\ nth_error (table_row dbn r t) 7 = Some (VText (join ($", ") (t_pk t))) /\ nth_error (table_row dbn r t) 8 = Some (VText v8) /\ nth_error (table_row dbn r t) 9 = Some v9).
  { unfold table_row. destruct (match t_shard t with Some sk => _ | None => _ end) as [v8 v9]. exists v8, v9. repeat split; reflexivity. }
  destruct R as [v8 [v9 [Ev [R0 [R1 [R2 [R7 [R8 R9]]]]]]]]. rewrite (nth_seen _ _ _ R0 Hd), (nth_seen _ _ _ R1 Hs), (nth_seen _ _ _ R2 Hn), (nth_seen _ _ _ R7 (kl_cell _ (et_pk _ H))). cbn [bind].
  destruct (str_eqb_spec dbn []) as [|_]; [contradiction|]. rewrite (trimmed_strip (join ($", ") (t_pk t))) by (apply trimmed_join, Kp).
  assert (Pk : match (if str_eqb (join ($", ") (t_pk t)) [] then None else Some (KeyList (cell_keys (join ($", ") (t_pk t))))) with None => [] | Some k => keys_list k end = t_pk t).
  { destruct (t_pk t) as [|k l]; [reflexivity|]. destruct (str_eqb_spec (join ($", ") (k :: l)) []) as [Z|_]; [exfalso; exact (join_nonempty (k :: l) ltac:(discriminate) Kp Z)|].
    cbn [keys_list]. apply cell_keys_join; [discriminate|exact Kp]. }
  destruct (t_shard t) as [sk|] eqn:Es; apply pair_equal_spec in Ev; destruct Ev as [-> ->].
  - destruct (et_shard _ H sk Es) as [Nk [Hk [Hz Hl]]]. unfold list_to_string in R8. rewrite (nth_seen _ _ _ R8 (kl_cell _ Hk)).
    assert (N9 : nth 9 (map seen (table_row dbn r t)) (CText []) = CNum (sk_shards sk)).
    { rewrite (nth_indep _ _ (seen (VText []))), map_nth; [rewrite (nth_error_nth _ _ _ R9); apply seen_num, Hl|rewrite map_length; apply nth_error_Some; rewrite R9; discriminate]. }
    rewrite N9. cbn [bind]. rewrite trimmed_strip by (apply trimmed_join, keys_words, Hk).
    destruct (str_eqb_spec (join ($", ") (sk_keys sk)) []) as [Z|_]; [exfalso; exact (join_nonempty _ Nk (keys_words _ Hk) Z)|]. cbn [is_text negb andb orb].
    rewrite cell_keys_join by (try exact Nk; exact (keys_words _ Hk)).
    destruct (sk_shards sk) as [|p|p] eqn:Ez; [contradiction| |]; cbn [bind]; unfold mk_table, bare; rewrite Pk, Es, Ez; reflexivity.
  - rewrite (nth_seen _ _ _ R8 ltac:(apply cell_text_ok; reflexivity)), (nth_seen _ _ _ R9 ltac:(apply cell_text_ok; reflexivity)). cbn [bind].
    change (strip []) with (@nil ascii). cbn [str_eqb is_text negb andb orb bind]. unfold mk_table, bare. rewrite Pk, Es. reflexivity.
Qed.
Fixpoint bares (id : nat) (ts : list table) : list table := match ts with [] => [] | t :: ts' => bare id t :: bares (S id) ts' end.
Lemma read_tables dbn ts : dbn <> [] -> cell_text dbn -> forall r id d ms, (forall t, In t ts -> excel_table t) ->
  read_rows (read_table_row tables_h) id (map (map seen) (table_rows dbn r ts)) ([(dbn, d)], ms) = Ok ([(dbn, fold_left add_table (bares id ts) d)], ms).
Proof.
  intros Nd Hd. induction ts as [|t ts IH]; intros r id d ms H; [reflexivity|]. cbn [table_rows map read_rows bares fold_left].
  rewrite read_table by (try assumption; apply H; left; reflexivity). cbn [bind dget dset]. rewrite str_eqb_refl. apply IH. intros u I. apply H. right. exact I.
Qed.
Lemma read_tables_new dbn ts : dbn <> [] -> cell_text dbn -> ts <> [] -> forall r id ms, (forall t, In t ts -> excel_table t) ->
  read_rows (read_table_row tables_h) id (map (map seen) (table_rows dbn r ts)) ([], ms) = Ok ([(dbn, fold_left add_table (bares id ts) (empty_database dbn))], ms).
Proof.
  intros Nd Hd Nt r id ms H. destruct ts as [|t ts]; [contradiction|]. cbn [table_rows map read_rows bares fold_left].
  rewrite read_table by (try assumption; apply H; left; reflexivity). cbn [bind dget dset]. apply read_tables; try assumption. intros u I. apply H. right. exact I.
Qed.
Lemma bares_names ts : forall id, map t_name (bares id ts) = map t_name ts.
Proof. induction ts as [|t ts IH]; intros id; [reflexivity|]. cbn [bares map]. rewrite IH. reflexivity. Qed.
Lemma add_tables ts : forall d, NoDup (dkeys (db_tables d) ++ map t_name ts) ->
  db_tables (fold_left add_table ts d) = db_tables d ++ map (fun t => (t_name t, t)) ts /\ db_name (fold_left add_table ts d) = db_name d.
Proof.
  induction ts as [|t ts IH]; intros d N; [rewrite app_nil_r; split; reflexivity|]. cbn [fold_left map] in *.
  assert (K : ~ In (t_name t) (dkeys (db_tables d))) by (apply NoDup_remove_2 in N; intros I; apply N, in_or_app; left; exact I).
  assert (E : db_tables (add_table d t) = db_tables d ++ [(t_name t, t)]) by (apply (dset_new _ _ _ K)).
  destruct (IH (add_table d t)) as [A B]; [rewrite E; unfold dkeys in *; rewrite map_app, <- app_assoc; exact N|]. rewrite A, B, E, <- app_assoc. split; reflexivity.
Qed.
Lemma schemas_add ts : forall d s, In s (dkeys (db_schemas (fold_left add_table ts d))) <-> In s (dkeys (db_schemas d)) \/ In s (map t_schema ts).
Proof.
  induction ts as [|t ts IH]; intros d s; [cbn [fold_left map In]; tauto|]. cbn [fold_left map In]. rewrite IH. cbn [add_table db_schemas]. rewrite dkeys_dset_in. intuition.
Qed.

Lemma schemas_nodup ts : forall d, NoDup (dkeys (db_schemas d)) -> NoDup (dkeys (db_schemas (fold_left add_table ts d))).
Proof. induction ts as [|t ts IH]; intros d N; [exact N|]. cbn [fold_left]. apply IH. cbn [add_table db_schemas]. apply nodup_dset, N. Qed.

(** ** Rows that change a table *)
Lemma dget_mid {A} n (x : A) pre post : ~ In n (dkeys pre) -> dget n (pre ++ (n, x) :: post) = Some x.
Proof. induction pre as [|[k v] pre IH]; intros N; cbn [app dget]; [rewrite str_eqb_refl; reflexivity|]. destruct (str_eqb_spec n k) as [->|]; [exfalso; apply N; left; reflexivity|]. apply IH. intros I. apply N. right. exact I. Qed.
Lemma dset_mid {A} n (x y : A) pre post : ~ In n (dkeys pre) -> dset n y (pre ++ (n, x) :: post) = pre ++ (n, y) :: post.
Proof. induction pre as [|[k v] pre IH]; intros N; cbn [app dset]; [rewrite str_eqb_refl; reflexivity|]. destruct (str_eqb_spec n k) as [->|]; [exfalso; apply N; left; reflexivity|]. f_equal. apply IH. intros I. apply N. right. exact I. Qed.
Lemma dset_same {A} n (x : A) d : dget n d = Some x -> dset n x d = d.
Proof. induction d as [|[k v] d IH]; intros G; [discriminate|]. cbn [dget dset] in *. destruct (str_eqb_spec n k) as [->|]; [injection G as ->; reflexivity|]. rewrite IH by exact G. reflexivity. Qed.
Lemma store_same d n t : get_table d n = Some t -> store_table d n t = d.
Proof. intros G. unfold store_table. rewrite dset_same by exact G. destruct d; reflexivity. Qed.
Lemma dset_twice {A} n (x y : A) d : dset n y (dset n x d) = dset n y d.
Proof. induction d as [|[k v] d IH]; cbn [dset]; [rewrite str_eqb_refl; reflexivity|]. destruct (str_eqb n k) eqn:E; cbn [dset]; rewrite E; [reflexivity|]. rewrite IH. reflexivity. Qed.
Lemma store_twice d n t u : store_table (store_table d n t) n u = store_table d n u.
Proof. unfold store_table. cbn [db_name db_tables db_schemas]. rewrite dset_twice. reflexivity. Qed.
Lemma get_store d n t : get_table (store_table d n t) n = Some t.
Proof. unfold get_table, store_table. cbn [db_tables]. rewrite dget_dset, str_eqb_refl. reflexivity. Qed.

(** a row that finds its table *)
Lemma on_table_ok tab h col missing f dbn d n t t' ms row :
  get_text h ($"Database") row = Ok dbn -> get_text h col row = Ok n -> get_table d n = Some t -> f t = Ok t' ->
  on_table tab h col missing f ([(dbn, d)], ms) row = Ok ([(dbn, store_table d n t')], ms).
Proof. intros E1 E2 G F. unfold on_table. rewrite E1. cbn [bind dget]. rewrite str_eqb_refl, E2. cbn [bind]. rewrite G, F. cbn [bind dset]. rewrite str_eqb_refl. reflexivity. Qed.

(** rows that put the values [l], one after the other, into table [n] *)
Lemma rows_fold {A} (step : nat -> xls_state -> list cell -> result xls_state) (row_of : A -> list cell) (f : table -> A -> table) (ok : table -> Prop) dbn n :
  forall l, (forall a id d t ms, In a l -> get_table d n = Some t -> ok t -> step id ([(dbn, d)], ms) (row_of a) = Ok ([(dbn, store_table d n (f t a))], ms) /\ ok (f t a)) ->
  forall id d t ms, get_table d n = Some t -> ok t ->
  read_rows step id (map row_of l) ([(dbn, d)], ms) = Ok ([(dbn, store_table d n (fold_left f l t))], ms).
Proof.
  induction l as [|a l IH]; intros H id d t ms G K; cbn [map read_rows fold_left]; [rewrite store_same by exact G; reflexivity|].
  destruct (H a id d t ms (or_introl eq_refl) G K) as [E K']. rewrite E. cbn [bind].
  rewrite (IH (fun a' id' d' t' ms' I => H a' id' d' t' ms' (or_intror I)) (S id) (store_table d n (f t a)) (f t a) ms (get_store _ _ _) K'). rewrite store_twice. reflexivity.
Qed.
(** table after table *)
Lemma rows_tables {A} (nm : A -> str) (step : nat -> xls_state -> list cell -> result xls_state) (rows_of : A -> list (list cell)) (g h : A -> table) dbn ts0 :
  (forall t id d ms, In t ts0 -> get_table d (nm t) = Some (g t) ->
     read_rows step id (rows_of t) ([(dbn, d)], ms) = Ok ([(dbn, store_table d (nm t) (h t))], ms)) ->
  forall ts, incl ts ts0 -> forall pre id d ms, db_tables d = pre ++ map (fun t => (nm t, g t)) ts -> NoDup (dkeys pre ++ map nm ts) ->
  exists d', read_rows step id (flat_map rows_of ts) ([(dbn, d)], ms) = Ok ([(dbn, d')], ms)
    /\ db_tables d' = pre ++ map (fun t => (nm t, h t)) ts /\ db_name d' = db_name d /\ db_schemas d' = db_schemas d.
Proof.
  intros H. induction ts as [|t ts IH]; intros Inc pre id d ms E N.
  - exists d. split; [reflexivity|]. split; [exact E|]. split; reflexivity.
  - cbn [flat_map map] in *. rewrite read_rows_app. assert (K : ~ In (nm t) (dkeys pre)) by (apply NoDup_remove_2 in N; intros I; apply N, in_or_app; left; exact I).
    rewrite H; [|apply Inc; left; reflexivity|unfold get_table; rewrite E; apply dget_mid, K]. cbn [bind].
    destruct (IH (fun x I => Inc x (or_intror I)) (pre ++ [(nm t, h t)]) (id + length (rows_of t)) (store_table d (nm t) (h t)) ms) as [d' [B1 [B [C D]]]].
    + unfold store_table. cbn [db_tables]. rewrite E, dset_mid by exact K. rewrite <- app_assoc. reflexivity.
    + unfold dkeys in *. rewrite map_app, <- app_assoc. exact N.
    + exists d'. split; [exact B1|]. split; [rewrite B, <- app_assoc; reflexivity|]. split; [rewrite C|rewrite D]; reflexivity.
Qed.

(** *** Columns *)
Definition cells_of_column (dbn : str) (t : table) (p : Z * column) : list cell :=
  map seen [VText dbn; VText (t_schema t); VText (t_name t); VNum (fst p); VText (column_name (snd p)); VText (column_type (snd p))].
Lemma column_rows_seen dbn t cs : forall i, exists ps, map (map seen) (column_rows dbn t i cs) = map (cells_of_column dbn t) ps /\ map snd ps = cs.
Proof. induction cs as [|c cs IH]; intros i; [exists []; split; reflexivity|]. destruct (IH (i + 1)%Z) as [ps [A B]]. exists ((i, c) :: ps). cbn [column_rows map]. rewrite A, B. split; reflexivity. Qed.
Lemma mk_valid c : valid_type (column_type c) -> mk_column (Some (column_name c)) (Some (column_type c)) = Ok c.
Proof.
  intros H. unfold mk_column. assert (Q : negb (str_in (column_type c) VALID_TYPES) && negb (starts_with ($"VARCHAR") (column_type c)) = false).
  { destruct H as [I|[r E]]; [apply str_in_true in I; rewrite I; reflexivity|]. rewrite E. apply andb_false_intro2. reflexivity. }
  rewrite Q. destruct c; reflexivity.
Qed.
Lemma read_column dbn t p id d x ms : cell_text dbn -> excel_table t -> In (snd p) (table_iter t) -> get_table d (t_name t) = Some x ->
  read_column_row columns_h id ([(dbn, d)], ms) (cells_of_column dbn t p) = Ok ([(dbn, store_table d (t_name t) (add_column x (snd p)))], ms).
Proof.
  intros Hd H I G. destruct (et_names _ H) as [Hn Hs]. destruct (et_cols _ H _ I) as [Cn [Ct V]]. destruct (ch_cells (cells_of_column dbn t p)) as [E0 [E2 [E4 E5]]].
  unfold read_column_row. apply (on_table_ok _ _ _ _ _ _ _ _ x).
  - unfold get_text. rewrite E0. unfold cells_of_column. cbn [map nth]. rewrite seen_text by exact Hd. reflexivity.
  - unfold get_text. rewrite E2. unfold cells_of_column. cbn [map nth]. rewrite seen_text by exact Hn. reflexivity.
  - exact G.
  - unfold get_text. rewrite E4, E5. unfold cells_of_column. cbn [map nth bind]. rewrite !seen_text by assumption. cbn [bind]. rewrite mk_valid by exact V. reflexivity.
Qed.
(** *** Foreign keys *)
Lemma read_fk dbn t fk id d x ms : cell_text dbn -> excel_table t -> length (fk_from_keys fk) = length (fk_to_keys fk) -> In fk (foreign_keys_iter t) -> get_table d (t_name t) = Some x -> t_name x = t_name t ->
  read_fk_row fks_h id ([(dbn, d)], ms) (map seen (fk_row dbn t fk)) = Ok ([(dbn, store_table d (t_name t) (add_fk_obj x fk))], ms).
Proof.
  intros Hd H Hl I G Nx. destruct (et_names _ H) as [Hn Hs]. destruct (et_fks _ H _ I) as [Ef [Cn [Ct [Nf [Kf [Nt Kt]]]]]].
  assert (R : map seen (fk_row dbn t fk) = map CText [fk_name fk; dbn; t_schema t; t_name t; join ($", ") (fk_from_keys fk); fk_to_table fk; join ($", ") (fk_to_keys fk)]).
  { unfold fk_row. rewrite seen_texts; [rewrite Ef; reflexivity|]. rewrite Ef. repeat apply Forall_cons; try assumption; try (apply kl_cell; assumption). constructor. }
  rewrite R. clear R. set (row := map CText _). destruct (fh_cells row) as [E0 [E1 [E3 [E4 [E5 E6]]]]]. unfold read_fk_row. apply (on_table_ok _ _ _ _ _ _ _ _ x).
  - unfold get_text. rewrite E1. reflexivity. - unfold get_text. rewrite E3. reflexivity. - exact G.
  - unfold get_text, text_method. rewrite E0, E4, E5, E6. unfold row. cbn [map nth bind]. rewrite !cell_keys_join by (try assumption; apply keys_words; assumption).
    unfold add_fk_parts, mk_foreign_key. cbn [keys_list]. rewrite Hl, Nat.eqb_refl. cbn [negb bind]. rewrite Nx, <- Ef. destruct fk; reflexivity.
Qed.
(** *** Relationships *)
Definition renamed (r : relationship) : relationship :=
  {| rel_name := usual_name r; rel_from_table := rel_from_table r; rel_to_table := rel_to_table r; rel_conditions := rel_conditions r |}.
Lemma read_rel dbn t r id d x ms : cell_text dbn -> excel_table t -> In r (relationships_iter t) -> get_table d (t_name t) = Some x -> t_name x = t_name t ->
  read_rel_row rels_h id ([(dbn, d)], ms) (map seen (rel_row dbn t r)) = Ok ([(dbn, store_table d (t_name t) (add_rel_obj x (renamed r)))], ms).
Proof.
  intros Hd H I G Nx. destruct (et_names _ H) as [Hn Hs]. destruct (et_rels _ H _ I) as [Ef [Cn [Ct Cc]]].
  assert (R : map seen (rel_row dbn t r) = map CText [rel_name r; dbn; t_schema t; t_name t; rel_to_table r; rel_conditions r]).
  { unfold rel_row. rewrite seen_texts; [rewrite Ef; reflexivity|]. rewrite Ef. repeat apply Forall_cons; try assumption. constructor. }
  rewrite R. clear R. set (row := map CText _). destruct (rh_cells row) as [E1 [E3 [E4 E5]]]. unfold read_rel_row. apply (on_table_ok _ _ _ _ _ _ _ _ x).
  - unfold get_text. rewrite E1. reflexivity. - unfold get_text. rewrite E3. reflexivity. - exact G.
  - unfold get_text. rewrite E4, E5. unfold row. cbn [map nth bind]. unfold add_rel_parts, mk_relationship. cbn [bind]. unfold renamed, usual_name, default_rel_name. rewrite Nx, <- Ef. reflexivity.
Qed.
End Round.

(** ** Filling dictionaries *)
Lemma fold_cols cs : forall x, NoDup (dkeys (t_cols x) ++ map column_name cs) ->
  fold_left add_column cs x = with_cols x (t_cols x ++ map (fun c => (column_name c, c)) cs).
Proof.
  induction cs as [|c cs IH]; intros x N; [cbn [fold_left map]; rewrite app_nil_r; destruct x; reflexivity|]. cbn [fold_left map] in *.
  assert (K : ~ In (column_name c) (dkeys (t_cols x))) by (apply NoDup_remove_2 in N; intros I; apply N, in_or_app; left; exact I).
  unfold add_column at 2. rewrite dset_new by exact K. rewrite IH; cbn [with_cols t_cols].
  - rewrite <- app_assoc. reflexivity.
  - unfold dkeys in *. rewrite map_app, <- app_assoc. exact N.
Qed.
Lemma fold_fks l : forall x, NoDup (dkeys (t_fks x) ++ map fk_name l) ->
  fold_left add_fk_obj l x = with_fks x (t_fks x ++ map (fun c => (fk_name c, c)) l).
Proof.
  induction l as [|c cs IH]; intros x N; [cbn [fold_left map]; rewrite app_nil_r; destruct x; reflexivity|]. cbn [fold_left map] in *.
  assert (K : ~ In (fk_name c) (dkeys (t_fks x))) by (apply NoDup_remove_2 in N; intros I; apply N, in_or_app; left; exact I).
  unfold add_fk_obj at 2. rewrite dset_new by exact K. rewrite IH; cbn [with_fks t_fks].
  - rewrite <- app_assoc. reflexivity.
  - unfold dkeys in *. rewrite map_app, <- app_assoc. exact N.
Qed.
(** a dictionary filed under the names of its values *)
Lemma by_name {A} (name : A -> str) (d : dict A) : NoDup (dkeys d) -> (forall n v, dget n d = Some v -> name v = n) ->
  map (fun v => (name v, v)) (dvals d) = d /\ map name (dvals d) = dkeys d.
Proof.
  intros N H. assert (Q : forall k v, In (k, v) d -> name v = k) by (intros k v I; apply H, dget_nodup; assumption). clear N H.
  induction d as [|[k v] d IH]; [split; reflexivity|]. cbn [dvals dkeys map fst snd]. destruct IH as [A1 A2]; [intros k' v' I; apply Q; right; exact I|].
  fold (dvals d). fold (dkeys d). rewrite A1, A2, (Q k v) by (left; reflexivity). split; reflexivity.
Qed.

Ltac store_eq := match goal with |- Ok ([(_, store_table _ _ ?a)], _) = Ok ([(_, store_table _ _ ?b)], _) => enough (a = b) as -> by reflexivity end.
Ltac read_by R := match type of R with read_rows ?f _ _ _ = ?r =>
  match goal with |- context [read_rows f ?b ?l ?s] => replace (read_rows f b l s) with r by (symmetry; exact R) end end.
Section Whole.
Variable calc : value -> cell.
Notation seen := (seen calc).
Variable d : database.
Hypothesis W : well_formed d.
Hypothesis X : excel_db d.

Lemma d_names : map t_name (db_iter d) = dkeys (db_tables d) /\ NoDup (map t_name (db_iter d)).
Proof. destruct (wf_names _ W) as [N H]. destruct (by_name t_name (db_tables d) N H) as [_ E]. split; [exact E|]. unfold db_iter. rewrite E. exact N. Qed.

Definition full_cols (id : nat) (t : table) : table := with_cols (bare id t) (t_cols t).
Definition full_fks (id : nat) (t : table) : table := with_fks (full_cols id t) (t_fks t).
Definition full (id : nat) (t : table) : table := fold_left add_rel_obj (map renamed (relationships_iter t)) (full_fks id t).

(** the tables with the identities they get *)
Fixpoint number (id : nat) (ts : list table) : list (nat * table) := match ts with [] => [] | t :: ts' => (id, t) :: number (S id) ts' end.
Lemma number_snd ts : forall id, map snd (number id ts) = ts.
Proof. induction ts as [|t ts IH]; intros id; [reflexivity|]. cbn [number map snd]. rewrite IH. reflexivity. Qed.
Lemma number_bares ts : forall id, bares id ts = map (fun p => bare (fst p) (snd p)) (number id ts).
Proof. induction ts as [|t ts IH]; intros id; [reflexivity|]. cbn [number bares map fst snd]. rewrite IH. reflexivity. Qed.
Lemma flat_map_map {A B C} (f : B -> list C) (g : A -> B) l : flat_map f (map g l) = flat_map (fun x => f (g x)) l.
Proof. induction l as [|x l IH]; [reflexivity|]. cbn [map flat_map]. rewrite IH. reflexivity. Qed.
Lemma map_flat {A B C} (f : B -> C) (g : A -> list B) l : map f (flat_map g l) = flat_map (fun x => map f (g x)) l.
Proof. induction l as [|x l IH]; [reflexivity|]. cbn [flat_map]. rewrite map_app, IH. reflexivity. Qed.

Lemma wft t : In t (db_iter d) -> well_formed_table t /\ excel_table t.
Proof. intros I. split; [apply (wf_tables _ W), I|apply (ed_tables _ X), I]. Qed.
Lemma cols_table t id x ms k : In t (db_iter d) -> get_table x (t_name t) = Some (bare k t) ->
  read_rows (read_column_row columns_h) id (map (map seen) (column_rows (db_name d) t 1 (table_iter t))) ([(db_name d, x)], ms)
  = Ok ([(db_name d, store_table x (t_name t) (full_cols k t))], ms).
Proof.
  intros I G. destruct (wft t I) as [Wt Et]. destruct (column_rows_seen calc (db_name d) t (table_iter t) 1) as [ps [E1 E2]]. rewrite E1.
  rewrite (rows_fold _ _ (fun y p => add_column y (snd p)) (fun _ => True) (db_name d) (t_name t) ps) with (t := bare k t); [|intros a i y z m Ia Gz _; split; [|exact Logic.I]|exact G|exact Logic.I].
  - store_eq. transitivity (fold_left add_column (map snd ps) (bare k t)); [clear; generalize (bare k t); induction ps as [|p ps IH]; intros y; [reflexivity|cbn [fold_left map]; apply IH]|].
    rewrite E2. destruct (wf_cols _ Wt) as [N H]. destruct (by_name column_name (t_cols t) N H) as [A B].
    rewrite fold_cols; cbn [bare t_cols app dkeys map]; unfold table_iter; [rewrite A; reflexivity|rewrite B; exact N].
  - apply read_column; try assumption; [apply (proj2 (ed_name _ X))|]. rewrite <- E2. apply in_map, Ia.
Qed.
Lemma fks_table t id x ms k : In t (db_iter d) -> get_table x (t_name t) = Some (full_cols k t) ->
  read_rows (read_fk_row fks_h) id (map (map seen) (map (fk_row (db_name d) t) (foreign_keys_iter t))) ([(db_name d, x)], ms)
  = Ok ([(db_name d, store_table x (t_name t) (full_fks k t))], ms).
Proof.
  intros I G. destruct (wft t I) as [Wt Et]. rewrite map_map.
  rewrite (rows_fold _ _ add_fk_obj (fun y => t_name y = t_name t) (db_name d) (t_name t) (foreign_keys_iter t)) with (t := full_cols k t); [|intros a i y z m Ia Gz Nz; split; [|exact Nz]|exact G|reflexivity].
  - store_eq. destruct (wf_fks _ Wt) as [N H]. destruct (by_name fk_name (t_fks t) N H) as [A B].
    rewrite fold_fks; cbn [full_cols with_cols bare t_fks app dkeys map]; unfold foreign_keys_iter; [rewrite A; reflexivity|rewrite B; exact N].
  - apply read_fk; try assumption; [apply (proj2 (ed_name _ X))|apply (wf_paired _ Wt), Ia].
Qed.
Lemma rels_table t id x ms k : In t (db_iter d) -> get_table x (t_name t) = Some (full_fks k t) ->
  read_rows (read_rel_row rels_h) id (map (map seen) (map (rel_row (db_name d) t) (relationships_iter t))) ([(db_name d, x)], ms)
  = Ok ([(db_name d, store_table x (t_name t) (full k t))], ms).
Proof.
  intros I G. destruct (wft t I) as [Wt Et]. rewrite map_map.
  rewrite (rows_fold _ _ (fun y r => add_rel_obj y (renamed r)) (fun y => t_name y = t_name t) (db_name d) (t_name t) (relationships_iter t)) with (t := full_fks k t); [|intros a i y z m Ia Gz Nz; split; [|exact Nz]|exact G|reflexivity].
  - store_eq. unfold full. generalize (full_fks k t). induction (relationships_iter t) as [|r l IH]; intros y; [reflexivity|]. cbn [fold_left map]. apply IH.
  - apply read_rel; try assumption. apply (proj2 (ed_name _ X)).
Qed.

Lemma count_legal sheet col r : (forall c, In c (sheet ++ col ++ r) -> illegal c = false) -> legal (VText (count_formula sheet col r)).
Proof.
  intros H c I. assert (L : forall s, forallb (fun c => negb (illegal c)) s = true -> In c s -> illegal c = false) by (intros s F J; rewrite forallb_forall in F; apply F in J; apply negb_true_iff, J).
  assert (Hs : In c sheet -> illegal c = false) by (intros J; apply H, in_or_app; left; exact J).
  assert (Hc : In c col -> illegal c = false) by (intros J; apply H, in_or_app; right; apply in_or_app; left; exact J).
  assert (Hr : In c r -> illegal c = false) by (intros J; apply H, in_or_app; right; apply in_or_app; right; exact J).
  unfold count_formula, quoted in I. repeat (apply in_app_or in I; destruct I as [I|I]); auto; try (eapply L; [|exact I]; reflexivity).
Qed.
Lemma n_to_str_legal n c : In c (n_to_str n) -> illegal c = false.
Proof.
  intros I. destruct (n_to_str_ok n) as [_ [D _]]. rewrite forallb_forall in D. specialize (D _ I). unfold is_digit in D. apply andb_true_iff in D. rewrite !Nat.leb_le in D.
  destruct (illegal c) eqn:E; [|reflexivity]. apply illegal_small in E. unfold ord in D. lia.
Qed.
Lemma lookup_legal r : (forall c, In c r -> illegal c = false) -> legal (VText (lookup_formula r)).
Proof.
  intros H c I. assert (L : forall s, forallb (fun c => negb (illegal c)) s = true -> In c s -> illegal c = false) by (intros s F J; rewrite forallb_forall in F; apply F in J; apply negb_true_iff, J).
  unfold lookup_formula in I. repeat (apply in_app_or in I; destruct I as [I|I]); auto; try (eapply L; [|exact I]; reflexivity).
Qed.
Lemma literal_legal s : cell_text_b s = true -> legal (VText s).
Proof. intros H. apply text_legal, cell_text_ok, H. Qed.
Lemma texts_legal l v : Forall cell_text l -> In v (map VText l) -> legal v.
Proof. intros F I. apply in_map_iff in I. destruct I as [s [<- I]]. apply text_legal. rewrite Forall_forall in F. apply F, I. Qed.
Lemma header_legal l v : forallb cell_text_b l = true -> In v (map VText l) -> legal v.
Proof. intros F. apply texts_legal, cell_texts_ok, F. Qed.

Lemma columns_legal r v : In r (columns_header :: columns_rows d) -> In v r -> legal v.
Proof.
  intros [<-|I] J; [revert J; apply header_legal; vm_compute; reflexivity|]. unfold columns_rows in I. apply in_flat_map in I. destruct I as [t [It I]]. destruct (wft t It) as [_ Et].
  destruct (et_names _ Et) as [Hn Hs]. pose proof (et_cols _ Et) as Hc. pose proof (proj2 (ed_name _ X)) as Hd. revert I. generalize 1%Z. revert Hc. induction (table_iter t) as [|c cs IH]; intros Hc z I; [contradiction|].
  cbn [column_rows] in I. destruct I as [<-|I].
  - destruct (Hc c (or_introl eq_refl)) as [A [B _]]. repeat (destruct J as [<-|J]; [first [exact Logic.I|apply text_legal; assumption]|]). destruct J.
  - apply (IH (fun c' I' => Hc c' (or_intror I')) _ I).
Qed.
Lemma table_row_legal r t v : In t (db_iter d) -> In v (table_row (db_name d) r t) -> legal v.
Proof.
  intros It J. destruct (wft t It) as [_ Et]. destruct (et_names _ Et) as [Hn Hs]. pose proof (proj2 (ed_name _ X)) as Hd.
  assert (S : exists v8 v9, (v8, v9) = match t_shard t with Some sk => (list_to_string (sk_keys sk) false, VNum (sk_shards sk)) | None => ([], VText []) end /\ legal (VText v8) /\ legal v9).
  { destruct (t_shard t) as [sk|] eqn:Es; eexists _, _; (split; [reflexivity|]).
    - destruct (et_shard _ Et sk Es) as [_ [K _]]. split; [apply text_legal, (kl_cell _ K)|exact Logic.I].
    - split; intros c []. }
  destruct S as [v8 [v9 [Ev [L8 L9]]]]. unfold table_row in J. rewrite <- Ev in J.
  assert (Lr : forall c, In c (n_to_str r) -> illegal c = false) by apply n_to_str_legal.
  assert (Lc : forall sheet col, forallb (fun c => negb (illegal c)) (sheet ++ col) = true -> legal (VText (count_formula sheet col (n_to_str r)))).
  { intros sheet col F. apply count_legal. intros c I. rewrite app_assoc in I. apply in_app_or in I. destruct I as [I|I]; [|apply Lr, I]. rewrite forallb_forall in F. apply negb_true_iff, F, I. }
  repeat (destruct J as [<-|J]; [first [assumption|apply text_legal; assumption|apply lookup_legal; assumption|apply Lc; reflexivity|apply text_legal, (kl_cell _ (et_pk _ Et))|apply literal_legal; vm_compute; reflexivity]|]). destruct J.
Qed.
Lemma tables_legal r v : In r (tables_header :: tables_rows d) -> In v r -> legal v.
Proof.
  intros [<-|I] J; [revert J; apply header_legal; vm_compute; reflexivity|]. unfold tables_rows in I.
  assert (Q : forall ts n, incl ts (db_iter d) -> In r (table_rows (db_name d) n ts) -> exists m t, In t (db_iter d) /\ r = table_row (db_name d) m t).
  { induction ts as [|t ts IH]; intros n Inc K; [contradiction|]. cbn [table_rows] in K. destruct K as [<-|K]; [exists n, t; split; [apply Inc; left; reflexivity|reflexivity]|]. apply (IH (n + 1)%N); [intros u U; apply Inc; right; exact U|exact K]. }
  destruct (Q _ _ (fun x H => H) I) as [m [t [It ->]]]. apply (table_row_legal m t v It J).
Qed.
Lemma fks_legal r v : In r (fks_header :: fks_rows d) -> In v r -> legal v.
Proof.
  intros [<-|I] J; [revert J; apply header_legal; vm_compute; reflexivity|]. unfold fks_rows in I. apply in_flat_map in I. destruct I as [t [It I]]. destruct (wft t It) as [_ Et].
  apply in_map_iff in I. destruct I as [fk [<- I]]. destruct (et_names _ Et) as [Hn Hs]. destruct (et_fks _ Et _ I) as [Ef [Cn [Ct [Nf [Kf [Nt Kt]]]]]]. revert J. apply texts_legal.
  rewrite Ef. pose proof (proj2 (ed_name _ X)). repeat apply Forall_cons; try assumption; try (apply kl_cell; assumption). constructor.
Qed.
Lemma rels_legal r v : In r (rels_header :: rels_rows d) -> In v r -> legal v.
Proof.
  intros [<-|I] J; [revert J; apply header_legal; vm_compute; reflexivity|]. unfold rels_rows in I. apply in_flat_map in I. destruct I as [t [It I]]. destruct (wft t It) as [_ Et].
  apply in_map_iff in I. destruct I as [x [<- I]]. destruct (et_names _ Et) as [Hn Hs]. destruct (et_rels _ Et _ I) as [Ef [Cn [Ct Cc]]]. revert J. apply texts_legal.
  rewrite Ef. pose proof (proj2 (ed_name _ X)). repeat apply Forall_cons; try assumption. constructor.
Qed.

Definition sheets_of {A} (f : value -> A) : workbook A :=
  [($"Columns", map (map f) (columns_header :: columns_rows d)); ($"Tables", map (map f) (tables_header :: tables_rows d));
   ($"Foreign Keys", map (map f) (fks_header :: fks_rows d)); ($"Relationships", map (map f) (rels_header :: rels_rows d))].
Lemma written fresh filename : write_database fresh new_writer d filename = Ok (sheets_of cut, xls_filename filename).
Proof.
  unfold write_database, write_columns_worksheet, new_writer, add_sheet. pose proof (write_rows_fresh _ [] columns_legal) as Q1. pose proof (write_rows_fresh _ [] tables_legal) as Q2.
  pose proof (write_rows_fresh _ [] fks_legal) as Q3. pose proof (write_rows_fresh _ [] rels_legal) as Q4. cbn [length app] in Q1, Q2, Q3, Q4.
  rewrite Q1. cbn [bind]. rewrite Q2. cbn [bind app dkeys map fst]. change (str_in ($"Tables") [$"Columns"]) with false. cbn iota. rewrite Q3. cbn [bind app dkeys map fst]. change (str_in ($"Foreign Keys") [$"Columns"; $"Tables"]) with false. cbn iota.
  rewrite Q4. cbn [bind app dkeys map fst]. change (str_in ($"Relationships") [$"Columns"; $"Tables"; $"Foreign Keys"]) with false. reflexivity.
Qed.
Lemma saved_sheets : saved calc (sheets_of cut) = sheets_of seen.
Proof.
  assert (Q : forall l, map (map (as_read calc)) (map (map cut) l) = map (map seen) l) by (intros l; rewrite map_map; apply map_ext; intros r; rewrite map_map; reflexivity).
  unfold sheets_of. rewrite <- !Q. reflexivity.
Qed.
Definition named (p : nat * table) : str := t_name (snd p).
Lemma verified : verify_sheets (sheets_of seen) required_sheets [] true = Ok ([], true).
Proof.
  assert (E : sheets_of seen = [($"Columns", columns_h :: map (map seen) (columns_rows d)); ($"Tables", tables_h :: map (map seen) (tables_rows d));
                                ($"Foreign Keys", fks_h :: map (map seen) (fks_rows d)); ($"Relationships", rels_h :: map (map seen) (rels_rows d))]).
  { unfold sheets_of. rewrite !(map_cons (map seen)). rewrite columns_header_seen, tables_header_seen, fks_header_seen, rels_header_seen. reflexivity. }
  rewrite E. generalize (map (map seen) (columns_rows d)) (map (map seen) (tables_rows d)) (map (map seen) (fks_rows d)) (map (map seen) (rels_rows d)). intros a b c e. vm_compute. reflexivity.
Qed.
Lemma parts s h l rows : dget s (sheets_of seen) = Some (map (map seen) (h :: rows)) -> map seen h = l -> sheet_parts (sheets_of seen) s = Ok (l, map (map seen) rows).
Proof. intros E H. unfold sheet_parts. rewrite E. cbn [map]. rewrite H. reflexivity. Qed.
Lemma read_back base : exists d', read_xls base [] (sheets_of seen) = Ok ([(db_name d, d')], [])
  /\ db_name d' = db_name d /\ db_tables d' = map (fun p => (named p, full (fst p) (snd p))) (number base (db_iter d))
  /\ NoDup (get_schema_names d') /\ (forall s, In s (get_schema_names d') <-> exists t, In t (db_iter d) /\ t_schema t = s).
Proof.
  unfold read_xls. rewrite verified. cbn [bind]. cbn iota. unfold read_databases.
  rewrite (parts ($"Tables") tables_header tables_h (tables_rows d) eq_refl (tables_header_seen calc)). cbn [bind]. unfold tables_rows.
  rewrite read_tables_new; [|apply (ed_name _ X)|apply (ed_name _ X)|apply (ed_some _ X)|apply (ed_tables _ X)]. cbn [bind].
  rewrite (parts ($"Columns") columns_header columns_h (columns_rows d) eq_refl (columns_header_seen calc)). cbn [bind].
  rewrite (parts ($"Foreign Keys") fks_header fks_h (fks_rows d) eq_refl (fks_header_seen calc)).
  rewrite (parts ($"Relationships") rels_header rels_h (rels_rows d) eq_refl (rels_header_seen calc)).
  destruct d_names as [_ N]. set (d0 := fold_left add_table (bares base (db_iter d)) (empty_database (db_name d))).
  destruct (add_tables (bares base (db_iter d)) (empty_database (db_name d))) as [T0 N0]; [cbn [empty_database db_tables dkeys map app]; rewrite bares_names; exact N|]. fold d0 in T0, N0. cbn [empty_database db_tables app db_name] in T0, N0.
  assert (S0 : forall s, In s (dkeys (db_schemas d0)) <-> exists t, In t (db_iter d) /\ t_schema t = s).
  { intros s. unfold d0. rewrite schemas_add. cbn [empty_database db_schemas dkeys map In]. assert (Q : forall ts id, map t_schema (bares id ts) = map t_schema ts) by (induction ts as [|t ts IH]; intros id; [reflexivity|]; cbn [bares map]; rewrite IH; reflexivity).
    rewrite Q, in_map_iff. split; [intros [[]|[t [A B]]]; exists t; split; assumption|intros [t [A B]]; right; exists t; split; assumption]. }
  set (L := number base (db_iter d)). assert (LS : map snd L = db_iter d) by apply number_snd.
  assert (In_L : forall p, In p L -> In (snd p) (db_iter d)) by (intros p I; rewrite <- LS; apply in_map, I).
  assert (NL : NoDup (map named L)) by (unfold named; rewrite <- (map_map snd t_name), LS; exact N).
  rewrite number_bares in T0. fold L in T0. rewrite map_map in T0.
  assert (FM : forall f, map (map seen) (flat_map f (db_iter d)) = flat_map (fun p => map (map seen) (f (snd p))) L) by (intros f; rewrite <- LS, flat_map_map, map_flat; reflexivity).
  unfold columns_rows at 1. rewrite FM. cbv beta.
  destruct (rows_tables named (read_column_row columns_h) (fun p => map (map seen) (column_rows (db_name d) (snd p) 1 (table_iter (snd p)))) (fun p => bare (fst p) (snd p)) (fun p => full_cols (fst p) (snd p)) (db_name d) L) with (ts := L) (pre := @nil (str * table)) (id := base) (d := d0) (ms := @nil xls_message) as [d1 [R1 [T1 [N1 S1]]]];
    [intros p id x ms I G; apply cols_table; [apply In_L, I|exact G]|intros x I; exact I|exact T0|exact NL|].
  read_by R1. cbn [bind]. cbn [app] in T1. unfold fks_rows at 1. rewrite FM. cbv beta.
  destruct (rows_tables named (read_fk_row fks_h) (fun p => map (map seen) (map (fk_row (db_name d) (snd p)) (foreign_keys_iter (snd p)))) (fun p => full_cols (fst p) (snd p)) (fun p => full_fks (fst p) (snd p)) (db_name d) L) with (ts := L) (pre := @nil (str * table)) (id := base) (d := d1) (ms := @nil xls_message) as [d2 [R2 [T2 [N2 S2]]]];
    [intros p id x ms I G; apply fks_table; [apply In_L, I|exact G]|intros x I; exact I|exact T1|exact NL|].
  read_by R2. cbn [bind]. cbn [app] in T2. unfold rels_rows at 1. rewrite FM. cbv beta.
  destruct (rows_tables named (read_rel_row rels_h) (fun p => map (map seen) (map (rel_row (db_name d) (snd p)) (relationships_iter (snd p)))) (fun p => full_fks (fst p) (snd p)) (fun p => full (fst p) (snd p)) (db_name d) L) with (ts := L) (pre := @nil (str * table)) (id := base) (d := d2) (ms := @nil xls_message) as [d3 [R3 [T3 [N3 S3]]]];
    [intros p id x ms I G; apply rels_table; [apply In_L, I|exact G]|intros x I; exact I|exact T2|exact NL|].
  read_by R3. exists d3. split; [reflexivity|]. split; [congruence|]. split; [exact T3|]. split; [unfold get_schema_names; rewrite S3, S2, S1; apply schemas_nodup, NoDup_nil|]. intros s. unfold get_schema_names. rewrite S3, S2, S1. apply S0.
Qed.
End Whole.
