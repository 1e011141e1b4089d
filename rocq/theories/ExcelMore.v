(** * Lemmas: what a writer puts in its sheets (C71, C75), keys in the Tables sheet (C76) *)
From Verif Require Export ExcelReuse GenFacts FieldFacts SpecSheet.

(** ** Rows written over other rows *)
Lemma check_cut l : forall l', check_row l = Ok l' -> l' = map cut l.
Proof.
  induction l as [|v l IH]; intros l' E; cbn [check_row] in E; [injection E as <-; reflexivity|]. destruct (check_value v) as [v'|] eqn:V; [|discriminate]. cbn [bind] in E. destruct (check_row l) as [r|]; [|discriminate]. cbn [bind] in E. injection E as <-.
  cbn [map]. rewrite (IH r eq_refl). f_equal. destruct v as [s|z]; cbn [check_value] in V; [|injection V as <-; reflexivity]. destruct (existsb illegal (firstn cell_limit s)); [discriminate|]. apply (f_equal (fun r => match r with Ok x => x | Err _ => v' end)) in V. symmetry. exact V.
Qed.
Fixpoint overlay (l rows : list (list value)) : list (list value) :=
  match l, rows with
  | [], _ => rows
  | x :: l', [] => x :: overlay l' []
  | x :: l', y :: rows' => (x ++ skipn (length x) y) :: overlay l' rows'
  end.
Lemma set_row_app a c b : set_row (length a) c (a ++ b) = a ++ match b with [] => [c] | y :: b' => (c ++ skipn (length c) y) :: b' end.
Proof. induction a as [|x a IH]; [destruct b; reflexivity|]. cbn [length app set_row]. rewrite IH. reflexivity. Qed.
Lemma write_overlay l : forall a b out, write_rows (length a) l (a ++ b) = Ok out -> out = a ++ overlay (map (map cut) l) b.
Proof.
  induction l as [|c l IH]; intros a b out E; cbn [write_rows] in E; [injection E as <-; reflexivity|]. destruct (check_row c) as [c'|] eqn:K; [|discriminate]. cbn [bind] in E. apply check_cut in K. subst c'.
  rewrite set_row_app in E. cbn [map overlay]. destruct b as [|y b].
  - replace (S (length a)) with (length (a ++ [map cut c])) in E by (rewrite app_length; cbn [length]; lia). rewrite <- (app_nil_r (a ++ [map cut c])) in E at 2. apply IH in E. rewrite <- app_assoc in E. exact E.
  - replace (S (length a)) with (length (a ++ [map cut c ++ skipn (length (map cut c)) y])) in E by (rewrite app_length; cbn [length]; lia).
    change (a ++ (map cut c ++ skipn (length (map cut c)) y) :: b) with (a ++ [map cut c ++ skipn (length (map cut c)) y] ++ b) in E. rewrite app_assoc in E. apply IH in E. rewrite <- app_assoc in E. exact E.
Qed.
Lemma overlay_nil l : overlay l [] = l.
Proof. induction l as [|x l IH]; [reflexivity|]. cbn [overlay]. rewrite IH. reflexivity. Qed.
Lemma overlay_wide w l : forall rows, Forall (fun r : list value => length r = w) l -> Forall (fun r : list value => length r = w) rows -> overlay l rows = l ++ skipn (length l) rows.
Proof.
  induction l as [|x l IH]; intros rows F G; [reflexivity|]. inversion F as [|? ? Fx Fl]; subst. destruct rows as [|y rows]; cbn [overlay length skipn app]; [rewrite overlay_nil, app_nil_r; reflexivity|].
  inversion G as [|? ? Gy Gr]; subst. rewrite skipn_all2 by lia. rewrite app_nil_r. f_equal. apply IH; assumption.
Qed.
Lemma write_fresh l out : write_rows 0 l [] = Ok out -> out = map (map cut) l.
Proof. intros E. apply (write_overlay l [] [] out) in E. cbn [app] in E. rewrite overlay_nil in E. exact E. Qed.
Definition column_sheet (d : database) := map (map cut) (columns_header :: columns_rows d).
Definition table_sheet (d : database) := map (map cut) (tables_header :: tables_rows d).
Definition fk_sheet (d : database) := map (map cut) (fks_header :: fks_rows d).
Definition rel_sheet (d : database) := map (map cut) (rels_header :: rels_rows d).
Lemma write_sheets fresh d f w f' : write_database fresh new_writer d f = Ok (w, f') ->
  w = [($"Columns", column_sheet d); ($"Tables", table_sheet d); ($"Foreign Keys", fk_sheet d); ($"Relationships", rel_sheet d)].
Proof.
  unfold write_database, write_columns_worksheet, add_sheet, new_writer. intros E. destruct (write_rows 0 (columns_header :: columns_rows d) []) as [r1|] eqn:E1; [|discriminate]. cbn [bind] in E.
  destruct (write_rows 0 (tables_header :: tables_rows d) []) as [r2|] eqn:E2; [|discriminate]. cbn [bind] in E. destruct (write_rows 0 (fks_header :: fks_rows d) []) as [r3|] eqn:E3; [|discriminate]. cbn [bind] in E. destruct (write_rows 0 (rels_header :: rels_rows d) []) as [r4|] eqn:E4; [|discriminate]. cbn [bind] in E.
  apply write_fresh in E1, E2, E3, E4. subst. apply (f_equal (fun r => match r with Ok p => fst p | Err _ => [] end)) in E. symmetry. exact E.
Qed.
Lemma write_over fresh w0 d f w' f' t rows : write_database fresh ((t, rows) :: w0) d f = Ok (w', f') ->
  dget ($"Columns") w' = Some (overlay (column_sheet d) rows).
Proof.
  unfold write_database, write_columns_worksheet, add_sheet. intros E. destruct (write_rows 0 (columns_header :: columns_rows d) rows) as [r1|] eqn:E1; [|discriminate]. cbn [bind] in E.
  destruct (write_rows 0 (tables_header :: tables_rows d) []) as [r2|]; [|discriminate]. cbn [bind] in E. destruct (write_rows 0 (fks_header :: fks_rows d) []) as [r3|]; [|discriminate]. cbn [bind] in E. destruct (write_rows 0 (rels_header :: rels_rows d) []) as [r4|]; [|discriminate]. cbn [bind] in E.
  apply (write_overlay _ [] rows) in E1. cbn [app] in E1. subst r1. apply (f_equal (fun r => match r with Ok p => fst p | Err _ => [] end)) in E. cbn [fst] in E. subst w'. reflexivity.
Qed.
Lemma columns_wide d : Forall (fun r : list value => length r = 6) (column_sheet d).
Proof.
  unfold column_sheet. cbn [map]. constructor; [reflexivity|]. apply Forall_forall. intros r I. apply in_map_iff in I. destruct I as [r0 [<- I]]. rewrite map_length. unfold columns_rows in I. apply in_flat_map in I. destruct I as [t [_ I]].
  revert I. generalize 1%Z. induction (table_iter t) as [|c cs IH]; intros z I; [destruct I|]. cbn [column_rows] in I. destruct I as [<-|I]; [reflexivity|exact (IH _ I)].
Qed.
Lemma reuse_columns fresh d1 f1 w1 n1 d2 f2 w2 n2 f3 w3 n3 : write_database fresh new_writer d1 f1 = Ok (w1, n1) -> write_database fresh w1 d2 f2 = Ok (w2, n2) ->
  write_database fresh new_writer d2 f3 = Ok (w3, n3) ->
  exists old new, dget ($"Columns") w1 = Some old /\ dget ($"Columns") w3 = Some new /\ dget ($"Columns") w2 = Some (new ++ skipn (length new) old).
Proof.
  intros E1 E2 E3. apply write_sheets in E1, E3. subst w1 w3. apply write_over in E2. exists (column_sheet d1), (column_sheet d2). split; [reflexivity|]. split; [reflexivity|]. rewrite E2. f_equal. apply (overlay_wide 6); apply columns_wide.
Qed.

(** ** Formulas *)
Lemma fuel_length fuel : forall n acc, length (nat_to_str_fuel fuel n acc) <= fuel + length acc.
Proof.
  induction fuel as [|f IH]; intros n acc; cbn [nat_to_str_fuel]; [lia|]. destruct (N.ltb n 10); [cbn [length]; lia|]. etransitivity; [apply IH|]. cbn [length]. lia.
Qed.
Lemma small_length n : (n < 2 ^ 64)%N -> length (n_to_str n) <= 65.
Proof.
  intros H. unfold n_to_str. etransitivity; [apply fuel_length|]. cbn [length]. assert (S : (N.size n <= 64)%N); [|lia].
  destruct (N.eq_dec n 0) as [->|Z]; [cbn; lia|]. rewrite N.size_log2 by exact Z. assert (N.log2 n < 64)%N; [apply N.log2_lt_pow2; lia|lia].
Qed.
Lemma table_rows_nth dbn ts : forall n i, nth_error (table_rows dbn n ts) i = match nth_error ts i with Some t => Some (table_row dbn (n + N.of_nat i) t) | None => None end.
Proof.
  induction ts as [|t ts IH]; intros n [|i]; try reflexivity; cbn [table_rows nth_error]; [rewrite N.add_0_r; reflexivity|]. rewrite IH. destruct (nth_error ts i); [|reflexivity]. do 2 f_equal. lia.
Qed.
Lemma cut_short s : length s <= 1000 -> cut (VText s) = VText s.
Proof. intros H. cbn [cut]. rewrite firstn_all2; [reflexivity|]. unfold cell_limit. lia. Qed.

(** ** Keys in the Tables sheet *)
Lemma table_row_inv h id dbs ms row dbs' ms' : read_table_row h id (dbs, ms) row = Ok (dbs', ms') ->
  exists dbn, get_text h ($"Database") row = Ok dbn /\
    ((dbn = [] /\ dbs' = dbs /\ ms' = ms) \/
     (dbn <> [] /\ exists pk sk nbr name schema shard,
        text_method h ($"Primary Key") row = Ok pk /\ text_method h ($"Shard Key") row = Ok sk /\ get_cell h ($"# Shards") row = Ok nbr
        /\ get_text h ($"Table") row = Ok name /\ get_text h ($"Schema") row = Ok schema
        /\ ms' = ms ++ (if Bool.eqb (str_eqb (strip sk) []) (is_text [] nbr) then [] else [NeedBoth name])
        /\ dbs' = dset dbn (add_table (match dget dbn dbs with Some d => d | None => empty_database dbn end)
                      (mk_table name schema (if str_eqb (strip pk) [] then None else Some (KeyList (cell_keys (strip pk)))) shard)) dbs
        /\ match shard with None => None | Some k => Some (sk_shards k, sk_keys k) end
           = match nbr with CNum z => if Z.eqb z 0 || str_eqb (strip sk) [] then None else Some (z, cell_keys (strip sk)) | CText _ => None end)).
Proof.
  unfold read_table_row. intros E. destruct (get_text h ($"Database") row) as [dbn|e]; [|discriminate]. exists dbn. split; [reflexivity|]. cbn [bind] in E.
  destruct (str_eqb_spec dbn []) as [Z|Nd]; [injection E as <- <-; left; repeat split; assumption|]. right. split; [exact Nd|].
  destruct (text_method h ($"Primary Key") row) as [pk|e]; [|discriminate]. cbn [bind] in E. destruct (text_method h ($"Shard Key") row) as [sk|e]; [|discriminate]. cbn [bind] in E.
  destruct (get_cell h ($"# Shards") row) as [nbr|e]; [|discriminate]. cbn [bind] in E. destruct (get_text h ($"Table") row) as [name|e]; [|discriminate]. cbn [bind] in E. destruct (get_text h ($"Schema") row) as [schema|e]; [|discriminate]. cbn [bind] in E.
  destruct (if str_eqb (strip sk) [] then _ else _) as [shard|e] eqn:S in E; [|discriminate]. cbn [bind] in E. exists pk, sk, nbr, name, schema, shard.
  repeat (split; [reflexivity|]). split; [|split].
  - apply (f_equal (fun r => match r with Ok p => snd p | Err _ => [] end)) in E. cbn [snd] in E. subst ms'. destruct (str_eqb (strip sk) []), (is_text [] nbr); cbn [Bool.eqb andb orb negb]; try rewrite app_nil_r; reflexivity.
  - apply (f_equal (fun r => match r with Ok p => fst p | Err _ => [] end)) in E. cbn [fst] in E. symmetry. exact E.
  - destruct (str_eqb (strip sk) []).
    + injection S as <-. destruct nbr as [s|z]; [reflexivity|]. rewrite orb_true_r. reflexivity.
    + destruct nbr as [[|c s]|z]; [injection S as <-; reflexivity|discriminate|]. rewrite orb_false_r. destruct z as [|p|p]; injection S as <-; reflexivity.
Qed.
Definition attrs (dbs : dict database) (b n : str) : option (str * list str * option (Z * list str)) :=
  match dget b dbs with
  | Some d => match get_table d n with Some t => Some (t_schema t, t_pk t, shard_of t) | None => None end
  | None => None
  end.
Definition keeps (f : nat -> xls_state -> list cell -> result xls_state) : Prop :=
  forall id dbs ms row dbs' ms', f id (dbs, ms) row = Ok (dbs', ms') ->
    (forall b n, attrs dbs' b n = attrs dbs b n) /\ (forall n, In (NeedBoth n) ms' <-> In (NeedBoth n) ms).
Lemma on_table_keeps tab h col missing (f : list cell -> table -> result table) : (forall st, missing st = Ok st) \/ (forall st, missing st = Err AttributeError) ->
  (forall row t t', f row t = Ok t' -> t_schema t' = t_schema t /\ t_pk t' = t_pk t /\ t_shard t' = t_shard t) ->
  keeps (fun _ st row => on_table tab h col missing (f row) st row).
Proof.
  intros M H id dbs ms row dbs' ms' E. unfold on_table in *. destruct (get_text h ($"Database") row) as [dbn|e]; [|discriminate]. cbn [bind] in *. destruct (dget dbn dbs) as [d|] eqn:Ed.
  - destruct (get_text h col row) as [name|e]; [|discriminate]. cbn [bind] in *. destruct (get_table d name) as [t|] eqn:G.
    + destruct (f row t) as [t'|e] eqn:Ft; [|discriminate]. cbn [bind] in *. injection E as <- <-. split; [|reflexivity]. destruct (H _ _ _ Ft) as [H1 [H2 H3]]. intros b n. unfold attrs. rewrite dget_dset. destruct (str_eqb_spec b dbn) as [->|_]; [|reflexivity].
      rewrite Ed. unfold get_table, store_table in *. cbn [db_tables]. rewrite dget_dset. destruct (str_eqb_spec n name) as [->|_]; [|reflexivity]. rewrite G. unfold shard_of. rewrite H1, H2, H3. reflexivity.
    + destruct M as [M|M]; rewrite M in E; [|discriminate]. injection E as <- <-. split; [reflexivity|]. intros n. rewrite in_app_iff. split; [intros [Q|[Q|[]]]; [exact Q|discriminate]|intros Q; left; exact Q].
  - injection E as <- <-. split; [reflexivity|]. intros n. rewrite in_app_iff. split; [intros [Q|[Q|[]]]; [exact Q|discriminate]|intros Q; left; exact Q].
Qed.
Lemma column_keeps h : keeps (read_column_row h).
Proof.
  apply (on_table_keeps _ _ _ _ (fun row t => name <- get_text h ($"Name") row ;; type <- get_text h ($"Type") row ;; c <- mk_column (Some name) (Some type) ;; Ok (add_column t c))); [left; reflexivity|].
  intros row t t' E. destruct (get_text h ($"Name") row); [|discriminate]. cbn [bind] in E. destruct (get_text h ($"Type") row); [|discriminate]. cbn [bind] in E. destruct (mk_column _ _); [|discriminate]. cbn [bind] in E. injection E as <-. repeat split.
Qed.
Lemma fk_keeps h : keeps (read_fk_row h).
Proof.
  apply (on_table_keeps _ _ _ _ (fun row t => name <- get_text h ($"Name") row ;; from_keys <- text_method h ($"From Columns") row ;; to_keys <- text_method h ($"To Columns") row ;; to_table <- get_text h ($"To Table") row ;;
    add_fk_parts t (Some (KeyList (cell_keys from_keys))) (Some to_table) (Some (KeyList (cell_keys to_keys))) (Some name))); [left; reflexivity|].
  intros row t t' E. destruct (get_text h ($"Name") row); [|discriminate]. cbn [bind] in E. destruct (text_method h ($"From Columns") row); [|discriminate]. cbn [bind] in E. destruct (text_method h ($"To Columns") row); [|discriminate]. cbn [bind] in E. destruct (get_text h ($"To Table") row); [|discriminate]. cbn [bind] in E.
  unfold add_fk_parts in E. destruct (mk_foreign_key _ _ _ _ _); [|discriminate]. cbn [bind] in E. injection E as <-. repeat split.
Qed.
Lemma rel_keeps h : keeps (read_rel_row h).
Proof.
  apply (on_table_keeps _ _ _ _ (fun row t => to_table <- get_text h ($"To Table") row ;; conditions <- get_text h ($"Conditions") row ;; add_rel_parts t (Some to_table) None (Some conditions))); [right; reflexivity|].
  intros row t t' E. destruct (get_text h ($"To Table") row); [|discriminate]. cbn [bind] in E. destruct (get_text h ($"Conditions") row); [|discriminate]. cbn [bind] in E. unfold add_rel_parts in E. destruct (mk_relationship _ _ _ _); [|discriminate]. cbn [bind] in E. injection E as <-. repeat split.
Qed.
Lemma rows_keeps f rows : keeps f -> forall id dbs ms dbs' ms', read_rows f id rows (dbs, ms) = Ok (dbs', ms') ->
  (forall b n, attrs dbs' b n = attrs dbs b n) /\ (forall n, In (NeedBoth n) ms' <-> In (NeedBoth n) ms).
Proof.
  intros S. induction rows as [|r rows IH]; intros id dbs ms dbs' ms' E; cbn [read_rows] in *; [injection E as <- <-; split; reflexivity|].
  destruct (f id (dbs, ms) r) as [[dbs1 ms1]|e] eqn:F; [|discriminate]. cbn [bind] in E. destruct (S _ _ _ _ _ _ F) as [K1 M1]. destruct (IH _ _ _ _ _ E) as [K2 M2]. split; [intros b n; rewrite K2; apply K1|intros n; rewrite M2; apply M1].
Qed.
(** rows that do not describe this table *)
Lemma tables_other h rows b n : (forall row, In row rows -> ~ (get_text h ($"Database") row = Ok b /\ get_text h ($"Table") row = Ok n)) ->
  forall id dbs ms dbs' ms', read_rows (read_table_row h) id rows (dbs, ms) = Ok (dbs', ms') -> attrs dbs' b n = attrs dbs b n.
Proof.
  induction rows as [|r rows IH]; intros H id dbs ms dbs' ms' E; cbn [read_rows] in *; [injection E as <- <-; reflexivity|].
  destruct (read_table_row h id (dbs, ms) r) as [[dbs1 ms1]|e] eqn:F; [|discriminate]. cbn [bind] in E. rewrite (IH (fun row I => H row (or_intror I)) _ _ _ _ _ E).
  destruct (table_row_inv _ _ _ _ _ _ _ F) as [dbn [G [[_ [-> _]]|[_ [pk [sk [nbr [name [schema [shard [_ [_ [_ [Gn [_ [_ [-> _]]]]]]]]]]]]]]]]]; [reflexivity|].
  unfold attrs. rewrite dget_dset. destruct (str_eqb_spec b dbn) as [->|_]; [|reflexivity]. unfold get_table, add_table. cbn [db_tables mk_table t_name]. rewrite dget_dset. destruct (str_eqb_spec n name) as [->|_].
  - exfalso. apply (H r (or_introl eq_refl)). split; assumption.
  - destruct (dget dbn dbs); reflexivity.
Qed.
Definition half_shard (h row : list cell) (n : str) : Prop :=
  exists b sk nbr, b <> [] /\ get_text h ($"Database") row = Ok b /\ get_text h ($"Table") row = Ok n
    /\ text_method h ($"Shard Key") row = Ok sk /\ get_cell h ($"# Shards") row = Ok nbr /\ (strip sk = [] <-> nbr <> CText []).
Lemma half_b sk nbr : Bool.eqb (str_eqb (strip sk) []) (is_text [] nbr) = false <-> (strip sk = [] <-> nbr <> CText []).
Proof.
  rewrite eqb_false_iff. pose proof (is_text_spec [] nbr) as T. destruct (str_eqb_spec (strip sk) []) as [->|N]; destruct (is_text [] nbr); split; intros H.
  - exfalso. apply H. reflexivity. - exfalso. apply (proj1 H eq_refl), T. reflexivity. - split; [intros _ Q; apply T in Q; discriminate|reflexivity]. - discriminate.
  - split; [contradiction|intros Q; exfalso; apply Q, T; reflexivity]. - discriminate. - exfalso. apply H. reflexivity. - exfalso. apply N, H. intros Q. apply T in Q. discriminate.
Qed.
Lemma tables_half h rows n : forall id dbs ms dbs' ms', read_rows (read_table_row h) id rows (dbs, ms) = Ok (dbs', ms') ->
  In (NeedBoth n) ms' <-> In (NeedBoth n) ms \/ exists row, In row rows /\ half_shard h row n.
Proof.
  induction rows as [|r rows IH]; intros id dbs ms dbs' ms' E; cbn [read_rows] in *; [injection E as <- <-; split; [intros H; left; exact H|intros [H|[row [[] _]]]; exact H]|].
  destruct (read_table_row h id (dbs, ms) r) as [[dbs1 ms1]|e] eqn:F; [|discriminate]. cbn [bind] in E. rewrite (IH _ _ _ _ _ E).
  assert (Q : In (NeedBoth n) ms1 <-> In (NeedBoth n) ms \/ half_shard h r n).
  { destruct (table_row_inv _ _ _ _ _ _ _ F) as [dbn [G [[-> [_ ->]]|[Nd [pk [sk [nbr [name [schema [shard [_ [Gk [Gs [Gn [_ [-> _]]]]]]]]]]]]]]]].
    - split; [intros H; left; exact H|intros [H|[b [sk [nbr [Nb [Gb _]]]]]]; [exact H|congruence]].
    - pose proof (half_b sk nbr) as B. rewrite in_app_iff. destruct (Bool.eqb (str_eqb (strip sk) []) (is_text [] nbr)).
      + split; [intros [H|[]]; left; exact H|intros [H|[b [sk' [nbr' [Nb [Gb [Gt [Gk' [Gs' H]]]]]]]]]; [left; exact H|]]. rewrite Gk in Gk'. rewrite Gs in Gs'. injection Gk' as <-. injection Gs' as <-. apply B in H. discriminate.
      + split; [intros [H|[H|[]]]; [left; exact H|injection H as ->; right; exists dbn, sk, nbr; repeat (split; [assumption|]); apply B; reflexivity]|].
        intros [H|[b [sk' [nbr' [Nb [Gb [Gt _]]]]]]]; [left; exact H|right; left]. rewrite Gn in Gt. injection Gt as ->. reflexivity. }
  rewrite Q. split; [intros [[H|H]|[row [I H]]]; [left; exact H|right; exists r; split; [left; reflexivity|exact H]|right; exists row; split; [right; exact I|exact H]]|].
  intros [H|[row [[<-|I] H]]]; [left; left; exact H|left; right; exact H|right; exists row; split; assumption].
Qed.
Lemma split_pieces c s : Forall (fun p => ~ In c p) (split_char c s) /\ s = join [c] (split_char c s).
Proof.
  induction s as [|x s [F J]]; [split; [constructor; [intros []|constructor]|reflexivity]|]. cbn [split_char]. destruct (Ascii.eqb_spec x c) as [->|N].
  - split; [constructor; [intros []|exact F]|]. pose proof (split_char_nonnil c s) as Z. destruct (split_char c s) as [|w ws]; [contradiction|]. rewrite join_cons by discriminate. rewrite <- J. reflexivity.
  - pose proof (split_char_nonnil c s) as Z. destruct (split_char c s) as [|w ws]; [contradiction|]. inversion F as [|? ? Fw Fs]; clear F. split.
    + constructor; [|exact Fs]. intros [Q|Q]; [congruence|exact (Fw Q)].
    + destruct ws as [|w2 ws]; [cbn [join] in *; congruence|]. rewrite J. rewrite !join_cons by discriminate. reflexivity.
Qed.
Lemma names_keys text l : names_in text l -> l = if str_eqb (strip text) [] then [] else cell_keys (strip text).
Proof.
  intros [[E ->]|[N [ps [F [E ->]]]]]; [rewrite E; reflexivity|]. destruct (str_eqb_spec (strip text) []); [contradiction|]. unfold cell_keys. rewrite E. f_equal. clear -F N E.
  assert (P : ps <> []) by (intros ->; cbn in E; contradiction). clear N E. induction ps as [|p ps IH]; [contradiction|]. inversion F as [|? ? Fp Fs]; subst. destruct ps as [|q ps]; [cbn [join]; symmetry; apply GenFacts.split_one, Fp|].
  rewrite join_cons by discriminate. change ($"," ++ join ($",") (q :: ps)) with (","%char :: join ($",") (q :: ps)). rewrite split_free by exact Fp. rewrite <- IH by (assumption || discriminate). reflexivity.
Qed.
