(** * The reader that keeps its messages reads what [Excel] reads *)
From Verif Require Export ExcelTalk ExcelRows.
From Coq Require Import List. Import ListNotations.

(** the outcome of [Excel] with [ms] printed before *)
Definition following {A} (ms : list xls_message) (p : heard A) : result (A * list xls_message) :=
  match p with (Ok a, m) => Ok (a, ms ++ m) | (Err e, _) => Err e end.
Lemma following_hush {A B} (r : result A) (k : A -> heard B) ms : following ms (hears (hush r) k) = (a <- r ;; following ms (k a)).
Proof. destruct r as [a|e]; cbn [hush hears bind following]; [|reflexivity]. destruct (k a) as [[b|e] m]; reflexivity. Qed.
Lemma following_said {A B} (a : A) m (k : A -> heard B) ms : following ms (hears (Ok a, m) k) = following (ms ++ m) (k a).
Proof. cbn [hears]. destruct (k a) as [[b|e] m']; cbn [following]; rewrite ?app_assoc; reflexivity. Qed.
Lemma following_hears {A B} (p : heard A) (k : A -> heard B) ms : following ms (hears p k) = (' (a, m) <- following ms p ;; following m (k a)).
Proof. destruct p as [[a|e] m]; [rewrite following_said|]; reflexivity. Qed.
Lemma following_ok {A} (a : A) ms : following ms (hush (Ok a)) = Ok (a, ms).
Proof. cbn [hush following]. rewrite app_nil_r. reflexivity. Qed.

Lemma heard_sheets_same wb l : forall ms valid, verify_sheets wb l ms valid = (' (v, m) <- following ms (heard_sheets wb l valid) ;; Ok (m, v)).
Proof.
  induction l as [|s l IH]; intros ms valid; cbn [verify_sheets heard_sheets].
  - rewrite following_ok. reflexivity.
  - destruct (dget s wb) as [g|]; [|rewrite following_said; apply IH]. rewrite following_hush. destruct (header_row g) as [h|e]; [|reflexivity]. cbn [bind]. rewrite following_said. apply IH.
Qed.
Lemma heard_table_same h id dbs ms row : read_table_row h id (dbs, ms) row = following ms (heard_table_row h id dbs row).
Proof.
  unfold read_table_row, heard_table_row. rewrite following_hush. destruct (get_text h ($"Database") row) as [dbn|e]; [|reflexivity]. cbn [bind]. destruct (str_eqb dbn []); [rewrite following_ok; reflexivity|].
  rewrite following_hush. destruct (text_method h ($"Primary Key") row) as [pk|e]; [|reflexivity]. cbn [bind]. rewrite following_hush. destruct (text_method h ($"Shard Key") row) as [sk|e]; [|reflexivity]. cbn [bind].
  rewrite following_hush. destruct (get_cell h ($"# Shards") row) as [nbr|e]; [|reflexivity]. cbn [bind]. rewrite following_hush. destruct (get_text h ($"Table") row) as [name|e]; [|reflexivity]. cbn [bind].
  rewrite following_hush. destruct (get_text h ($"Schema") row) as [schema|e]; [|reflexivity]. cbn [bind]. rewrite following_said, following_hush.
  match goal with |- bind ?a _ = bind ?b _ => change b with a; destruct a as [shard|e]; [|reflexivity] end. cbn [bind]. rewrite following_ok.
  destruct ((_ && _) || _)%bool; [reflexivity|rewrite app_nil_r; reflexivity].
Qed.
Lemma heard_on_same tab h col m1 m2 f dbs ms row : (forall dbs ms, m1 (dbs, ms) = (d <- m2 dbs ;; Ok (d, ms))) ->
  on_table tab h col m1 f (dbs, ms) row = following ms (heard_on tab h col m2 f dbs row).
Proof.
  intros M. unfold on_table, heard_on. rewrite following_hush. destruct (get_text h ($"Database") row) as [dbn|e]; [|reflexivity]. cbn [bind]. destruct (dget dbn dbs) as [d|]; [|reflexivity].
  rewrite following_hush. destruct (get_text h col row) as [name|e]; [|reflexivity]. cbn [bind]. destruct (get_table d name) as [t|].
  - rewrite following_hush. destruct (f t) as [t'|e]; [|reflexivity]. cbn [bind]. rewrite following_ok. reflexivity.
  - rewrite M. cbn [following]. destruct (m2 dbs); reflexivity.
Qed.
Lemma heard_column_same h id dbs ms row : read_column_row h id (dbs, ms) row = following ms (heard_column_row h id dbs row).
Proof. apply heard_on_same. reflexivity. Qed.
Lemma heard_fk_same h id dbs ms row : read_fk_row h id (dbs, ms) row = following ms (heard_fk_row h id dbs row).
Proof. apply heard_on_same. reflexivity. Qed.
Lemma heard_rel_same h id dbs ms row : read_rel_row h id (dbs, ms) row = following ms (heard_rel_row h id dbs row).
Proof. apply heard_on_same. reflexivity. Qed.
Lemma heard_rows_same f g : (forall id dbs ms row, f id (dbs, ms) row = following ms (g id dbs row)) ->
  forall rows id dbs ms, read_rows f id rows (dbs, ms) = following ms (heard_rows g id rows dbs).
Proof.
  intros S. induction rows as [|r rows IH]; intros id dbs ms; cbn [read_rows heard_rows]; [rewrite following_ok; reflexivity|]. rewrite S, following_hears. destruct (following ms (g id dbs r)) as [[dbs1 ms1]|e]; [|reflexivity]. cbn [bind]. apply IH.
Qed.
Lemma heard_databases_same base wb dbs ms : read_databases base wb (dbs, ms) = following ms (heard_databases base wb dbs).
Proof.
  unfold read_databases, heard_databases. rewrite following_hush. destruct (sheet_parts wb ($"Tables")) as [[h1 r1]|e]; [|reflexivity]. cbn [bind].
  rewrite following_hears, (heard_rows_same _ _ (heard_table_same h1)). destruct (following ms _) as [[b1 m1]|e]; [|reflexivity]. cbn [bind].
  rewrite following_hush. destruct (sheet_parts wb ($"Columns")) as [[h2 r2]|e]; [|reflexivity]. cbn [bind].
  rewrite following_hears, (heard_rows_same _ _ (heard_column_same h2)). destruct (following m1 _) as [[b2 m2]|e]; [|reflexivity]. cbn [bind].
  rewrite following_hush. destruct (sheet_parts wb ($"Foreign Keys")) as [[h3 r3]|e]; [|reflexivity]. cbn [bind].
  rewrite following_hears, (heard_rows_same _ _ (heard_fk_same h3)). destruct (following m2 _) as [[b3 m3]|e]; [|reflexivity]. cbn [bind].
  rewrite following_hush. destruct (sheet_parts wb ($"Relationships")) as [[h4 r4]|e]; [|reflexivity]. cbn [bind]. apply (heard_rows_same _ _ (heard_rel_same h4)).
Qed.
(** the same databases, failures and messages as [Excel.read_xls] *)
Lemma heard_same base dbs wb : read_xls base dbs wb = match heard_xls base dbs wb with (Ok d, ms) => Ok (d, ms) | (Err e, _) => Err e end.
Proof.
  change (read_xls base dbs wb = following [] (heard_xls base dbs wb)). unfold read_xls, heard_xls. rewrite following_hears, heard_sheets_same. destruct (following [] _) as [[v m]|e]; [|reflexivity]. cbn [bind].
  destruct v; [apply heard_databases_same|rewrite following_ok; reflexivity].
Qed.
Lemma heard_ok base dbs wb dbs' ms : heard_xls base dbs wb = (Ok dbs', ms) <-> read_xls base dbs wb = Ok (dbs', ms).
Proof. rewrite heard_same. destruct (heard_xls base dbs wb) as [[d|e] m]; split; intros E; try discriminate; congruence. Qed.
Lemma heard_err base dbs wb e : (exists ms, heard_xls base dbs wb = (Err e, ms)) <-> read_xls base dbs wb = Err e.
Proof. rewrite heard_same. destruct (heard_xls base dbs wb) as [[d|e'] m]; split; intros E. - destruct E; discriminate. - discriminate. - destruct E as [x E]. congruence. - exists m. congruence. Qed.
