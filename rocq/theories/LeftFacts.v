(** * Lemmas about what an Excel reader holds after a read that raised (C111) *)
From Verif Require Import StrFacts RenumFacts ExcelMore BookFacts.
From Verif Require Export SpecLeft.
From Coq Require Import List Lia PeanoNat. Import ListNotations.

(** ** What is read does not depend on what was printed *)
Definition blind (f : nat -> xls_state -> list cell -> result xls_state) : Prop := forall id dbs ms row,
  match f id (dbs, []) row with
  | Ok (dbs', _) => exists ms', f id (dbs, ms) row = Ok (dbs', ms')
  | Err e => f id (dbs, ms) row = Err e
  end.
Lemma table_blind h : blind (read_table_row h).
Proof.
  intros id dbs ms row. unfold read_table_row. destruct (get_text h ($"Database") row) as [b|e]; cbn [bind]; [|reflexivity]. destruct (str_eqb b []); [exists ms; reflexivity|].
  destruct (text_method h ($"Primary Key") row) as [pk|e]; cbn [bind]; [|reflexivity]. destruct (text_method h ($"Shard Key") row) as [sk|e]; cbn [bind]; [|reflexivity]. destruct (get_cell h ($"# Shards") row) as [nbr|e]; cbn [bind]; [|reflexivity].
  destruct (get_text h ($"Table") row) as [n|e]; cbn [bind]; [|reflexivity]. destruct (get_text h ($"Schema") row) as [s|e]; cbn [bind]; [|reflexivity].
  match goal with |- context [bind ?x _] => destruct x as [shard|e] end; cbn [bind]; [eexists; reflexivity|reflexivity].
Qed.
Lemma on_table_blind tab h col missing (f : list cell -> table -> result table) : (forall st, missing st = Ok st) \/ (forall st, missing st = Err AttributeError) ->
  blind (fun _ st row => on_table tab h col missing (f row) st row).
Proof.
  intros M id dbs ms row. unfold on_table. destruct (get_text h ($"Database") row) as [b|e]; cbn [bind]; [|reflexivity]. destruct (dget b dbs) as [d|]; [|eexists; reflexivity]. destruct (get_text h col row) as [n|e]; cbn [bind]; [|reflexivity].
  destruct (get_table d n) as [t|].
  - destruct (f row t) as [t'|e]; cbn [bind]; [eexists; reflexivity|reflexivity].
  - destruct M as [M|M]; rewrite !M; [eexists; reflexivity|reflexivity].
Qed.
Lemma column_blind h : blind (read_column_row h).
Proof. apply (on_table_blind ($"Columns") h ($"Table") (fun st => Ok st) (fun row t => bind (get_text h ($"Name") row) (fun name => bind (get_text h ($"Type") row) (fun type => bind (mk_column (Some name) (Some type)) (fun c => Ok (add_column t c)))))). left. reflexivity. Qed.
Lemma fk_blind h : blind (read_fk_row h).
Proof.
  apply (on_table_blind ($"Foreign Keys") h ($"From Table") (fun st => Ok st) (fun row t => bind (get_text h ($"Name") row) (fun name => bind (text_method h ($"From Columns") row) (fun from_keys => bind (text_method h ($"To Columns") row) (fun to_keys => bind (get_text h ($"To Table") row) (fun to_table =>
    add_fk_parts t (Some (KeyList (cell_keys from_keys))) (Some to_table) (Some (KeyList (cell_keys to_keys))) (Some name))))))). left. reflexivity.
Qed.
Lemma rel_blind h : blind (read_rel_row h).
Proof.
  apply (on_table_blind ($"Relationships") h ($"From Table") (fun _ => Err AttributeError) (fun row t => bind (get_text h ($"To Table") row) (fun to_table => bind (get_text h ($"Conditions") row) (fun conditions => add_rel_parts t (Some to_table) None (Some conditions))))). right. reflexivity.
Qed.

(** ** Rows *)
Lemma rows_same f g : blind f -> forall rows id dbs ms,
  match rows_left f g id rows dbs with
  | (dbs', None) => exists ms', read_rows f id rows (dbs, ms) = Ok (dbs', ms')
  | (dbs', Some e) => read_rows f id rows (dbs, ms) = Err e
  end.
Proof.
  intros B. induction rows as [|r rows IH]; intros id dbs ms; [exists ms; reflexivity|]. cbn [rows_left read_rows]. pose proof (B id dbs ms r) as X. destruct (f id (dbs, []) r) as [[d1 m1]|e].
  - destruct X as [ms1 ->]. cbn [bind]. apply IH.
  - rewrite X. reflexivity.
Qed.
Lemma rows_stop f g : forall rows id dbs dbs' e, rows_left f g id rows dbs = (dbs', Some e) -> exists i row dbs1,
  nth_error rows i = Some row /\ rows_left f g id (firstn i rows) dbs = (dbs1, None) /\ rows_left f g id (firstn (S i) rows) dbs = (dbs', Some e) /\ dbs' = g dbs1 row /\ f (id + i) (dbs1, []) row = Err e.
Proof.
  induction rows as [|r rows IH]; intros id dbs dbs' e; [discriminate|]. cbn [rows_left]. destruct (f id (dbs, []) r) as [[d1 m1]|x] eqn:F.
  - intros E. destruct (IH _ _ _ _ E) as [i [row [dbs1 [N [A [A' [G X]]]]]]]. exists (S i), row, dbs1. split; [exact N|]. change (firstn (S i) (r :: rows)) with (r :: firstn i rows). change (firstn (S (S i)) (r :: rows)) with (r :: firstn (S i) rows). cbn [rows_left]. rewrite F.
    split; [exact A|]. split; [exact A'|]. split; [exact G|]. rewrite <- X. f_equal. lia.
  - intros E. injection E as <- <-. exists 0, r, dbs. split; [reflexivity|]. split; [reflexivity|]. cbn [firstn rows_left]. rewrite F. split; [reflexivity|]. split; [reflexivity|]. rewrite Nat.add_0_r. exact F.
Qed.

(** ** The read *)
Definition agree (l : left_over) (r : result xls_state) : Prop :=
  match l with (dbs, None) => exists ms, r = Ok (dbs, ms) | (_, Some e) => r = Err e end.
Lemma sheet_same f g base wb s (k : xls_state -> result xls_state) l dbs ms (K : left_over -> left_over) :
  (forall h, blind (f h)) -> (forall dbs e, K (dbs, Some e) = (dbs, Some e)) -> (forall dbs ms, agree (K (dbs, None)) (k (dbs, ms))) -> l = (dbs, None) ->
  agree (K (sheet_left f g base wb s l)) (bind (sheet_parts wb s) (fun '(h, rows) => bind (read_rows (f h) base rows (dbs, ms)) k)).
Proof.
  intros B S H ->. cbn [sheet_left]. destruct (sheet_parts wb s) as [[h rows]|e]; cbn [bind]; [|rewrite S; reflexivity].
  pose proof (rows_same (f h) (g h) (B h) rows base dbs ms) as X. destruct (rows_left (f h) (g h) base rows dbs) as [dbs' [e|]].
  - rewrite X, S. reflexivity.
  - destruct X as [ms' ->]. cbn [bind]. apply H.
Qed.
Lemma databases_same base wb dbs ms : agree (databases_left base wb dbs) (read_databases base wb (dbs, ms)).
Proof.
  unfold databases_left, read_databases.
  apply (sheet_same read_table_row table_row_left base wb ($"Tables") (fun st1 => _) _ dbs ms (fun l => sheet_left read_rel_row other_row_left base wb ($"Relationships") (sheet_left read_fk_row other_row_left base wb ($"Foreign Keys") (sheet_left read_column_row other_row_left base wb ($"Columns") l)))); [apply table_blind|reflexivity| |reflexivity]. clear dbs ms. intros dbs ms.
  apply (sheet_same read_column_row other_row_left base wb ($"Columns") (fun st1 => _) _ dbs ms (fun l => sheet_left read_rel_row other_row_left base wb ($"Relationships") (sheet_left read_fk_row other_row_left base wb ($"Foreign Keys") l))); [apply column_blind|reflexivity| |reflexivity]. clear dbs ms. intros dbs ms.
  apply (sheet_same read_fk_row other_row_left base wb ($"Foreign Keys") (fun st1 => _) _ dbs ms (fun l => sheet_left read_rel_row other_row_left base wb ($"Relationships") l)); [apply fk_blind|reflexivity| |reflexivity]. clear dbs ms. intros dbs ms.
  cbn [sheet_left]. destruct (sheet_parts wb ($"Relationships")) as [[h rows]|e]; cbn [bind]; [|reflexivity]. pose proof (rows_same (read_rel_row h) (other_row_left h) (rel_blind h) rows base dbs ms) as X.
  unfold agree. destruct (rows_left (read_rel_row h) (other_row_left h) base rows dbs) as [dbs' [e|]]; exact X.
Qed.
Lemma xls_same base dbs wb : agree (xls_left base dbs wb) (read_xls base dbs wb).
Proof.
  unfold xls_left, read_xls. destruct (verify_sheets wb required_sheets [] true) as [[ms [|]]|e]; cbn [bind]; [apply databases_same|exists ms; reflexivity|reflexivity].
Qed.

(** ** The part of the workbook that was read *)
Lemma cut_get k i wb s : dget s (cut_book k i wb) = option_map (cut_rows k i s) (dget s wb).
Proof.
  unfold cut_book. induction wb as [|[x g] wb IH]; [reflexivity|]. cbn [map fst snd dget]. destruct (str_eqb_spec s x) as [->|_]; [reflexivity|exact IH].
Qed.
Lemma cut_header k i s h rows : exists rows', cut_rows k i s (h :: rows) = h :: rows'.
Proof. unfold cut_rows. destruct (place s reading_order) as [j|]; [|eexists; reflexivity]. destruct (j <? k); [eexists; reflexivity|]. destruct (j =? k); eexists; reflexivity. Qed.
Lemma cut_nil k i s : cut_rows k i s [] = [].
Proof. unfold cut_rows. destruct (place s reading_order) as [j|]; [|reflexivity]. destruct (j <? k); [reflexivity|]. destruct (j =? k); reflexivity. Qed.
Lemma cut_verify k i wb sheets : forall ms v, verify_sheets (cut_book k i wb) sheets ms v = verify_sheets wb sheets ms v.
Proof.
  induction sheets as [|s l IH]; intros ms v; [reflexivity|]. cbn [verify_sheets]. rewrite cut_get. destruct (dget s wb) as [[|h rows]|]; cbn [option_map]; [|destruct (cut_header k i s h rows) as [r ->]; cbn [header_row bind]; apply IH|apply IH].
  rewrite cut_nil. reflexivity.
Qed.
Lemma cut_parts k i wb s j : place s reading_order = Some j -> sheet_parts (cut_book k i wb) s =
  match sheet_parts wb s with Ok (h, rows) => Ok (h, if j <? k then rows else if j =? k then firstn i rows else []) | Err e => Err e end.
Proof.
  intros P. unfold sheet_parts. rewrite cut_get. destruct (dget s wb) as [[|h rows]|]; cbn [option_map]; [rewrite cut_nil; reflexivity| |reflexivity]. unfold cut_rows. rewrite P. destruct (j <? k); [reflexivity|]. destruct (j =? k); reflexivity.
Qed.
Lemma parts_ok wb s : format_ok wb -> In s required_sheets -> exists h rows, sheet_parts wb s = Ok (h, rows).
Proof.
  intros F I. apply format_ok_missing in F. destruct F as [B M]. unfold sheet_parts. specialize (B s I). destruct (dget s wb) as [[|h rows]|] eqn:D; [congruence|eauto|].
  exfalso. assert (X : In (MissingSheet s) (flat_map (missing_in wb) required_sheets)) by (apply in_flat_map; exists s; split; [exact I|]; unfold missing_in; rewrite D; left; reflexivity). rewrite M in X. exact X.
Qed.
Definition chain (l : left_over) (K : dict database -> left_over) : left_over := match l with (d, Some e) => (d, Some e) | (d, None) => K d end.
Definition four (base : nat) (h1 h2 h3 h4 : list cell) (r1 r2 r3 r4 : list (list cell)) (dbs : dict database) : left_over :=
  chain (chain (chain (rows_left (read_table_row h1) (table_row_left h1) base r1 dbs) (rows_left (read_column_row h2) (other_row_left h2) base r2))
    (rows_left (read_fk_row h3) (other_row_left h3) base r3)) (rows_left (read_rel_row h4) (other_row_left h4) base r4).
Lemma left_four base wb dbs h1 h2 h3 h4 r1 r2 r3 r4 : sheet_parts wb ($"Tables") = Ok (h1, r1) -> sheet_parts wb ($"Columns") = Ok (h2, r2) -> sheet_parts wb ($"Foreign Keys") = Ok (h3, r3) -> sheet_parts wb ($"Relationships") = Ok (h4, r4) ->
  databases_left base wb dbs = four base h1 h2 h3 h4 r1 r2 r3 r4 dbs.
Proof.
  intros E1 E2 E3 E4. unfold databases_left, four, sheet_left. rewrite E1, E2, E3, E4. reflexivity.
Qed.
Lemma left_format base dbs wb : format_ok wb -> xls_left base dbs wb = databases_left base wb dbs.
Proof. intros F. apply format_ok_missing in F. destruct F as [B E]. unfold xls_left. rewrite verify_ok by exact B. rewrite E. reflexivity. Qed.
Lemma cut_format k i wb base dbs : format_ok wb -> xls_left base dbs (cut_book k i wb) = databases_left base (cut_book k i wb) dbs.
Proof. intros F. apply format_ok_missing in F. destruct F as [B E]. unfold xls_left. rewrite cut_verify, verify_ok by exact B. rewrite E. reflexivity. Qed.
(** the failing row of the sheet and what it leaves *)
Definition stopped (base : nat) (wb : workbook cell) (dbs dbs' : dict database) (e : exn) (k i : nat) (dbs1 : dict database) : Prop :=
  k < 4 /\ xls_left base dbs (cut_book k i wb) = (dbs1, None) /\ xls_left base dbs (cut_book k (S i) wb) = (dbs', Some e)
  /\ match k with
     | 0 => exists h rows row, dget ($"Tables") wb = Some (h :: rows) /\ nth_error rows i = Some row /\ dbs' = table_row_left h dbs1 row
     | _ => dbs' = dbs1
     end.
Lemma parts_get wb s h rows : sheet_parts wb s = Ok (h, rows) -> dget s wb = Some (h :: rows).
Proof. unfold sheet_parts. destruct (dget s wb) as [[|x l]|]; [discriminate| |discriminate]. intros E. injection E as -> ->. reflexivity. Qed.
Lemma format_stopped base dbs wb dbs' e : format_ok wb -> xls_left base dbs wb = (dbs', Some e) -> exists k i dbs1, stopped base wb dbs dbs' e k i dbs1.
Proof.
  intros F E. destruct (parts_ok wb ($"Tables") F) as [h1 [r1 P1]]; [right; left; reflexivity|]. destruct (parts_ok wb ($"Columns") F) as [h2 [r2 P2]]; [left; reflexivity|].
  destruct (parts_ok wb ($"Foreign Keys") F) as [h3 [r3 P3]]; [right; right; left; reflexivity|]. destruct (parts_ok wb ($"Relationships") F) as [h4 [r4 P4]]; [right; right; right; left; reflexivity|].
  assert (C : forall k i, xls_left base dbs (cut_book k i wb) = four base h1 h2 h3 h4 (if 0 <? k then r1 else if 0 =? k then firstn i r1 else []) (if 1 <? k then r2 else if 1 =? k then firstn i r2 else []) (if 2 <? k then r3 else if 2 =? k then firstn i r3 else []) (if 3 <? k then r4 else if 3 =? k then firstn i r4 else []) dbs).
  { intros k i. rewrite (cut_format k i wb base dbs F). apply left_four; [rewrite (cut_parts k i wb _ 0) by reflexivity; rewrite P1|rewrite (cut_parts k i wb _ 1) by reflexivity; rewrite P2|rewrite (cut_parts k i wb _ 2) by reflexivity; rewrite P3|rewrite (cut_parts k i wb _ 3) by reflexivity; rewrite P4]; reflexivity. }
  rewrite (left_format base dbs wb F), (left_four base wb dbs h1 h2 h3 h4 r1 r2 r3 r4 P1 P2 P3 P4) in E. unfold four in E.
  destruct (rows_left (read_table_row h1) (table_row_left h1) base r1 dbs) as [d1 [e1|]] eqn:E1; cbn [chain] in E.
  { injection E as -> ->. destruct (rows_stop _ _ _ _ _ _ _ E1) as [i [row [dbs1 [N [A [A' [G _]]]]]]]. exists 0, i, dbs1. split; [lia|]. rewrite !C. cbn [Nat.ltb Nat.leb Nat.eqb]. unfold four. rewrite A, A'. cbn [chain rows_left]. split; [reflexivity|]. split; [reflexivity|].
    exists h1, r1, row. split; [exact (parts_get _ _ _ _ P1)|]. split; [exact N|exact G]. }
  destruct (rows_left (read_column_row h2) (other_row_left h2) base r2 d1) as [d2 [e2|]] eqn:E2; cbn [chain] in E.
  { injection E as -> ->. destruct (rows_stop _ _ _ _ _ _ _ E2) as [i [row [dbs1 [N [A [A' [G _]]]]]]]. exists 1, i, dbs1. split; [lia|]. rewrite !C. cbn [Nat.ltb Nat.leb Nat.eqb]. unfold four. rewrite E1. cbn [chain]. rewrite A, A'. cbn [chain rows_left]. split; [reflexivity|]. split; [reflexivity|exact G]. }
  destruct (rows_left (read_fk_row h3) (other_row_left h3) base r3 d2) as [d3 [e3|]] eqn:E3; cbn [chain] in E.
  { injection E as -> ->. destruct (rows_stop _ _ _ _ _ _ _ E3) as [i [row [dbs1 [N [A [A' [G _]]]]]]]. exists 2, i, dbs1. split; [lia|]. rewrite !C. cbn [Nat.ltb Nat.leb Nat.eqb]. unfold four. rewrite E1. cbn [chain]. rewrite E2. cbn [chain]. rewrite A, A'. cbn [chain rows_left]. split; [reflexivity|]. split; [reflexivity|exact G]. }
  destruct (rows_stop _ _ _ _ _ _ _ E) as [i [row [dbs1 [N [A [A' [G _]]]]]]]. exists 3, i, dbs1. split; [lia|]. rewrite !C. cbn [Nat.ltb Nat.leb Nat.eqb]. unfold four. rewrite E1. cbn [chain]. rewrite E2. cbn [chain]. rewrite E3. cbn [chain]. split; [exact A|]. split; [exact A'|exact G].
Qed.
Lemma left_ok base dbs wb dbs' : xls_left base dbs wb = (dbs', None) -> exists ms, read_xls base dbs wb = Ok (dbs', ms).
Proof. intros E. pose proof (xls_same base dbs wb) as X. rewrite E in X. exact X. Qed.
Lemma left_err base dbs wb dbs' e : xls_left base dbs wb = (dbs', Some e) -> read_xls base dbs wb = Err e.
Proof. intros E. pose proof (xls_same base dbs wb) as X. rewrite E in X. exact X. Qed.
Lemma left_cases base dbs wb dbs' e : xls_left base dbs wb = (dbs', Some e) ->
  (blank_sheet wb /\ e = IndexError /\ dbs' = dbs) \/ (format_ok wb /\ exists k i dbs1, stopped base wb dbs dbs' e k i dbs1).
Proof.
  intros E. destruct (verify_sheets wb required_sheets [] true) as [[ms [|]]|x] eqn:V; unfold xls_left in E; rewrite V in E; [|discriminate|].
  - right. assert (B : forall s, In s required_sheets -> dget s wb <> Some []) by (intros s I D; rewrite verify_blank in V by (exists s; split; assumption); discriminate).
    assert (F : format_ok wb). { apply format_ok_missing. split; [exact B|]. rewrite verify_ok in V by exact B. destruct (flat_map (missing_in wb) required_sheets) as [|m l]; [reflexivity|discriminate]. }
    split; [exact F|]. apply (format_stopped base dbs wb dbs' e F). rewrite (left_format _ _ _ F). exact E.
  - left. injection E as <- <-. assert (Q : (exists s, In s required_sheets /\ dget s wb = Some []) \/ forall s, In s required_sheets -> dget s wb <> Some []).
    { generalize required_sheets. induction l as [|s l [[y [I D]]|IH]]; [right; intros s []|left; exists y; split; [right; exact I|exact D]|]. destruct (dget s wb) as [[|h r]|] eqn:D; [left; exists s; split; [left; reflexivity|exact D]| |]; right; intros y [<-|I]; try congruence; exact (IH y I). }
    destruct Q as [Q|Q]; [|rewrite verify_ok in V by exact Q; discriminate]. split; [apply blank_iff, Q|]. rewrite verify_blank in V by exact Q. injection V as <-. split; reflexivity.
Qed.
(** what the failing row of the sheet Tables leaves *)
Lemma table_row_cases h dbs row : (table_row_left h dbs row = dbs /\ forall b, get_text h ($"Database") row = Ok b -> b <> [] -> dget b dbs <> None)
  \/ exists b, get_text h ($"Database") row = Ok b /\ b <> [] /\ dget b dbs = None /\ table_row_left h dbs row = dbs ++ [(b, empty_database b)].
Proof.
  unfold table_row_left. destruct (get_text h ($"Database") row) as [b|e]; [|left; split; [reflexivity|discriminate]]. destruct (str_eqb_spec b []) as [->|Nb]; [left; split; [reflexivity|intros b E; injection E as <-; congruence]|].
  destruct (dget b dbs) as [d|] eqn:D; [left; split; [reflexivity|intros x E; injection E as <-; congruence]|]. right. exists b. repeat (split; [assumption || reflexivity|]). apply dset_new. intros I. apply dget_in in I. destruct I as [v I]. congruence.
Qed.
