(** * Properties C48-C52, C71, C72: Excel workbooks *)
From Verif Require Import ExcelReuse.

(** Throughout, [fresh] is openpyxl's choice of a title that is not taken, [calc] what a spreadsheet
    shows for formulas and errors, [base] an arbitrary starting point for object identities. *)

(** C48: the workbook written for a model with a new writer reads back as one database with the same
    name, tables in order, schemas, columns in order with types, keys, shard keys and foreign keys, and
    nothing is reported. *)
Theorem C48_read_back : forall fresh calc base d filename, well_formed d -> excel_db d ->
  exists w d', write_database fresh new_writer d filename = Ok (w, xls_filename filename)
    /\ read_xls base [] (saved calc w) = Ok ([(db_name d, d')], [])
    /\ db_name d' = db_name d /\ get_table_names d' = get_table_names d
    /\ (NoDup (get_schema_names d') /\ forall s, In s (get_schema_names d') <-> exists t, In t (db_iter d) /\ t_schema t = s)
    /\ Forall2 same_but_rels (db_iter d) (db_iter d').
Proof.
  intros fresh calc base d filename W X. destruct (round_trip fresh calc base d filename W X) as [w [d' [E [R [N [T [S I]]]]]]].
  exists w, d'. repeat (split; [assumption|]). rewrite I. apply number_forall2. intros id t _. apply full_same.
Qed.
Print Assumptions C48_read_back.
Lemma shop_excel : well_formed shop /\ excel_db shop.
Proof. split; [exact (proj1 shop_usable)|apply excel_db_ok; vm_compute; reflexivity]. Qed.
Example C48_case : well_formed shop /\ excel_db shop
  /\ forall fresh calc, exists w d', write_database fresh new_writer shop ($"shop") = Ok (w, $"shop.xlsx")
    /\ read_xls 0 [] (saved calc w) = Ok ([($"shop", d')], [])
    /\ map (fun t => (t_name t, t_schema t, t_pk t, shard_of t)) (db_iter d')
       = [($"Orders", DEFAULT_SCHEMA, [$"Id"; $"Line"], Some (128%Z, [$"Id"])); ($"Customers", DEFAULT_SCHEMA, [$"Id"], None); ($"log", $"audit", [], None)]
    /\ map t_cols (db_iter d') = map t_cols (db_iter shop) /\ map t_fks (db_iter d') = map t_fks (db_iter shop).
Proof.
  split; [apply shop_excel|]. split; [apply shop_excel|]. intros fresh calc. eexists _, _. split; [vm_compute; reflexivity|]. split; [vm_compute; reflexivity|].
  split; [vm_compute; reflexivity|]. split; vm_compute; reflexivity.
Qed.
(** A model without tables leaves no trace in the workbook: nothing is read back. *)
Theorem C48_no_tables : forall fresh calc base dbs d filename, db_iter d = [] ->
  exists w, write_database fresh new_writer d filename = Ok (w, xls_filename filename) /\ read_xls base dbs (saved calc w) = Ok (dbs, []).
Proof.
  intros fresh calc base dbs d filename E. unfold write_database, write_columns_worksheet, columns_rows, tables_rows, fks_rows, rels_rows. rewrite E. eexists. split; [vm_compute; reflexivity|vm_compute; reflexivity].
Qed.
Print Assumptions C48_no_tables.
Example C48_no_tables_case : db_iter (empty_database ($"d")) = [].
Proof. reflexivity. Qed.

(** C49 does not hold: the reader does not look at the name of a relationship.  What comes back are the
    relationships under their usual names, and of several between the same two tables only the last. *)
Theorem C49_exact : forall fresh calc base d filename w name dbs ms d', well_formed d -> excel_db d ->
  write_database fresh new_writer d filename = Ok (w, name) -> read_xls base [] (saved calc w) = Ok (dbs, ms) -> dget (db_name d) dbs = Some d' ->
  Forall2 refiled (db_iter d) (db_iter d').
Proof.
  intros fresh calc base d filename w name dbs ms d' W X E R D. destruct (round_trip fresh calc base d filename W X) as [w0 [d0 [E0 [R0 [N [T [S I]]]]]]].
  rewrite E in E0. injection E0 as <- _. rewrite R in R0. injection R0 as -> _. cbn [dget] in D. rewrite str_eqb_refl in D. injection D as <-.
  rewrite I. apply number_forall2. intros id t _. apply full_refiled.
Qed.
Print Assumptions C49_exact.
Theorem C49_partial : forall fresh calc base d filename w name dbs ms d', well_formed d -> excel_db d ->
  (forall t r, In t (db_iter d) -> In r (relationships_iter t) -> rel_name r = usual_name r) ->
  write_database fresh new_writer d filename = Ok (w, name) -> read_xls base [] (saved calc w) = Ok (dbs, ms) -> dget (db_name d) dbs = Some d' ->
  map t_rels (db_iter d') = map t_rels (db_iter d).
Proof.
  intros fresh calc base d filename w name dbs ms d' W X U E R D. destruct (round_trip fresh calc base d filename W X) as [w0 [d0 [E0 [R0 [N [T [S I]]]]]]].
  rewrite E in E0. injection E0 as <- _. rewrite R in R0. injection R0 as -> _. cbn [dget] in D. rewrite str_eqb_refl in D. injection D as <-.
  rewrite I, map_map. rewrite <- (number_snd (db_iter d) base) at 2. rewrite map_map. apply map_ext_in. intros p J.
  assert (K : In (snd p) (db_iter d)) by (rewrite <- (number_snd (db_iter d) base); apply in_map, J). apply full_usual; [apply (wf_tables _ W), K|]. intros r. apply U, K.
Qed.
Print Assumptions C49_partial.
(** two relationships between the same tables become one *)
Definition two_rels : database :=
  add_table (add_table (empty_database ($"d"))
    (add_rel_obj (add_rel_obj (mk_table ($"a") ($"s") None None)
       {| rel_name := $"r1"; rel_from_table := $"a"; rel_to_table := $"b"; rel_conditions := $"a.x = b.x" |})
       {| rel_name := $"r2"; rel_from_table := $"a"; rel_to_table := $"b"; rel_conditions := $"a.y = b.y" |}))
    (mk_table ($"b") ($"s") None None).
Theorem C49_refuted : exists d, well_formed d /\ excel_db d /\ forall fresh calc base filename w name dbs ms d',
  write_database fresh new_writer d filename = Ok (w, name) -> read_xls base [] (saved calc w) = Ok (dbs, ms) -> dget (db_name d) dbs = Some d' ->
  length (flat_map relationships_iter (db_iter d)) = 2 /\ length (flat_map relationships_iter (db_iter d')) = 1.
Proof.
  exists two_rels. split; [apply wf_ok; vm_compute; reflexivity|]. split; [apply excel_db_ok; vm_compute; reflexivity|]. intros fresh calc base filename w name dbs ms d' E R D. split; [vm_compute; reflexivity|].
  cbv -[xls_filename] in E. injection E as <- _. vm_compute in R. injection R as <- _. vm_compute in D. injection D as <-. vm_compute. reflexivity.
Qed.
Print Assumptions C49_refuted.
Example C49_case : exists d, well_formed d /\ excel_db d /\ flat_map relationships_iter (db_iter d) <> []
  /\ forall t r, In t (db_iter d) -> In r (relationships_iter t) -> rel_name r = usual_name r.
Proof.
  exists (add_table (empty_database ($"d")) (add_rel_obj (mk_table ($"a") ($"s") None None)
    {| rel_name := $"REL_a_to_b"; rel_from_table := $"a"; rel_to_table := $"b"; rel_conditions := $"a.x = b.x" |})).
  split; [apply wf_ok; vm_compute; reflexivity|]. split; [apply excel_db_ok; vm_compute; reflexivity|]. split; [vm_compute; discriminate|]. intros t r [<-|[]] [<-|[]]. reflexivity.
Qed.

(** C50: two workbooks with the same cells in the required columns read the same, whatever the order of
    the columns and sheets and whatever else they contain. *)
Theorem C50_layout : forall base dbs wb1 wb2, same_content wb1 wb2 -> read_xls base dbs wb1 = read_xls base dbs wb2.
Proof. exact layout. Qed.
Print Assumptions C50_layout.
(** swapping, adding columns *)
Definition plain_book : workbook cell :=
  [($"Columns", [map CText [$"Database"; $"Schema"; $"Table"; $"Column"; $"Name"; $"Type"];
                 [CText ($"d"); CText ($"s"); CText ($"t"); CNum 1; CText ($"a"); CText ($"BIGINT")]]);
   ($"Tables", [map CText [$"Database"; $"Schema"; $"Table"; $"Updated"; $"Update Type"; $"# Rows"; $"# Columns"; $"Primary Key"; $"Shard Key"; $"# Shards"; $"RLS Column"];
                [CText ($"d"); CText ($"s"); CText ($"t"); CText []; CText []; CText []; CText []; CText ($"a"); CText ($"a"); CNum 4]]);
   ($"Foreign Keys", [map CText [$"Name"; $"Database"; $"Schema"; $"From Table"; $"From Columns"; $"To Table"; $"To Columns"]]);
   ($"Relationships", [map CText [$"Name"; $"Database"; $"Schema"; $"From Table"; $"To Table"; $"Conditions"]])].
Definition other_book : workbook cell :=
  [($"Notes", [[CText ($"mine")]]);
   ($"Relationships", [map CText [$"Conditions"; $"Name"; $"Database"; $"Schema"; $"From Table"; $"To Table"]]);
   ($"Tables", [map CText [$"Shard Key"; $"# Shards"; $"RLS Column"; $"Database"; $"Schema"; $"Table"; $"Updated"; $"Update Type"; $"# Rows"; $"Owner"; $"# Columns"; $"Primary Key"];
                [CText ($"a"); CNum 4; CText []; CText ($"d"); CText ($"s"); CText ($"t"); CText []; CText []; CText []; CText ($"me"); CText []; CText ($"a")]]);
   ($"Foreign Keys", [map CText [$"Name"; $"Database"; $"Schema"; $"From Table"; $"From Columns"; $"To Table"; $"To Columns"]]);
   ($"Columns", [map CText [$"Type"; $"Name"; $"Column"; $"Table"; $"Schema"; $"Database"];
                 [CText ($"BIGINT"); CText ($"a"); CNum 1; CText ($"t"); CText ($"s"); CText ($"d")]])].
Fixpoint place (c : str) (h : list cell) : nat := match h with [] => 0 | x :: h' => if is_text c x then 0 else S (place c h') end.
Definition one_place_b (c : str) (h : list cell) : bool :=
  forallb (fun j => negb (match nth_error h j with Some x => is_text c x | None => false end) || Nat.eqb j (place c h)) (seq 0 (length h))
  && match nth_error h (place c h) with Some x => is_text c x | None => false end.
Lemma one_place c h : one_place_b c h = true -> nth_error h (place c h) = Some (CText c) /\ forall j, nth_error h j = Some (CText c) -> j = place c h.
Proof.
  unfold one_place_b. rewrite andb_true_iff, forallb_forall. intros [H1 H2]. split.
  - destruct (nth_error h (place c h)) as [x|]; [|discriminate]. apply is_text_spec in H2. subst x. reflexivity.
  - intros j J. assert (L : In j (seq 0 (length h))) by (apply in_seq; split; [lia|]; apply nth_error_Some; congruence). specialize (H1 j L). rewrite J in H1.
    assert (Q : is_text c (CText c) = true) by (apply is_text_spec; reflexivity). rewrite Q in H1. cbn [negb orb] in H1. apply Nat.eqb_eq, H1.
Qed.
Definition column_b (wb : workbook cell) (s c : str) : option (list cell) :=
  match dget s wb with Some (h :: rows) => if one_place_b c h then Some (map (fun r => nth (place c h) r (CText [])) rows) else None | _ => None end.
Lemma column_b_ok wb s c cells : column_b wb s c = Some cells -> column_is wb s c cells.
Proof.
  unfold column_b. destruct (dget s wb) as [[|h rows]|] eqn:E; try discriminate. destruct (one_place_b c h) eqn:P; [|discriminate]. intros Q. injection Q as <-. destruct (one_place _ _ P) as [A B].
  exists h, rows, (place c h). repeat (split; [assumption|]). reflexivity.
Qed.
Example C50_case : same_content plain_book other_book
  /\ exists d, read_xls 0 [] other_book = Ok ([($"d", d)], []) /\ map (fun t => (t_name t, get_column_names t, shard_of t)) (db_iter d) = [($"t", [$"a"], Some (4%Z, [$"a"]))].
Proof.
  split.
  - intros s c R. assert (Q : exists cells, column_b plain_book s c = Some cells /\ column_b other_book s c = Some cells).
    { destruct R as [cols [I J]]. repeat (destruct I as [I|I]; [apply pair_equal_spec in I; destruct I as [<- <-]; repeat (destruct J as [<-|J]; [eexists; split; vm_compute; reflexivity|]); destruct J|]). destruct I. }
    destruct Q as [cells [A B]]. exists cells. split; apply column_b_ok; assumption.
  - eexists. split; vm_compute; reflexivity.
Qed.

(** C51: a workbook that lacks a required sheet or column is not read: the reader keeps what it held,
    and exactly the missing sheets, and the missing columns of the sheets that are there, are reported. *)
Theorem C51_incomplete : forall base dbs wb, ~ format_ok wb -> ~ blank_sheet wb ->
  exists ms, read_xls base dbs wb = Ok (dbs, ms) /\ ms <> []
    /\ (forall s, In (MissingSheet s) ms <-> (exists c, required s c) /\ ~ has_sheet wb s)
    /\ (forall s c, In (MissingColumn c s) ms <-> required s c /\ has_sheet wb s /\ ~ has_header wb s c)
    /\ (forall m, In m ms -> (exists s, m = MissingSheet s) \/ (exists c s, m = MissingColumn c s)).
Proof.
  intros base dbs wb F N. exists (flat_map (missing_in wb) required_sheets). split; [apply read_not_ok; assumption|].
  assert (B : forall s, In s required_sheets -> dget s wb <> Some []) by (intros s I E; apply N, blank_iff; exists s; split; assumption).
  split; [intros E; apply F, format_ok_missing; split; assumption|]. split; [|split].
  - intros s. rewrite in_flat_map. split.
    + intros [x [I M]]. apply missing_sheet_in in M. destruct M as [-> M]. split; [|exact M]. assert (Q : exists c, In c (required_columns x)) by (repeat (destruct I as [<-|I]; [eexists; left; reflexivity|]); destruct I).
      destruct Q as [c Q]. exists c. apply required_iff. split; assumption.
    + intros [[c R] M]. apply required_iff in R. exists s. split; [apply R|]. apply missing_sheet_in. split; [reflexivity|exact M].
  - intros s c. rewrite in_flat_map. split.
    + intros [x [I M]]. apply missing_column_in in M; [|apply B, I]. destruct M as [-> [A [D E]]]. split; [apply required_iff; split; assumption|]. split; assumption.
    + intros [R [A E]]. apply required_iff in R. exists s. split; [apply R|]. apply missing_column_in; [apply B, R|]. split; [reflexivity|]. split; [exact A|]. split; [apply R|exact E].
  - intros m I. apply in_flat_map in I. destruct I as [s [_ I]]. exact (missing_kinds _ _ _ I).
Qed.
Print Assumptions C51_incomplete.
Example C51_incomplete_case : ~ format_ok (ddel ($"Tables") plain_book) /\ ~ blank_sheet (ddel ($"Tables") plain_book)
  /\ read_xls 0 [] (ddel ($"Tables") plain_book) = Ok ([], [MissingSheet ($"Tables")]).
Proof.
  split; [|split; [|vm_compute; reflexivity]].
  - intros F. destruct (F ($"Tables") ($"Table")) as [h [rows [E _]]]; [apply required_iff; split; listed|]. vm_compute in E. discriminate.
  - intros B. apply blank_iff in B. destruct B as [s [I E]]. repeat (destruct I as [<-|I]; [vm_compute in E; discriminate|]). destruct I.
Qed.
(** A complete workbook is read: the databases afterwards are those held before and those named in the
    Tables sheet, and the same holds for their tables. *)
Theorem C51_complete : forall base dbs wb dbs' ms dcells tcells, format_ok wb ->
  column_is wb ($"Tables") ($"Database") dcells -> column_is wb ($"Tables") ($"Table") tcells ->
  read_xls base dbs wb = Ok (dbs', ms) ->
  (forall b, In b (dkeys dbs') <-> In b (dkeys dbs) \/ (b <> [] /\ In (CText b) dcells))
  /\ (forall b n, knows_table dbs' b n <-> knows_table dbs b n
        \/ (b <> [] /\ exists k, nth_error dcells k = Some (CText b) /\ nth_error tcells k = Some (CText n))).
Proof. exact read_which. Qed.
Print Assumptions C51_complete.
Example C51_complete_case : format_ok plain_book /\ column_is plain_book ($"Tables") ($"Database") [CText ($"d")] /\ column_is plain_book ($"Tables") ($"Table") [CText ($"t")]
  /\ exists r, read_xls 0 [($"old", empty_database ($"old"))] plain_book = Ok r /\ dkeys (fst r) = [$"old"; $"d"].
Proof.
  split; [apply (same_format plain_book other_book), C50_case|]. split; [apply column_b_ok; vm_compute; reflexivity|]. split; [apply column_b_ok; vm_compute; reflexivity|]. eexists. split; vm_compute; reflexivity.
Qed.
(** A required sheet without any row, not even a header, makes the reader fail. *)
Theorem C51_blank : forall base dbs wb, blank_sheet wb -> read_xls base dbs wb = Err IndexError.
Proof. intros base dbs wb B. unfold read_xls. rewrite verify_blank by (apply blank_iff, B). reflexivity. Qed.
Print Assumptions C51_blank.
Example C51_blank_case : blank_sheet (dset ($"Tables") [] plain_book).
Proof. apply blank_iff. exists ($"Tables"). split; [listed|vm_compute; reflexivity]. Qed.
(** A workbook of the right format is never refused for want of a sheet, a column or a row: what can
    stop the reader are the contents of cells (C107 says which; [TypeError] also stands for what happens
    with numbers where texts are expected). *)
Lemma text_err h name row e : (exists i, last_index name 0 h = Some i) -> get_text h name row = Err e -> e = TypeError.
Proof. intros [i L]. unfold get_text, get_cell. rewrite L. cbn [bind]. destruct (nth i row (CText [])); [discriminate|]. intros E. injection E as <-. reflexivity. Qed.
Lemma method_err h name row e : (exists i, last_index name 0 h = Some i) -> text_method h name row = Err e -> e = AttributeError.
Proof. intros [i L]. unfold text_method, get_cell. rewrite L. cbn [bind]. destruct (nth i row (CText [])); [discriminate|]. intros E. injection E as <-. reflexivity. Qed.
Definition by_contents (e : exn) : Prop := e = TypeError \/ e = AttributeError \/ e = ValueError.
Lemma rows_err f rows : (forall id st r e, f id st r = Err e -> by_contents e) -> forall id st e, read_rows f id rows st = Err e -> by_contents e.
Proof.
  intros F. induction rows as [|r l IH]; intros id st e; cbn [read_rows]; [discriminate|].
  destruct (f id st r) as [st'|x] eqn:E; cbn [bind]; [apply IH|]. intros E'. injection E' as <-. exact (F _ _ _ _ E).
Qed.
Lemma on_table_err tab h column missing f st row e :
  (exists i, last_index ($"Database") 0 h = Some i) -> (exists i, last_index column 0 h = Some i) ->
  (forall st e, missing st = Err e -> by_contents e) -> (forall t e, f t = Err e -> by_contents e) ->
  on_table tab h column missing f st row = Err e -> by_contents e.
Proof.
  intros D C M F. unfold on_table. destruct st as [dbs ms]. destruct (get_text h ($"Database") row) as [dbn|x] eqn:E; cbn [bind].
  2: { intros Q. injection Q as <-. left. exact (text_err _ _ _ _ D E). }
  destruct (dget dbn dbs) as [d|]; [|discriminate]. destruct (get_text h column row) as [n|x] eqn:E'; cbn [bind].
  2: { intros Q. injection Q as <-. left. exact (text_err _ _ _ _ C E'). }
  destruct (get_table d n) as [t|]; [|apply M]. destruct (f t) as [t'|x] eqn:G; cbn [bind]; [discriminate|].
  intros Q. injection Q as <-. exact (F _ _ G).
Qed.
Theorem C51_errors : forall base dbs wb e, read_xls base dbs wb = Err e ->
  (blank_sheet wb /\ e = IndexError) \/ (~ blank_sheet wb /\ format_ok wb /\ (e = TypeError \/ e = AttributeError \/ e = ValueError)).
Proof.
  intros base dbs wb e E.
  assert (B : blank_sheet wb \/ ~ blank_sheet wb).
  { destruct (verify_sheets wb required_sheets [] true) eqn:V; [right|left].
    - intros B. rewrite verify_blank in V by (apply blank_iff, B). discriminate.
    - apply blank_iff. destruct (existsb (fun s => match dget s wb with Some [] => true | _ => false end) required_sheets) eqn:X.
      + apply existsb_exists in X. destruct X as (s & I & X). exists s. split; [exact I|]. destruct (dget s wb) as [[|]|]; try discriminate. reflexivity.
      + exfalso. rewrite verify_ok in V; [discriminate|]. intros s I N. enough (existsb (fun s => match dget s wb with Some [] => true | _ => false end) required_sheets = true) by congruence.
        apply existsb_exists. exists s. split; [exact I|]. rewrite N. reflexivity. }
  destruct B as [B|B]; [left; split; [exact B|]; rewrite C51_blank in E by exact B; injection E as <-; reflexivity|right].
  split; [exact B|].
  destruct (flat_map (missing_in wb) required_sheets) as [|m ms] eqn:M.
  2: { exfalso. rewrite read_not_ok in E; [discriminate| |exact B]. intros F. apply format_ok_missing in F. destruct F as [_ F]. congruence. }
  assert (N : forall s, In s required_sheets -> dget s wb <> Some []) by (intros s I N; apply B, blank_iff; exists s; auto).
  assert (F : format_ok wb) by (apply format_ok_missing; auto). split; [exact F|].
  unfold read_xls in E. rewrite verify_ok, M in E by exact N. cbn [bind app andb no_messages] in E.
  assert (P : forall s, In s required_sheets -> exists h rows, sheet_parts wb s = Ok (h, rows) /\ forall c, In c (required_columns s) -> exists i, last_index c 0 h = Some i).
  { intros s I. destruct (dget s wb) as [[|h rows]|] eqn:D.
    - destruct (N s I D).
    - exists h, rows. unfold sheet_parts. rewrite D. split; [reflexivity|]. intros c C.
      destruct (F s c (proj2 (required_iff s c) (conj I C))) as (h' & rows' & D' & H). rewrite D in D'. injection D' as <- <-. exact (last_index_in c h 0 H).
    - exfalso. assert (C : exists c, In c (required_columns s)) by (cbn [required_sheets In] in I; repeat destruct I as [<-|I]; try destruct I; eexists; vm_compute; left; reflexivity).
      destruct C as [c C]. destruct (F s c (proj2 (required_iff s c) (conj I C))) as (h' & rows' & D' & H). congruence. }
  unfold read_databases in E.
  destruct (P ($"Tables")) as (h1 & r1 & P1 & I1); [listed|]. destruct (P ($"Columns")) as (h2 & r2 & P2 & I2); [listed|].
  destruct (P ($"Foreign Keys")) as (h3 & r3 & P3 & I3); [listed|]. destruct (P ($"Relationships")) as (h4 & r4 & P4 & I4); [listed|].
  rewrite P1, P2, P3, P4 in E. cbn [bind] in E. clear P P1 P2 P3 P4.
  match type of E with bind ?x _ = _ => destruct x as [st1|e1] eqn:E1 end; cbn [bind] in E.
  2: { injection E as <-. revert E1. apply rows_err. clear - I1. intros id [dbs ms] row e. unfold read_table_row.
       destruct (get_text h1 ($"Database") row) as [dbn|x] eqn:X; cbn [bind].
       2: { intros Q. injection Q as <-. left. refine (text_err _ _ _ _ _ X). apply I1. listed. }
       destruct (str_eqb dbn []); [discriminate|].
       destruct (text_method h1 ($"Primary Key") row) as [pk|x] eqn:X1; cbn [bind].
       2: { intros Q. injection Q as <-. right; left. refine (method_err _ _ _ _ _ X1). apply I1. listed. }
       destruct (text_method h1 ($"Shard Key") row) as [sk|x] eqn:X2; cbn [bind].
       2: { intros Q. injection Q as <-. right; left. refine (method_err _ _ _ _ _ X2). apply I1. listed. }
       unfold get_cell. destruct (I1 ($"# Shards")) as [i L]; [listed|]. rewrite L. cbn [bind].
       destruct (get_text h1 ($"Table") row) as [n|x] eqn:X3; cbn [bind].
       2: { intros Q. injection Q as <-. left. refine (text_err _ _ _ _ _ X3). apply I1. listed. }
       destruct (get_text h1 ($"Schema") row) as [sc|x] eqn:X4; cbn [bind].
       2: { intros Q. injection Q as <-. left. refine (text_err _ _ _ _ _ X4). apply I1. listed. }
       destruct (str_eqb (strip sk) []); cbn [bind]; [discriminate|]. destruct (nth i row (CText [])) as [[|]|[| |]]; cbn [bind]; try discriminate.
       intros Q. injection Q as <-. left. reflexivity. }
  match type of E with bind ?x _ = _ => destruct x as [st2|e2] eqn:E2 end; cbn [bind] in E.
  2: { injection E as <-. revert E2. apply rows_err. clear - I2. intros id st row e. unfold read_column_row. apply on_table_err; [apply I2; listed|apply I2; listed|discriminate|].
       intros t x. destruct (get_text h2 ($"Name") row) as [n|y] eqn:X; cbn [bind].
       2: { intros Q. injection Q as <-. left. refine (text_err _ _ _ _ _ X). apply I2. listed. }
       destruct (get_text h2 ($"Type") row) as [ty|y] eqn:X1; cbn [bind].
       2: { intros Q. injection Q as <-. left. refine (text_err _ _ _ _ _ X1). apply I2. listed. }
       unfold mk_column. destruct (_ && _); cbn [bind]; [|discriminate]. intros Q. injection Q as <-. right; right. reflexivity. }
  match type of E with bind ?x _ = _ => destruct x as [st3|e3] eqn:E3 end; cbn [bind] in E.
  2: { injection E as <-. revert E3. apply rows_err. clear - I3. intros id st row e. unfold read_fk_row. apply on_table_err; [apply I3; listed|apply I3; listed|discriminate|].
       intros t x. destruct (get_text h3 ($"Name") row) as [n|y] eqn:X; cbn [bind].
       2: { intros Q. injection Q as <-. left. refine (text_err _ _ _ _ _ X). apply I3. listed. }
       destruct (text_method h3 ($"From Columns") row) as [fk|y] eqn:X1; cbn [bind].
       2: { intros Q. injection Q as <-. right; left. refine (method_err _ _ _ _ _ X1). apply I3. listed. }
       destruct (text_method h3 ($"To Columns") row) as [tk|y] eqn:X2; cbn [bind].
       2: { intros Q. injection Q as <-. right; left. refine (method_err _ _ _ _ _ X2). apply I3. listed. }
       destruct (get_text h3 ($"To Table") row) as [tn|y] eqn:X3; cbn [bind].
       2: { intros Q. injection Q as <-. left. refine (text_err _ _ _ _ _ X3). apply I3. listed. }
       unfold add_fk_parts, mk_foreign_key. destruct (negb _); cbn [bind]; [|discriminate]. intros Q. injection Q as <-. right; right. reflexivity. }
  revert E. apply rows_err. clear - I4. intros id st row e. unfold read_rel_row. apply on_table_err; [apply I4; listed|apply I4; listed| |].
  { intros s x Q. injection Q as <-. right; left. reflexivity. }
  intros t x. destruct (get_text h4 ($"To Table") row) as [n|y] eqn:X; cbn [bind].
  2: { intros Q. injection Q as <-. left. refine (text_err _ _ _ _ _ X). apply I4. listed. }
  destruct (get_text h4 ($"Conditions") row) as [c|y] eqn:X1; cbn [bind].
  2: { intros Q. injection Q as <-. left. refine (text_err _ _ _ _ _ X1). apply I4. listed. }
  unfold add_rel_parts, mk_relationship. cbn [bind]. discriminate.
Qed.
Print Assumptions C51_errors.
Example C51_errors_case : read_xls 0 [] (dset ($"Columns") [[CText ($"Database"); CText ($"Schema"); CText ($"Table"); CText ($"Column"); CText ($"Name"); CText ($"Type")];
    [CText ($"d"); CText ($"s"); CText ($"t"); CText ($"1"); CText ($"c"); CText ($"NUMBER")]] plain_book) = Err ValueError.
Proof. vm_compute. reflexivity. Qed.

(** C52: a row of the Columns or Foreign Keys sheet that names a table the reader does not know, or of
    any of the three sheets that names a database it does not know, changes nothing but adds one
    message.  Missing: rows of the Relationships sheet with a known database and an unknown table. *)
Theorem C52_partial : forall base dbs wb sheet h pre row post dbs' ms dbn name,
  In sheet [$"Columns"; $"Foreign Keys"; $"Relationships"] -> dget sheet wb = Some (h :: pre ++ post) ->
  read_xls base dbs wb = Ok (dbs', ms) -> format_ok wb ->
  cell_in h row ($"Database") (CText dbn) -> cell_in h row (table_column sheet) (CText name) ->
  ~ knows_table dbs' dbn name -> (sheet = $"Relationships" -> dget dbn dbs' = None) ->
  exists m1 m2, ms = m1 ++ m2
    /\ read_xls base dbs (dset sheet (h :: pre ++ row :: post) wb)
       = Ok (dbs', m1 ++ match dget dbn dbs' with None => UnknownDatabase sheet dbn | Some _ => UnknownTable sheet name end :: m2).
Proof. exact extra_row. Qed.
Print Assumptions C52_partial.
Lemma cell_b h row c x : one_place_b c h = true -> x = nth (place c h) row (CText []) -> cell_in h row c x.
Proof. intros P ->. destruct (one_place _ _ P) as [A B]. exists (place c h). repeat (split; [assumption|]). reflexivity. Qed.
Example C52_case : exists h row d dbs', dget ($"Columns") plain_book = Some (h :: [d]) /\ read_xls 0 [] plain_book = Ok (dbs', [])
  /\ cell_in h row ($"Database") (CText ($"d")) /\ cell_in h row (table_column ($"Columns")) (CText ($"u")) /\ ~ knows_table dbs' ($"d") ($"u")
  /\ read_xls 0 [] (dset ($"Columns") [h; row; d] plain_book) = Ok (dbs', [UnknownTable ($"Columns") ($"u")]).
Proof.
  eexists _, (map CText [$"d"; $"s"; $"u"; $"1"; $"b"; $"BIGINT"]), _, _. split; [vm_compute; reflexivity|]. split; [vm_compute; reflexivity|]. split; [apply cell_b; vm_compute; reflexivity|]. split; [apply cell_b; vm_compute; reflexivity|].
  split; [rewrite status_knows; vm_compute; discriminate|vm_compute; reflexivity].
Qed.
(** Such a row of the Relationships sheet is fatal, whatever follows it. *)
Theorem C52_refuted : forall base dbs wb h pre row post dbs' ms dbn name,
  dget ($"Relationships") wb = Some (h :: pre) -> read_xls base dbs wb = Ok (dbs', ms) -> format_ok wb ->
  cell_in h row ($"Database") (CText dbn) -> cell_in h row ($"From Table") (CText name) ->
  ~ knows_table dbs' dbn name -> dget dbn dbs' <> None ->
  read_xls base dbs (dset ($"Relationships") (h :: pre ++ row :: post) wb) = Err AttributeError.
Proof. exact rel_row_fails. Qed.
Print Assumptions C52_refuted.
Example C52_refuted_case : exists h row dbs', dget ($"Relationships") plain_book = Some [h] /\ read_xls 0 [] plain_book = Ok (dbs', []) /\ format_ok plain_book
  /\ cell_in h row ($"Database") (CText ($"d")) /\ cell_in h row ($"From Table") (CText ($"u")) /\ ~ knows_table dbs' ($"d") ($"u") /\ dget ($"d") dbs' <> None
  /\ read_xls 0 [] (dset ($"Relationships") [h; row] plain_book) = Err AttributeError.
Proof.
  eexists _, (map CText [$"r"; $"d"; $"s"; $"u"; $"t"; $"u.a = t.a"]), _. split; [vm_compute; reflexivity|]. split; [vm_compute; reflexivity|]. split; [apply (same_format plain_book other_book), C50_case|].
  split; [apply cell_b; vm_compute; reflexivity|]. split; [apply cell_b; vm_compute; reflexivity|]. split; [rewrite status_knows; vm_compute; discriminate|]. split; [vm_compute; discriminate|vm_compute; reflexivity].
Qed.

(** C71 does not hold: a writer used for a second model keeps the sheets of the first, and the second
    model is not in the second file. *)
Theorem C71_refuted : forall fresh calc base d1 f1 w1 n1 d2 f2 w2 n2 dbs ms, well_formed d1 -> excel_db d1 -> db_name d2 <> db_name d1 ->
  write_database fresh new_writer d1 f1 = Ok (w1, n1) -> write_database fresh w1 d2 f2 = Ok (w2, n2) ->
  read_xls base [] (saved calc w2) = Ok (dbs, ms) -> ~ In (db_name d2) (dkeys dbs).
Proof. exact reuse_lost. Qed.
Print Assumptions C71_refuted.
Theorem C71_sheets : forall fresh d1 f1 w1 n1 d2 f2 w2 n2 s,
  write_database fresh new_writer d1 f1 = Ok (w1, n1) -> write_database fresh w1 d2 f2 = Ok (w2, n2) ->
  In s [$"Tables"; $"Foreign Keys"; $"Relationships"] -> dget s w2 = dget s w1.
Proof. exact reuse_keeps. Qed.
Print Assumptions C71_sheets.
Example C71_case : forall fresh calc, exists w1 w2 dbs ms,
  write_database fresh new_writer shop ($"one") = Ok (w1, $"one.xlsx") /\ write_database fresh w1 two_rels ($"two") = Ok (w2, $"two.xlsx")
  /\ read_xls 0 [] (saved calc w2) = Ok (dbs, ms) /\ dkeys dbs = [$"shop"].
Proof.
  intros fresh calc. eexists _, _, _, _. split; [vm_compute; reflexivity|]. split; [vm_compute; reflexivity|]. split; [vm_compute; reflexivity|]. vm_compute. reflexivity.
Qed.

(** C72: the file is saved under the given name if that ends in ".xlsx" and under the name with that
    ending otherwise; so the ending is always there, once. *)
Theorem C72_file_name : forall fresh w d f w' f', write_database fresh w d f = Ok (w', f') ->
  ((exists stem, f = stem ++ $".xlsx") -> f' = f) /\ ((~ exists stem, f = stem ++ $".xlsx") -> f' = f ++ $".xlsx").
Proof.
  intros fresh w d f w' f' E. unfold write_database in E. destruct (write_columns_worksheet w d) as [w1|]; [|discriminate]. cbn [bind] in E. destruct (add_sheet _ _ _ w1) as [w2|]; [|discriminate]. cbn [bind] in E.
  destruct (add_sheet _ _ _ w2) as [w3|]; [|discriminate]. cbn [bind] in E. destruct (add_sheet _ _ _ w3) as [w4|]; [|discriminate]. cbn [bind] in E.
  apply (f_equal (fun r => match r with Ok p => snd p | Err _ => [] end)) in E. cbn [snd] in E. subst f'. unfold xls_filename. destruct (ends_with ($".xlsx") f) eqn:Q.
  - apply ends_with_spec in Q. split; [reflexivity|]. intros N. exfalso. apply N, Q.
  - split; [intros H; apply ends_with_spec in H; congruence|reflexivity].
Qed.
Print Assumptions C72_file_name.
Example C72_case : xls_filename ($"a.xls") = $"a.xls.xlsx" /\ xls_filename ($"a.xlsx") = $"a.xlsx".
Proof. split; reflexivity. Qed.
