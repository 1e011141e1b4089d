(** * C108: an Excel reader that is used again *)
From Verif Require Import StrFacts ExcelMore PropsExcel PropsContents AgainFacts.
From Coq Require Import List Lia. Import ListNotations.

(** What a reader returns is not determined by the workbook: one that lacks a required sheet or column
    yields the databases of the workbooks read before. *)
Theorem C108_refuted : forall base dbs w, ~ format_ok w -> ~ blank_sheet w ->
  (exists ms, read_xls base dbs w = Ok (dbs, ms)) /\ (exists ms, read_xls base [] w = Ok ([], ms)).
Proof. intros base dbs w F B. split; eexists; apply read_not_ok; assumption. Qed.
Print Assumptions C108_refuted.

(** A complete workbook adds to what is held: the databases and tables held before come first. *)
Theorem C108_databases : forall base dbs0 w dbs ms, held dbs0 -> complete_book w -> read_xls base dbs0 w = Ok (dbs, ms) ->
  filled (then_rows (names_only (dkeys dbs0)) (database_entry w)) (fun b => option_map (fun _ => tt) (dget b dbs)) (dkeys dbs).
Proof.
  intros base dbs0 w dbs ms L T E. apply held_orderly in L. destruct (read_from base dbs0 w dbs ms L (complete_format _ T) E) as [h1 [r1 [h2 [r2 [h3 [r3 [h4 [r4 [D1 [D2 [D3 [D4 [A _]]]]]]]]]]]]].
  rewrite names_bare, <- (bare_keys dbs), A. refine (filled_same _ _ _ _ _ (fun k x v => iff_refl _) (fun x => eq_trans (f_equal (dget x) (eq_sym A)) (bare_get x dbs)) (refilled (bare dbs0) (map (named_database h1) r1) (database_entry w) _ (databases_are w h1 r1 T D1))).
  rewrite bare_keys. apply (od_keys _ L).
Qed.
Print Assumptions C108_databases.
Theorem C108_tables : forall base dbs0 w dbs ms b d, held dbs0 -> complete_book w -> read_xls base dbs0 w = Ok (dbs, ms) -> dget b dbs = Some d ->
  filled (then_rows (names_only match dget b dbs0 with Some d0 => get_table_names d0 | None => [] end) (table_entry w b))
         (fun n => option_map (fun _ => tt) (get_table d n)) (get_table_names d).
Proof.
  intros base dbs0 w dbs ms b d L T E G. apply held_orderly in L. pose proof (read_orderly base dbs0 w dbs ms L E) as L'. assert (Nb : b <> []) by (intros ->; rewrite (od_named _ L') in G; discriminate).
  destruct (read_from base dbs0 w dbs ms L (complete_format _ T) E) as [h1 [r1 [h2 [r2 [h3 [r3 [h4 [r4 [D1 [D2 [D3 [D4 [_ [A _]]]]]]]]]]]]]]. specialize (A b Nb). unfold tables_of at 1 in A. rewrite G in A.
  assert (N : names_only match dget b dbs0 with Some d0 => get_table_names d0 | None => [] end = tables_of dbs0 b) by (unfold tables_of; destruct (dget b dbs0); [apply names_bare|reflexivity]). rewrite N.
  unfold get_table_names, get_table. rewrite <- (bare_keys (db_tables d)), A. refine (filled_same _ _ _ _ _ (fun k x v => iff_refl _) (fun x => eq_trans (f_equal (dget x) (eq_sym A)) (bare_get x (db_tables d))) (refilled (tables_of dbs0 b) (map (named_table h1 b) r1) (table_entry w b) _ (tables_are w h1 r1 b T D1))).
  unfold tables_of. destruct (dget b dbs0) as [d0|] eqn:G0; [|constructor]. rewrite bare_keys. apply (od_databases _ L b d0 G0).
Qed.
Print Assumptions C108_tables.

(** A table the workbook describes is read from it alone, whatever was held. *)
Theorem C108_described : forall base dbs0 w dbs ms b d n t, held dbs0 -> complete_book w -> read_xls base dbs0 w = Ok (dbs, ms) ->
  dget b dbs = Some d -> get_table d n = Some t -> table_described w b n ->
  filled (column_entry w b n) (get_column t) (map column_name (table_iter t))
  /\ filled (fk_entry w b n) (get_foreign_key t) (map fk_name (foreign_keys_iter t))
  /\ filled (rel_entry w b n) (get_relationship t) (map rel_name (relationships_iter t)).
Proof.
  intros base dbs0 w dbs ms b d n t L T E G Gt De. apply held_orderly in L. pose proof (read_orderly base dbs0 w dbs ms L E) as L'. assert (Nb : b <> []) by (apply De). assert (Ga : table_at dbs b n = Some t) by (unfold table_at; rewrite G; exact Gt).
  destruct (read_from base dbs0 w dbs ms L (complete_format _ T) E) as [h1 [r1 [h2 [r2 [h3 [r3 [h4 [r4 [D1 [D2 [D3 [D4 [_ [_ [_ H]]]]]]]]]]]]]]]. destruct (H b n t Nb Ga) as [t0 [[_ [_ [Ec [Ef Er]]]] S]].
  assert (Q : new_table t0) by (destruct S as [[_ Q]|[NI _]]; [exact Q|exfalso; apply NI, (named_described w h1 r1 b n T D1 Nb), De]). destruct Q as [Q1 [Q2 Q3]]. rewrite Q1 in Ec. rewrite Q2 in Ef. rewrite Q3 in Er.
  destruct (od_tables _ L' b n t Ga) as [_ [K1 [K2 K3]]]. unfold table_iter, foreign_keys_iter, relationships_iter, get_column, get_foreign_key, get_relationship. rewrite (keyed_names _ _ K1), (keyed_names _ _ K2), (keyed_names _ _ K3), Ec, Ef, Er. split; [|split].
  - exact (filled_same _ _ _ _ _ (columns_are w h2 r2 b n T D2) (fun x => eq_refl) (puts_filled _)).
  - exact (filled_same _ _ _ _ _ (fks_are w h3 r3 b n T D3) (fun x => eq_refl) (puts_filled _)).
  - exact (filled_same _ _ _ _ _ (rels_are w h4 r4 b n T D4) (fun x => eq_refl) (puts_filled _)).
Qed.
Print Assumptions C108_described.

(** A table it does not describe was held before.  It keeps its schema and keys, and the rows about it in
    the other sheets are added to what it had. *)
Theorem C108_kept : forall base dbs0 w dbs ms b d n t, held dbs0 -> complete_book w -> read_xls base dbs0 w = Ok (dbs, ms) ->
  dget b dbs = Some d -> get_table d n = Some t -> ~ table_described w b n ->
  exists d0 t0, dget b dbs0 = Some d0 /\ get_table d0 n = Some t0
  /\ t_schema t = t_schema t0 /\ t_pk t = t_pk t0 /\ t_shard t = t_shard t0
  /\ filled (then_rows (listed_as column_name (table_iter t0)) (column_entry w b n)) (get_column t) (map column_name (table_iter t))
  /\ filled (then_rows (listed_as fk_name (foreign_keys_iter t0)) (fk_entry w b n)) (get_foreign_key t) (map fk_name (foreign_keys_iter t))
  /\ filled (then_rows (listed_as rel_name (relationships_iter t0)) (rel_entry w b n)) (get_relationship t) (map rel_name (relationships_iter t)).
Proof.
  intros base dbs0 w dbs ms b d n t L T E G Gt De. apply held_orderly in L. pose proof (read_orderly base dbs0 w dbs ms L E) as L'. assert (Nb : b <> []) by (intros ->; rewrite (od_named _ L') in G; discriminate). assert (Ga : table_at dbs b n = Some t) by (unfold table_at; rewrite G; exact Gt).
  destruct (read_from base dbs0 w dbs ms L (complete_format _ T) E) as [h1 [r1 [h2 [r2 [h3 [r3 [h4 [r4 [D1 [D2 [D3 [D4 [_ [_ [_ H]]]]]]]]]]]]]]]. destruct (H b n t Nb Ga) as [t0 [[_ [At [Ec [Ef Er]]]] S]].
  assert (G0 : table_at dbs0 b n = Some t0) by (destruct S as [[I _]|[_ G0]]; [exfalso; apply De, (named_described w h1 r1 b n T D1 Nb), I|exact G0]).
  destruct (od_tables _ L b n t0 G0) as [_ [J1 [J2 J3]]]. destruct (od_tables _ L' b n t Ga) as [_ [K1 [K2 K3]]]. unfold table_at in G0. destruct (dget b dbs0) as [d0|]; [|discriminate]. exists d0, t0. split; [reflexivity|]. split; [exact G0|].
  unfold attributes in At. assert (X : (t_schema t, t_pk t, t_shard t) = (t_schema t0, t_pk t0, t_shard t0)) by congruence. apply pair_equal_spec in X. destruct X as [X X3]. apply pair_equal_spec in X. destruct X as [X1 X2]. repeat (split; [assumption|]).
  unfold table_iter, foreign_keys_iter, relationships_iter, get_column, get_foreign_key, get_relationship. rewrite (keyed_names _ _ K1), (keyed_names _ _ K2), (keyed_names _ _ K3), (keyed_by _ _ J1), (keyed_by _ _ J2), (keyed_by _ _ J3), Ec, Ef, Er. split; [|split].
  - apply refilled; [apply J1|exact (columns_are w h2 r2 b n T D2)].
  - apply refilled; [apply J2|exact (fks_are w h3 r3 b n T D3)].
  - apply refilled; [apply J3|exact (rels_are w h4 r4 b n T D4)].
Qed.
Print Assumptions C108_kept.
(** One that is not mentioned at all stays as it was. *)
Theorem C108_untouched : forall base dbs0 w dbs ms b d0 n t0, held dbs0 -> complete_book w -> read_xls base dbs0 w = Ok (dbs, ms) ->
  dget b dbs0 = Some d0 -> get_table d0 n = Some t0 -> ~ table_described w b n ->
  (forall sheet, In sheet [$"Columns"; $"Foreign Keys"; $"Relationships"] -> ~ row_about w sheet b n) ->
  exists d, dget b dbs = Some d /\ get_table d n = Some t0.
Proof.
  intros base dbs0 w dbs ms b d0 n t0 L T E G0 Gt De R. apply held_orderly in L. assert (Nb : b <> []) by (intros ->; rewrite (od_named _ L) in G0; discriminate). assert (Ga0 : table_at dbs0 b n = Some t0) by (unfold table_at; rewrite G0; exact Gt).
  destruct (read_from base dbs0 w dbs ms L (complete_format _ T) E) as [h1 [r1 [h2 [r2 [h3 [r3 [h4 [r4 [D1 [D2 [D3 [D4 [_ [A [_ H]]]]]]]]]]]]]]].
  assert (Ga : exists t, table_at dbs b n = Some t).
  { assert (X : dget n (tables_of dbs b) <> None) by (rewrite (A b Nb); apply put_stays; rewrite table_bare, Ga0; discriminate). rewrite table_bare in X. destruct (table_at dbs b n) as [t|]; [exists t; reflexivity|contradiction]. }
  destruct Ga as [t Ga]. destruct (H b n t Nb Ga) as [t1 [[N [At [Ec [Ef Er]]]] S]].
  assert (t1 = t0) as -> by (destruct S as [[I _]|[_ G1]]; [exfalso; apply De, (named_described w h1 r1 b n T D1 Nb), I|congruence]).
  rewrite none_put in Ec by (intros x v I; apply In_nth_error in I; destruct I as [k I]; apply (columns_are w h2 r2 b n T D2) in I; apply (R ($"Columns")); [left; reflexivity|exists k; split; apply I]).
  rewrite none_put in Ef by (intros x v I; apply In_nth_error in I; destruct I as [k I]; apply (fks_are w h3 r3 b n T D3) in I; apply (R ($"Foreign Keys")); [right; left; reflexivity|exists k; split; apply I]).
  rewrite none_put in Er by (intros x v I; apply In_nth_error in I; destruct I as [k I]; apply (rels_are w h4 r4 b n T D4) in I; apply (R ($"Relationships")); [right; right; left; reflexivity|exists k; split; apply I]).
  unfold attributes in At. assert (X : (t_schema t, t_pk t, t_shard t) = (t_schema t0, t_pk t0, t_shard t0)) by congruence. apply pair_equal_spec in X. destruct X as [X X3]. apply pair_equal_spec in X. destruct X as [X1 X2]. pose proof (proj1 (od_tables _ L b n t0 Ga0)) as N0.
  assert (t = t0) as -> by (destruct t as [x1 x2 x3 x4 x5 x6 x7], t0 as [y1 y2 y3 y4 y5 y6 y7]; cbn [t_name t_schema t_pk t_shard t_cols t_fks t_rels] in *; congruence). unfold table_at in Ga. destruct (dget b dbs) as [d|]; [|discriminate]. exists d. split; [reflexivity|exact Ga].
Qed.
Print Assumptions C108_untouched.

(** ** A case: a second workbook describes [u] anew and a database [e], and has a column of [t] *)
Definition second_book : workbook cell :=
  dset ($"Columns") [map CText [$"Type"; $"Name"; $"Database"; $"Schema"; $"Table"; $"Column"]; map CText [$"DATE"; $"c"; $"d"; []; $"u"]; map CText [$"BIGINT"; $"b"; $"d"; []; $"t"]]
  (dset ($"Tables") [map CText [$"Database"; $"Schema"; $"Table"; $"Updated"; $"Update Type"; $"# Rows"; $"# Columns"; $"Primary Key"; $"Shard Key"; $"# Shards"; $"RLS Column"];
                     map CText [$"e"; $"s"; $"v"]; map CText [$"d"; $"s"; $"u"]] written_book).
Example C108_case : exists dbs0 dbs ms d u t, read_xls 0 [] written_book = Ok (dbs0, []) /\ held dbs0 /\ complete_book second_book /\ read_xls 0 dbs0 second_book = Ok (dbs, ms)
  /\ dkeys dbs = [$"d"; $"e"] /\ dget ($"d") dbs = Some d /\ db_iter d = [u; t] /\ table_described second_book ($"d") (t_name u) /\ ~ table_described second_book ($"d") (t_name t)
  /\ get_column_names u = [$"c"] /\ get_column_names t = [$"a"; $"b"].
Proof.
  eexists _, _, _, _, _, _. split; [vm_compute; reflexivity|]. split; [apply (held_read 0 [] written_book _ []); [apply held_nothing|vm_compute; reflexivity]|].
  assert (C : complete_book second_book).
  { intros s c Q. assert (X : exists cells, column_b second_book s c = Some cells); [|destruct X as [cells X]; exists cells; apply column_b_ok, X].
    destruct Q as [cols [I J]]. repeat (destruct I as [I|I]; [apply pair_equal_spec in I; destruct I as [<- <-]; repeat (destruct J as [<-|J]; [eexists; vm_compute; reflexivity|]); destruct J|]). destruct I. }
  split; [exact C|]. split; [vm_compute; reflexivity|]. split; [reflexivity|]. split; [reflexivity|]. split; [reflexivity|].
  assert (D : forall n, table_described second_book ($"d") n <-> named (map CText [$"Database"; $"Schema"; $"Table"; $"Updated"; $"Update Type"; $"# Rows"; $"# Columns"; $"Primary Key"; $"Shard Key"; $"# Shards"; $"RLS Column"]) [map CText [$"e"; $"s"; $"v"]; map CText [$"d"; $"s"; $"u"]] ($"d") n).
  { intros n. symmetry. apply named_described; [exact C|reflexivity|discriminate]. }
  split; [apply D; vm_compute; auto|]. split; [intros X; apply D in X; vm_compute in X; destruct X as [X|[X|[]]]; discriminate|]. split; vm_compute; reflexivity.
Qed.
