(** * C107: what a workbook that someone wrote says is what is read *)
From Verif Require Import StrFacts ExcelMore PropsExcel PropsSheet PropsBook ContentsFacts.
From Coq Require Import List Lia. Import ListNotations.

(** The databases, in the order in which the sheet Tables names them first. *)
Theorem C107_databases : forall base w dbs ms, complete_book w -> read_xls base [] w = Ok (dbs, ms) ->
  filled (database_entry w) (fun b => option_map (fun _ => tt) (dget b dbs)) (dkeys dbs) /\ forall b d, dget b dbs = Some d -> db_name d = b.
Proof.
  intros base w dbs ms T E. destruct (read_fills base w dbs ms T E) as [h1 [r1 [h2 [r2 [h3 [r3 [h4 [r4 [D1 [D2 [D3 [D4 [A [_ [B _]]]]]]]]]]]]]]]. split; [|exact B].
  rewrite <- (bare_keys dbs), A. apply (filled_same _ _ _ _ _ (databases_are w h1 r1 T D1) (fun x => eq_trans (f_equal (dget x) (eq_sym A)) (bare_get x dbs))). apply puts_filled.
Qed.
Print Assumptions C107_databases.

(** The tables of each database, in the order of their first rows. *)
Theorem C107_tables : forall base w dbs ms b d, complete_book w -> read_xls base [] w = Ok (dbs, ms) -> dget b dbs = Some d ->
  filled (table_entry w b) (fun n => option_map (fun _ => tt) (get_table d n)) (get_table_names d) /\ forall n t, get_table d n = Some t -> t_name t = n.
Proof.
  intros base w dbs ms b d T E G. destruct (described_known base w dbs ms T E) as [K _]. assert (Nb : b <> []) by (apply (proj2 (K b)); congruence).
  destruct (read_fills base w dbs ms T E) as [h1 [r1 [h2 [r2 [h3 [r3 [h4 [r4 [D1 [D2 [D3 [D4 [_ [A [_ B]]]]]]]]]]]]]]]. specialize (A b Nb). unfold tables_of in A. rewrite G in A. split.
  - unfold get_table_names, get_table. rewrite <- (bare_keys (db_tables d)), A. apply (filled_same _ _ _ _ _ (tables_are w h1 r1 b T D1) (fun x => eq_trans (f_equal (dget x) (eq_sym A)) (bare_get x (db_tables d)))). apply puts_filled.
  - intros n t Gt. apply (B b n t). unfold table_at. rewrite G. exact Gt.
Qed.
Print Assumptions C107_tables.

(** Each table has the columns, foreign keys and relationships that the rows about it describe: the
    last row about a name counts, the first row about it gives its place. *)
Theorem C107_contents : forall base w dbs ms b d n t, complete_book w -> read_xls base [] w = Ok (dbs, ms) -> dget b dbs = Some d -> get_table d n = Some t ->
  filled (column_entry w b n) (get_column t) (map column_name (table_iter t))
  /\ filled (fk_entry w b n) (get_foreign_key t) (map fk_name (foreign_keys_iter t))
  /\ filled (rel_entry w b n) (get_relationship t) (map rel_name (relationships_iter t)).
Proof.
  intros base w dbs ms b d n t T E G Gt. destruct (read_fills base w dbs ms T E) as [h1 [r1 [h2 [r2 [h3 [r3 [h4 [r4 [D1 [D2 [D3 [D4 [_ [_ [_ B]]]]]]]]]]]]]]].
  destruct (B b n t) as [_ [C [F L]]]; [unfold table_at; rewrite G; exact Gt|]. unfold get_column, get_foreign_key, get_relationship, table_iter, foreign_keys_iter, relationships_iter. rewrite C, F, L. split; [|split].
  - rewrite puts_keyed; [exact (filled_same _ _ _ _ _ (columns_are w h2 r2 b n T D2) (fun x => eq_refl) (puts_filled _))|]. intros x v I. apply In_nth_error in I. destruct I as [k I]. apply (columns_are w h2 r2 b n T D2) in I. apply I.
  - rewrite puts_keyed; [exact (filled_same _ _ _ _ _ (fks_are w h3 r3 b n T D3) (fun x => eq_refl) (puts_filled _))|]. intros x v I. apply In_nth_error in I. destruct I as [k I]. apply (fks_are w h3 r3 b n T D3) in I. apply I.
  - rewrite puts_keyed; [exact (filled_same _ _ _ _ _ (rels_are w h4 r4 b n T D4) (fun x => eq_refl) (puts_filled _))|]. intros x v I. apply In_nth_error in I. destruct I as [k I]. apply (rels_are w h4 r4 b n T D4) in I. apply I.
Qed.
Print Assumptions C107_contents.

(** A complete workbook with texts where texts belong is read unless a column of a described table has
    a type that is not known, a foreign key of one has not as many columns on either side, or a
    relationship in a described database is about a table that is not described. *)
Theorem C107_reads : forall base w, complete_book w -> texts_only w -> ((exists dbs ms, read_xls base [] w = Ok (dbs, ms)) <-> sound_book w).
Proof. exact book_readable. Qed.
Print Assumptions C107_reads.

(** ** A case: a column described twice, a table described twice, keys of two columns *)
Definition written_book : workbook cell :=
  [($"Notes", []);
   ($"Tables", [map CText [$"Database"; $"Schema"; $"Table"; $"Updated"; $"Update Type"; $"# Rows"; $"# Columns"; $"Primary Key"; $"Shard Key"; $"# Shards"; $"RLS Column"];
                map CText [$"d"; $"s"; $"u"]; map CText [$"d"; $"s"; $"t"]; map CText []; map CText [$"d"; $"s2"; $"u"; []; []; []; []; $" a , b"]]);
   ($"Columns", [map CText [$"Type"; $"Name"; $"Database"; $"Schema"; $"Table"; $"Column"];
                 map CText [$"INT"; $"a"; $"d"; []; $"u"]; map CText [$"DATE"; $"b"; $"d"; []; $"u"]; map CText [$"BOOL"; $"a"; $"d"; []; $"t"]; map CText [$"BIGINT"; $"a"; $"d"; []; $"u"]]);
   ($"Foreign Keys", [map CText [$"Name"; $"Database"; $"Schema"; $"From Table"; $"From Columns"; $"To Table"; $"To Columns"]; map CText [$"k"; $"d"; []; $"u"; $"a, b"; $"t"; $"a,c"]]);
   ($"Relationships", [map CText [$"Name"; $"Database"; $"Schema"; $"From Table"; $"To Table"; $"Conditions"]; map CText [$"n"; $"d"; []; $"u"; $"t"; $"(u.a = t.a)"]])].
Lemma column_unique w s c x y : column_is w s c x -> column_is w s c y -> x = y.
Proof. intros [h [rows [i [E [N [U ->]]]]]] [h' [rows' [i' [E' [N' [_ ->]]]]]]. rewrite E in E'. injection E' as <- <-. rewrite (U i' N'). reflexivity. Qed.
Example C107_case : complete_book written_book /\ texts_only written_book /\ sound_book written_book
  /\ exists d u t, read_xls 0 [] written_book = Ok ([($"d", d)], []) /\ db_iter d = [u; t] /\ t_name u = $"u" /\ t_name t = $"t"
       /\ table_iter u = [{| column_name := $"a"; column_type := $"BIGINT" |}; {| column_name := $"b"; column_type := $"DATE" |}]
       /\ foreign_keys_iter u = [{| fk_name := $"k"; fk_from_table := $"u"; fk_from_keys := [$"a"; $"b"]; fk_to_table := $"t"; fk_to_keys := [$"a"; $"c"] |}]
       /\ relationships_iter u = [{| rel_name := $"REL_u_to_t"; rel_from_table := $"u"; rel_to_table := $"t"; rel_conditions := $"(u.a = t.a)" |}].
Proof.
  assert (C : complete_book written_book).
  { intros s c Q. assert (X : exists cells, column_b written_book s c = Some cells); [|destruct X as [cells X]; exists cells; apply column_b_ok, X].
    destruct Q as [cols [I J]]. repeat (destruct I as [I|I]; [apply pair_equal_spec in I; destruct I as [<- <-]; repeat (destruct J as [<-|J]; [eexists; vm_compute; reflexivity|]); destruct J|]). destruct I. }
  assert (X : texts_only written_book).
  { assert (Y : forall s c cells, column_b written_book s c = Some cells -> forall k x, holds written_book s k c x -> In x cells).
    { intros s c cells B k x [cells' [A N]]. rewrite (column_unique _ _ _ _ _ (column_b_ok _ _ _ _ B) A). exact (nth_error_In _ _ N). }
    split.
    - intros s cols c k x I J H. assert (Z : exists cells, column_b written_book s c = Some cells /\ forallb (fun a => match a with CText _ => true | CNum _ => false end) cells = true).
      { repeat (destruct I as [I|I]; [apply pair_equal_spec in I; destruct I as [<- <-]; repeat (destruct J as [<-|J]; [eexists; split; vm_compute; reflexivity|]); destruct J|]). destruct I. }
      destruct Z as [cells [B F]]. specialize (Y _ _ _ B _ _ H). rewrite forallb_forall in F. specialize (F x Y). destruct x as [a|z]; [eauto|discriminate].
    - intros k x H. specialize (Y ($"Tables") ($"# Shards") (repeat (CText []) 4) ltac:(vm_compute; reflexivity) k x H). apply repeat_spec in Y. left. exact Y. }
  split; [exact C|]. split; [exact X|].
  assert (R : exists d u t, read_xls 0 [] written_book = Ok ([($"d", d)], []) /\ db_iter d = [u; t] /\ t_name u = $"u" /\ t_name t = $"t"
       /\ table_iter u = [{| column_name := $"a"; column_type := $"BIGINT" |}; {| column_name := $"b"; column_type := $"DATE" |}]
       /\ foreign_keys_iter u = [{| fk_name := $"k"; fk_from_table := $"u"; fk_from_keys := [$"a"; $"b"]; fk_to_table := $"t"; fk_to_keys := [$"a"; $"c"] |}]
       /\ relationships_iter u = [{| rel_name := $"REL_u_to_t"; rel_from_table := $"u"; rel_to_table := $"t"; rel_conditions := $"(u.a = t.a)" |}]).
  { eexists _, _, _. split; [vm_compute; reflexivity|]. split; [vm_compute; reflexivity|]. repeat split; vm_compute; reflexivity. }
  split; [|exact R]. apply (C107_reads 0 written_book C X). destruct R as [d [u [t [E _]]]]. eexists _, _. exact E.
Qed.
(** workbooks that are not read: an unknown type, keys of different lengths, a relationship of an unknown table *)
Example C107_reads_case :
  let columns l := dset ($"Columns") [map CText [$"Type"; $"Name"; $"Database"; $"Schema"; $"Table"; $"Column"]; map CText l] written_book in
  let fks l := dset ($"Foreign Keys") [map CText [$"Name"; $"Database"; $"Schema"; $"From Table"; $"From Columns"; $"To Table"; $"To Columns"]; map CText l] written_book in
  let rels l := dset ($"Relationships") [map CText [$"Name"; $"Database"; $"Schema"; $"From Table"; $"To Table"; $"Conditions"]; map CText l] written_book in
  read_xls 0 [] (columns [$"BLOB"; $"a"; $"d"; []; $"u"]) = Err ValueError
  /\ (exists dbs, read_xls 0 [] (columns [$"BLOB"; $"a"; $"d"; []; $"v"]) = Ok (dbs, [UnknownTable ($"Columns") ($"v")]))
  /\ read_xls 0 [] (fks [$"k"; $"d"; []; $"u"; $"a, b"; $"t"; $"a"]) = Err ValueError
  /\ read_xls 0 [] (rels [$"n"; $"d"; []; $"v"; $"t"; []]) = Err AttributeError
  /\ (exists dbs, read_xls 0 [] (rels [$"n"; $"e"; []; $"v"; $"t"; []]) = Ok (dbs, [UnknownDatabase ($"Relationships") ($"e")])).
Proof. cbv zeta. repeat split; try (eexists; vm_compute; reflexivity); vm_compute; reflexivity. Qed.
