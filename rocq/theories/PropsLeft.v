(** * C111: what an Excel reader holds after a read that raised *)
From Verif Require Import StrFacts ExcelMore PropsExcel PropsContents PropsAgain AgainFacts.
From Coq Require Import List Lia. Import ListNotations.

(** The two models of [read_xls] agree: on what is returned and on what is raised. *)
Theorem C111_same : forall base dbs wb,
  match read_xls base dbs wb with
  | Ok (dbs', _) => xls_left base dbs wb = (dbs', None)
  | Err e => exists dbs', xls_left base dbs wb = (dbs', Some e)
  end.
Proof.
  intros base dbs wb. pose proof (xls_same base dbs wb) as X. destruct (xls_left base dbs wb) as [d [e|]]; unfold agree in X; [rewrite X; exists d; reflexivity|destruct X as [ms ->]; reflexivity].
Qed.
Print Assumptions C111_same.

(** A read that raised leaves what a read without an exception would have left of the same workbook with
    only the rows before the one that raised.  One thing is added when that row is in the sheet Tables and
    names a database that is not there yet: this database, without tables.  [TypeError] stands in the
    model for what is outside it. *)
Theorem C111_failed : forall base dbs wb dbs' e, complete_book wb -> xls_left base dbs wb = (dbs', Some e) ->
  exists k i dbs1 ms, k < 4 /\ read_xls base dbs (cut_book k i wb) = Ok (dbs1, ms) /\ read_xls base dbs (cut_book k (S i) wb) = Err e
    /\ ((dbs' = dbs1 /\ (k = 0 -> forall b, ~ names_new wb i dbs1 b))
        \/ (k = 0 /\ exists b, names_new wb i dbs1 b /\ dbs' = dbs1 ++ [(b, empty_database b)])).
Proof.
  intros base dbs wb dbs' e T E. pose proof (complete_format _ T) as F. destruct (left_cases _ _ _ _ _ E) as [[B _]|[_ [k [i [dbs1 [K [A [A' S]]]]]]]].
  { exfalso. apply blank_iff in B. apply format_ok_missing in F. destruct B as [s [I D]]. exact (proj1 F s I D). }
  destruct (left_ok _ _ _ _ A) as [ms R]. apply left_err in A'. exists k, i, dbs1, ms. split; [exact K|]. split; [exact R|]. split; [exact A'|]. destruct k as [|k]; [|left; split; [exact S|discriminate]].
  destruct S as [h [rows [row [D [N ->]]]]]. assert (Rq : required ($"Tables") ($"Database")) by (apply required_iff; split; [right; left; reflexivity|left; reflexivity]).
  assert (H : forall b, holds wb ($"Tables") i ($"Database") (CText b) <-> get_text h ($"Database") row = Ok b).
  { intros b. rewrite (holds_text wb ($"Tables") i ($"Database") b h rows T Rq D). split; [intros [row' [N' G]]; congruence|intros G; exists row; split; assumption]. }
  destruct (table_row_cases h dbs1 row) as [[-> U]|[b [G [Nb [Db ->]]]]].
  - left. split; [reflexivity|]. intros _ b [Nb [Db Hb]]. apply H in Hb. exact (U b Hb Nb Db).
  - right. split; [reflexivity|]. exists b. split; [|reflexivity]. split; [exact Nb|]. split; [exact Db|]. apply H, G.
Qed.
Print Assumptions C111_failed.

(** Raised before the first row is read, it leaves the reader as it was: a required sheet has no row. *)
Theorem C111_blank : forall base dbs wb, blank_sheet wb -> xls_left base dbs wb = (dbs, Some IndexError).
Proof. intros base dbs wb B. apply blank_iff in B. unfold xls_left. rewrite verify_blank by exact B. reflexivity. Qed.
Print Assumptions C111_blank.
(** So does a workbook that lacks a required sheet or column, which is no exception. *)
Theorem C111_format : forall base dbs wb, ~ format_ok wb -> ~ blank_sheet wb -> xls_left base dbs wb = (dbs, None).
Proof. intros base dbs wb F B. pose proof (C111_same base dbs wb) as X. rewrite read_not_ok in X by assumption. exact X. Qed.
Print Assumptions C111_format.

(** Nothing that was held is lost by a read that raised: the databases held before are held, in the same
    places, and each still has the tables it had. *)
Theorem C111_kept : forall base dbs wb dbs' e, held dbs -> xls_left base dbs wb = (dbs', Some e) ->
  (exists l, dkeys dbs' = dkeys dbs ++ l) /\ forall b d, dget b dbs = Some d -> exists d' l, dget b dbs' = Some d' /\ dkeys (db_tables d') = dkeys (db_tables d) ++ l.
Proof.
  intros base dbs wb dbs' e L E. apply held_orderly in L. destruct (left_cases _ _ _ _ _ E) as [[_ [_ ->]]|[_ [k [i [dbs1 [K [A [_ S]]]]]]]].
  { split; [exists []; rewrite app_nil_r; reflexivity|]. intros b d G. exists d, []. split; [exact G|]. rewrite app_nil_r. reflexivity. }
  destruct (left_ok _ _ _ _ A) as [ms R]. destruct (read_grows base dbs (cut_book k i wb) dbs1 ms L R) as [[l Hl] Ht].
  assert (X : dbs' = dbs1 \/ exists b, dget b dbs1 = None /\ dbs' = dbs1 ++ [(b, empty_database b)]).
  { destruct k as [|k]; [|left; exact S]. destruct S as [h [rows [row [_ [_ ->]]]]]. destruct (table_row_cases h dbs1 row) as [[-> _]|[b [_ [_ [Db ->]]]]]; [left; reflexivity|right; exists b; split; [exact Db|reflexivity]]. }
  destruct X as [->|[b [Db ->]]]; [split; [exists l; exact Hl|exact Ht]|]. split.
  - exists (l ++ [b]). unfold dkeys in *. rewrite map_app, Hl, <- app_assoc. reflexivity.
  - intros x d G. destruct (Ht x d G) as [d' [l' [G' Hd]]]. exists d', l'. split; [|exact Hd]. assert (Q : ~ In b (dkeys dbs1)) by (intros I; apply dget_in in I; destruct I as [v I]; congruence). rewrite <- (dset_new b (empty_database b) dbs1 Q), dget_dset. destruct (str_eqb_spec x b) as [->|_]; [congruence|exact G'].
Qed.
Print Assumptions C111_kept.

(** ** What one would expect and does not hold *)
(** The workbook of C107 with a type that is none in the last row of the sheet Columns *)
Definition faulty_book : workbook cell :=
  dset ($"Columns") [map CText [$"Type"; $"Name"; $"Database"; $"Schema"; $"Table"; $"Column"]; map CText [$"INT"; $"a"; $"d"; []; $"u"]; map CText [$"NUMBER"; $"b"; $"d"; []; $"u"]; map CText [$"BOOL"; $"a"; $"d"; []; $"t"]] written_book.
(** The first table row of a new database has a number as its primary key *)
Definition numbered_book : workbook cell :=
  dset ($"Tables") [map CText [$"Database"; $"Schema"; $"Table"; $"Updated"; $"Update Type"; $"# Rows"; $"# Columns"; $"Primary Key"; $"Shard Key"; $"# Shards"; $"RLS Column"];
                    map CText [$"d"; $"s"; $"u"]; map CText [$"e"; $"s"; $"v"; []; []; []; []] ++ [CNum 3]] written_book.
(** A read that raises may leave tables and databases behind. *)
Theorem C111_unchanged_refuted : ~ forall base dbs wb dbs' e, held dbs -> complete_book wb -> e <> TypeError -> xls_left base dbs wb = (dbs', Some e) -> dbs' = dbs.
Proof.
  intros H. assert (C : complete_book faulty_book).
  { intros s c Q. assert (X : exists cells, column_b faulty_book s c = Some cells); [|destruct X as [cells X]; exists cells; apply column_b_ok, X].
    destruct Q as [cols [I J]]. repeat (destruct I as [I|I]; [apply pair_equal_spec in I; destruct I as [<- <-]; repeat (destruct J as [<-|J]; [eexists; vm_compute; reflexivity|]); destruct J|]). destruct I. }
  specialize (H 0 [] faulty_book (fst (xls_left 0 [] faulty_book)) ValueError held_nothing C). assert (X : fst (xls_left 0 [] faulty_book) = []) by (apply H; [discriminate|vm_compute; reflexivity]). vm_compute in X. discriminate.
Qed.
Print Assumptions C111_unchanged_refuted.
(** What is returned is the reader's own dictionary: it changes when the reader goes on, also when this
    raises.  [results_show] says what everything returned by one reader shows in the end. *)
Theorem C111_result_refuted : ~ forall base wb1 wb2 dbs1 ms, complete_book wb1 -> complete_book wb2 -> read_xls base [] wb1 = Ok (dbs1, ms) -> results_show base [wb1; wb2] [] = dbs1.
Proof.
  intros H. assert (C : complete_book numbered_book).
  { intros s c Q. assert (X : exists cells, column_b numbered_book s c = Some cells); [|destruct X as [cells X]; exists cells; apply column_b_ok, X].
    destruct Q as [cols [I J]]. repeat (destruct I as [I|I]; [apply pair_equal_spec in I; destruct I as [<- <-]; repeat (destruct J as [<-|J]; [eexists; vm_compute; reflexivity|]); destruct J|]). destruct I. }
  specialize (H 0 written_book numbered_book). destruct C107_case as [W _]. destruct (read_xls 0 [] written_book) as [[dbs1 ms]|e] eqn:E; [|vm_compute in E; discriminate]. specialize (H dbs1 ms W C eq_refl). apply (f_equal dkeys) in H.
  assert (D : dkeys dbs1 = [$"d"]) by (assert (Q : match read_xls 0 [] written_book with Ok (d, _) => dkeys d | Err _ => [] end = [$"d"]) by (vm_compute; reflexivity); rewrite E in Q; exact Q). rewrite D in H. vm_compute in H. discriminate.
Qed.
Print Assumptions C111_result_refuted.
(** Everything returned shows what the reader holds, and the theorems of C108 are about that, however many
    of the reads raised. *)
Theorem C111_results : forall base books dbs, held dbs ->
  (forall l wb r, books = l ++ wb :: r -> snd (xls_left base (results_show base l dbs) wb) <> Some TypeError) -> held (results_show base books dbs).
Proof.
  intros base books. induction books as [|wb books IH]; intros dbs L H; [exact L|]. cbn [results_show]. apply IH; [|intros l x r E; specialize (H (wb :: l) x r); cbn [results_show] in H; apply H; rewrite E; reflexivity].
  specialize (H [] wb books eq_refl). cbn [results_show] in H. destruct (xls_left base dbs wb) as [d [e|]] eqn:E; cbn [fst snd] in *; [apply (held_failed base dbs wb d e L E); congruence|]. destruct (left_ok _ _ _ _ E) as [ms R]. exact (held_read base dbs wb d ms L R).
Qed.
Print Assumptions C111_results.

(** ** Cases *)
(** The sheet Columns raises in its second row: the tables are there, one of them with a column *)
Example C111_case : exists dbs' dbs1 ms d u t, xls_left 0 [] faulty_book = (dbs', Some ValueError) /\ held dbs'
  /\ read_xls 0 [] (cut_book 1 1 faulty_book) = Ok (dbs1, ms) /\ dbs' = dbs1 /\ dget ($"d") dbs' = Some d /\ db_iter d = [u; t] /\ get_column_names u = [$"a"] /\ get_column_names t = [].
Proof.
  eexists _, _, _, _, _, _. split; [vm_compute; reflexivity|]. split; [apply (held_failed 0 [] faulty_book _ ValueError); [apply held_nothing|vm_compute; reflexivity|discriminate]|]. split; [vm_compute; reflexivity|]. repeat (split; [vm_compute; reflexivity|]). vm_compute. reflexivity.
Qed.
(** The sheet Tables raises in its second row: its database is there, without the table *)
Example C111_database_case : exists dbs' dbs1 ms, xls_left 0 [] numbered_book = (dbs', Some AttributeError) /\ read_xls 0 [] (cut_book 0 1 numbered_book) = Ok (dbs1, ms)
  /\ names_new numbered_book 1 dbs1 ($"e") /\ dbs' = dbs1 ++ [($"e", empty_database ($"e"))] /\ dkeys dbs' = [$"d"; $"e"].
Proof.
  eexists _, _, _. split; [vm_compute; reflexivity|]. split; [vm_compute; reflexivity|]. split.
  - split; [discriminate|]. split; [vm_compute; reflexivity|]. eexists. split; [apply column_b_ok; vm_compute; reflexivity|reflexivity].
  - split; vm_compute; reflexivity.
Qed.
