(** * C106: what convert_ddl says about a workbook *)
From Verif Require Import StrFacts ExcelMore SilentFacts PropsCli PropsCliFail PropsExcel PropsDetails PropsSilent PropsSheet BookFacts.
From Verif Require Import ExcelTalk.
From Coq Require Import List Lia. Import ListNotations.

Lemma book_starts H message a st w : reads_book a st w -> exists st1,
  read_step H message a (emit (Namespace (convert_namespace a)) st)
  = (let '(r, ms) := heard_xls (objects st) [] w in
     match r with
     | Err e => (st1, Err e)
     | Ok dbs => match dvals dbs with
                 | [] => (_ <-- eprint ($"ERROR:  No databases read.") ;; done None) st1
                 | d :: l => (_ <-- (match l with [] => done tt | _ => eprint ($"WARNING:  multiple databases read.  Only using " ++ db_name d) end) ;; done (Some d)) st1
                 end
     end)
  /\ err st1 = err st ++ map line (map message (snd (heard_xls (objects st) [] w))).
Proof.
  intros [CA [NV [GD [GX F]]]]. unfold read_step. rewrite (proj2 (given_false _) GD), (proj2 (given_iff _) GX). unfold then_ at 1, print, read_excel. destruct (given_text _ GX) as [-> _].
  unfold then_ at 1. rewrite (read_book_is H message _ w); [|exact F]. rewrite ?objects_emit. destruct (heard_xls (objects st) [] w) as [[dbs|e] ms]; cbn [snd].
  - destruct (dvals dbs); eexists; (split; [reflexivity|reflexivity]).
  - eexists. split; reflexivity.
Qed.

(** The reader's messages are the first lines on standard error, whatever happens then, also when
    reading the workbook itself fails. *)
Theorem C106_first : forall H a st w, reads_book a st w -> told (book_complaints (objects st) w) st (fst (convert H xls_text a st)).
Proof.
  intros H a st w RB. destruct (book_starts H xls_text a st w RB) as [st1 [R E]]. destruct RB as [CA [NV _]]. rewrite (convert_starts H xls_text a st CA NV). unfold then_ at 1. rewrite R. unfold book_complaints. clear R.
  destruct (heard_xls (objects st) [] w) as [[dbs|e] ms]; cbn [snd] in *; [|exists []; cbn [fst]; rewrite app_nil_r; exact E].
  assert (G : forall d : option database, grows (
      _ <-- when (validate_option a) (validate_step d) ;;
      _ <-- when (given (to_tql a)) (_ <-- print ($"Writing TQL ...") ;; write_tql_of H (case_of a) (create_db a) d (to_tql a)) ;;
      _ <-- when (given (to_excel a)) (_ <-- print ($"Writing Excel ...") ;; write_excel H a d) ;;
      when (given (to_ts a)) (_ <-- print ($"Writing to ThoughtSpot ...") ;; write_to_ts H a d))).
  { intros d. apply grows_then; [apply grows_when, grows_validate|]. intros _. apply grows_then; [apply grows_when, grows_then; [apply grows_print|intros _; apply grows_perform]|]. intros _.
    apply grows_then; [apply grows_when, grows_then; [apply grows_print|intros _; apply grows_excel]|]. intros _. apply grows_when, grows_then; [apply grows_print|intros _; apply grows_ts]. }
  destruct (dvals dbs) as [|d l].
  - unfold then_ at 1, eprint, done. match goal with |- told _ _ (fst (_ ?s)) => destruct (G None s) as [m M] end. eexists. rewrite M. cbn [err]. rewrite E, <- !app_assoc. reflexivity.
  - destruct l as [|d' l].
    + unfold then_ at 1, done. destruct (G (Some d) st1) as [m M]. eexists. rewrite M, E, <- !app_assoc. reflexivity.
    + unfold then_ at 1, eprint, done. match goal with |- told _ _ (fst (_ ?s)) => destruct (G (Some d) s) as [m M] end. eexists. rewrite M. cbn [err]. rewrite E, <- !app_assoc. reflexivity.
Qed.
Print Assumptions C106_first.

(** Which lines: one for every half shard key, for every row about a database the sheet Tables does not
    name, and for every row about a table it does not name; nothing else. *)
Theorem C106_lines : forall base w dbs ms, complete_book w -> read_xls base [] w = Ok (dbs, ms) ->
  forall l, In l (book_complaints base w) <->
    (exists n, l = half_shard_key n /\ half_described w n)
    \/ (exists sheet b, In sheet [$"Columns"; $"Foreign Keys"; $"Relationships"] /\ l = no_database sheet b /\ row_in w sheet b /\ ~ database_described w b)
    \/ (exists sheet b n, In sheet [$"Columns"; $"Foreign Keys"] /\ l = no_table sheet n /\ row_about w sheet b n /\ database_described w b /\ ~ table_described w b n).
Proof.
  intros base w dbs ms T E l. destruct (read_says base w dbs ms T E) as [S _]. unfold book_complaints. apply heard_ok in E. rewrite E. cbn [snd]. rewrite in_map_iff. split.
  - intros [m [<- I]]. apply S in I. destruct I as [[n [-> X]]|[[sheet [b [Is [-> X]]]]|[sheet [b [n [Is [-> X]]]]]]]; [left; exists n|right; left; exists sheet, b|right; right; exists sheet, b, n]; (split; [|]); try assumption; try reflexivity; (split; [reflexivity|exact X]).
  - intros [[n [-> X]]|[[sheet [b [Is [-> X]]]]|[sheet [b [n [Is [-> X]]]]]]]; [exists (NeedBoth n)|exists (UnknownDatabase sheet b)|exists (UnknownTable sheet n)]; (split; [reflexivity|]); apply S; [left; exists n|right; left; exists sheet, b|right; right; exists sheet, b, n]; (split; [|]); try assumption; try reflexivity; (split; [reflexivity|exact X]).
Qed.
Print Assumptions C106_lines.

(** A workbook without the required sheets and columns: the tool names what is missing, says that no
    database was read, and nothing else is on standard error. *)
Theorem C106_incomplete : forall H a st w, reads_book a st w -> ~ format_ok w -> ~ blank_sheet w -> exists ls,
  err (fst (convert H xls_text a st)) = err st ++ map line (ls ++ [$"ERROR:  No databases read."]) /\ ls <> []
  /\ forall l, In l ls <-> (exists sheet col, required sheet col /\ ~ has_sheet w sheet /\ l = no_sheet sheet)
                           \/ (exists sheet col, required sheet col /\ has_sheet w sheet /\ ~ has_header w sheet col /\ l = no_column col sheet).
Proof.
  intros H a st w [CA [NV [GD [GX F]]]] NF NB. destruct (C51_incomplete (objects st) [] w NF NB) as [ms [R [N [S1 [S2 S3]]]]]. exists (map xls_text ms).
  split; [exact (C80_no_database H xls_text a st w ms CA NV GD GX F R)|]. split; [intros X; apply map_eq_nil in X; contradiction|]. intros l. rewrite in_map_iff. split.
  - intros [m [<- I]]. destruct (S3 m I) as [[s ->]|[c [s ->]]]; [left; apply S1 in I; destruct I as [[c R'] X]; exists s, c; split; [exact R'|split; [exact X|reflexivity]]|].
    right. apply S2 in I. destruct I as [R' [X Y]]. exists s, c. split; [exact R'|]. split; [exact X|]. split; [exact Y|reflexivity].
  - intros [[s [c [R' [X ->]]]]|[s [c [R' [X [Y ->]]]]]]; [exists (MissingSheet s)|exists (MissingColumn c s)]; (split; [reflexivity|]); [apply S1; split; [exists c; exact R'|exact X]|apply S2; split; [exact R'|split; assumption]].
Qed.
Print Assumptions C106_incomplete.

(** A row of the sheet Relationships about a table that the sheet Tables does not name, in a database
    that it names, ends the tool: the line about the table is the last one. *)
Theorem C106_relationship : forall H a st w w' h pre row post dbs ms b n, reads_book a st w' ->
  dget ($"Relationships") w = Some (h :: pre) -> w' = dset ($"Relationships") (h :: pre ++ row :: post) w ->
  read_xls (objects st) [] w = Ok (dbs, ms) -> format_ok w ->
  cell_in h row ($"Database") (CText b) -> cell_in h row ($"From Table") (CText n) -> ~ knows_table dbs b n -> dget b dbs <> None ->
  exists st', convert H xls_text a st = (st', Err AttributeError)
    /\ err st' = err st ++ map line (map xls_text ms ++ [no_table ($"Relationships") n]).
Proof.
  intros H a st w w' h pre row post dbs ms b n RB Ds W E F Cb Cn K Kd.
  assert (Q : heard_xls (objects st) [] w' = (Err AttributeError, ms ++ [UnknownTable ($"Relationships") n])).
  { subst w'. clear RB. pose proof (C52_refuted (objects st) [] w h pre row post dbs ms b n Ds E F Cb Cn K Kd) as X. apply heard_err in X. destruct X as [ms' X]. rewrite X. f_equal.
    assert (F' : format_ok (dset ($"Relationships") (h :: pre ++ row :: post) w)).
    { revert F. apply format_same_headers. intros s _. destruct (str_eqb_spec s ($"Relationships")) as [->|N]; [rewrite Ds, dget_dset, str_eqb_refl; reflexivity|]. rewrite dset_sheet by exact N. destruct (dget s w) as [[|x y]|]; auto. }
    assert (V : forall w0, format_ok w0 -> heard_sheets w0 required_sheets true = (Ok true, [])).
    { intros w0 F0. pose proof (heard_sheets_same w0 required_sheets [] true) as V. apply format_ok_missing in F0. destruct F0 as [B0 M0]. rewrite (verify_ok w0 required_sheets [] true B0), M0 in V. destruct (heard_sheets w0 required_sheets true) as [[v|e] m]; cbn [following bind app no_messages andb] in V; [|discriminate]. injection V as <- <-. reflexivity. }
    apply heard_ok in E. unfold heard_xls in E, X. rewrite (V _ F) in E. rewrite (V _ F') in X. cbn [hears] in E, X.
    assert (E' : heard_databases (objects st) w [] = (Ok dbs, ms)) by (destruct (heard_databases (objects st) w []) as [r0 m0]; exact E).
    assert (X' : heard_databases (objects st) (dset ($"Relationships") (h :: pre ++ row :: post) w) [] = (Err AttributeError, ms')) by (destruct (heard_databases (objects st) (dset _ _ w) []) as [r0 m0]; exact X).
    clear E X V. unfold heard_databases, sheet_parts in E', X'. rewrite !dset_sheet in X' by discriminate. rewrite dget_dset, str_eqb_refl in X'. rewrite Ds in E'.
    destruct (dget ($"Tables") w) as [[|h1 r1]|]; try discriminate. cbn [hush hears] in E', X'. destruct (heard_rows (heard_table_row h1) (objects st) r1 []) as [[b1|e] m1]; cbn [hears] in E', X'; [|discriminate].
    destruct (dget ($"Columns") w) as [[|h2 r2]|]; try discriminate. cbn [hush hears] in E', X'. destruct (heard_rows (heard_column_row h2) (objects st) r2 b1) as [[b2|e] m2]; cbn [hears] in E', X'; [|discriminate].
    destruct (dget ($"Foreign Keys") w) as [[|h3 r3]|]; try discriminate. cbn [hush hears] in E', X'. destruct (heard_rows (heard_fk_row h3) (objects st) r3 b2) as [[b3|e] m3]; cbn [hears] in E', X'; [|discriminate].
    assert (P : forall l id d0 d1 m, heard_rows (heard_rel_row h) id l d0 = (Ok d1, m) -> status d1 b n = Some false -> exists l', heard_rows (heard_rel_row h) id (l ++ row :: post) d0 = (Err AttributeError, m ++ [UnknownTable ($"Relationships") n]) /\ l' = tt).
    { induction l as [|r0 l IH]; intros id d0 d1 m Z St; cbn [app heard_rows] in *.
      - apply pair_equal_spec in Z. destruct Z as [Z <-]. assert (d0 = d1) by congruence. subst d1. exists tt. split; [|reflexivity]. unfold heard_rel_row at 1, heard_on. rewrite (cell_in_text _ _ _ _ Cb). cbn [hush hears]. unfold status in St. destruct (dget b d0) as [d|]; [|discriminate]. rewrite (cell_in_text _ _ _ _ Cn). cbn [hush hears]. destruct (get_table d n); [discriminate|]. reflexivity.
      - destruct (heard_rel_row h id d0 r0) as [[d'|e] m']; cbn [hears] in *; [|discriminate]. destruct (heard_rows (heard_rel_row h) (S id) l d') as [r1' m1'] eqn:Z1. apply pair_equal_spec in Z. destruct Z as [-> <-]. destruct (IH _ _ _ _ Z1 St) as [l' [Z2 _]]. exists tt. split; [|reflexivity]. rewrite Z2, app_assoc. reflexivity. }
    destruct (heard_rows (heard_rel_row h) (objects st) pre b3) as [r4 m4] eqn:Z4. apply pair_equal_spec in E'. destruct E' as [-> Em].
    assert (St : status dbs b n = Some false) by (rewrite status_knows in K; unfold status in *; destruct (dget b dbs) as [d|]; [|contradiction]; destruct (get_table d n); [exfalso; apply K; reflexivity|reflexivity]).
    destruct (P _ _ _ _ _ Z4 St) as [_ [Z5 _]]. rewrite Z5 in X'. apply pair_equal_spec in X'. destruct X' as [_ <-]. rewrite <- Em, !app_assoc. reflexivity. }
  destruct (book_starts H xls_text a st w' RB) as [st1 [R E1]]. rewrite Q in R, E1. cbn [snd] in E1. destruct RB as [CA [NV _]]. rewrite (convert_starts H xls_text a st CA NV). unfold then_ at 1. rewrite R. exists st1. split; [reflexivity|]. rewrite E1, map_app. reflexivity.
Qed.
Print Assumptions C106_relationship.

(** Silence is a guarantee: if the tool ends normally and nothing was added to standard error, the
    workbook had the required sheets and columns and exactly one database, and every row of the other
    sheets was about a table that the sheet Tables names. *)
Theorem C106_silent : forall H a st st' w, reads_book a st w -> convert H xls_text a st = (st', Ok tt) -> err st' = err st ->
  format_ok w /\ exists b d, read_xls (objects st) [] w = Ok ([(b, d)], [])
    /\ (complete_book w -> (forall n, ~ half_described w n)
          /\ forall sheet b', In sheet [$"Columns"; $"Foreign Keys"; $"Relationships"] -> row_in w sheet b' -> b' = b
               /\ forall n, row_about w sheet b' n -> table_described w b n).
Proof.
  intros H a st st' w RB E Q. pose proof (C106_first H a st w RB) as T. rewrite E in T. apply told_nothing in T; [|exact Q]. unfold book_complaints in T. apply map_eq_nil in T.
  destruct (book_starts H xls_text a st w RB) as [st1 [R E1]]. pose proof RB as [CA [NV [GD [GX F]]]]. rewrite T, app_nil_r in E1.
  assert (X : exists b d, read_xls (objects st) [] w = Ok ([(b, d)], [])).
  { destruct (heard_xls (objects st) [] w) as [[dbs|e] ms] eqn:Eh; cbn [snd] in T; subst ms.
    - apply heard_ok in Eh. destruct dbs as [|[b d] [|x l]].
      + pose proof (C80_no_database H xls_text a st w [] CA NV GD GX F Eh) as Z. rewrite E in Z. cbn [fst map app] in Z. rewrite Q in Z. rewrite <- (app_nil_r (err st)) in Z at 1. apply app_inv_head in Z. discriminate.
      + exists b, d. exact Eh.
      + exfalso. rewrite (convert_starts H xls_text a st CA NV) in E. unfold then_ at 1 in E. rewrite R in E. cbn [dvals map fst snd] in E. unfold then_ at 1, eprint, done in E.
        match type of E with ?m ?s = _ => assert (G : grows m) end.
        { apply grows_then; [apply grows_when, grows_validate|]. intros _. apply grows_then; [apply grows_when, grows_then; [apply grows_print|intros _; apply grows_perform]|]. intros _.
          apply grows_then; [apply grows_when, grows_then; [apply grows_print|intros _; apply grows_excel]|]. intros _. apply grows_when, grows_then; [apply grows_print|intros _; apply grows_ts]. }
        match type of E with ?m ?s = _ => destruct (G s) as [k Z] end. rewrite E in Z. cbn [fst err] in Z. rewrite Q, E1, <- app_assoc in Z. rewrite <- (app_nil_r (err st)) in Z at 1. apply app_inv_head in Z. discriminate.
    - exfalso. rewrite (convert_starts H xls_text a st CA NV) in E. unfold then_ at 1 in E. rewrite R in E. discriminate. }
  destruct X as [b [d X]]. split.
  - destruct (read_ok_format _ _ _ _ _ X) as [Y|[Y Z]]; [exact Y|]. destruct (C51_incomplete (objects st) [] w Y Z) as [ms [R' [N _]]]. rewrite X in R'. congruence.
  - exists b, d. split; [exact X|]. intros CB. destruct (read_says _ _ _ _ CB X) as [S1 S2]. split; [intros n Hn; apply (proj2 (S1 (NeedBoth n))); left; exists n; split; [reflexivity|exact Hn]|].
    destruct (described_known _ _ _ _ CB X) as [U1 U2].
    assert (D : forall b', database_described w b' -> b' = b) by (intros b' Db; apply U1 in Db; cbn [dget] in Db; destruct (str_eqb_spec b' b) as [Z|_]; [exact Z|contradiction]).
    assert (Dec : forall b', database_described w b' \/ ~ database_described w b') by (intros b'; rewrite U1; destruct (dget b' [(b, d)]); [left; discriminate|right; intros Z; apply Z; reflexivity]).
    intros sheet b' Is Ri. assert (Db : database_described w b').
    { destruct (Dec b') as [Y|Y]; [exact Y|]. exfalso. apply (proj2 (S1 (UnknownDatabase sheet b'))). right. left. exists sheet, b'. split; [exact Is|]. split; [reflexivity|]. split; assumption. }
    split; [exact (D b' Db)|]. intros n Rn. rewrite <- (D b' Db).
    assert (Y : In sheet [$"Columns"; $"Foreign Keys"] -> table_described w b' n).
    { intros Is'. destruct (known_dec [(b, d)] b' n) as [Y|Y]; rewrite <- U2 in Y; [exact Y|]. exfalso. apply (proj2 (S1 (UnknownTable sheet n))). right. right. exists sheet, b', n. split; [exact Is'|]. split; [reflexivity|]. split; [exact Rn|]. split; assumption. }
    destruct Is as [<-|[<-|[<-|[]]]]; [apply Y; left; reflexivity|apply Y; right; left; reflexivity|exact (S2 b' n Rn Db)].
Qed.
Print Assumptions C106_silent.
(** the workbook with one row too many in two sheets, and a table with half a shard key *)
Definition lossy_book : workbook cell :=
  dset ($"Columns") [map CText [$"Database"; $"Schema"; $"Table"; $"Column"; $"Name"; $"Type"]; map CText [$"d"; $"s"; $"t"; $"1"; $"a"; $"BIGINT"]; map CText [$"d"; $"s"; $"u"; $"1"; $"b"; $"BIGINT"]]
  (dset ($"Foreign Keys") [map CText [$"Name"; $"Database"; $"Schema"; $"From Table"; $"From Columns"; $"To Table"; $"To Columns"]; map CText [$"f"; $"x"; $"s"; $"t"; $"a"; $"t"; $"a"]]
  (dset ($"Tables") [map CText [$"Database"; $"Schema"; $"Table"; $"Updated"; $"Update Type"; $"# Rows"; $"# Columns"; $"Primary Key"; $"Shard Key"; $"# Shards"; $"RLS Column"];
    map CText [$"d"; $"s"; $"t"; []; []; []; []; []; $"a"; []; []]] plain_book)).
Definition with_book (w : workbook cell) : Cli.state := {| files := fun n => if str_eqb n ($"m.xlsx") then Some (Book w) else None; out := []; err := []; sent := []; objects := 0 |}.
Example C106_case : reads_book from_book (with_book lossy_book) lossy_book /\ complete_book lossy_book
  /\ half_described lossy_book ($"t") /\ row_about lossy_book ($"Columns") ($"d") ($"u") /\ row_in lossy_book ($"Foreign Keys") ($"x")
  /\ (exists st', convert PropsCli.quiet xls_text from_book (with_book lossy_book) = (st', Ok tt)
        /\ err st' = map line [$"ERROR:  t need to provide both a shard key name and number of shards.";
                               $"ERROR:  Table u from the Columns tab is not known."; $"ERROR:  Database x from the Foreign Keys tab is not known."])
  /\ reads_book from_book (with_book plain_book) plain_book /\ complete_book plain_book
  /\ (exists st', convert PropsCli.quiet xls_text from_book (with_book plain_book) = (st', Ok tt) /\ err st' = []).
Proof.
  assert (A : convert_accepts from_book) by (split; [right; right; right; left; discriminate|intros [E|E]; destruct (E eq_refl)]).
  assert (R : forall w, reads_book from_book (with_book w) w) by (intros w; split; [exact A|]; split; [reflexivity|]; split; [intros E; apply E; reflexivity|]; split; [discriminate|reflexivity]).
  assert (C : forall w, (forall s c, required s c -> exists cells, column_b w s c = Some cells) -> complete_book w) by (intros w X s c Q; destruct (X s c Q) as [cells Y]; exists cells; apply column_b_ok, Y).
  assert (X : forall s c, required s c -> (exists cells, column_b lossy_book s c = Some cells) /\ exists cells, column_b plain_book s c = Some cells).
  { intros s c [cols [I J]]. repeat (destruct I as [I|I]; [apply pair_equal_spec in I; destruct I as [<- <-]; repeat (destruct J as [<-|J]; [split; eexists; vm_compute; reflexivity|]); destruct J|]). destruct I. }
  assert (O : forall w s k c x cells, column_b w s c = Some cells -> nth_error cells k = Some x -> holds w s k c x) by (intros w s k c x cells Y Z; exists cells; split; [apply column_b_ok, Y|exact Z]).
  split; [apply R|]. split; [apply C; intros s c Q; apply (X s c Q)|].
  split; [exists 0, ($"d"), ($"a"), (CText []); split; [eapply O; [vm_compute; reflexivity|reflexivity]|]; split; [discriminate|]; split; [eapply O; [vm_compute; reflexivity|reflexivity]|]; split; [eapply O; [vm_compute; reflexivity|reflexivity]|]; split; [eapply O; [vm_compute; reflexivity|reflexivity]|]; split; [discriminate|intros Q; destruct (Q eq_refl)]|].
  split; [exists 1; split; (eapply O; [vm_compute; reflexivity|reflexivity])|]. split; [exists 0; eapply O; [vm_compute; reflexivity|reflexivity]|].
  split; [eexists; split; [vm_compute; reflexivity|vm_compute; reflexivity]|]. split; [apply R|]. split; [apply C; intros s c Q; apply (X s c Q)|]. eexists. split; vm_compute; reflexivity.
Qed.
Example C106_incomplete_case : reads_book from_book (with_book (ddel ($"Tables") plain_book)) (ddel ($"Tables") plain_book)
  /\ ~ format_ok (ddel ($"Tables") plain_book) /\ ~ blank_sheet (ddel ($"Tables") plain_book)
  /\ exists st', convert PropsCli.quiet xls_text from_book (with_book (ddel ($"Tables") plain_book)) = (st', Err AttributeError)
       /\ err st' = map line [$"Error:  missing sheet Tables!"; $"ERROR:  No databases read."].
Proof.
  split; [split; [split; [right; right; right; left; discriminate|intros [E|E]; destruct (E eq_refl)]|]; split; [reflexivity|]; split; [intros E; apply E; reflexivity|]; split; [discriminate|reflexivity]|].
  split; [apply C51_incomplete_case|]. split; [apply C51_incomplete_case|]. eexists. split; vm_compute; reflexivity.
Qed.
Example C106_relationship_case : exists h row dbs, dget ($"Relationships") plain_book = Some (h :: []) /\ read_xls 0 [] plain_book = Ok (dbs, []) /\ format_ok plain_book
  /\ cell_in h row ($"Database") (CText ($"d")) /\ cell_in h row ($"From Table") (CText ($"u")) /\ ~ knows_table dbs ($"d") ($"u") /\ dget ($"d") dbs <> None
  /\ exists st', convert PropsCli.quiet xls_text from_book (with_book (dset ($"Relationships") [h; row] plain_book)) = (st', Err AttributeError)
       /\ err st' = map line [$"ERROR:  Table u from the Relationships tab is not known."].
Proof.
  eexists _, (map CText [$"r"; $"d"; $"s"; $"u"; $"t"; $"u.a = t.a"]), _. split; [vm_compute; reflexivity|]. split; [vm_compute; reflexivity|]. split; [apply (same_format plain_book other_book), C50_case|].
  split; [apply cell_b; vm_compute; reflexivity|]. split; [apply cell_b; vm_compute; reflexivity|]. split; [rewrite status_knows; vm_compute; discriminate|]. split; [vm_compute; discriminate|]. eexists. split; vm_compute; reflexivity.
Qed.

(** A required sheet without even a header ends the tool; what is missing in the sheets looked at before
    it has been said. *)
Theorem C106_blank : forall H a st w before sheet cols rest, reads_book a st w -> format = before ++ (sheet, cols) :: rest -> dget sheet w = Some [] ->
  (forall s c, In (s, c) before -> dget s w <> Some []) -> exists st' ls,
  convert H xls_text a st = (st', Err IndexError) /\ err st' = err st ++ map line ls
  /\ forall l, In l ls <-> exists s cs, In (s, cs) before
       /\ ((~ has_sheet w s /\ l = no_sheet s) \/ exists c, In c cs /\ has_sheet w s /\ ~ has_header w s c /\ l = no_column c s).
Proof.
  intros H a st w before sheet cols rest RB Fm B N.
  assert (Fr : required_sheets = map fst before ++ sheet :: map fst rest) by (change required_sheets with (map fst format); rewrite Fm, map_app; reflexivity).
  assert (Req : forall s cs, In (s, cs) before -> In s required_sheets /\ cs = required_columns s) by (intros s cs I; apply in_format; rewrite Fm; apply in_or_app; left; exact I).
  assert (Q : heard_xls (objects st) [] w = (Err IndexError, flat_map (missing_in w) (map fst before))).
  { unfold heard_xls. rewrite Fr. assert (G : forall l v, (forall s, In s l -> dget s w <> Some []) -> heard_sheets w (l ++ sheet :: map fst rest) v = (Err IndexError, flat_map (missing_in w) l)).
    { induction l as [|s l IH]; intros v Nl; cbn [app heard_sheets flat_map]; [rewrite B; reflexivity|]. unfold missing_in at 1. destruct (dget s w) as [[|h rows]|] eqn:Ds.
      - exfalso. exact (Nl s (or_introl eq_refl) Ds).
      - cbn [header_row hush hears]. rewrite IH by (intros x I; apply Nl; right; exact I). reflexivity.
      - cbn [hears]. rewrite IH by (intros x I; apply Nl; right; exact I). reflexivity. }
    rewrite G; [reflexivity|]. intros s I. apply in_map_iff in I. destruct I as [[s' c] [<- I]]. exact (N s' c I). }
  destruct (book_starts H xls_text a st w RB) as [st1 [R E1]]. rewrite Q in R, E1. cbn [snd] in E1. destruct RB as [CA [NV _]]. exists st1, (map xls_text (flat_map (missing_in w) (map fst before))).
  split; [rewrite (convert_starts H xls_text a st CA NV); unfold then_ at 1; rewrite R; reflexivity|]. split; [exact E1|]. intros l. rewrite in_map_iff. split.
  - intros [m [<- I]]. apply in_flat_map in I. destruct I as [s [Is I]]. apply in_map_iff in Is. destruct Is as [[s' cs] [Z Is]]. cbn [fst] in Z. subst s'. exists s, cs. split; [exact Is|]. destruct (Req s cs Is) as [_ ->].
    destruct (missing_kinds _ _ _ I) as [[x ->]|[c [x ->]]].
    + apply missing_sheet_in in I. destruct I as [-> I]. left. split; [exact I|reflexivity].
    + apply missing_column_in in I; [|exact (N s _ Is)]. destruct I as [-> [A [C D]]]. right. exists c. split; [exact C|]. split; [exact A|]. split; [exact D|reflexivity].
  - intros [s [cs [Is X]]]. destruct (Req s cs Is) as [_ Z]. subst cs. destruct X as [[X ->]|[c [C [A [D ->]]]]]; [exists (MissingSheet s)|exists (MissingColumn c s)]; (split; [reflexivity|]); apply in_flat_map; exists s; (split; [exact (in_map fst _ _ Is)|]).
    + apply missing_sheet_in. split; [reflexivity|exact X].
    + apply missing_column_in; [exact (N s _ Is)|]. split; [reflexivity|]. split; [exact A|]. split; [exact C|exact D].
Qed.
Print Assumptions C106_blank.
Example C106_blank_case : exists st', convert PropsCli.quiet xls_text from_book (with_book (dset ($"Tables") [] (ddel ($"Columns") plain_book))) = (st', Err IndexError)
  /\ err st' = map line [$"Error:  missing sheet Columns!"].
Proof. eexists. split; vm_compute; reflexivity. Qed.
