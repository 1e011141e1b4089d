(** * Lemmas about reading workbooks: layout, format check, dangling rows (C50-C52) *)
From Verif Require Export ExcelRels.

(** ** Headers *)
Lemma is_text_spec s c : is_text s c = true <-> c = CText s.
Proof. destruct c as [x|z]; cbn [is_text]; [|split; discriminate]. destruct (str_eqb_spec s x) as [->|N]; split; intros H; try reflexivity; try discriminate. injection H as ->. contradiction. Qed.
Lemma existsb_text s h : existsb (is_text s) h = true <-> In (CText s) h.
Proof. rewrite existsb_exists. split; [intros [c [I E]]; apply is_text_spec in E; subst c; exact I|intros I; exists (CText s); split; [exact I|apply is_text_spec; reflexivity]]. Qed.
Lemma last_index_none name h : forall i, ~ In (CText name) h -> last_index name i h = None.
Proof.
  induction h as [|c h IH]; intros i N; [reflexivity|]. cbn [last_index]. rewrite IH by (intros I; apply N; right; exact I).
  destruct (is_text name c) eqn:E; [|reflexivity]. apply is_text_spec in E. exfalso. apply N. left. exact E.
Qed.
Lemma last_index_some name h : forall i k, nth_error h k = Some (CText name) -> (forall j, nth_error h j = Some (CText name) -> j = k) -> last_index name i h = Some (i + k).
Proof.
  induction h as [|c h IH]; intros i k E U; [destruct k; discriminate E|]. cbn [last_index]. destruct k as [|k].
  - cbn [nth_error] in E. rewrite last_index_none; [replace (is_text name c) with true by (symmetry; apply is_text_spec; congruence); f_equal; lia|].
    intros I. apply In_nth_error in I. destruct I as [j J]. specialize (U (S j) J). discriminate.
  - rewrite (IH (S i) k E); [f_equal; lia|]. intros j J. specialize (U (S j) J). lia.
Qed.
Lemma last_index_in name h : forall i, In (CText name) h -> exists k, last_index name i h = Some k.
Proof.
  induction h as [|c h IH]; intros i I; [destruct I|]. cbn [last_index]. destruct (last_index name (S i) h) as [k|] eqn:E; [exists k; reflexivity|].
  destruct I as [->|I]; [|destruct (IH (S i) I) as [k K]; congruence]. exists i. replace (is_text name (CText name)) with true by (symmetry; apply is_text_spec; reflexivity). reflexivity.
Qed.
Lemma cell_in_get h row col c : cell_in h row col c -> get_cell h col row = Ok c.
Proof. intros [i [E [U ->]]]. unfold get_cell. rewrite (last_index_some _ _ 0 i E U). reflexivity. Qed.

(** ** The format check *)
Lemma format_map : format = map (fun s => (s, required_columns s)) required_sheets.
Proof. reflexivity. Qed.
Lemma in_format s cols : In (s, cols) format <-> In s required_sheets /\ cols = required_columns s.
Proof. rewrite format_map, in_map_iff. split; [intros [x [E I]]; injection E as <- <-; split; [exact I|reflexivity]|intros [I ->]; exists s; split; [reflexivity|exact I]]. Qed.
Lemma required_iff s c : required s c <-> In s required_sheets /\ In c (required_columns s).
Proof. unfold required. split; [intros [cols [I J]]; apply in_format in I; destruct I as [I ->]; split; assumption|intros [I J]; exists (required_columns s); split; [apply in_format; split; [exact I|reflexivity]|exact J]]. Qed.
Definition missing_in (wb : workbook cell) (s : str) : list xls_message :=
  match dget s wb with
  | None => [MissingSheet s]
  | Some [] => []
  | Some (h :: _) => map (fun c => MissingColumn c s) (filter (fun c => negb (existsb (is_text c) h)) (required_columns s))
  end.
Definition no_messages (l : list xls_message) : bool := match l with [] => true | _ => false end.
Lemma verify_ok wb sheets : forall ms v, (forall s, In s sheets -> dget s wb <> Some []) ->
  verify_sheets wb sheets ms v = Ok (ms ++ flat_map (missing_in wb) sheets, v && no_messages (flat_map (missing_in wb) sheets)).
Proof.
  induction sheets as [|s l IH]; intros ms v H; [cbn [verify_sheets flat_map no_messages]; rewrite app_nil_r, andb_true_r; reflexivity|].
  assert (H' : forall s', In s' l -> dget s' wb <> Some []) by (intros s' I; apply H; right; exact I). specialize (H s (or_introl eq_refl)). cbn [verify_sheets flat_map]. unfold missing_in at 1 3.
  destruct (dget s wb) as [[|h rows]|]; [contradiction| |].
  - cbn [header_row bind]. rewrite IH by exact H'. destruct (filter _ (required_columns s)) as [|c cs]; cbn [map app].
    + rewrite app_nil_r. reflexivity.
    + rewrite <- app_assoc. cbn [app no_messages]. rewrite andb_false_r. reflexivity.
  - rewrite IH by exact H'. rewrite <- app_assoc. cbn [app no_messages andb]. rewrite andb_false_r. reflexivity.
Qed.
Lemma verify_blank wb sheets : forall ms v, (exists s, In s sheets /\ dget s wb = Some []) -> verify_sheets wb sheets ms v = Err IndexError.
Proof.
  induction sheets as [|s l IH]; intros ms v [x [I E]]; [destruct I|]. cbn [verify_sheets]. destruct I as [->|I]; [rewrite E; reflexivity|].
  destruct (dget s wb) as [[|h rows]|]; [reflexivity| |]; cbn [header_row bind]; apply IH; exists x; split; assumption.
Qed.
Lemma blank_iff wb : blank_sheet wb <-> exists s, In s required_sheets /\ dget s wb = Some [].
Proof. unfold blank_sheet. split; [intros [s [cols [I E]]]; apply in_format in I; exists s; split; [apply I|exact E]|intros [s [I E]]; exists s, (required_columns s); split; [apply in_format; split; [exact I|reflexivity]|exact E]]. Qed.
Lemma dget_in {A} n (d : dict A) : In n (map fst d) <-> exists v, dget n d = Some v.
Proof.
  induction d as [|[k v] d IH]; cbn [map fst In dget]; [split; [intros []|intros [v E]; discriminate]|]. destruct (str_eqb_spec n k) as [->|N]; [split; [intros _; exists v; reflexivity|intros _; left; reflexivity]|].
  rewrite IH. split; [intros [E|E]; [congruence|exact E]|intros E; right; exact E].
Qed.
Lemma missing_sheet_in wb s x : In (MissingSheet x) (missing_in wb s) <-> x = s /\ ~ has_sheet wb s.
Proof.
  unfold missing_in, has_sheet. rewrite dget_in. destruct (dget s wb) as [[|h rows]|].
  - split; [intros []|intros [_ N]; exfalso; apply N; eexists; reflexivity].
  - split; [rewrite in_map_iff; intros [c [E _]]; discriminate|intros [_ N]; exfalso; apply N; eexists; reflexivity].
  - split; [intros [E|[]]; injection E as <-; split; [reflexivity|intros [v E]; discriminate]|intros [-> _]; left; reflexivity].
Qed.
Lemma missing_column_in wb s x c : dget s wb <> Some [] -> In (MissingColumn c x) (missing_in wb s) <-> x = s /\ has_sheet wb s /\ In c (required_columns s) /\ ~ has_header wb s c.
Proof.
  intros Nb. unfold missing_in, has_sheet, has_header. rewrite dget_in. destruct (dget s wb) as [[|h rows]|]; [contradiction| |].
  - rewrite in_map_iff. split.
    + intros [c' [E I]]. injection E as -> <-. apply filter_In in I. destruct I as [I N]. split; [reflexivity|]. split; [eexists; reflexivity|]. split; [exact I|]. intros [h' [rows' [E J]]]. injection E as <- <-.
      apply existsb_text in J. rewrite J in N. discriminate.
    + intros [-> [_ [I N]]]. exists c. split; [reflexivity|]. apply filter_In. split; [exact I|]. destruct (existsb (is_text c) h) eqn:E; [|reflexivity]. exfalso. apply N. exists h, rows. split; [reflexivity|apply existsb_text, E].
  - split; [intros [E|[]]; discriminate|intros [_ [[v E] _]]; discriminate].
Qed.
Lemma missing_kinds wb s m : In m (missing_in wb s) -> (exists x, m = MissingSheet x) \/ (exists c x, m = MissingColumn c x).
Proof.
  unfold missing_in. destruct (dget s wb) as [[|h rows]|]; [intros []| |intros [<-|[]]; left; eexists; reflexivity]. rewrite in_map_iff. intros [c [<- _]]. right. eexists _, _. reflexivity.
Qed.
Lemma format_ok_missing wb : format_ok wb <-> (forall s, In s required_sheets -> dget s wb <> Some []) /\ flat_map (missing_in wb) required_sheets = [].
Proof.
  split.
  - intros F. assert (B : forall s, In s required_sheets -> dget s wb <> Some []).
    { intros s I E. assert (Q : exists c, In c (required_columns s)) by (repeat (destruct I as [<-|I]; [eexists; left; reflexivity|]); destruct I).
      destruct Q as [c Q]. destruct (F s c) as [h [rows [E' _]]]; [apply required_iff; split; assumption|]. congruence. }
    split; [exact B|]. destruct (flat_map (missing_in wb) required_sheets) as [|m l] eqn:E; [reflexivity|]. exfalso. assert (I : In m (flat_map (missing_in wb) required_sheets)) by (rewrite E; left; reflexivity).
    apply in_flat_map in I. destruct I as [s [Is I]]. destruct (missing_kinds _ _ _ I) as [[x ->]|[c [x ->]]].
    + apply missing_sheet_in in I. destruct I as [-> N]. assert (Q : exists c, In c (required_columns s)) by (repeat (destruct Is as [<-|Is]; [eexists; left; reflexivity|]); destruct Is).
      destruct Q as [c Q]. destruct (F s c) as [h [rows [E' _]]]; [apply required_iff; split; assumption|]. apply N. apply dget_in. eexists. exact E'.
    + apply missing_column_in in I; [|apply B, Is]. destruct I as [-> [_ [I N]]]. apply N, F, required_iff. split; assumption.
  - intros [B E] s c R. apply required_iff in R. destruct R as [Is Ic]. assert (Q : missing_in wb s = []) by (destruct (missing_in wb s) as [|m l] eqn:M; [reflexivity|]; exfalso; assert (I : In m (flat_map (missing_in wb) required_sheets)) by (apply in_flat_map; exists s; split; [exact Is|rewrite M; left; reflexivity]); rewrite E in I; destruct I).
    unfold missing_in in Q. specialize (B s Is). unfold has_header. destruct (dget s wb) as [[|h rows]|]; [contradiction| |discriminate]. exists h, rows. split; [reflexivity|].
    apply map_eq_nil in Q. destruct (existsb (is_text c) h) eqn:X; [apply existsb_text, X|]. assert (I : In c (filter (fun c => negb (existsb (is_text c) h)) (required_columns s))) by (apply filter_In; split; [exact Ic|rewrite X; reflexivity]). rewrite Q in I. destruct I.
Qed.
Lemma read_format_ok base dbs wb : format_ok wb -> read_xls base dbs wb = read_databases base wb (dbs, []).
Proof. intros F. apply format_ok_missing in F. destruct F as [B E]. unfold read_xls. rewrite verify_ok by exact B. rewrite E. reflexivity. Qed.
Lemma read_not_ok base dbs wb : ~ format_ok wb -> ~ blank_sheet wb -> read_xls base dbs wb = Ok (dbs, flat_map (missing_in wb) required_sheets).
Proof.
  intros F N. assert (B : forall s, In s required_sheets -> dget s wb <> Some []) by (intros s I E; apply N, blank_iff; exists s; split; assumption).
  unfold read_xls. rewrite verify_ok by exact B. cbn [app bind]. destruct (flat_map (missing_in wb) required_sheets) eqn:E; [|reflexivity]. exfalso. apply F, format_ok_missing. split; assumption.
Qed.

(** ** Layout does not matter *)
Definition agree (h1 h2 : list cell) (cols : list str) (r1 r2 : list cell) : Prop := forall c, In c cols -> get_cell h1 c r1 = get_cell h2 c r2.
Lemma rows_agree h1 h2 cols : cols <> [] -> forall rows1 rows2,
  (forall c, In c cols -> exists i1 i2, last_index c 0 h1 = Some i1 /\ last_index c 0 h2 = Some i2 /\ map (fun r => nth i1 r (CText [])) rows1 = map (fun r => nth i2 r (CText [])) rows2) ->
  Forall2 (agree h1 h2 cols) rows1 rows2.
Proof.
  intros N. induction rows1 as [|r1 rows1 IH]; intros rows2 H.
  - destruct rows2 as [|r2 rows2]; [constructor|]. exfalso. destruct cols as [|c cols]; [contradiction|]. destruct (H c (or_introl eq_refl)) as [i1 [i2 [_ [_ E]]]]. discriminate E.
  - destruct rows2 as [|r2 rows2]; [exfalso; destruct cols as [|c cols]; [contradiction|]; destruct (H c (or_introl eq_refl)) as [i1 [i2 [_ [_ E]]]]; discriminate E|]. constructor.
    + intros c I. destruct (H c I) as [i1 [i2 [E1 [E2 E]]]]. unfold get_cell. rewrite E1, E2. cbn [map] in E. pose proof (f_equal (hd (CText [])) E) as Q. cbn [hd] in Q. rewrite Q. reflexivity.
    + apply IH. intros c I. destruct (H c I) as [i1 [i2 [E1 [E2 E]]]]. exists i1, i2. split; [exact E1|]. split; [exact E2|]. exact (f_equal (@tl _) E).
Qed.
Lemma sheet_agree wb1 wb2 s : same_content wb1 wb2 -> In s required_sheets ->
  exists h1 rows1 h2 rows2, dget s wb1 = Some (h1 :: rows1) /\ dget s wb2 = Some (h2 :: rows2) /\ Forall2 (agree h1 h2 (required_columns s)) rows1 rows2.
Proof.
  intros S I. assert (Q : exists c l, required_columns s = c :: l) by (repeat (destruct I as [<-|I]; [eexists _, _; reflexivity|]); destruct I). destruct Q as [c0 [l0 Q]].
  destruct (S s c0) as [cells [[h1 [rows1 [i1 [E1 _]]]] [h2 [rows2 [i2 [E2 _]]]]]]; [apply required_iff; split; [exact I|rewrite Q; left; reflexivity]|].
  exists h1, rows1, h2, rows2. split; [exact E1|]. split; [exact E2|]. apply rows_agree; [rewrite Q; discriminate|]. intros c Ic.
  destruct (S s c) as [cs [[h1' [rows1' [j1 [F1 [N1 [U1 C1]]]]]] [h2' [rows2' [j2 [F2 [N2 [U2 C2]]]]]]]]; [apply required_iff; split; assumption|].
  rewrite E1 in F1. injection F1 as <- <-. rewrite E2 in F2. injection F2 as <- <-. exists j1, j2. split; [exact (last_index_some _ _ 0 j1 N1 U1)|]. split; [exact (last_index_some _ _ 0 j2 N2 U2)|]. congruence.
Qed.
Lemma read_rows_agree h1 h2 cols (f1 f2 : nat -> xls_state -> list cell -> result xls_state) rows1 rows2 :
  (forall id st a b, agree h1 h2 cols a b -> f1 id st a = f2 id st b) -> Forall2 (agree h1 h2 cols) rows1 rows2 -> forall id st, read_rows f1 id rows1 st = read_rows f2 id rows2 st.
Proof. intros H F. induction F as [|a b rows1 rows2 A F IH]; intros id st; [reflexivity|]. cbn [read_rows]. rewrite (H id st a b A). destruct (f2 id st b) as [st'|e]; [apply IH|reflexivity]. Qed.
Ltac listed := cbv; tauto.
Lemma agree_text h1 h2 cols a b c : agree h1 h2 cols a b -> In c cols -> get_text h1 c a = get_text h2 c b.
Proof. intros A I. unfold get_text. rewrite (A c I). reflexivity. Qed.
Lemma agree_method h1 h2 cols a b c : agree h1 h2 cols a b -> In c cols -> text_method h1 c a = text_method h2 c b.
Proof. intros A I. unfold text_method. rewrite (A c I). reflexivity. Qed.
Lemma table_agree h1 h2 id st a b : agree h1 h2 (required_columns ($"Tables")) a b -> read_table_row h1 id st a = read_table_row h2 id st b.
Proof.
  intros A. unfold read_table_row. rewrite (agree_text _ _ _ _ _ ($"Database") A) by listed. rewrite (agree_method _ _ _ _ _ ($"Primary Key") A) by listed. rewrite (agree_method _ _ _ _ _ ($"Shard Key") A) by listed.
  rewrite (A ($"# Shards")) by listed. rewrite (agree_text _ _ _ _ _ ($"Table") A) by listed. rewrite (agree_text _ _ _ _ _ ($"Schema") A) by listed. reflexivity.
Qed.
Lemma on_table_agree tab h1 h2 col missing f1 f2 st a b : get_text h1 ($"Database") a = get_text h2 ($"Database") b -> get_text h1 col a = get_text h2 col b -> (forall t, f1 t = f2 t) ->
  on_table tab h1 col missing f1 st a = on_table tab h2 col missing f2 st b.
Proof.
  intros E1 E2 F. unfold on_table. destruct st as [dbs ms]. rewrite E1, E2. destruct (get_text h2 ($"Database") b) as [dbn|e]; [|reflexivity]. cbn [bind]. destruct (dget dbn dbs) as [d|]; [|reflexivity].
  destruct (get_text h2 col b) as [name|e]; [|reflexivity]. cbn [bind]. destruct (get_table d name) as [t|]; [|reflexivity]. rewrite F. reflexivity.
Qed.
Lemma column_agree h1 h2 id st a b : agree h1 h2 (required_columns ($"Columns")) a b -> read_column_row h1 id st a = read_column_row h2 id st b.
Proof.
  intros A. unfold read_column_row. apply on_table_agree; [apply (agree_text _ _ _ _ _ _ A); listed|apply (agree_text _ _ _ _ _ _ A); listed|]. intros t.
  rewrite (agree_text _ _ _ _ _ ($"Name") A) by listed. rewrite (agree_text _ _ _ _ _ ($"Type") A) by listed. reflexivity.
Qed.
Lemma fk_agree h1 h2 id st a b : agree h1 h2 (required_columns ($"Foreign Keys")) a b -> read_fk_row h1 id st a = read_fk_row h2 id st b.
Proof.
  intros A. unfold read_fk_row. apply on_table_agree; [apply (agree_text _ _ _ _ _ _ A); listed|apply (agree_text _ _ _ _ _ _ A); listed|]. intros t.
  rewrite (agree_text _ _ _ _ _ ($"Name") A) by listed. rewrite (agree_method _ _ _ _ _ ($"From Columns") A) by listed. rewrite (agree_method _ _ _ _ _ ($"To Columns") A) by listed. rewrite (agree_text _ _ _ _ _ ($"To Table") A) by listed. reflexivity.
Qed.
Lemma rel_agree h1 h2 id st a b : agree h1 h2 (required_columns ($"Relationships")) a b -> read_rel_row h1 id st a = read_rel_row h2 id st b.
Proof.
  intros A. unfold read_rel_row. apply on_table_agree; [apply (agree_text _ _ _ _ _ _ A); listed|apply (agree_text _ _ _ _ _ _ A); listed|]. intros t.
  rewrite (agree_text _ _ _ _ _ ($"To Table") A) by listed. rewrite (agree_text _ _ _ _ _ ($"Conditions") A) by listed. reflexivity.
Qed.
Lemma same_format wb1 wb2 : same_content wb1 wb2 -> format_ok wb1 /\ format_ok wb2.
Proof.
  intros S. split; intros s c R; destruct (S s c R) as [cells [[h1 [rows1 [i1 [E1 [N1 _]]]]] [h2 [rows2 [i2 [E2 [N2 _]]]]]]].
  - exists h1, rows1. split; [exact E1|]. eapply nth_error_In. exact N1.
  - exists h2, rows2. split; [exact E2|]. eapply nth_error_In. exact N2.
Qed.
Lemma layout base dbs wb1 wb2 : same_content wb1 wb2 -> read_xls base dbs wb1 = read_xls base dbs wb2.
Proof.
  intros S. destruct (same_format _ _ S) as [F1 F2]. rewrite !read_format_ok by assumption. unfold read_databases, sheet_parts.
  destruct (sheet_agree _ _ ($"Tables") S) as [h1 [r1 [h2 [r2 [E1 [E2 A]]]]]]; [listed|]. rewrite E1, E2. cbn [bind]. rewrite (read_rows_agree _ _ _ _ _ _ _ (table_agree h1 h2) A).
  destruct (read_rows (read_table_row h2) base r2 (dbs, [])) as [st1|e]; [|reflexivity]. cbn [bind]. clear E1 E2 A.
  destruct (sheet_agree _ _ ($"Columns") S) as [h3 [r3 [h4 [r4 [E1 [E2 A]]]]]]; [listed|]. rewrite E1, E2. cbn [bind]. rewrite (read_rows_agree _ _ _ _ _ _ _ (column_agree h3 h4) A).
  destruct (read_rows (read_column_row h4) base r4 st1) as [st2|e]; [|reflexivity]. cbn [bind]. clear E1 E2 A.
  destruct (sheet_agree _ _ ($"Foreign Keys") S) as [h5 [r5 [h6 [r6 [E1 [E2 A]]]]]]; [listed|]. rewrite E1, E2. cbn [bind]. rewrite (read_rows_agree _ _ _ _ _ _ _ (fk_agree h5 h6) A).
  destruct (read_rows (read_fk_row h6) base r6 st2) as [st3|e]; [|reflexivity]. cbn [bind]. clear E1 E2 A.
  destruct (sheet_agree _ _ ($"Relationships") S) as [h7 [r7 [h8 [r8 [E1 [E2 A]]]]]]; [listed|]. rewrite E1, E2. cbn [bind]. apply (read_rows_agree _ _ _ _ _ _ _ (rel_agree h7 h8) A).
Qed.
