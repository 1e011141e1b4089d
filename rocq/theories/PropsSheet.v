(** * Properties C71, C75, C76: what is in the sheets of a workbook *)
From Verif Require Import ExcelMore PropsExcel.

(** C71, the sheet Columns: a writer used again writes the rows of the second model over those of the
    first; where the first had more rows they stay. *)
Theorem C71_columns : forall fresh d1 f1 w1 n1 d2 f2 w2 n2 f3 w3 n3,
  write_database fresh new_writer d1 f1 = Ok (w1, n1) -> write_database fresh w1 d2 f2 = Ok (w2, n2) ->
  write_database fresh new_writer d2 f3 = Ok (w3, n3) ->
  exists old new, dget ($"Columns") w1 = Some old /\ dget ($"Columns") w3 = Some new
    /\ dget ($"Columns") w2 = Some (new ++ skipn (length new) old).
Proof. exact reuse_columns. Qed.
Print Assumptions C71_columns.
Example C71_columns_case : forall fresh, exists w1 w2, write_database fresh new_writer shop ($"one") = Ok (w1, $"one.xlsx")
  /\ write_database fresh w1 two_rels ($"two") = Ok (w2, $"two.xlsx")
  /\ match dget ($"Columns") w1, dget ($"Columns") w2 with Some a, Some b => length b = length a /\ 1 < length a /\ skipn 1 b = skipn 1 a | _, _ => False end.
Proof. intros fresh. eexists _, _. split; [vm_compute; reflexivity|]. split; [vm_compute; reflexivity|]. vm_compute. repeat split. repeat constructor. Qed.

Lemma letter d sheet h rows title l i : dget sheet [($"Columns", column_sheet d); ($"Tables", table_sheet d); ($"Foreign Keys", fk_sheet d); ($"Relationships", rel_sheet d)] = Some (h :: rows) ->
  nth_error h i = Some (VText title) -> letter_in [($"Columns", column_sheet d); ($"Tables", table_sheet d); ($"Foreign Keys", fk_sheet d); ($"Relationships", rel_sheet d)] sheet title l ->
  l = [ascii_of_nat (65 + i)].
Proof. intros D N [h' [rows' [j [D' [N' [U [_ ->]]]]]]]. rewrite D in D'. injection D' as <- <-. rewrite (U i N). reflexivity. Qed.

(** C75: in the sheet Tables of a new workbook the row of a table counts, by formulas, the rows of the
    sheet Columns with its database, schema and name, the foreign keys from and to a table of its
    name, and the relationships from and to it: every formula looks at the columns with these headers
    and at the cells of its own row.  ([2 ^ 64] rows are more than a workbook can hold.) *)
Theorem C75_formulas : forall fresh d f w f' i t, write_database fresh new_writer d f = Ok (w, f') ->
  nth_error (db_iter d) i = Some t -> (N.of_nat i + 2 < 2 ^ 64)%N ->
  let r := i + 2 in let R := n_to_str (N.of_nat r) in
  (N.of_nat (length (t_name t)) <= 32767)%N ->
  cell_at w ($"Tables") ($"Table") r (VText (t_name t))
  /\ forall db db' schema schema' table table' fk_from fk_to rel_from rel_to,
     letter_in w ($"Columns") ($"Database") db -> letter_in w ($"Tables") ($"Database") db' ->
     letter_in w ($"Columns") ($"Schema") schema -> letter_in w ($"Tables") ($"Schema") schema' ->
     letter_in w ($"Columns") ($"Table") table -> letter_in w ($"Tables") ($"Table") table' ->
     letter_in w ($"Foreign Keys") ($"From Table") fk_from -> letter_in w ($"Foreign Keys") ($"To Table") fk_to ->
     letter_in w ($"Relationships") ($"From Table") rel_from -> letter_in w ($"Relationships") ($"To Table") rel_to ->
     cell_at w ($"Tables") ($"# Columns") r (VText (count_rows ($"Columns") db db' schema schema' table table' R))
     /\ cell_at w ($"Tables") ($"# FKs From") r (VText (count_cells ($"Foreign Keys") fk_from table' R))
     /\ cell_at w ($"Tables") ($"# FKs To") r (VText (count_cells ($"Foreign Keys") fk_to table' R))
     /\ cell_at w ($"Tables") ($"# Rels From") r (VText (count_cells ($"Relationships") rel_from table' R))
     /\ cell_at w ($"Tables") ($"# Rels To") r (VText (count_cells ($"Relationships") rel_to table' R)).
Proof.
  intros fresh d f w f' i t E T B r R L. apply write_sheets in E. subst w.
  set (w := [($"Columns", column_sheet d); ($"Tables", table_sheet d); ($"Foreign Keys", fk_sheet d); ($"Relationships", rel_sheet d)]).
  assert (Row : nth_error (table_sheet d) (r - 1) = Some (map cut (table_row (db_name d) (N.of_nat r) t))).
  { replace (r - 1) with (S i) by (unfold r; lia). unfold table_sheet. cbn [map nth_error]. rewrite nth_error_map. unfold tables_rows. rewrite table_rows_nth, T. cbn [option_map]. do 3 f_equal. unfold r. lia. }
  assert (LR : length R <= 65) by (apply small_length; unfold r; lia).
  assert (At : forall title k v, nth_error (map cut tables_header) k = Some (VText title) -> nth_error (map cut (table_row (db_name d) (N.of_nat r) t)) k = Some v -> cell_at w ($"Tables") title r v).
  { intros title k v Hk Hv. exists (map cut tables_header), (map (map cut) (tables_rows d)), k, (map cut (table_row (db_name d) (N.of_nat r) t)). split; [reflexivity|]. split; [exact Hk|]. split; [exact Row|exact Hv]. }
  assert (Cell : forall k, nth_error (map cut (table_row (db_name d) (N.of_nat r) t)) k = option_map cut (nth_error (table_row (db_name d) (N.of_nat r) t) k)) by (intros k; apply nth_error_map).
  split.
  - apply (At _ 2); [reflexivity|]. rewrite Cell. unfold table_row. destruct (match t_shard t with Some sk => _ | None => _ end) as [a b]. cbn [nth_error option_map cut]. rewrite firstn_all2 by (unfold cell_limit; lia). reflexivity.
  - intros db db' schema schema' tbl tbl' ff ft rf rt L1 L2 L3 L4 L5 L6 L7 L8 L9 L10.
    apply (letter d ($"Columns") (map cut columns_header) (map (map cut) (columns_rows d)) ($"Database") _ 0 eq_refl eq_refl) in L1. apply (letter d ($"Tables") (map cut tables_header) (map (map cut) (tables_rows d)) ($"Database") _ 0 eq_refl eq_refl) in L2. apply (letter d ($"Columns") (map cut columns_header) (map (map cut) (columns_rows d)) ($"Schema") _ 1 eq_refl eq_refl) in L3. apply (letter d ($"Tables") (map cut tables_header) (map (map cut) (tables_rows d)) ($"Schema") _ 1 eq_refl eq_refl) in L4.
    apply (letter d ($"Columns") (map cut columns_header) (map (map cut) (columns_rows d)) ($"Table") _ 2 eq_refl eq_refl) in L5. apply (letter d ($"Tables") (map cut tables_header) (map (map cut) (tables_rows d)) ($"Table") _ 2 eq_refl eq_refl) in L6. apply (letter d ($"Foreign Keys") (map cut fks_header) (map (map cut) (fks_rows d)) ($"From Table") _ 3 eq_refl eq_refl) in L7. apply (letter d ($"Foreign Keys") (map cut fks_header) (map (map cut) (fks_rows d)) ($"To Table") _ 5 eq_refl eq_refl) in L8.
    apply (letter d ($"Relationships") (map cut rels_header) (map (map cut) (rels_rows d)) ($"From Table") _ 3 eq_refl eq_refl) in L9. apply (letter d ($"Relationships") (map cut rels_header) (map (map cut) (rels_rows d)) ($"To Table") _ 4 eq_refl eq_refl) in L10. subst.
    assert (F1 : length (lookup_formula R) <= 1000) by (unfold lookup_formula; rewrite !app_length; cbn [length list_ascii_of_string]; lia).
    assert (F2 : forall s c, length s <= 20 -> length c <= 2 -> length (count_formula s c R) <= 1000) by (intros s c H1 H2; unfold count_formula, quoted; rewrite !app_length; cbn [length list_ascii_of_string app]; rewrite ?app_length; cbn [length]; lia).
    split; [|split; [|split; [|split]]].
    + apply (At _ 6); [reflexivity|]. rewrite Cell. unfold table_row. destruct (match t_shard t with Some sk => _ | None => _ end) as [a b]. cbn [nth_error option_map]. fold R. rewrite (cut_short _ F1). reflexivity.
    + apply (At _ 11); [reflexivity|]. rewrite Cell. unfold table_row. destruct (match t_shard t with Some sk => _ | None => _ end) as [a b]. cbn [nth_error option_map]. fold R. rewrite cut_short by (apply F2; cbn [length list_ascii_of_string]; lia). reflexivity.
    + apply (At _ 12); [reflexivity|]. rewrite Cell. unfold table_row. destruct (match t_shard t with Some sk => _ | None => _ end) as [a b]. cbn [nth_error option_map]. fold R. rewrite cut_short by (apply F2; cbn [length list_ascii_of_string]; lia). reflexivity.
    + apply (At _ 13); [reflexivity|]. rewrite Cell. unfold table_row. destruct (match t_shard t with Some sk => _ | None => _ end) as [a b]. cbn [nth_error option_map]. fold R. rewrite cut_short by (apply F2; cbn [length list_ascii_of_string]; lia). reflexivity.
    + apply (At _ 14); [reflexivity|]. rewrite Cell. unfold table_row. destruct (match t_shard t with Some sk => _ | None => _ end) as [a b]. cbn [nth_error option_map]. fold R. rewrite cut_short by (apply F2; cbn [length list_ascii_of_string]; lia). reflexivity.
Qed.
Print Assumptions C75_formulas.
(** the letters exist, so the statement is about something *)
Example C75_case : forall fresh, exists w, write_database fresh new_writer shop ($"shop") = Ok (w, $"shop.xlsx")
  /\ letter_in w ($"Foreign Keys") ($"To Table") ($"F") /\ letter_in w ($"Tables") ($"Table") ($"C")
  /\ cell_at w ($"Tables") ($"# FKs To") 3 (VText ($"=IF(COUNTIF('Foreign Keys'!$F:$F,""=""&$C3)>0,COUNTIF('Foreign Keys'!$F:$F,""=""&$C3),"""")")).
Proof.
  intros fresh. eexists. split; [vm_compute; reflexivity|].
  split; [|split].
  - eexists _, _, 5. split; [vm_compute; reflexivity|]. split; [vm_compute; reflexivity|]. split; [intros j J; do 15 (destruct j as [|j]; [first [reflexivity|vm_compute in J; discriminate]|]); destruct j; discriminate|]. split; [lia|reflexivity].
  - eexists _, _, 2. split; [vm_compute; reflexivity|]. split; [vm_compute; reflexivity|]. split; [intros j J; do 15 (destruct j as [|j]; [first [reflexivity|vm_compute in J; discriminate]|]); destruct j; discriminate|]. split; [lia|reflexivity].
  - eexists _, _, 12, _. split; [vm_compute; reflexivity|]. split; [vm_compute; reflexivity|]. split; [vm_compute; reflexivity|]. vm_compute. reflexivity.
Qed.

(** C76: a table gets the schema, primary key and shard key of the last row of the sheet Tables that
    describes it.  It has a shard key exactly if that row has both columns for it and a number of
    shards that is not zero. *)
Theorem C76_keys : forall base dbs wb dbs' ms h pre row post b n schema pk sk nbr pkl skl,
  dget ($"Tables") wb = Some (h :: pre ++ row :: post) -> format_ok wb -> read_xls base dbs wb = Ok (dbs', ms) ->
  (forall row', In row' post -> ~ (cell_in h row' ($"Database") (CText b) /\ cell_in h row' ($"Table") (CText n))) ->
  cell_in h row ($"Database") (CText b) -> b <> [] -> cell_in h row ($"Table") (CText n) -> cell_in h row ($"Schema") (CText schema) ->
  cell_in h row ($"Primary Key") (CText pk) -> cell_in h row ($"Shard Key") (CText sk) -> cell_in h row ($"# Shards") nbr ->
  names_in pk pkl -> names_in sk skl ->
  exists d t, dget b dbs' = Some d /\ get_table d n = Some t /\ t_schema t = schema /\ t_pk t = pkl
    /\ (forall z l, shard_of t = Some (z, l) <-> nbr = CNum z /\ z <> 0%Z /\ l = skl /\ skl <> []).
Proof.
  intros base dbs wb dbs' ms h pre row post b n schema pk sk nbr pkl skl D F E Post Cb Nb Cn Cs Cp Ck Cz Np Ns.
  rewrite read_format_ok in E by exact F. apply read_four in E. destruct E as [h1 [r1 [[b1 m1] [h2 [r2 [[b2 m2] [h3 [r3 [[b3 m3] [h4 [r4 [D1 [D2 [D3 [D4 [E1 [E2 [E3 E4]]]]]]]]]]]]]]]]]]. rewrite D in D1. injection D1 as <- <-.
  destruct (rows_keeps _ _ (column_keeps h2) _ _ _ _ _ E2) as [K2 _]. destruct (rows_keeps _ _ (fk_keeps h3) _ _ _ _ _ E3) as [K3 _]. destruct (rows_keeps _ _ (rel_keeps h4) _ _ _ _ _ E4) as [K4 _].
  assert (K : attrs dbs' b n = attrs b1 b n) by (rewrite K4, K3, K2; reflexivity). clear K2 K3 K4 E2 E3 E4.
  rewrite read_rows_app in E1. destruct (read_rows (read_table_row h) base pre (dbs, [])) as [[da ma]|] eqn:Ea; [|discriminate]. cbn [bind read_rows] in E1. destruct (read_table_row h _ (da, ma) row) as [[db mb]|] eqn:Er; [|discriminate]. cbn [bind] in E1.
  assert (Uniq : forall col row1 row2 c1, cell_in h row1 col c1 -> exists c2, cell_in h row2 col c2 /\ get_cell h col row2 = Ok c2) by (intros col row1 row2 c1 [k [H1 [H2 _]]]; exists (nth k row2 (CText [])); assert (Q : cell_in h row2 col (nth k row2 (CText []))) by (exists k; split; [exact H1|split; [exact H2|reflexivity]]); split; [exact Q|apply cell_in_get, Q]).
  assert (O : attrs b1 b n = attrs db b n).
  { eapply tables_other; [|exact E1]. intros row' I [H1 H2]. apply (Post row' I). destruct (Uniq _ row row' _ Cb) as [c1 [Q1 G1]]. destruct (Uniq _ row row' _ Cn) as [c2 [Q2 G2]]. apply get_text_cell in H1, H2. split; congruence. }
  rewrite O in K. clear O E1. destruct (table_row_inv _ _ _ _ _ _ _ Er) as [dbn [G H]]. pose proof (cell_in_text _ _ _ _ Cb) as Gb. rewrite G in Gb. injection Gb as ->. destruct H as [[H _]|[_ [pk' [sk' [nbr' [name [schema' [shard [G1 [G2 [G3 [G4 [G5 [_ [-> Sh]]]]]]]]]]]]]]]; [contradiction|].
  assert (M : forall col s x, cell_in h row col (CText s) -> text_method h col row = Ok x -> x = s) by (intros col s x C Q; unfold text_method in Q; rewrite (cell_in_get _ _ _ _ C) in Q; cbn [bind] in Q; congruence).
  apply (M _ _ _ Cp) in G1. apply (M _ _ _ Ck) in G2. rewrite (cell_in_get _ _ _ _ Cz) in G3. rewrite (cell_in_text _ _ _ _ Cn) in G4. rewrite (cell_in_text _ _ _ _ Cs) in G5. injection G3 as <-. injection G4 as <-. injection G5 as <-. subst pk' sk'.
  unfold attrs in K. rewrite dget_dset, str_eqb_refl in K. unfold get_table, add_table in K. cbn [db_tables mk_table t_name] in K. rewrite dget_dset, str_eqb_refl in K. cbn [t_schema t_pk] in K.
  destruct (dget b dbs') as [d|]; [|discriminate]. exists d. destruct (dget n (db_tables d)) as [t|] eqn:Gt; [|discriminate]. exists t. split; [reflexivity|]. split; [exact Gt|]. injection K as K1 K2 K3.
  split; [exact K1|]. split; [rewrite K2, (names_keys _ _ Np); destruct (str_eqb (strip pk) []); reflexivity|]. intros z l. rewrite K3. unfold shard_of. cbn [t_shard option_map]. replace (match shard with Some _ => _ | None => _ end) with (match shard with None => None | Some k => Some (sk_shards k, sk_keys k) end) by (destruct shard; reflexivity). rewrite Sh. rewrite (names_keys _ _ Ns).
  assert (NE : forall x, cell_keys x <> []) by (intros x Q; unfold cell_keys in Q; apply map_eq_nil in Q; exact (split_char_nonnil _ _ Q)).
  destruct nbr as [x|y]; [split; [discriminate|intros [Q _]; discriminate]|]. destruct (Z.eqb_spec y 0) as [->|Ny]; cbn [orb]; [split; [discriminate|intros [Q [Z0 _]]; congruence]|].
  destruct (str_eqb (strip sk) []); split.
  - discriminate. - intros [_ [_ [_ Q]]]. contradiction. - intros Q. injection Q as <- <-. repeat split; try assumption. apply NE. - intros [Q [_ [-> _]]]. injection Q as ->. reflexivity.
Qed.
Print Assumptions C76_keys.
(** A row with only one of the two is reported, and nothing else is reported as such. *)
Theorem C76_half : forall base dbs wb dbs' ms h rows bc nc kc zc n, dget ($"Tables") wb = Some (h :: rows) -> format_ok wb ->
  column_is wb ($"Tables") ($"Database") bc -> column_is wb ($"Tables") ($"Table") nc -> column_is wb ($"Tables") ($"Shard Key") kc -> column_is wb ($"Tables") ($"# Shards") zc ->
  read_xls base dbs wb = Ok (dbs', ms) ->
  (In (NeedBoth n) ms <-> exists i b sk nbr, nth_error bc i = Some (CText b) /\ b <> [] /\ nth_error nc i = Some (CText n)
     /\ nth_error kc i = Some (CText sk) /\ nth_error zc i = Some nbr /\ (strip sk = [] <-> nbr <> CText [])).
Proof.
  intros base dbs wb dbs' ms h rows bc nc kc zc n D F C1 C2 C3 C4 E.
  rewrite read_format_ok in E by exact F. apply read_four in E. destruct E as [h1 [r1 [[b1 m1] [h2 [r2 [[b2 m2] [h3 [r3 [[b3 m3] [h4 [r4 [D1 [D2 [D3 [D4 [E1 [E2 [E3 E4]]]]]]]]]]]]]]]]]]. rewrite D in D1. injection D1 as <- <-.
  destruct (rows_keeps _ _ (column_keeps h2) _ _ _ _ _ E2) as [_ K2]. destruct (rows_keeps _ _ (fk_keeps h3) _ _ _ _ _ E3) as [_ K3]. destruct (rows_keeps _ _ (rel_keeps h4) _ _ _ _ _ E4) as [_ K4].
  rewrite K4, K3, K2, (tables_half _ _ n _ _ _ _ _ E1). split.
  - intros [[]|[row [I [b [sk [nbr [Nb [Gb [Gn [Gk [Gz H]]]]]]]]]]]. apply In_nth_error in I. destruct I as [i I]. exists i, b, sk, nbr.
    destruct (column_cell _ _ _ _ _ _ C1 D i row I) as [x1 [Q1 R1]]. destruct (column_cell _ _ _ _ _ _ C2 D i row I) as [x2 [Q2 R2]]. destruct (column_cell _ _ _ _ _ _ C3 D i row I) as [x3 [Q3 R3]]. destruct (column_cell _ _ _ _ _ _ C4 D i row I) as [x4 [Q4 R4]].
    apply get_text_cell in Gb, Gn. unfold text_method in Gk. rewrite R3 in Gk. cbn [bind] in Gk. destruct x3 as [x3|]; [|discriminate]. repeat split; try congruence; apply H.
  - intros [i [b [sk [nbr [Q1 [Nb [Q2 [Q3 [Q4 H]]]]]]]]]. right. destruct (column_cell_inv _ _ _ _ _ _ C1 D i _ Q1) as [row [I R1]]. exists row. split; [eapply nth_error_In; exact I|]. exists b, sk, nbr.
    destruct (column_cell _ _ _ _ _ _ C2 D i row I) as [x2 [P2 R2]]. destruct (column_cell _ _ _ _ _ _ C3 D i row I) as [x3 [P3 R3]]. destruct (column_cell _ _ _ _ _ _ C4 D i row I) as [x4 [P4 R4]].
    split; [exact Nb|]. split; [apply get_text_cell, R1|]. split; [apply get_text_cell; congruence|]. split; [unfold text_method; rewrite R3; cbn [bind]; assert (x3 = CText sk) as -> by congruence; reflexivity|]. split; [congruence|exact H].
Qed.
Print Assumptions C76_half.
Definition half_book : workbook cell :=
  dset ($"Tables") [map CText [$"Database"; $"Schema"; $"Table"; $"Updated"; $"Update Type"; $"# Rows"; $"# Columns"; $"Primary Key"; $"Shard Key"; $"# Shards"; $"RLS Column"];
    [CText ($"d"); CText ($"s"); CText ($"t"); CText []; CText []; CText []; CText []; CText ($" a , b "); CText ($"a"); CNum 4];
    [CText ($"d"); CText ($"s"); CText ($"u"); CText []; CText []; CText []; CText []; CText ($" "); CText ($"a"); CText []]] plain_book.
Example C76_case : format_ok half_book
  /\ column_is half_book ($"Tables") ($"Shard Key") [CText ($"a"); CText ($"a")] /\ column_is half_book ($"Tables") ($"# Shards") [CNum 4; CText []]
  /\ names_in ($" a , b ") [$"a"; $"b"]
  /\ exists d, read_xls 0 [] half_book = Ok ([($"d", d)], [NeedBoth ($"u")])
  /\ map (fun t => (t_name t, t_pk t, shard_of t)) (db_iter d) = [($"t", [$"a"; $"b"], Some (4%Z, [$"a"])); ($"u", [], None)].
Proof.
  split; [|split; [|split; [|split]]].
  - apply (same_format half_book half_book). intros s c [cols [I J]]. repeat (destruct I as [I|I]; [apply pair_equal_spec in I; destruct I as [<- <-]; repeat (destruct J as [<-|J]; [eexists; split; (apply column_b_ok; vm_compute; reflexivity)|]); destruct J|]). destruct I.
  - apply column_b_ok. vm_compute. reflexivity.
  - apply column_b_ok. vm_compute. reflexivity.
  - right. split; [vm_compute; discriminate|]. exists [$"a "; $" b"]. split; [repeat constructor; cbn; intuition discriminate|]. split; vm_compute; reflexivity.
  - eexists. split; vm_compute; reflexivity.
Qed.
