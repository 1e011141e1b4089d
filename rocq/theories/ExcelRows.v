(** * Lemmas about the rows of a workbook: which tables are read, dangling rows (C51, C52) *)
From Verif Require Export ExcelSheets.

(** ** What is known *)
Definition status (dbs : dict database) (dbn name : str) : option bool :=
  match dget dbn dbs with None => None | Some d => Some (match get_table d name with Some _ => true | None => false end) end.
Lemma status_knows dbs dbn name : knows_table dbs dbn name <-> status dbs dbn name = Some true.
Proof.
  unfold knows_table, status. split; [intros [d [t [E G]]]; rewrite E, G; reflexivity|]. destruct (dget dbn dbs) as [d|] eqn:E; [|discriminate]. destruct (get_table d name) as [t|] eqn:G; [|discriminate]. intros _. exists d, t. split; [reflexivity|exact G].
Qed.
Lemma status_store dbs dbn d name t t' : dget dbn dbs = Some d -> get_table d name = Some t -> forall b n, status (dset dbn (store_table d name t') dbs) b n = status dbs b n.
Proof.
  intros E G b n. unfold status. rewrite dget_dset. destruct (str_eqb_spec b dbn) as [->|_]; [|reflexivity]. rewrite E. unfold get_table, store_table in *. cbn [db_tables]. rewrite dget_dset. destruct (str_eqb_spec n name) as [->|_]; [rewrite G; reflexivity|reflexivity].
Qed.
(** steps that only add messages and change known tables *)
Definition steady (f : nat -> xls_state -> list cell -> result xls_state) : Prop :=
  forall id dbs ms row dbs' ms', f id (dbs, ms) row = Ok (dbs', ms') ->
    (forall b n, status dbs' b n = status dbs b n) /\ exists mm, ms' = ms ++ mm /\ forall id' ms0, f id' (dbs, ms0) row = Ok (dbs', ms0 ++ mm).
Lemma on_table_steady tab h col missing (f : list cell -> table -> result table) : (forall st, missing st = Ok st) \/ (forall st, missing st = Err AttributeError) ->
  steady (fun _ st row => on_table tab h col missing (f row) st row).
Proof.
  intros M id dbs ms row dbs' ms' E. unfold on_table in *. destruct (get_text h ($"Database") row) as [dbn|e]; [|discriminate]. cbn [bind] in *. destruct (dget dbn dbs) as [d|] eqn:Ed.
  - destruct (get_text h col row) as [name|e]; [|discriminate]. cbn [bind] in *. destruct (get_table d name) as [t|] eqn:G.
    + destruct (f row t) as [t'|e]; [|discriminate]. cbn [bind] in *. injection E as <- <-. split; [exact (status_store _ _ _ _ _ t' Ed G)|]. exists []. split; [rewrite app_nil_r; reflexivity|]. intros _ ms0. rewrite app_nil_r. reflexivity.
    + destruct M as [M|M]; rewrite M in E; [|discriminate]. injection E as <- <-. split; [reflexivity|]. exists [UnknownTable tab name]. split; [reflexivity|]. intros _ ms0. apply M.
  - injection E as <- <-. split; [reflexivity|]. eexists. split; [reflexivity|]. intros _ ms0. reflexivity.
Qed.
Lemma column_steady h : steady (read_column_row h).
Proof. apply (on_table_steady _ _ _ _ (fun row t => name <- get_text h ($"Name") row ;; type <- get_text h ($"Type") row ;; c <- mk_column (Some name) (Some type) ;; Ok (add_column t c))). left. reflexivity. Qed.
Lemma fk_steady h : steady (read_fk_row h).
Proof. apply (on_table_steady _ _ _ _ (fun row t => name <- get_text h ($"Name") row ;; from_keys <- text_method h ($"From Columns") row ;; to_keys <- text_method h ($"To Columns") row ;; to_table <- get_text h ($"To Table") row ;;
  add_fk_parts t (Some (KeyList (cell_keys from_keys))) (Some to_table) (Some (KeyList (cell_keys to_keys))) (Some name))). left. reflexivity. Qed.
Lemma rel_steady h : steady (read_rel_row h).
Proof. apply (on_table_steady _ _ _ _ (fun row t => to_table <- get_text h ($"To Table") row ;; conditions <- get_text h ($"Conditions") row ;; add_rel_parts t (Some to_table) None (Some conditions))). right. reflexivity. Qed.
Lemma rows_steady f rows : steady f -> forall id dbs ms dbs' ms', read_rows f id rows (dbs, ms) = Ok (dbs', ms') ->
  (forall b n, status dbs' b n = status dbs b n) /\ exists mm, ms' = ms ++ mm /\ forall id' ms0, read_rows f id' rows (dbs, ms0) = Ok (dbs', ms0 ++ mm).
Proof.
  intros S. induction rows as [|r rows IH]; intros id dbs ms dbs' ms' E; cbn [read_rows] in *.
  - injection E as <- <-. split; [reflexivity|]. exists []. split; [rewrite app_nil_r; reflexivity|]. intros _ ms0. rewrite app_nil_r. reflexivity.
  - destruct (f id (dbs, ms) r) as [[dbs1 ms1]|e] eqn:F; [|discriminate]. cbn [bind] in E. destruct (S _ _ _ _ _ _ F) as [K1 [m1 [-> R1]]]. destruct (IH _ _ _ _ _ E) as [K2 [m2 [-> R2]]].
    split; [intros b n; rewrite K2; apply K1|]. exists (m1 ++ m2). split; [symmetry; apply app_assoc|]. intros id' ms0. rewrite R1. cbn [bind]. rewrite R2, app_assoc. reflexivity.
Qed.
(** an extra row that only reports *)
Lemma rows_extra f pre row post x : steady f -> forall id dbs ms dbs' ms', read_rows f id (pre ++ post) (dbs, ms) = Ok (dbs', ms') ->
  (forall dbs1 ms0 i, (forall b n, status dbs1 b n = status dbs' b n) -> f i (dbs1, ms0) row = Ok (dbs1, ms0 ++ [x])) ->
  exists m1 m2, ms' = ms ++ m1 ++ m2 /\ forall ms0, read_rows f id (pre ++ row :: post) (dbs, ms0) = Ok (dbs', ms0 ++ m1 ++ x :: m2).
Proof.
  intros S id dbs ms dbs' ms' E H. rewrite read_rows_app in E. destruct (read_rows f id pre (dbs, ms)) as [[dbs1 ms1]|e] eqn:E1; [|discriminate]. cbn [bind] in E.
  destruct (rows_steady f pre S _ _ _ _ _ E1) as [K1 [m1 [-> R1]]]. destruct (rows_steady f post S _ _ _ _ _ E) as [K2 [m2 [-> R2]]]. exists m1, m2. split; [symmetry; apply app_assoc|].
  intros ms0. rewrite read_rows_app, R1. cbn [bind read_rows]. rewrite H by (intros b n; symmetry; apply K2). cbn [bind]. rewrite R2. rewrite <- !app_assoc. reflexivity.
Qed.
Lemma on_table_dangling tab h col missing f dbs ms row dbn name : get_text h ($"Database") row = Ok dbn -> get_text h col row = Ok name ->
  (dget dbn dbs = None -> on_table tab h col missing f (dbs, ms) row = Ok (dbs, ms ++ [UnknownDatabase tab dbn]))
  /\ (status dbs dbn name = Some false -> on_table tab h col missing f (dbs, ms) row = missing (dbs, ms ++ [UnknownTable tab name])).
Proof.
  intros E1 E2. unfold on_table, status. rewrite E1. cbn [bind]. split.
  - intros ->. reflexivity.
  - destruct (dget dbn dbs) as [d|]; [|discriminate]. rewrite E2. cbn [bind]. destruct (get_table d name); [discriminate|]. reflexivity.
Qed.
Lemma status_none dbs dbn name : status dbs dbn name = None <-> dget dbn dbs = None.
Proof. unfold status. destruct (dget dbn dbs); split; congruence. Qed.
Lemma cell_in_text h row col s : cell_in h row col (CText s) -> get_text h col row = Ok s.
Proof. intros H. unfold get_text. rewrite (cell_in_get _ _ _ _ H). reflexivity. Qed.

(** ** Workbooks that differ in one row *)
Lemma dset_sheet {A} (wb : dict A) s x y : s <> x -> dget s (dset x y wb) = dget s wb.
Proof. intros N. rewrite dget_dset. destruct (str_eqb_spec s x) as [->|_]; [contradiction|reflexivity]. Qed.
Lemma format_same_headers wb wb' : (forall s, In s required_sheets -> match dget s wb, dget s wb' with Some (h :: _), Some (h' :: _) => h = h' | Some [], Some [] => True | None, None => True | _, _ => False end) -> format_ok wb -> format_ok wb'.
Proof.
  intros H F s c R. destruct (F s c R) as [h [rows [E I]]]. apply required_iff in R. specialize (H s (proj1 R)). rewrite E in H. destruct (dget s wb') as [[|h' rows']|] eqn:E'; try contradiction. subst h'. exists h, rows'. split; [exact E'|exact I].
Qed.
Lemma read_ok_format base dbs wb dbs' ms : read_xls base dbs wb = Ok (dbs', ms) -> format_ok wb \/ (~ format_ok wb /\ ~ blank_sheet wb).
Proof.
  intros E. unfold read_xls in E. assert (B : ~ blank_sheet wb) by (intros B; apply blank_iff in B; rewrite verify_blank in E by exact B; discriminate).
  destruct (flat_map (missing_in wb) required_sheets) as [|m l] eqn:M.
  - left. apply format_ok_missing. split; [|exact M]. intros s I Q. apply B, blank_iff. exists s. split; assumption.
  - right. split; [|exact B]. intros F. apply format_ok_missing in F. destruct F as [_ F]. congruence.
Qed.
(** reading the four sheets one after the other *)
Lemma read_four base wb st r : read_databases base wb st = Ok r <-> exists h1 r1 s1 h2 r2 s2 h3 r3 s3 h4 r4,
  dget ($"Tables") wb = Some (h1 :: r1) /\ dget ($"Columns") wb = Some (h2 :: r2) /\ dget ($"Foreign Keys") wb = Some (h3 :: r3) /\ dget ($"Relationships") wb = Some (h4 :: r4)
  /\ read_rows (read_table_row h1) base r1 st = Ok s1 /\ read_rows (read_column_row h2) base r2 s1 = Ok s2 /\ read_rows (read_fk_row h3) base r3 s2 = Ok s3 /\ read_rows (read_rel_row h4) base r4 s3 = Ok r.
Proof.
  unfold read_databases, sheet_parts. split.
  - intros E. destruct (dget ($"Tables") wb) as [[|h1 r1]|]; try discriminate. cbn [bind] in E. destruct (read_rows (read_table_row h1) base r1 st) as [s1|] eqn:E1; [|discriminate]. cbn [bind] in E.
    destruct (dget ($"Columns") wb) as [[|h2 r2]|]; try discriminate. cbn [bind] in E. destruct (read_rows (read_column_row h2) base r2 s1) as [s2|] eqn:E2; [|discriminate]. cbn [bind] in E.
    destruct (dget ($"Foreign Keys") wb) as [[|h3 r3]|]; try discriminate. cbn [bind] in E. destruct (read_rows (read_fk_row h3) base r3 s2) as [s3|] eqn:E3; [|discriminate]. cbn [bind] in E.
    destruct (dget ($"Relationships") wb) as [[|h4 r4]|]; try discriminate. cbn [bind] in E.
    exists h1, r1, s1, h2, r2, s2, h3, r3, s3, h4, r4. repeat (split; [first [reflexivity|eassumption]|]). exact E.
  - intros [h1 [r1 [s1 [h2 [r2 [s2 [h3 [r3 [s3 [h4 [r4 [D1 [D2 [D3 [D4 [E1 [E2 [E3 E4]]]]]]]]]]]]]]]]]]. rewrite D1. cbn [bind]. rewrite E1. cbn [bind]. rewrite D2. cbn [bind]. rewrite E2. cbn [bind]. rewrite D3. cbn [bind]. rewrite E3. cbn [bind]. rewrite D4. cbn [bind]. exact E4.
Qed.
Definition reported (sheet dbn name : str) (dbs : dict database) : xls_message :=
  match dget dbn dbs with None => UnknownDatabase sheet dbn | Some _ => UnknownTable sheet name end.
Lemma extra_row base dbs wb sheet h pre row post dbs' ms dbn name : In sheet [$"Columns"; $"Foreign Keys"; $"Relationships"] ->
  dget sheet wb = Some (h :: pre ++ post) -> read_xls base dbs wb = Ok (dbs', ms) -> format_ok wb ->
  cell_in h row ($"Database") (CText dbn) -> cell_in h row (table_column sheet) (CText name) ->
  ~ knows_table dbs' dbn name -> (sheet = $"Relationships" -> dget dbn dbs' = None) ->
  exists m1 m2, ms = m1 ++ m2 /\ read_xls base dbs (dset sheet (h :: pre ++ row :: post) wb) = Ok (dbs', m1 ++ reported sheet dbn name dbs' :: m2).
Proof.
  intros Is Ds E F C1 C2 K Kr. apply cell_in_text in C1. apply cell_in_text in C2.
  assert (F' : format_ok (dset sheet (h :: pre ++ row :: post) wb)).
  { revert F. apply format_same_headers. intros s _. destruct (str_eqb_spec s sheet) as [->|N]; [rewrite Ds, dget_dset, str_eqb_refl; reflexivity|]. rewrite dset_sheet by exact N. destruct (dget s wb) as [[|a b]|]; auto. }
  rewrite read_format_ok in E by exact F. rewrite read_format_ok by exact F'. apply read_four in E.
  destruct E as [h1 [r1 [[b1 m1] [h2 [r2 [[b2 m2] [h3 [r3 [[b3 m3] [h4 [r4 [D1 [D2 [D3 [D4 [E1 [E2 [E3 E4]]]]]]]]]]]]]]]]]].
  destruct (rows_steady _ _ (column_steady h2) _ _ _ _ _ E2) as [K2 [x2 [Q2 R2]]]. destruct (rows_steady _ _ (fk_steady h3) _ _ _ _ _ E3) as [K3 [x3 [Q3 R3]]]. destruct (rows_steady _ _ (rel_steady h4) _ _ _ _ _ E4) as [K4 [x4 [Q4 R4]]].
  assert (Dangle : forall tab col missing f b m, get_text h col row = Ok name -> (forall u v, status b u v = status dbs' u v) -> (forall st, missing st = Ok st) \/ dget dbn dbs' = None -> sheet = tab ->
     on_table tab h col missing f (b, m) row = Ok (b, m ++ [reported sheet dbn name dbs'])).
  { intros tab col missing f b m G S M ->. destruct (on_table_dangling tab h col missing f b m row dbn name C1 G) as [A B]. unfold reported. destruct (dget dbn dbs') as [d|] eqn:Ed.
    - destruct M as [M|M]; [|discriminate]. rewrite B, M; [reflexivity|]. rewrite S. rewrite status_knows in K. unfold status in *. rewrite Ed in *. destruct (get_table d name); [exfalso; apply K; reflexivity|reflexivity].
    - apply A. apply (proj1 (status_none b dbn name)). rewrite S. apply status_none, Ed. }
  destruct Is as [<-|[<-|[<-|[]]]].
  - rewrite Ds in D2. injection D2 as -> <-. destruct (rows_extra _ pre row post (reported ($"Columns") dbn name dbs') (column_steady h2) _ _ _ _ _ E2) as [y1 [y2 [Qy Ry]]].
    { intros c ms0 i S. apply Dangle; [exact C2| |left; reflexivity|reflexivity]. intros u v. rewrite S, K4, K3. reflexivity. }
    exists (m1 ++ y1), (y2 ++ x3 ++ x4). split; [rewrite Q4, Q3, Qy, <- !app_assoc; reflexivity|]. apply read_four.
    exists h1, r1, (b1, m1), h2, (pre ++ row :: post), (b2, m1 ++ y1 ++ reported ($"Columns") dbn name dbs' :: y2), h3, r3, (b3, (m1 ++ y1 ++ reported ($"Columns") dbn name dbs' :: y2) ++ x3), h4, r4.
    split; [rewrite dset_sheet by discriminate; exact D1|]. split; [rewrite dget_dset, str_eqb_refl; reflexivity|]. split; [rewrite dset_sheet by discriminate; exact D3|]. split; [rewrite dset_sheet by discriminate; exact D4|].
    split; [exact E1|]. split; [apply Ry|]. split; [apply R3|]. rewrite R4. rewrite <- !app_assoc. reflexivity.
  - rewrite Ds in D3. injection D3 as -> <-. destruct (rows_extra _ pre row post (reported ($"Foreign Keys") dbn name dbs') (fk_steady h3) _ _ _ _ _ E3) as [y1 [y2 [Qy Ry]]].
    { intros c ms0 i S. apply Dangle; [exact C2| |left; reflexivity|reflexivity]. intros u v. rewrite S, K4. reflexivity. }
    exists (m2 ++ y1), (y2 ++ x4). split; [rewrite Q4, Qy, <- !app_assoc; reflexivity|]. apply read_four.
    exists h1, r1, (b1, m1), h2, r2, (b2, m2), h3, (pre ++ row :: post), (b3, m2 ++ y1 ++ reported ($"Foreign Keys") dbn name dbs' :: y2), h4, r4.
    split; [rewrite dset_sheet by discriminate; exact D1|]. split; [rewrite dset_sheet by discriminate; exact D2|]. split; [rewrite dget_dset, str_eqb_refl; reflexivity|]. split; [rewrite dset_sheet by discriminate; exact D4|].
    split; [exact E1|]. split; [exact E2|]. split; [apply Ry|]. rewrite R4. rewrite <- !app_assoc. reflexivity.
  - rewrite Ds in D4. injection D4 as -> <-. destruct (rows_extra _ pre row post (reported ($"Relationships") dbn name dbs') (rel_steady h4) _ _ _ _ _ E4) as [y1 [y2 [Qy Ry]]].
    { intros c ms0 i S. apply Dangle; [exact C2|exact S|right; apply Kr; reflexivity|reflexivity]. }
    exists (m3 ++ y1), y2. split; [rewrite Qy, <- !app_assoc; reflexivity|]. apply read_four.
    exists h1, r1, (b1, m1), h2, r2, (b2, m2), h3, r3, (b3, m3), h4, (pre ++ row :: post).
    split; [rewrite dset_sheet by discriminate; exact D1|]. split; [rewrite dset_sheet by discriminate; exact D2|]. split; [rewrite dset_sheet by discriminate; exact D3|]. split; [rewrite dget_dset, str_eqb_refl; reflexivity|].
    split; [exact E1|]. split; [exact E2|]. split; [exact E3|]. rewrite Ry. rewrite <- !app_assoc. reflexivity.
Qed.
Lemma rel_row_fails base dbs wb h pre row post dbs' ms dbn name : dget ($"Relationships") wb = Some (h :: pre) -> read_xls base dbs wb = Ok (dbs', ms) -> format_ok wb ->
  cell_in h row ($"Database") (CText dbn) -> cell_in h row ($"From Table") (CText name) -> ~ knows_table dbs' dbn name -> dget dbn dbs' <> None ->
  read_xls base dbs (dset ($"Relationships") (h :: pre ++ row :: post) wb) = Err AttributeError.
Proof.
  intros Ds E F C1 C2 K Kd. apply cell_in_text in C1. apply cell_in_text in C2.
  assert (F' : format_ok (dset ($"Relationships") (h :: pre ++ row :: post) wb)).
  { revert F. apply format_same_headers. intros s _. destruct (str_eqb_spec s ($"Relationships")) as [->|N]; [rewrite Ds, dget_dset, str_eqb_refl; reflexivity|]. rewrite dset_sheet by exact N. destruct (dget s wb) as [[|a b]|]; auto. }
  rewrite read_format_ok in E by exact F. rewrite read_format_ok by exact F'. apply read_four in E.
  destruct E as [h1 [r1 [s1 [h2 [r2 [s2 [h3 [r3 [s3 [h4 [r4 [D1 [D2 [D3 [D4 [E1 [E2 [E3 E4]]]]]]]]]]]]]]]]]]. rewrite Ds in D4. injection D4 as -> <-.
  unfold read_databases, sheet_parts. rewrite dset_sheet by discriminate. rewrite D1. cbn [bind]. rewrite E1. cbn [bind]. rewrite dset_sheet by discriminate. rewrite D2. cbn [bind]. rewrite E2. cbn [bind]. rewrite dset_sheet by discriminate. rewrite D3. cbn [bind]. rewrite E3. cbn [bind].
  rewrite dget_dset, str_eqb_refl. cbn [bind]. rewrite read_rows_app, E4. cbn [bind read_rows]. unfold read_rel_row at 1.
  destruct (on_table_dangling ($"Relationships") h4 ($"From Table") (fun _ => Err AttributeError) (fun t => to_table <- get_text h4 ($"To Table") row ;; conditions <- get_text h4 ($"Conditions") row ;; add_rel_parts t (Some to_table) None (Some conditions)) dbs' ms row dbn name C1 C2) as [_ B].
  rewrite B; [reflexivity|]. rewrite status_knows in K. unfold status in *. destruct (dget dbn dbs') as [d|]; [|contradiction]. destruct (get_table d name); [exfalso; apply K; reflexivity|reflexivity].
Qed.

(** ** Which databases and tables are read *)
Lemma table_row_status h id dbs ms row dbs' ms' : read_table_row h id (dbs, ms) row = Ok (dbs', ms') ->
  exists dbn, get_text h ($"Database") row = Ok dbn /\
    ((dbn = [] /\ dbs' = dbs) \/ (dbn <> [] /\ exists name, get_text h ($"Table") row = Ok name
       /\ (forall b, dget b dbs' = None <-> dget b dbs = None /\ b <> dbn)
       /\ (forall b n, knows_table dbs' b n <-> knows_table dbs b n \/ (b = dbn /\ n = name)))).
Proof.
  unfold read_table_row. intros E. destruct (get_text h ($"Database") row) as [dbn|e]; [|discriminate]. exists dbn. split; [reflexivity|]. cbn [bind] in E.
  destruct (str_eqb_spec dbn []) as [Z|Nd]; [rewrite Z in *; injection E as <- <-; left; split; reflexivity|]. right. split; [exact Nd|].
  destruct (text_method h ($"Primary Key") row) as [pk|e]; [|discriminate]. cbn [bind] in E. destruct (text_method h ($"Shard Key") row) as [sk|e]; [|discriminate]. cbn [bind] in E.
  destruct (get_cell h ($"# Shards") row) as [nbr|e]; [|discriminate]. cbn [bind] in E. destruct (get_text h ($"Table") row) as [name|e]; [|discriminate]. cbn [bind] in E. destruct (get_text h ($"Schema") row) as [schema|e]; [|discriminate]. cbn [bind] in E.
  destruct (if str_eqb (strip sk) [] then _ else _) as [shard|e]; [|discriminate]. cbn [bind] in E. exists name. split; [reflexivity|]. apply (f_equal (fun r => match r with Ok p => fst p | Err _ => [] end)) in E. cbn [fst] in E. subst dbs'. split.
  - intros b. rewrite dget_dset. destruct (str_eqb_spec b dbn) as [->|N]; [split; [discriminate|intros [_ N]; contradiction]|]. split; [intros G; split; assumption|intros [G _]; exact G].
  - intros b n. unfold knows_table. rewrite dget_dset. destruct (str_eqb_spec b dbn) as [->|N].
    + set (d := match dget dbn dbs with Some d => d | None => empty_database dbn end). unfold get_table at 1, add_table, mk_table. cbn [db_tables t_name]. split.
      * intros [d' [t [Q G]]]. injection Q as <-. cbn [db_tables] in G. rewrite dget_dset in G. destruct (str_eqb_spec n name) as [->|Nn]; [right; split; reflexivity|]. left. unfold d in G. destruct (dget dbn dbs) as [d0|] eqn:Ed; [|discriminate G]. exists d0, t. split; [reflexivity|exact G].
      * intros [[d0 [t [Q G]]]|[_ ->]].
        -- eexists. destruct (str_eqb n name) eqn:En; eexists; (split; [reflexivity|]); cbn [db_tables]; rewrite dget_dset, En; [reflexivity|]. unfold d. rewrite Q. exact G.
        -- eexists. eexists. split; [reflexivity|]. cbn [db_tables]. rewrite dget_dset, str_eqb_refl. reflexivity.
    + split; [intros H; left; exact H|intros [H|[-> _]]; [exact H|contradiction]].
Qed.
Lemma tables_status h rows : forall id dbs ms dbs' ms', read_rows (read_table_row h) id rows (dbs, ms) = Ok (dbs', ms') ->
  (forall b, dget b dbs' <> None <-> dget b dbs <> None \/ (b <> [] /\ exists row, In row rows /\ get_text h ($"Database") row = Ok b))
  /\ (forall b n, knows_table dbs' b n <-> knows_table dbs b n \/ (b <> [] /\ exists row, In row rows /\ get_text h ($"Database") row = Ok b /\ get_text h ($"Table") row = Ok n)).
Proof.
  induction rows as [|r rows IH]; intros id dbs ms dbs' ms' E; cbn [read_rows] in E.
  - injection E as <- <-. split; intros b; [|intros n]; (split; [intros H; left; exact H|intros [H|[_ [row [[] _]]]]; exact H]).
  - destruct (read_table_row h id (dbs, ms) r) as [[dbs1 ms1]|e] eqn:R; [|discriminate]. cbn [bind] in E. destruct (IH _ _ _ _ _ E) as [A B]. destruct (table_row_status _ _ _ _ _ _ _ R) as [dbn [G [[-> ->]|[Nd [name [Gn [S1 S2]]]]]]].
    + split; intros b; [rewrite A|intros n; rewrite B]; (split; [intros [H|[Nb [row [I H]]]]; [left; exact H|right; split; [exact Nb|exists row; split; [right; exact I|exact H]]]|]).
      * intros [H|[Nb [row [[<-|I] H]]]]; [left; exact H|congruence|]. right. split; [exact Nb|exists row; split; [exact I|exact H]].
      * intros [H|[Nb [row [[<-|I] H]]]]; [left; exact H|destruct H; congruence|]. right. split; [exact Nb|exists row; split; [exact I|exact H]].
    + split; intros b; [rewrite A, S1|intros n; rewrite B, S2].
      * split.
        -- intros [H|[Nb [row [I H]]]]; [|right; split; [exact Nb|exists row; split; [right; exact I|exact H]]]. destruct (str_eqb_spec b dbn) as [->|N]; [right; split; [exact Nd|exists r; split; [left; reflexivity|exact G]]|]. left. intros Q. apply H. split; assumption.
        -- intros [H|[Nb [row [[<-|I] H]]]]; [left; intros [Q _]; contradiction|left; intros [_ Q]; congruence|]. right. split; [exact Nb|exists row; split; [exact I|exact H]].
      * split.
        -- intros [[H|[-> ->]]|[Nb [row [I H]]]]; [left; exact H|right; split; [exact Nd|exists r; split; [left; reflexivity|split; assumption]]|]. right; split; [exact Nb|exists row; split; [right; exact I|exact H]].
        -- intros [H|[Nb [row [[<-|I] [H1 H2]]]]]; [left; left; exact H|left; right; split; congruence|]. right. split; [exact Nb|exists row; split; [exact I|split; assumption]].
Qed.
Lemma read_status base dbs wb dbs' ms h rows : format_ok wb -> dget ($"Tables") wb = Some (h :: rows) -> read_xls base dbs wb = Ok (dbs', ms) ->
  (forall b, dget b dbs' <> None <-> dget b dbs <> None \/ (b <> [] /\ exists row, In row rows /\ get_text h ($"Database") row = Ok b))
  /\ (forall b n, knows_table dbs' b n <-> knows_table dbs b n \/ (b <> [] /\ exists row, In row rows /\ get_text h ($"Database") row = Ok b /\ get_text h ($"Table") row = Ok n)).
Proof.
  intros F D E. rewrite read_format_ok in E by exact F. apply read_four in E. destruct E as [h1 [r1 [[b1 m1] [h2 [r2 [[b2 m2] [h3 [r3 [[b3 m3] [h4 [r4 [D1 [D2 [D3 [D4 [E1 [E2 [E3 E4]]]]]]]]]]]]]]]]]]. rewrite D in D1. injection D1 as <- <-.
  destruct (rows_steady _ _ (column_steady h2) _ _ _ _ _ E2) as [K2 _]. destruct (rows_steady _ _ (fk_steady h3) _ _ _ _ _ E3) as [K3 _]. destruct (rows_steady _ _ (rel_steady h4) _ _ _ _ _ E4) as [K4 _].
  assert (K : forall b n, status dbs' b n = status b1 b n) by (intros b n; rewrite K4, K3, K2; reflexivity).
  destruct (tables_status _ _ _ _ _ _ _ E1) as [A B]. split; [intros b; rewrite <- A, <- (status_none dbs' b []), <- (status_none b1 b []), K; reflexivity|intros b n; rewrite <- B, !status_knows, K; reflexivity].
Qed.
Lemma column_cell wb sheet col cells h rows : column_is wb sheet col cells -> dget sheet wb = Some (h :: rows) ->
  forall k row, nth_error rows k = Some row -> exists c, nth_error cells k = Some c /\ get_cell h col row = Ok c.
Proof.
  intros [h' [rows' [i [E [N [U ->]]]]]] D k row R. rewrite D in E. injection E as <- <-. exists (nth i row (CText [])). split; [rewrite nth_error_map, R; reflexivity|]. unfold get_cell. rewrite (last_index_some _ _ 0 i N U). reflexivity.
Qed.
Lemma column_cell_inv wb sheet col cells h rows : column_is wb sheet col cells -> dget sheet wb = Some (h :: rows) ->
  forall k c, nth_error cells k = Some c -> exists row, nth_error rows k = Some row /\ get_cell h col row = Ok c.
Proof.
  intros [h' [rows' [i [E [N [U ->]]]]]] D k c R. rewrite D in E. injection E as <- <-. rewrite nth_error_map in R. destruct (nth_error rows k) as [row|]; [|discriminate]. injection R as <-. exists row. split; [reflexivity|]. unfold get_cell. rewrite (last_index_some _ _ 0 i N U). reflexivity.
Qed.
Lemma get_text_cell h col row s : get_text h col row = Ok s <-> get_cell h col row = Ok (CText s).
Proof. unfold get_text. destruct (get_cell h col row) as [[x|z]|e]; cbn [bind]; split; congruence. Qed.
Lemma read_which base dbs wb dbs' ms dcells tcells : format_ok wb -> column_is wb ($"Tables") ($"Database") dcells -> column_is wb ($"Tables") ($"Table") tcells -> read_xls base dbs wb = Ok (dbs', ms) ->
  (forall b, In b (dkeys dbs') <-> In b (dkeys dbs) \/ (b <> [] /\ In (CText b) dcells))
  /\ (forall b n, knows_table dbs' b n <-> knows_table dbs b n \/ (b <> [] /\ exists k, nth_error dcells k = Some (CText b) /\ nth_error tcells k = Some (CText n))).
Proof.
  intros F C1 C2 E. assert (D : exists h rows, dget ($"Tables") wb = Some (h :: rows)) by (destruct C1 as [h [rows [i [D _]]]]; exists h, rows; exact D). destruct D as [h [rows D]].
  destruct (read_status _ _ _ _ _ _ _ F D E) as [A B].
  assert (In_d : forall b (x : dict database), In b (dkeys x) <-> dget b x <> None) by (intros b x; unfold dkeys; rewrite dget_in; destruct (dget b x) as [v|]; split; try congruence; [intros _; exists v; reflexivity|intros [v Q]; discriminate]).
  split; intros b; [rewrite !In_d, A|intros n; rewrite B]; (split; [intros [H|[Nb [row [I H]]]]; [left; exact H|right; split; [exact Nb|]]|intros [H|[Nb H]]; [left; exact H|right; split; [exact Nb|]]]).
  - apply get_text_cell in H. apply In_nth_error in I. destruct I as [k K]. destruct (column_cell _ _ _ _ _ _ C1 D k row K) as [c [Q1 Q2]]. rewrite H in Q2. injection Q2 as <-. eapply nth_error_In. exact Q1.
  - apply In_nth_error in H. destruct H as [k K]. destruct (column_cell_inv _ _ _ _ _ _ C1 D k _ K) as [row [Q1 Q2]]. exists row. split; [eapply nth_error_In; exact Q1|apply get_text_cell, Q2].
  - destruct H as [H1 H2]. apply get_text_cell in H1. apply get_text_cell in H2. apply In_nth_error in I. destruct I as [k K]. exists k. destruct (column_cell _ _ _ _ _ _ C1 D k row K) as [c [Q1 Q2]]. rewrite H1 in Q2. injection Q2 as <-.
    destruct (column_cell _ _ _ _ _ _ C2 D k row K) as [c [R1 R2]]. rewrite H2 in R2. injection R2 as <-. split; assumption.
  - destruct H as [k [K1 K2]]. destruct (column_cell_inv _ _ _ _ _ _ C1 D k _ K1) as [row [Q1 Q2]]. destruct (column_cell_inv _ _ _ _ _ _ C2 D k _ K2) as [row' [R1 R2]]. rewrite Q1 in R1. injection R1 as <-.
    exists row. split; [eapply nth_error_In; exact Q1|]. split; apply get_text_cell; assumption.
Qed.
