(** * Lemmas about what is said about a workbook (C106) *)
From Verif Require Import StrFacts ExcelMore.
From Verif Require Export SpecBook ExcelTalkFacts.
From Coq Require Import List Lia. Import ListNotations.

(** ** Cells *)
Lemma holds_cell w sheet k col c h rows : dget sheet w = Some (h :: rows) -> holds w sheet k col c -> exists row, nth_error rows k = Some row /\ get_cell h col row = Ok c.
Proof. intros D [cells [C N]]. exact (column_cell_inv _ _ _ _ _ _ C D k c N). Qed.
Lemma cell_holds w sheet k col c h rows row : complete_book w -> required sheet col -> dget sheet w = Some (h :: rows) -> nth_error rows k = Some row -> get_cell h col row = Ok c -> holds w sheet k col c.
Proof.
  intros T R D N G. destruct (T _ _ R) as [cells C]. exists cells. split; [exact C|]. destruct (column_cell _ _ _ _ _ _ C D k row N) as [c' [E G']]. congruence.
Qed.
Lemma text_cell h col row s : get_text h col row = Ok s <-> get_cell h col row = Ok (CText s).
Proof. unfold get_text. destruct (get_cell h col row) as [[x|z]|e]; cbn [bind]; split; congruence. Qed.
Lemma method_cell h col row s : text_method h col row = Ok s <-> get_cell h col row = Ok (CText s).
Proof. unfold text_method. destruct (get_cell h col row) as [[x|z]|e]; cbn [bind]; split; congruence. Qed.
Lemma holds_text w sheet k col s h rows : complete_book w -> required sheet col -> dget sheet w = Some (h :: rows) ->
  holds w sheet k col (CText s) <-> exists row, nth_error rows k = Some row /\ get_text h col row = Ok s.
Proof.
  intros T R D. split.
  - intros H. destruct (holds_cell _ _ _ _ _ _ _ D H) as [row [N G]]. exists row. split; [exact N|apply text_cell, G].
  - intros [row [N G]]. apply text_cell in G. exact (cell_holds _ _ _ _ _ _ _ _ T R D N G).
Qed.
Lemma same_row {A} (l : list A) k a b : nth_error l k = Some a -> nth_error l k = Some b -> a = b.
Proof. congruence. Qed.
Lemma complete_format w : complete_book w -> format_ok w.
Proof. intros T. apply (same_format w w). intros s c R. destruct (T s c R) as [cells C]. exists cells. split; exact C. Qed.

(** ** Messages of the rows that need a table *)
Definition complaint (tab : str) (h : list cell) (col : str) (dbs : dict database) (row : list cell) (m : xls_message) : Prop :=
  exists b, get_text h ($"Database") row = Ok b
    /\ ((dget b dbs = None /\ m = UnknownDatabase tab b) \/ exists n, get_text h col row = Ok n /\ status dbs b n = Some false /\ m = UnknownTable tab n).
Lemma status_get dbs b n d : dget b dbs = Some d -> status dbs b n = Some (match get_table d n with Some _ => true | None => false end).
Proof. unfold status. intros ->. reflexivity. Qed.
Lemma complaint_status tab h col dbs dbs' row m : (forall b n, status dbs' b n = status dbs b n) -> complaint tab h col dbs' row m <-> complaint tab h col dbs row m.
Proof.
  intros S. unfold complaint. assert (N : forall b, dget b dbs' = None <-> dget b dbs = None) by (intros b; rewrite <- (status_none dbs' b []), <- (status_none dbs b []), S; reflexivity).
  split; intros [b [G [[D E]|[n [Gn [St E]]]]]]; exists b; (split; [exact G|]); [left|right|left|right]; [split; [apply N, D|exact E]|exists n; rewrite <- S; auto|split; [apply N, D|exact E]|exists n; rewrite S; auto].
Qed.
Lemma on_table_says tab h col missing f dbs ms row dbs' ms' : (forall st, missing st = Ok st) \/ (forall st, missing st = Err AttributeError) ->
  on_table tab h col missing f (dbs, ms) row = Ok (dbs', ms') -> forall m, In m ms' <-> In m ms \/ complaint tab h col dbs row m.
Proof.
  intros M E m. unfold on_table in E. unfold complaint. destruct (get_text h ($"Database") row) as [b|e]; [|discriminate]. cbn [bind] in E. destruct (dget b dbs) as [d|] eqn:Ed.
  - destruct (get_text h col row) as [n|e]; [|discriminate]. cbn [bind] in E. destruct (get_table d n) as [t|] eqn:Gt.
    + destruct (f t) as [t'|e]; [|discriminate]. cbn [bind] in E. injection E as <- <-. split; [intros I; left; exact I|]. intros [I|[b' [G [[D _]|[n' [Gn [St _]]]]]]]; [exact I| |]; injection G as <-; [congruence|]. injection Gn as <-. rewrite (status_get _ _ _ _ Ed), Gt in St. discriminate.
    + destruct M as [M|M]; rewrite M in E; [|discriminate]. injection E as <- <-. rewrite in_app_iff. split.
      * intros [I|[<-|[]]]; [left; exact I|]. right. exists b. split; [reflexivity|]. right. exists n. split; [reflexivity|]. rewrite (status_get _ _ _ _ Ed), Gt. split; reflexivity.
      * intros [I|[b' [G [[D _]|[n' [Gn [St ->]]]]]]]; [left; exact I| |]; injection G as <-; [congruence|]. injection Gn as <-. right. left. reflexivity.
  - injection E as <- <-. rewrite in_app_iff. split.
    + intros [I|[<-|[]]]; [left; exact I|]. right. exists b. split; [reflexivity|]. left. split; [exact Ed|reflexivity].
    + intros [I|[b' [G [[D ->]|[n' [Gn [St _]]]]]]]; [left; exact I| |]; injection G as <-; [right; left; reflexivity|]. unfold status in St. rewrite Ed in St. discriminate.
Qed.
Definition says (f : nat -> xls_state -> list cell -> result xls_state) (tab : str) (h : list cell) (col : str) : Prop :=
  forall id dbs ms row dbs' ms', f id (dbs, ms) row = Ok (dbs', ms') -> forall m, In m ms' <-> In m ms \/ complaint tab h col dbs row m.
Lemma rows_says f tab h col rows : steady f -> says f tab h col -> forall id dbs ms dbs' ms', read_rows f id rows (dbs, ms) = Ok (dbs', ms') ->
  forall m, In m ms' <-> In m ms \/ exists row, In row rows /\ complaint tab h col dbs row m.
Proof.
  intros S Y. induction rows as [|r rows IH]; intros id dbs ms dbs' ms' E m; cbn [read_rows] in E.
  - injection E as <- <-. split; [intros I; left; exact I|intros [I|[row [[] _]]]; exact I].
  - destruct (f id (dbs, ms) r) as [[dbs1 ms1]|e] eqn:F; [|discriminate]. cbn [bind] in E. destruct (S _ _ _ _ _ _ F) as [K _]. rewrite (IH _ _ _ _ _ E m), (Y _ _ _ _ _ _ F m). split.
    + intros [[I|C]|[row [I C]]]; [left; exact I|right; exists r; split; [left; reflexivity|exact C]|]. right. exists row. split; [right; exact I|]. apply (complaint_status _ _ _ _ _ _ _ K), C.
    + intros [I|[row [[<-|I] C]]]; [left; left; exact I|left; right; exact C|]. right. exists row. split; [exact I|]. apply (complaint_status _ _ _ _ _ _ _ K), C.
Qed.
Lemma column_says h : says (read_column_row h) ($"Columns") h ($"Table").
Proof. intros id dbs ms row dbs' ms' E. apply (on_table_says _ _ _ _ _ _ _ _ _ _ (or_introl (fun st => eq_refl)) E). Qed.
Lemma fk_says h : says (read_fk_row h) ($"Foreign Keys") h ($"From Table").
Proof. intros id dbs ms row dbs' ms' E. apply (on_table_says _ _ _ _ _ _ _ _ _ _ (or_introl (fun st => eq_refl)) E). Qed.
Lemma rel_says h : says (read_rel_row h) ($"Relationships") h ($"From Table").
Proof. intros id dbs ms row dbs' ms' E. apply (on_table_says _ _ _ _ _ _ _ _ _ _ (or_intror (fun st => eq_refl)) E). Qed.
(** a sheet Relationships that is read to its end has no row about an unknown table *)
Lemma rel_rows_known h rows : forall id dbs ms dbs' ms', read_rows (read_rel_row h) id rows (dbs, ms) = Ok (dbs', ms') ->
  forall row b n, In row rows -> get_text h ($"Database") row = Ok b -> get_text h ($"From Table") row = Ok n -> status dbs b n <> Some false.
Proof.
  induction rows as [|r rows IH]; intros id dbs ms dbs' ms' E row b n I Gb Gn; [destruct I|]. cbn [read_rows] in E. destruct (read_rel_row h id (dbs, ms) r) as [[dbs1 ms1]|e] eqn:F; [|discriminate]. cbn [bind] in E. destruct I as [->|I].
  - intros St. unfold read_rel_row in F. destruct (on_table_dangling ($"Relationships") h ($"From Table") (fun _ => Err AttributeError)
      (fun t => to_table <- get_text h ($"To Table") row ;; conditions <- get_text h ($"Conditions") row ;; add_rel_parts t (Some to_table) None (Some conditions)) dbs ms row b n Gb Gn) as [_ B]. rewrite (B St) in F. discriminate.
  - rewrite <- (proj1 (rel_steady h _ _ _ _ _ _ F) b n). exact (IH _ _ _ _ _ E row b n I Gb Gn).
Qed.
(** the rows of the sheet Tables only complain about half a shard key *)
Lemma table_rows_kind h rows : forall id dbs ms dbs' ms', read_rows (read_table_row h) id rows (dbs, ms) = Ok (dbs', ms') ->
  forall m, In m ms' -> In m ms \/ exists n, m = NeedBoth n.
Proof.
  induction rows as [|r rows IH]; intros id dbs ms dbs' ms' E m I; cbn [read_rows] in E; [injection E as <- <-; left; exact I|].
  destruct (read_table_row h id (dbs, ms) r) as [[dbs1 ms1]|e] eqn:F; [|discriminate]. cbn [bind] in E. destruct (IH _ _ _ _ _ E m I) as [I1|X]; [|right; exact X].
  unfold read_table_row in F. destruct (get_text h ($"Database") r) as [b|e]; [|discriminate]. cbn [bind] in F. destruct (str_eqb b []); [injection F as <- <-; left; exact I1|].
  destruct (text_method h ($"Primary Key") r) as [pk|e]; [|discriminate]. cbn [bind] in F. destruct (text_method h ($"Shard Key") r) as [sk|e]; [|discriminate]. cbn [bind] in F.
  destruct (get_cell h ($"# Shards") r) as [nbr|e]; [|discriminate]. cbn [bind] in F. destruct (get_text h ($"Table") r) as [n|e]; [|discriminate]. cbn [bind] in F. destruct (get_text h ($"Schema") r) as [sc|e]; [|discriminate]. cbn [bind] in F.
  destruct (if str_eqb (strip sk) [] then _ else _) as [shard|e]; [|discriminate]. cbn [bind] in F. apply (f_equal (fun r => match r with Ok p => snd p | Err _ => [] end)) in F. cbn [snd] in F. subst ms1.
  destruct ((_ && _) || _)%bool; [|left; exact I1]. apply in_app_iff in I1. destruct I1 as [I1|[<-|[]]]; [left; exact I1|right; exists n; reflexivity].
Qed.

(** ** All messages of a workbook that is read *)
Lemma required_in sheet col : In sheet required_sheets -> In col (required_columns sheet) -> required sheet col.
Proof. intros A B. apply required_iff. split; assumption. Qed.
Ltac its := apply required_in; vm_compute; repeat (first [left; reflexivity|right]).
Lemma described_rows w h rows : complete_book w -> dget ($"Tables") w = Some (h :: rows) ->
  (forall b, database_described w b <-> b <> [] /\ exists row, In row rows /\ get_text h ($"Database") row = Ok b)
  /\ (forall b n, table_described w b n <-> b <> [] /\ exists row, In row rows /\ get_text h ($"Database") row = Ok b /\ get_text h ($"Table") row = Ok n).
Proof.
  intros T D. assert (Rd : required ($"Tables") ($"Database")) by its. assert (Rt : required ($"Tables") ($"Table")) by its.
  split; intros b; [|intros n]; split; intros [Nb H]; (split; [exact Nb|]).
  - destruct H as [k H]. apply (holds_text _ _ _ _ _ _ _ T Rd D) in H. destruct H as [row [N G]]. exists row. split; [exact (nth_error_In _ _ N)|exact G].
  - destruct H as [row [I G]]. apply In_nth_error in I. destruct I as [k N]. exists k. apply (holds_text _ _ _ _ _ _ _ T Rd D). exists row. split; assumption.
  - destruct H as [k [H1 H2]]. apply (holds_text _ _ _ _ _ _ _ T Rd D) in H1. apply (holds_text _ _ _ _ _ _ _ T Rt D) in H2. destruct H1 as [row [N1 G1]], H2 as [row' [N2 G2]]. rewrite (same_row _ _ _ _ N2 N1) in G2. exists row. split; [exact (nth_error_In _ _ N1)|split; assumption].
  - destruct H as [row [I [G1 G2]]]. apply In_nth_error in I. destruct I as [k N]. exists k. split; [apply (holds_text _ _ _ _ _ _ _ T Rd D)|apply (holds_text _ _ _ _ _ _ _ T Rt D)]; exists row; split; assumption.
Qed.
Lemma about_rows w sheet h rows : complete_book w -> In sheet [$"Columns"; $"Foreign Keys"; $"Relationships"] -> dget sheet w = Some (h :: rows) ->
  (forall b, row_in w sheet b <-> exists row, In row rows /\ get_text h ($"Database") row = Ok b)
  /\ (forall b n, row_about w sheet b n <-> exists row, In row rows /\ get_text h ($"Database") row = Ok b /\ get_text h (table_column sheet) row = Ok n).
Proof.
  intros T Is D. assert (R : required sheet ($"Database") /\ required sheet (table_column sheet)) by (destruct Is as [<-|[<-|[<-|[]]]]; (split; [its|its])). destruct R as [Rd Rt].
  split; intros b; [|intros n]; split.
  - intros [k H]. apply (holds_text _ _ _ _ _ _ _ T Rd D) in H. destruct H as [row [N G]]. exists row. split; [exact (nth_error_In _ _ N)|exact G].
  - intros [row [I G]]. apply In_nth_error in I. destruct I as [k N]. exists k. apply (holds_text _ _ _ _ _ _ _ T Rd D). exists row. split; assumption.
  - intros [k [H1 H2]]. apply (holds_text _ _ _ _ _ _ _ T Rd D) in H1. apply (holds_text _ _ _ _ _ _ _ T Rt D) in H2. destruct H1 as [row [N1 G1]], H2 as [row' [N2 G2]]. rewrite (same_row _ _ _ _ N2 N1) in G2. exists row. split; [exact (nth_error_In _ _ N1)|split; assumption].
  - intros [row [I [G1 G2]]]. apply In_nth_error in I. destruct I as [k N]. exists k. split; [apply (holds_text _ _ _ _ _ _ _ T Rd D)|apply (holds_text _ _ _ _ _ _ _ T Rt D)]; exists row; split; assumption.
Qed.
Lemma half_rows w h rows n : complete_book w -> dget ($"Tables") w = Some (h :: rows) -> half_described w n <-> exists row, In row rows /\ half_shard h row n.
Proof.
  intros T D. assert (R : forall c, In c [$"Database"; $"Table"; $"Shard Key"; $"# Shards"] -> required ($"Tables") c) by (intros c [<-|[<-|[<-|[<-|[]]]]]; its).
  assert (Rb := R _ (or_introl eq_refl)). assert (Rt := R _ (or_intror (or_introl eq_refl))). assert (Rk := R _ (or_intror (or_intror (or_introl eq_refl)))). assert (Rz := R _ (or_intror (or_intror (or_intror (or_introl eq_refl))))). clear R.
  unfold half_described, half_shard. split.
  - intros [k [b [sk [nbr [H1 [Nb [H2 [H3 [H4 H]]]]]]]]]. destruct (holds_cell _ _ _ _ _ _ _ D H1) as [row [N1 G1]], (holds_cell _ _ _ _ _ _ _ D H2) as [row2 [N2 G2]], (holds_cell _ _ _ _ _ _ _ D H3) as [row3 [N3 G3]], (holds_cell _ _ _ _ _ _ _ D H4) as [row4 [N4 G4]].
    rewrite (same_row _ _ _ _ N2 N1) in G2. rewrite (same_row _ _ _ _ N3 N1) in G3. rewrite (same_row _ _ _ _ N4 N1) in G4. exists row. split; [exact (nth_error_In _ _ N1)|]. exists b, sk, nbr. split; [exact Nb|]. split; [apply text_cell, G1|]. split; [apply text_cell, G2|]. split; [apply method_cell, G3|]. split; [exact G4|exact H].
  - intros [row [I [b [sk [nbr [Nb [G1 [G2 [G3 [G4 H]]]]]]]]]]. apply text_cell in G1. apply text_cell in G2. apply method_cell in G3. apply In_nth_error in I. destruct I as [k N]. exists k, b, sk, nbr.
    split; [exact (cell_holds _ _ _ _ _ _ _ _ T Rb D N G1)|]. split; [exact Nb|]. split; [exact (cell_holds _ _ _ _ _ _ _ _ T Rt D N G2)|]. split; [exact (cell_holds _ _ _ _ _ _ _ _ T Rk D N G3)|]. split; [exact (cell_holds _ _ _ _ _ _ _ _ T Rz D N G4)|exact H].
Qed.
Lemma read_says base w dbs ms : complete_book w -> read_xls base [] w = Ok (dbs, ms) ->
  (forall m, In m ms <->
    (exists n, m = NeedBoth n /\ half_described w n)
    \/ (exists sheet b, In sheet [$"Columns"; $"Foreign Keys"; $"Relationships"] /\ m = UnknownDatabase sheet b /\ row_in w sheet b /\ ~ database_described w b)
    \/ (exists sheet b n, In sheet [$"Columns"; $"Foreign Keys"] /\ m = UnknownTable sheet n /\ row_about w sheet b n /\ database_described w b /\ ~ table_described w b n))
  /\ (forall b n, row_about w ($"Relationships") b n -> database_described w b -> table_described w b n).
Proof.
  intros T E. rewrite read_format_ok in E by (apply complete_format, T). apply read_four in E.
  destruct E as [h1 [r1 [[b1 m1] [h2 [r2 [[b2 m2] [h3 [r3 [[b3 m3] [h4 [r4 [D1 [D2 [D3 [D4 [E1 [E2 [E3 E4]]]]]]]]]]]]]]]]]].
  destruct (rows_steady _ _ (column_steady h2) _ _ _ _ _ E2) as [K2 _]. destruct (rows_steady _ _ (fk_steady h3) _ _ _ _ _ E3) as [K3 _].
  assert (K3' : forall b n, status b3 b n = status b1 b n) by (intros b n; rewrite K3, K2; reflexivity).
  destruct (tables_status _ _ _ _ _ _ _ E1) as [S1 S2]. destruct (described_rows w h1 r1 T D1) as [P1 P2].
  assert (U1 : forall b, dget b b1 = None <-> ~ database_described w b).
  { intros b. rewrite P1. specialize (S1 b). cbn [dget] in S1. destruct (dget b b1); split; intros Q; try discriminate; try reflexivity.
    - exfalso. apply Q. destruct (proj1 S1) as [X|X]; [discriminate|congruence|exact X].
    - intros X. apply (proj2 S1); [right; exact X|reflexivity]. }
  assert (U2 : forall b n, status b1 b n = Some false <-> database_described w b /\ ~ table_described w b n).
  { intros b n. rewrite P2. assert (Q : knows_table b1 b n <-> (b <> [] /\ exists row, In row r1 /\ get_text h1 ($"Database") row = Ok b /\ get_text h1 ($"Table") row = Ok n)) by (rewrite S2; split; [intros [[d [t [X _]]]|X]; [discriminate|exact X]|intros X; right; exact X]).
    rewrite <- Q, status_knows. clear Q. specialize (U1 b). assert (V : dget b b1 <> None <-> database_described w b).
    { rewrite P1, S1. cbn [dget]. split; [intros [X|X]; [congruence|exact X]|intros X; right; exact X]. }
    unfold status in *. destruct (dget b b1) as [d|].
    - destruct (get_table d n); split; intros X; try discriminate; try reflexivity; [destruct X as [_ X]; exfalso; apply X; reflexivity|]. split; [apply V; discriminate|discriminate].
    - split; [discriminate|]. intros [X _]. exfalso. apply V in X. apply X. reflexivity. }
  assert (A2 := about_rows w ($"Columns") h2 r2 T (or_introl eq_refl) D2). assert (A3 := about_rows w ($"Foreign Keys") h3 r3 T (or_intror (or_introl eq_refl)) D3). assert (A4 := about_rows w ($"Relationships") h4 r4 T (or_intror (or_intror (or_introl eq_refl))) D4).
  assert (C : forall sheet col h rows, (forall b, row_in w sheet b <-> exists row, In row rows /\ get_text h ($"Database") row = Ok b)
     /\ (forall b n, row_about w sheet b n <-> exists row, In row rows /\ get_text h ($"Database") row = Ok b /\ get_text h col row = Ok n) ->
     forall m, (exists row, In row rows /\ complaint sheet h col b1 row m) <->
       (exists b, m = UnknownDatabase sheet b /\ row_in w sheet b /\ ~ database_described w b) \/ (exists b n, m = UnknownTable sheet n /\ row_about w sheet b n /\ database_described w b /\ ~ table_described w b n)).
  { intros sheet col h rows [A B] m. unfold complaint. split.
    - intros [row [I [b [G [[X ->]|[n [Gn [X ->]]]]]]]].
      + left. exists b. split; [reflexivity|]. split; [apply A; exists row; split; assumption|apply U1, X].
      + right. exists b, n. split; [reflexivity|]. split; [apply B; exists row; repeat split; assumption|apply U2, X].
    - intros [[b [-> [R X]]]|[b [n [-> [R X]]]]].
      + apply A in R. destruct R as [row [I G]]. exists row. split; [exact I|]. exists b. split; [exact G|]. left. split; [apply U1, X|reflexivity].
      + apply B in R. destruct R as [row [I [G Gn]]]. exists row. split; [exact I|]. exists b. split; [exact G|]. right. exists n. split; [exact Gn|]. split; [apply U2, X|reflexivity]. }
  assert (Rel : forall b n, row_about w ($"Relationships") b n -> database_described w b -> table_described w b n).
  { intros b n R X. destruct A4 as [_ B]. apply B in R. destruct R as [row [I [G Gn]]]. pose proof (rel_rows_known h4 r4 _ _ _ _ _ E4 row b n I G Gn) as Q. rewrite K3', U2 in Q.
    rewrite P2. specialize (P2 b n). assert (Dec : knows_table b1 b n \/ ~ knows_table b1 b n) by (rewrite status_knows; destruct (status b1 b n) as [[]|]; [left; reflexivity|right; discriminate|right; discriminate]).
    rewrite S2 in Dec. destruct Dec as [[[d [t [Y _]]]|Y]|Y]; [discriminate|exact Y|]. exfalso. apply Q. split; [exact X|]. rewrite P2. intros Z. apply Y. right. exact Z. }
  split; [|exact Rel]. intros m.
  rewrite (rows_says _ _ _ _ _ (rel_steady h4) (rel_says h4) _ _ _ _ _ E4 m), (rows_says _ _ _ _ _ (fk_steady h3) (fk_says h3) _ _ _ _ _ E3 m), (rows_says _ _ _ _ _ (column_steady h2) (column_says h2) _ _ _ _ _ E2 m).
  assert (Q3 : (exists row, In row r3 /\ complaint ($"Foreign Keys") h3 ($"From Table") b2 row m) <-> (exists row, In row r3 /\ complaint ($"Foreign Keys") h3 ($"From Table") b1 row m)) by (split; intros [row [I X]]; exists row; (split; [exact I|]); apply (complaint_status _ _ _ _ _ _ _ K2), X).
  assert (Q4 : (exists row, In row r4 /\ complaint ($"Relationships") h4 ($"From Table") b3 row m) <-> (exists row, In row r4 /\ complaint ($"Relationships") h4 ($"From Table") b1 row m)) by (split; intros [row [I X]]; exists row; (split; [exact I|]); apply (complaint_status _ _ _ _ _ _ _ K3'), X).
  rewrite Q3, Q4, (C _ _ _ _ A2 m), (C _ _ _ _ A3 m), (C _ _ _ _ A4 m). clear Q3 Q4 C.
  assert (H1 : In m m1 <-> exists n, m = NeedBoth n /\ half_described w n).
  { split.
    - intros I. destruct (table_rows_kind h1 r1 _ _ _ _ _ E1 m I) as [[]|[n ->]]. exists n. split; [reflexivity|]. apply (tables_half h1 r1 n _ _ _ _ _ E1) in I. destruct I as [[]|I]. apply (half_rows w h1 r1 n T D1), I.
    - intros [n [-> X]]. apply (tables_half h1 r1 n _ _ _ _ _ E1). right. apply (half_rows w h1 r1 n T D1), X. }
  rewrite H1. clear - Rel. split.
  - intros [[[H|[H|H]]|[H|H]]|[H|H]].
    + left. exact H.
    + destruct H as [b H]. right. left. exists ($"Columns"), b. split; [left; reflexivity|exact H].
    + destruct H as [b [n H]]. right. right. exists ($"Columns"), b, n. split; [left; reflexivity|exact H].
    + destruct H as [b H]. right. left. exists ($"Foreign Keys"), b. split; [right; left; reflexivity|exact H].
    + destruct H as [b [n H]]. right. right. exists ($"Foreign Keys"), b, n. split; [right; left; reflexivity|exact H].
    + destruct H as [b H]. right. left. exists ($"Relationships"), b. split; [right; right; left; reflexivity|exact H].
    + destruct H as [b [n [_ [R [X Y]]]]]. exfalso. exact (Y (Rel b n R X)).
  - intros [H|[[sheet [b [[<-|[<-|[<-|[]]]] H]]]|[sheet [b [n [[<-|[<-|[]]] H]]]]]].
    + left. left. left. exact H.
    + left. left. right. left. exists b. exact H.
    + left. right. left. exists b. exact H.
    + right. left. exists b. exact H.
    + left. left. right. right. exists b, n. exact H.
    + left. right. right. exists b, n. exact H.
Qed.
(** what the sheet Tables names is what is known in the end *)
Lemma described_known base w dbs ms : complete_book w -> read_xls base [] w = Ok (dbs, ms) ->
  (forall b, database_described w b <-> dget b dbs <> None) /\ (forall b n, table_described w b n <-> knows_table dbs b n).
Proof.
  intros T E. destruct (complete_format _ T ($"Tables") ($"Database")) as [h [rows [D _]]]; [its|]. destruct (described_rows w h rows T D) as [P1 P2]. destruct (read_status _ _ _ _ _ _ _ (complete_format _ T) D E) as [S1 S2]. cbn [dget] in S1. split.
  - intros b. rewrite P1, S1. split; [intros X; right; exact X|intros [X|X]; [congruence|exact X]].
  - intros b n. rewrite P2, S2. split; [intros X; right; exact X|intros [[d [t [X _]]]|X]; [discriminate|exact X]].
Qed.
Lemma known_dec dbs b n : knows_table dbs b n \/ ~ knows_table dbs b n.
Proof. rewrite status_knows. destruct (status dbs b n) as [[]|]; [left; reflexivity|right; discriminate|right; discriminate]. Qed.
