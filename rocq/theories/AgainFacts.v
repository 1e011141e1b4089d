(** * Lemmas about a reader used for several workbooks (C108) *)
From Verif Require Import StrFacts ExcelMore.
From Verif Require Export LeftFacts SpecAgain ContentsFacts.
From Coq Require Import List Lia. Import ListNotations.

(** ** Dictionaries that are filled further *)
Definition keyed {V} (name : V -> str) (d : dict V) : Prop := NoDup (dkeys d) /\ forall x v, In (x, v) d -> name v = x.
Lemma dset_new {V} x (v : V) d : ~ In x (dkeys d) -> dset x v d = d ++ [(x, v)].
Proof.
  induction d as [|[k w] d IH]; intros N; [reflexivity|]. cbn [dset dkeys map fst] in *. destruct (str_eqb_spec x k) as [->|Q]; [exfalso; apply N; left; reflexivity|]. rewrite IH; [reflexivity|]. intros I. apply N. right. exact I.
Qed.
Lemma puts_self {V} (d : dict V) : NoDup (dkeys d) -> puts (map Some d) = d.
Proof.
  unfold puts. enough (G : forall d0, NoDup (dkeys (d0 ++ d)) -> fold_left put (map Some d) d0 = d0 ++ d) by (intros N; exact (G [] N)).
  induction d as [|[k v] d IH]; intros d0 N; [symmetry; apply app_nil_r|]. cbn [map fold_left put]. unfold dkeys in N. rewrite map_app in N. cbn [map fst] in N. rewrite dset_new.
  - rewrite IH; [rewrite <- app_assoc; reflexivity|]. unfold dkeys. rewrite <- app_assoc, map_app. exact N.
  - intros I. apply NoDup_remove_2 in N. apply N, in_or_app. left. exact I.
Qed.
Lemma puts_more {V} (d : dict V) l : NoDup (dkeys d) -> fold_left put l d = puts (map Some d ++ l).
Proof. intros N. unfold puts. rewrite fold_left_app. change (fold_left put (map Some d) []) with (puts (map Some d)). rewrite (puts_self d N). reflexivity. Qed.
Lemma refilled {V} (d : dict V) l (entry : nat -> str -> V -> Prop) : NoDup (dkeys d) -> (forall k x v, nth_error l k = Some (Some (x, v)) <-> entry k x v) ->
  filled (then_rows d entry) (fun x => dget x (fold_left put l d)) (dkeys (fold_left put l d)).
Proof.
  intros N E. rewrite (puts_more d l N). apply (filled_same (fun k x v => nth_error (map Some d ++ l) k = Some (Some (x, v))) _ (fun x => dget x (puts (map Some d ++ l)))); [|reflexivity|apply puts_filled].
  intros k x v. unfold then_rows. destruct (Nat.lt_ge_cases k (length d)) as [L|L].
  - rewrite nth_error_app1 by (rewrite map_length; exact L). rewrite nth_map_some. split.
    + intros [a [A B]]. injection B as ->. left. exact A.
    + intros [A|[j [J _]]]; [exists (x, v); split; [exact A|reflexivity]|lia].
  - rewrite nth_error_app2 by (rewrite map_length; exact L). rewrite map_length, E. split.
    + intros H. right. exists (k - length d). split; [lia|exact H].
    + intros [A|[j [J H]]]; [assert (X : nth_error d k <> None) by congruence; apply nth_error_Some in X; lia|]. assert (k - length d = j) as -> by lia. exact H.
Qed.
Lemma put_nodup {V} l : forall d : dict V, NoDup (dkeys d) -> NoDup (dkeys (fold_left put l d)).
Proof. induction l as [|[[x v]|] l IH]; intros d N; [exact N| |]; cbn [fold_left put]; apply IH; [apply nodup_dset, N|exact N]. Qed.
Lemma put_keyed {V} (name : V -> str) l : (forall x v, In (Some (x, v)) l -> name v = x) -> forall d, keyed name d -> keyed name (fold_left put l d).
Proof.
  intros H. induction l as [|e l IH]; intros d K; [exact K|]. cbn [fold_left]. apply IH; [intros x v I; apply H; right; exact I|]. destruct e as [[x0 v0]|]; [|exact K]. cbn [put]. destruct K as [N K]. split; [apply nodup_dset, N|].
  assert (N0 := H x0 v0 (or_introl eq_refl)). clear - K N0. induction d as [|[k w] d IHd]; cbn [dset]; [intros x v [E|[]]; congruence|]. destruct (str_eqb_spec x0 k) as [<-|Q].
  - intros x v [E|I]; [congruence|apply K; right; exact I].
  - intros x v [E|I]; [apply K; left; exact E|]. apply IHd; [intros y u J; apply K; right; exact J|exact I].
Qed.
Lemma keyed_names {V} (name : V -> str) d : keyed name d -> map name (dvals d) = dkeys d.
Proof. intros [_ K]. unfold dvals, dkeys. rewrite map_map. apply map_ext_in. intros [x v] I. exact (K x v I). Qed.
Lemma keyed_by {V} (name : V -> str) d : keyed name d -> listed_as name (dvals d) = d.
Proof. intros [_ K]. unfold listed_as, dvals. rewrite map_map. rewrite <- (map_id d) at 2. apply map_ext_in. intros [x v] I. cbn [snd]. rewrite (K x v I). reflexivity. Qed.

(** ** The sheet Tables: new tables, and those that were there *)
Definition named (h : list cell) (rows : list (list cell)) (b n : str) : Prop := In (Some (n, tt)) (map (named_table h b) rows).
Lemma tables_split h rows : forall id dbs ms dbs' ms', read_rows (read_table_row h) id rows (dbs, ms) = Ok (dbs', ms') ->
  forall b n t, b <> [] -> table_at dbs' b n = Some t -> (named h rows b n /\ t_name t = n /\ new_table t) \/ (~ named h rows b n /\ table_at dbs b n = Some t).
Proof.
  induction rows as [|row rows IH]; intros id dbs ms dbs' ms' E b n t Nb G.
  - cbn [read_rows] in E. injection E as <- <-. right. split; [intros []|exact G].
  - cbn [read_rows] in E. destruct (read_table_row h id (dbs, ms) row) as [[dbs1 ms1]|e] eqn:R; [|discriminate]. cbn [bind] in E. unfold named. cbn [map].
    destruct (IH _ _ _ _ _ E b n t Nb G) as [[I [N Q]]|[NI G1]]; [left; split; [right; exact I|split; assumption]|]. clear IH E.
    destruct (table_row_inv _ _ _ _ _ _ _ R) as [dbn [Gd [[Z [-> _]]|[Nd [pk [sk [nbr [name [schema [shard [_ [_ [_ [Gt [_ [_ [-> _]]]]]]]]]]]]]]]]]; clear R.
    + right. split; [|exact G1]. intros [X|X]; [|exact (NI X)]. unfold named_table in X. rewrite Gd in X. destruct (get_text h ($"Table") row); [|discriminate]. destruct (str_eqb_spec dbn b); [congruence|discriminate].
    + assert (X : named_table h b row = if str_eqb dbn b then Some (name, tt) else None) by (unfold named_table; rewrite Gd, Gt; reflexivity). rewrite X. unfold table_at in G1. rewrite dget_dset in G1. destruct (str_eqb_spec b dbn) as [->|Q].
      * rewrite str_eqb_refl. unfold get_table, add_table in G1. cbn [db_tables] in G1. rewrite dget_dset in G1. cbn [mk_table t_name] in G1. destruct (str_eqb_spec n name) as [->|Qn].
        -- left. split; [left; reflexivity|]. injection G1 as <-. repeat split.
        -- right. split; [intros [Y|Y]; [congruence|exact (NI Y)]|]. unfold table_at. destruct (dget dbn dbs); [exact G1|discriminate].
      * destruct (str_eqb_spec dbn b) as [Q'|_]; [congruence|]. right. split; [intros [Y|Y]; [discriminate|exact (NI Y)]|exact G1].
Qed.

(** ** The other sheets, from any state *)
Definition attributes (t : table) : dict (str * list str * option shard_key) := [([], (t_schema t, t_pk t, t_shard t))].
Lemma column_attributes h row t t' : column_step h row t = Ok t' -> attributes t' = attributes t.
Proof.
  unfold column_step. destruct (get_text h ($"Name") row) as [x|e]; [|discriminate]. cbn [bind]. destruct (get_text h ($"Type") row) as [ty|e]; [|discriminate]. cbn [bind].
  unfold mk_column. destruct (negb (str_in ty VALID_TYPES) && negb (starts_with ($"VARCHAR") ty)); [discriminate|]. cbn [bind]. intros E. injection E as <-. reflexivity.
Qed.
Lemma fk_attributes h row t t' : fk_step h row t = Ok t' -> attributes t' = attributes t.
Proof.
  unfold fk_step. destruct (get_text h ($"Name") row) as [x|e]; [|discriminate]. cbn [bind].
  destruct (text_method h ($"From Columns") row) as [fk|e]; [|discriminate]. cbn [bind]. destruct (text_method h ($"To Columns") row) as [tk|e]; [|discriminate]. cbn [bind]. destruct (get_text h ($"To Table") row) as [to|e]; [|discriminate]. cbn [bind].
  unfold add_fk_parts, mk_foreign_key. cbn [keys_list]. destruct (negb _); [discriminate|]. cbn [bind]. intros E. injection E as <-. reflexivity.
Qed.
Lemma rel_attributes h row t t' : rel_step h row t = Ok t' -> attributes t' = attributes t.
Proof.
  unfold rel_step. destruct (get_text h ($"To Table") row) as [to|e]; [|discriminate]. cbn [bind]. destruct (get_text h ($"Conditions") row) as [c|e]; [|discriminate]. cbn [bind].
  unfold add_rel_parts, mk_relationship. cbn [bind]. intros E. injection E as <-. reflexivity.
Qed.
Definition went_on (h2 h3 h4 : list cell) (r2 r3 r4 : list (list cell)) (b n : str) (t0 t : table) : Prop :=
  t_name t = n /\ attributes t = attributes t0 /\ t_cols t = fold_left put (map (column_of h2 b n) r2) (t_cols t0)
  /\ t_fks t = fold_left put (map (fk_of h3 b n) r3) (t_fks t0) /\ t_rels t = fold_left put (map (rel_of h4 b n) r4) (t_rels t0).
Lemma sheets_fill h2 h3 h4 r2 r3 r4 base b1 m1 b2 m2 b3 m3 dbs ms b n t1 :
  read_rows (read_column_row h2) base r2 (b1, m1) = Ok (b2, m2) -> read_rows (read_fk_row h3) base r3 (b2, m2) = Ok (b3, m3) -> read_rows (read_rel_row h4) base r4 (b3, m3) = Ok (dbs, ms) ->
  table_at b1 b n = Some t1 -> t_name t1 = n -> exists t, table_at dbs b n = Some t /\ went_on h2 h3 h4 r2 r3 r4 b n t1 t.
Proof.
  intros E2 E3 E4 G1 N1.
  change (read_rows (fun _ st row => on_table ($"Columns") h2 ($"Table") (fun st => Ok st) (column_step h2 row) st row) base r2 (b1, m1) = Ok (b2, m2)) in E2.
  change (read_rows (fun _ st row => on_table ($"Foreign Keys") h3 ($"From Table") (fun st => Ok st) (fk_step h3 row) st row) base r3 (b2, m2) = Ok (b3, m3)) in E3.
  change (read_rows (fun _ st row => on_table ($"Relationships") h4 ($"From Table") (fun _ => Err AttributeError) (rel_step h4 row) st row) base r4 (b3, m3) = Ok (dbs, ms)) in E4.
  assert (M1 : (forall st : xls_state, Ok st = Ok st) \/ (forall st : xls_state, Ok st = Err AttributeError)) by (left; reflexivity).
  assert (M2 : (forall st : xls_state, @Err xls_state AttributeError = Ok st) \/ (forall st : xls_state, @Err xls_state AttributeError = Err AttributeError)) by (right; reflexivity).
  destruct (rows_fill ($"Columns") h2 ($"Table") (fun st => Ok st) (column_step h2) t_cols (column_of h2 b n) b n M1 (fun row t t' A N S => conj (proj1 (column_steps h2 b n row t t' A N S)) (proj1 (proj2 (column_steps h2 b n row t t' A N S)))) (fun row A => other_row h2 ($"Table") b n row _ A) _ _ _ _ _ _ _ E2 G1 N1) as [t2 [G2 [N2 C2]]].
  destruct (rows_fill ($"Columns") h2 ($"Table") (fun st => Ok st) (column_step h2) t_fks (fun _ => None) b n M1 (fun row t t' A N S => conj (proj1 (column_steps h2 b n row t t' A N S)) (proj1 (proj2 (proj2 (column_steps h2 b n row t t' A N S))))) (fun row A => eq_refl) _ _ _ _ _ _ _ E2 G1 N1) as [t2' [G2' [_ F2]]].
  destruct (rows_fill ($"Columns") h2 ($"Table") (fun st => Ok st) (column_step h2) t_rels (fun _ => None) b n M1 (fun row t t' A N S => conj (proj1 (column_steps h2 b n row t t' A N S)) (proj2 (proj2 (proj2 (column_steps h2 b n row t t' A N S))))) (fun row A => eq_refl) _ _ _ _ _ _ _ E2 G1 N1) as [t2'' [G2'' [_ L2]]].
  destruct (rows_fill ($"Columns") h2 ($"Table") (fun st => Ok st) (column_step h2) attributes (fun _ => None) b n M1 (fun row t t' A N S => conj (proj1 (column_steps h2 b n row t t' A N S)) (column_attributes h2 row t t' S)) (fun row A => eq_refl) _ _ _ _ _ _ _ E2 G1 N1) as [t2a [G2a [_ A2]]].
  assert (t2' = t2) as -> by congruence. assert (t2'' = t2) as -> by congruence. assert (t2a = t2) as -> by congruence. rewrite puts_none in F2. rewrite puts_none in L2. rewrite puts_none in A2. clear G2' G2'' G2a.
  destruct (rows_fill ($"Foreign Keys") h3 ($"From Table") (fun st => Ok st) (fk_step h3) t_fks (fk_of h3 b n) b n M1 (fun row t t' A N S => conj (proj1 (fk_steps h3 b n row t t' A N S)) (proj1 (proj2 (fk_steps h3 b n row t t' A N S)))) (fun row A => other_row h3 ($"From Table") b n row _ A) _ _ _ _ _ _ _ E3 G2 N2) as [t3 [G3 [N3 F3]]].
  destruct (rows_fill ($"Foreign Keys") h3 ($"From Table") (fun st => Ok st) (fk_step h3) t_cols (fun _ => None) b n M1 (fun row t t' A N S => conj (proj1 (fk_steps h3 b n row t t' A N S)) (proj1 (proj2 (proj2 (fk_steps h3 b n row t t' A N S))))) (fun row A => eq_refl) _ _ _ _ _ _ _ E3 G2 N2) as [t3' [G3' [_ C3]]].
  destruct (rows_fill ($"Foreign Keys") h3 ($"From Table") (fun st => Ok st) (fk_step h3) t_rels (fun _ => None) b n M1 (fun row t t' A N S => conj (proj1 (fk_steps h3 b n row t t' A N S)) (proj2 (proj2 (proj2 (fk_steps h3 b n row t t' A N S))))) (fun row A => eq_refl) _ _ _ _ _ _ _ E3 G2 N2) as [t3'' [G3'' [_ L3]]].
  destruct (rows_fill ($"Foreign Keys") h3 ($"From Table") (fun st => Ok st) (fk_step h3) attributes (fun _ => None) b n M1 (fun row t t' A N S => conj (proj1 (fk_steps h3 b n row t t' A N S)) (fk_attributes h3 row t t' S)) (fun row A => eq_refl) _ _ _ _ _ _ _ E3 G2 N2) as [t3a [G3a [_ A3]]].
  assert (t3' = t3) as -> by congruence. assert (t3'' = t3) as -> by congruence. assert (t3a = t3) as -> by congruence. rewrite puts_none in C3. rewrite puts_none in L3. rewrite puts_none in A3. clear G3' G3'' G3a.
  destruct (rows_fill ($"Relationships") h4 ($"From Table") (fun _ => Err AttributeError) (rel_step h4) t_rels (rel_of h4 b n) b n M2 (fun row t t' A N S => conj (proj1 (rel_steps h4 b n row t t' A N S)) (proj1 (proj2 (rel_steps h4 b n row t t' A N S)))) (fun row A => other_row h4 ($"From Table") b n row _ A) _ _ _ _ _ _ _ E4 G3 N3) as [t4 [G4 [N4 L4]]].
  destruct (rows_fill ($"Relationships") h4 ($"From Table") (fun _ => Err AttributeError) (rel_step h4) t_cols (fun _ => None) b n M2 (fun row t t' A N S => conj (proj1 (rel_steps h4 b n row t t' A N S)) (proj1 (proj2 (proj2 (rel_steps h4 b n row t t' A N S))))) (fun row A => eq_refl) _ _ _ _ _ _ _ E4 G3 N3) as [t4' [G4' [_ C4]]].
  destruct (rows_fill ($"Relationships") h4 ($"From Table") (fun _ => Err AttributeError) (rel_step h4) t_fks (fun _ => None) b n M2 (fun row t t' A N S => conj (proj1 (rel_steps h4 b n row t t' A N S)) (proj2 (proj2 (proj2 (rel_steps h4 b n row t t' A N S))))) (fun row A => eq_refl) _ _ _ _ _ _ _ E4 G3 N3) as [t4'' [G4'' [_ F4]]].
  destruct (rows_fill ($"Relationships") h4 ($"From Table") (fun _ => Err AttributeError) (rel_step h4) attributes (fun _ => None) b n M2 (fun row t t' A N S => conj (proj1 (rel_steps h4 b n row t t' A N S)) (rel_attributes h4 row t t' S)) (fun row A => eq_refl) _ _ _ _ _ _ _ E4 G3 N3) as [t4a [G4a [_ A4]]].
  assert (t4' = t4) as -> by congruence. assert (t4'' = t4) as -> by congruence. assert (t4a = t4) as -> by congruence. rewrite puts_none in C4. rewrite puts_none in F4. rewrite puts_none in A4.
  exists t4. split; [exact G4|]. split; [exact N4|]. split; [congruence|]. split; [rewrite C4, C3; exact C2|]. split; [rewrite F4, F3, F2; reflexivity|]. rewrite L4, L3, L2. reflexivity.
Qed.

(** ** Reading from any state *)
Record orderly (dbs : dict database) : Prop := {
  od_keys : NoDup (dkeys dbs); od_named : dget [] dbs = None;
  od_databases : forall b d, dget b dbs = Some d -> db_name d = b /\ NoDup (dkeys (db_tables d));
  od_tables : forall b n t, table_at dbs b n = Some t -> t_name t = n /\ keyed column_name (t_cols t) /\ keyed fk_name (t_fks t) /\ keyed rel_name (t_rels t) }.
Lemma named_not_empty h row v : named_database h row <> Some ([], v).
Proof. unfold named_database. destruct (get_text h ($"Database") row) as [b|e]; [|discriminate]. destruct (str_eqb_spec b []) as [->|N]; [discriminate|congruence]. Qed.
Lemma put_other {V} x l : forall d : dict V, (forall v, ~ In (Some (x, v)) l) -> dget x d = None -> dget x (fold_left put l d) = None.
Proof.
  induction l as [|e l IH]; intros d H G; [exact G|]. cbn [fold_left]. apply IH; [intros v I; apply (H v); right; exact I|]. destruct e as [[y u]|]; [|exact G]. cbn [put]. rewrite dget_dset. destruct (str_eqb_spec x y) as [->|_]; [|exact G]. exfalso. apply (H u). left. reflexivity.
Qed.
Lemma read_from base dbs0 w dbs ms : orderly dbs0 -> format_ok w -> read_xls base dbs0 w = Ok (dbs, ms) -> exists h1 r1 h2 r2 h3 r3 h4 r4,
  dget ($"Tables") w = Some (h1 :: r1) /\ dget ($"Columns") w = Some (h2 :: r2) /\ dget ($"Foreign Keys") w = Some (h3 :: r3) /\ dget ($"Relationships") w = Some (h4 :: r4)
  /\ bare dbs = fold_left put (map (named_database h1) r1) (bare dbs0)
  /\ (forall b, b <> [] -> tables_of dbs b = fold_left put (map (named_table h1 b) r1) (tables_of dbs0 b))
  /\ (forall b d, dget b dbs = Some d -> db_name d = b)
  /\ (forall b n t, b <> [] -> table_at dbs b n = Some t -> exists t0, went_on h2 h3 h4 r2 r3 r4 b n t0 t
        /\ ((named h1 r1 b n /\ new_table t0) \/ (~ named h1 r1 b n /\ table_at dbs0 b n = Some t0))).
Proof.
  intros O T E. rewrite read_format_ok in E by exact T. apply read_four in E. destruct E as [h1 [r1 [[b1 m1] [h2 [r2 [[b2 m2] [h3 [r3 [[b3 m3] [h4 [r4 [D1 [D2 [D3 [D4 [E1 [E2 [E3 E4]]]]]]]]]]]]]]]]]].
  exists h1, r1, h2, r2, h3, r3, h4, r4. repeat (split; [assumption|]).
  pose proof (tables_fill h1 r1 base dbs0 [] b1 m1 E1) as [A1 [A2 [A3 _]]]. specialize (A3 (fun b d G => proj1 (od_databases _ O b d G))). pose proof (tables_split h1 r1 base dbs0 [] b1 m1 E1) as A4.
  pose proof E2 as F2. pose proof E3 as F3. pose proof E4 as F4.
  change (read_rows (fun _ st row => on_table ($"Columns") h2 ($"Table") (fun st => Ok st) (column_step h2 row) st row) base r2 (b1, m1) = Ok (b2, m2)) in F2.
  change (read_rows (fun _ st row => on_table ($"Foreign Keys") h3 ($"From Table") (fun st => Ok st) (fk_step h3 row) st row) base r3 (b2, m2) = Ok (b3, m3)) in F3.
  change (read_rows (fun _ st row => on_table ($"Relationships") h4 ($"From Table") (fun _ => Err AttributeError) (rel_step h4 row) st row) base r4 (b3, m3) = Ok (dbs, ms)) in F4.
  assert (M1 : (forall st : xls_state, Ok st = Ok st) \/ (forall st : xls_state, Ok st = Err AttributeError)) by (left; reflexivity).
  assert (M2 : (forall st : xls_state, @Err xls_state AttributeError = Ok st) \/ (forall st : xls_state, @Err xls_state AttributeError = Err AttributeError)) by (right; reflexivity).
  destruct (rows_shape _ _ _ (fun st => Ok st) _ M1 _ _ _ _ _ _ F2) as [S2 [T2 U2]]. destruct (rows_shape _ _ _ (fun st => Ok st) _ M1 _ _ _ _ _ _ F3) as [S3 [T3 U3]]. destruct (rows_shape _ _ _ (fun _ => Err AttributeError) _ M2 _ _ _ _ _ _ F4) as [S4 [T4 U4]].
  split; [rewrite S4, S3, S2; exact A1|]. split; [intros b Nb; rewrite T4, T3, T2; exact (A2 b Nb)|]. split.
  { intros b d G. specialize (U4 b). rewrite U3, U2, G in U4. cbn [option_map] in U4. destruct (dget b b1) as [d1|] eqn:G1; [|discriminate]. cbn [option_map] in U4. injection U4 as ->. exact (A3 b d1 G1). }
  intros b n t Nb G. assert (exists t1, table_at b1 b n = Some t1) as [t1 G1].
  { assert (X : dget n (tables_of dbs b) = option_map (fun _ => tt) (table_at dbs b n)) by (unfold tables_of, table_at; destruct (dget b dbs); [apply bare_get|reflexivity]).
    assert (Y : dget n (tables_of b1 b) = option_map (fun _ => tt) (table_at b1 b n)) by (unfold tables_of, table_at; destruct (dget b b1); [apply bare_get|reflexivity]).
    rewrite T4, T3, T2, Y, G in X. destruct (table_at b1 b n); [eauto|discriminate]. }
  exists t1. pose proof (A4 b n t1 Nb G1) as C. assert (N1 : t_name t1 = n) by (destruct C as [[_ [N _]]|[_ G0]]; [exact N|apply (od_tables _ O b n t1 G0)]).
  destruct (sheets_fill h2 h3 h4 r2 r3 r4 base b1 m1 b2 m2 b3 m3 dbs ms b n t1 E2 E3 E4 G1 N1) as [t' [G' W]]. assert (t' = t) as -> by congruence. split; [exact W|]. destruct C as [[I [_ Q]]|[NI G0]]; [left; split; assumption|right; split; assumption].
Qed.
Lemma column_of_key h b n rows x v : In (Some (x, v)) (map (column_of h b n) rows) -> column_name v = x.
Proof. intros I. apply in_map_iff in I. destruct I as [row [E _]]. unfold column_of in E. destruct (about_b h ($"Table") b n row); [|discriminate]. destruct (get_text h ($"Name") row); [|discriminate]. destruct (get_text h ($"Type") row); [|discriminate]. injection E as <- <-. reflexivity. Qed.
Lemma fk_of_key h b n rows x v : In (Some (x, v)) (map (fk_of h b n) rows) -> fk_name v = x.
Proof. intros I. apply in_map_iff in I. destruct I as [row [E _]]. unfold fk_of in E. destruct (about_b h ($"From Table") b n row); [|discriminate]. destruct (get_text h ($"Name") row); [|discriminate]. destruct (get_text h ($"To Table") row); [|discriminate]. destruct (get_text h ($"From Columns") row); [|discriminate]. destruct (get_text h ($"To Columns") row); [|discriminate]. injection E as <- <-. reflexivity. Qed.
Lemma rel_of_key h b n rows x v : In (Some (x, v)) (map (rel_of h b n) rows) -> rel_name v = x.
Proof.
  intros I. apply in_map_iff in I. destruct I as [row [E _]]. unfold rel_of in E. destruct (about_b h ($"From Table") b n row); [|discriminate]. destruct (get_text h ($"To Table") row); [|discriminate]. destruct (get_text h ($"Conditions") row); [|discriminate].
  apply (f_equal (fun o => match o with Some p => p | None => (x, v) end)) in E. apply pair_equal_spec in E. destruct E as [<- <-]. reflexivity.
Qed.
Lemma empty_keyed {V} (name : V -> str) : keyed name [].
Proof. split; [constructor|intros x v []]. Qed.
Lemma format_decided base dbs0 w dbs ms : read_xls base dbs0 w = Ok (dbs, ms) -> format_ok w \/ (~ format_ok w /\ dbs = dbs0).
Proof.
  intros E. assert (B : forall s, In s required_sheets -> dget s w <> Some []) by (intros s I D; unfold read_xls in E; rewrite verify_blank in E by (exists s; split; assumption); discriminate).
  destruct (flat_map (missing_in w) required_sheets) as [|m l] eqn:F; [left; apply format_ok_missing; split; assumption|right].
  assert (N : ~ format_ok w) by (intros X; apply format_ok_missing in X; destruct X as [_ X]; congruence). split; [exact N|]. rewrite read_not_ok in E; [injection E as <- _; reflexivity|exact N|].
  intros X. apply blank_iff in X. destruct X as [s [I D]]. exact (B s I D).
Qed.
Lemma read_orderly base dbs0 w dbs ms : orderly dbs0 -> read_xls base dbs0 w = Ok (dbs, ms) -> orderly dbs.
Proof.
  intros O E. destruct (format_decided _ _ _ _ _ E) as [F|[_ ->]]; [|exact O]. destruct (read_from base dbs0 w dbs ms O F E) as [h1 [r1 [h2 [r2 [h3 [r3 [h4 [r4 [D1 [D2 [D3 [D4 [A [B [C H]]]]]]]]]]]]]]].
  assert (Z : dget [] dbs = None).
  { assert (X : dget [] (bare dbs) = None) by (rewrite A; apply put_other; [intros v I; apply in_map_iff in I; destruct I as [row [I _]]; exact (named_not_empty _ _ _ I)|rewrite bare_get, (od_named _ O); reflexivity]). rewrite bare_get in X. destruct (dget [] dbs); [discriminate|reflexivity]. }
  split; [rewrite <- bare_keys, A; apply put_nodup; rewrite bare_keys; apply (od_keys _ O)|exact Z| |].
  - intros b d G. split; [exact (C b d G)|]. assert (Nb : b <> []) by congruence. pose proof (B b Nb) as T. unfold tables_of at 1 in T. rewrite G in T. rewrite <- (bare_keys (db_tables d)), T. apply put_nodup. unfold tables_of. destruct (dget b dbs0) as [d0|] eqn:G0; [|constructor]. rewrite bare_keys. apply (od_databases _ O b d0 G0).
  - intros b n t G. assert (Nb : b <> []) by (intros ->; unfold table_at in G; rewrite Z in G; discriminate). destruct (H b n t Nb G) as [t0 [[N [_ [Ec [Ef Er]]]] S]]. split; [exact N|].
    assert (K : keyed column_name (t_cols t0) /\ keyed fk_name (t_fks t0) /\ keyed rel_name (t_rels t0)).
    { destruct S as [[_ [-> [-> ->]]]|[_ G0]]; [split; [apply empty_keyed|split; apply empty_keyed]|apply (od_tables _ O b n t0 G0)]. }
    destruct K as [K1 [K2 K3]]. rewrite Ec, Ef, Er. split; [|split]; apply put_keyed; try assumption; intros x v; [apply column_of_key|apply fk_of_key|apply rel_of_key].
Qed.
Lemma orderly_more dbs b : orderly dbs -> b <> [] -> dget b dbs = None -> orderly (dbs ++ [(b, empty_database b)]).
Proof.
  intros O Nb D. assert (X : ~ In b (dkeys dbs)) by (intros I; apply dget_in in I; destruct I as [v I]; congruence). rewrite (eq_sym (dset_new b (empty_database b) dbs X) : dbs ++ [(b, empty_database b)] = _). split.
  - apply nodup_dset. exact (od_keys _ O).
  - rewrite dget_dset. destruct (str_eqb_spec [] b) as [<-|_]; [congruence|apply (od_named _ O)].
  - intros x d. rewrite dget_dset. destruct (str_eqb_spec x b) as [->|_]; [|apply (od_databases _ O)]. intros E. injection E as <-. split; [reflexivity|constructor].
  - intros x n t. unfold table_at. rewrite dget_dset. destruct (str_eqb_spec x b) as [->|_]; [discriminate|]. apply (od_tables _ O x n t).
Qed.
Lemma failed_orderly base dbs wb dbs' e : orderly dbs -> xls_left base dbs wb = (dbs', Some e) -> orderly dbs'.
Proof.
  intros O E. destruct (left_cases _ _ _ _ _ E) as [[_ [_ ->]]|[_ [k [i [dbs1 [_ [A [_ S]]]]]]]]; [exact O|]. destruct (left_ok _ _ _ _ A) as [ms A']. pose proof (read_orderly _ _ _ _ _ O A') as O1.
  destruct k as [|k]; [|rewrite S; exact O1]. destruct S as [h [rows [row [_ [_ ->]]]]]. destruct (table_row_cases h dbs1 row) as [[-> _]|[b [_ [Nb [D ->]]]]]; [exact O1|exact (orderly_more _ _ O1 Nb D)].
Qed.
Lemma put_stays {V} x l : forall d : dict V, dget x d <> None -> dget x (fold_left put l d) <> None.
Proof. induction l as [|e l IH]; intros d H; [exact H|]. cbn [fold_left]. apply IH. destruct e as [[y u]|]; [|exact H]. cbn [put]. rewrite dget_dset. destruct (str_eqb x y); [discriminate|exact H]. Qed.
(** what is held stays, in its place *)
Lemma put_grows {V} l : forall d : dict V, exists k, dkeys (fold_left put l d) = dkeys d ++ k.
Proof.
  induction l as [|e l IH]; intros d; [exists []; rewrite app_nil_r; reflexivity|]. cbn [fold_left]. destruct e as [[x v]|]; [|apply IH]. cbn [put]. destruct (IH (dset x v d)) as [k E]. rewrite E. destruct (dget x d) as [u|] eqn:G.
  - exists k. rewrite dkeys_dset_mem; [reflexivity|]. apply dget_in. exists u. exact G.
  - exists (x :: k). rewrite dset_new; [|intros I; apply dget_in in I; destruct I as [y I]; congruence]. unfold dkeys. rewrite map_app, <- app_assoc. reflexivity.
Qed.
Lemma read_grows base dbs0 w dbs ms : orderly dbs0 -> read_xls base dbs0 w = Ok (dbs, ms) ->
  (exists l, dkeys dbs = dkeys dbs0 ++ l) /\ forall b d0, dget b dbs0 = Some d0 -> exists d l, dget b dbs = Some d /\ dkeys (db_tables d) = dkeys (db_tables d0) ++ l.
Proof.
  intros O E. destruct (format_decided _ _ _ _ _ E) as [F|[_ ->]]; [|split; [exists []; rewrite app_nil_r; reflexivity|intros b d0 G; exists d0, []; rewrite app_nil_r; split; [exact G|reflexivity]]].
  destruct (read_from base dbs0 w dbs ms O F E) as [h1 [r1 [h2 [r2 [h3 [r3 [h4 [r4 [D1 [D2 [D3 [D4 [A [B _]]]]]]]]]]]]]]. split.
  - rewrite <- (bare_keys dbs), A. destruct (put_grows (map (named_database h1) r1) (bare dbs0)) as [l Hl]. exists l. rewrite Hl, bare_keys. reflexivity.
  - intros b d0 G. assert (Nb : b <> []) by (intros ->; rewrite (od_named _ O) in G; discriminate). assert (X : dget b (bare dbs) <> None) by (rewrite A; apply put_stays; rewrite bare_get, G; discriminate). rewrite bare_get in X. destruct (dget b dbs) as [d|] eqn:Gd; [|contradiction].
    exists d. pose proof (B b Nb) as T. unfold tables_of in T. rewrite Gd, G in T. destruct (put_grows (map (named_table h1 b) r1) (bare (db_tables d0))) as [l Hl]. exists l. split; [reflexivity|]. rewrite <- (bare_keys (db_tables d)), T, Hl, bare_keys. reflexivity.
Qed.
Lemma held_orderly dbs : held dbs -> orderly dbs.
Proof.
  induction 1 as [|base dbs w dbs' ms _ IH E|base dbs w dbs' e _ IH E _]; [|exact (read_orderly _ _ _ _ _ IH E)|exact (failed_orderly _ _ _ _ _ IH E)].
  split; [constructor|reflexivity|intros b d; discriminate|intros b n t; discriminate].
Qed.
Lemma named_described w h rows b n : complete_book w -> dget ($"Tables") w = Some (h :: rows) -> b <> [] -> named h rows b n <-> table_described w b n.
Proof.
  intros T D Nb. unfold named, table_described. split.
  - intros I. split; [exact Nb|]. apply In_nth_error in I. destruct I as [k I]. apply (tables_are w h rows b T D) in I. exists k. exact I.
  - intros [_ [k I]]. apply (nth_error_In _ k). apply (tables_are w h rows b T D). exact I.
Qed.
Lemma names_bare {V} (d : dict V) : names_only (dkeys d) = bare d.
Proof. unfold names_only, dkeys, bare. apply map_map. Qed.
Lemma none_put {V} l (d : dict V) : (forall x v, ~ In (Some (x, v)) l) -> fold_left put l d = d.
Proof.
  revert d. induction l as [|e l IH]; intros d H; [reflexivity|]. cbn [fold_left]. destruct e as [[x v]|]; [exfalso; apply (H x v); left; reflexivity|]. apply IH. intros x v I. apply (H x v). right. exact I.
Qed.
Lemma table_bare dbs b n : dget n (tables_of dbs b) = option_map (fun _ => tt) (table_at dbs b n).
Proof. unfold tables_of, table_at. destruct (dget b dbs); [apply bare_get|reflexivity]. Qed.
