(** * Lemmas about what is read from a workbook (C107) *)
From Verif Require Import StrFacts ExcelMore.
From Verif Require Export SpecContents BookFacts.
From Coq Require Import List Lia. Import ListNotations.

(** ** A dictionary filled row by row *)
Definition put {V} (d : dict V) (e : option (str * V)) : dict V := match e with Some (x, v) => dset x v d | None => d end.
Definition puts {V} (l : list (option (str * V))) : dict V := fold_left put l [].
Lemma nth_error_snoc {A} (l : list A) a k y : nth_error (l ++ [a]) k = Some y <-> nth_error l k = Some y \/ (k = length l /\ y = a).
Proof.
  destruct (Nat.lt_ge_cases k (length l)) as [L|L].
  - rewrite nth_error_app1 by exact L. split; [intros E; left; exact E|intros [E|[-> _]]; [exact E|lia]].
  - rewrite nth_error_app2 by exact L. split.
    + intros E. right. assert (k - length l = 0) as Z by (assert (N : nth_error [a] (k - length l) <> None) by congruence; apply nth_error_Some in N; cbn [length] in N; lia). rewrite Z in E. cbn [nth_error] in E. split; [lia|congruence].
    + intros [E|[-> ->]]; [apply (proj2 (nth_error_None l k)) in L; congruence|]. rewrite Nat.sub_diag. reflexivity.
Qed.
Lemma puts_filled {V} (l : list (option (str * V))) : filled (fun k x v => nth_error l k = Some (Some (x, v))) (fun x => dget x (puts l)) (dkeys (puts l)).
Proof.
  induction l as [|e l IH] using rev_ind.
  - split; cbn [puts fold_left dget dkeys map]; [intros x v|intros x|constructor|intros i j x y _ H; destruct i; discriminate].
    + split; [discriminate|intros [k [H _]]; destruct k; discriminate].
    + split; [intros []|intros H; congruence].
  - unfold puts in *. rewrite fold_left_app. cbn [fold_left]. set (d := fold_left put l []) in *. destruct IH as [A B C O]. destruct e as [[x0 v0]|]; cbn [put].
    + split.
      * intros x v. rewrite dget_dset. destruct (str_eqb_spec x x0) as [->|N].
        -- split.
           ++ intros E. injection E as <-. exists (length l). split; [apply nth_error_snoc; right; split; reflexivity|]. intros j v' L H. apply nth_error_snoc in H. destruct H as [H|[-> _]]; [|lia]. assert (N : nth_error l j <> None) by congruence. apply nth_error_Some in N. lia.
           ++ intros [k [H L]]. apply nth_error_snoc in H. destruct H as [H|[_ H]]; [|congruence]. exfalso. apply (L (length l) v0); [apply nth_error_Some; congruence|apply nth_error_snoc; right; split; reflexivity].
        -- rewrite A. split; intros [k [H L]]; exists k; (split; [|intros j v' Lj Hj]).
           ++ apply nth_error_snoc. left. exact H.
           ++ apply nth_error_snoc in Hj. destruct Hj as [Hj|[_ Hj]]; [exact (L j v' Lj Hj)|congruence].
           ++ apply nth_error_snoc in H. destruct H as [H|[_ H]]; [exact H|congruence].
           ++ apply (L j v' Lj). apply nth_error_snoc. left. exact Hj.
      * intros x. rewrite dkeys_dset_in, dget_dset, B. destruct (str_eqb_spec x x0) as [->|N]; [split; [discriminate|intros _; left; reflexivity]|]. split; [intros [E|E]; [contradiction|exact E]|intros E; right; exact E].
      * apply nodup_dset, C.
      * assert (K : forall i j x y, i < j -> nth_error (dkeys d) i = Some x -> nth_error (dkeys d) j = Some y -> exists k v, nth_error (l ++ [Some (x0, v0)]) k = Some (Some (x, v)) /\ forall m v', nth_error (l ++ [Some (x0, v0)]) m = Some (Some (y, v')) -> k < m).
        { intros i j x y L Hx Hy. destruct (O i j x y L Hx Hy) as [k [v [H M]]]. exists k, v. split; [apply nth_error_snoc; left; exact H|]. intros m v' Hm. apply nth_error_snoc in Hm. destruct Hm as [Hm|[-> _]]; [exact (M m v' Hm)|]. apply nth_error_Some. congruence. }
        intros i j x y L Hx Hy. destruct (in_dec (list_eq_dec Ascii.ascii_dec) x0 (dkeys d)) as [I|I]; [rewrite (dkeys_dset_mem _ _ _ I) in Hx, Hy; exact (K i j x y L Hx Hy)|]. rewrite (dkeys_dset_new _ _ _ I) in Hx, Hy.
        apply nth_error_snoc in Hx. apply nth_error_snoc in Hy. destruct Hy as [Hy|[-> ->]].
        -- destruct Hx as [Hx|[-> _]]; [exact (K i j x y L Hx Hy)|]. assert (N : nth_error (dkeys d) j <> None) by congruence. apply nth_error_Some in N. lia.
        -- destruct Hx as [Hx|[-> _]]; [|lia]. assert (Ix : In x (dkeys d)) by (exact (nth_error_In _ _ Hx)). apply B in Ix. destruct (dget x d) as [v|] eqn:G; [|contradiction]. apply A in G. destruct G as [k [H _]]. exists k, v. split; [apply nth_error_snoc; left; exact H|].
           intros m v' Hm. apply nth_error_snoc in Hm. destruct Hm as [Hm|[-> _]]; [|apply nth_error_Some; congruence]. exfalso. apply I. apply B.
           (* x0 has an entry, so it is known *)
           assert (Ex : exists v1, dget x0 d = Some v1); [|destruct Ex as [v1 ->]; discriminate].
           destruct (dget x0 d) as [v1|] eqn:G0; [eauto|]. exfalso. clear - Hm G0. subst d. revert Hm G0. generalize (@nil (str * V)) as d0. revert m. induction l as [|e l IH]; intros m d0 Hm G0; [destruct m; discriminate|]. cbn [fold_left] in G0. destruct m as [|m]; [|exact (IH _ _ Hm G0)].
           cbn [nth_error] in Hm. injection Hm as ->. cbn [put] in G0. assert (P : forall l0 (d1 : dict V), dget x0 d1 <> None -> dget x0 (fold_left put l0 d1) <> None); [|apply (P l (dset x0 v' d0)); [rewrite dget_dset, str_eqb_refl; discriminate|exact G0]].
           induction l0 as [|e0 l0 IH0]; intros d1 H1; [exact H1|]. cbn [fold_left]. apply IH0. destruct e0 as [[z u]|]; cbn [put]; [rewrite dget_dset; destruct (str_eqb x0 z); [discriminate|exact H1]|exact H1].
    + split; [intros x v; rewrite A|exact B|exact C|].
      * split; intros [k [H L]]; exists k; (split; [|intros j v' Lj Hj]).
        -- apply nth_error_snoc. left. exact H.
        -- apply nth_error_snoc in Hj. destruct Hj as [Hj|[_ Hj]]; [exact (L j v' Lj Hj)|discriminate].
        -- apply nth_error_snoc in H. destruct H as [H|[_ H]]; [exact H|discriminate].
        -- apply (L j v' Lj), nth_error_snoc. left. exact Hj.
      * intros i j x y L Hx Hy. destruct (O i j x y L Hx Hy) as [k [v [H M]]]. exists k, v. split; [apply nth_error_snoc; left; exact H|]. intros m v' Hm. apply nth_error_snoc in Hm. destruct Hm as [Hm|[_ Hm]]; [exact (M m v' Hm)|discriminate].
Qed.
Lemma filled_same {V} (e1 e2 : nat -> str -> V -> Prop) g1 g2 names : (forall k x v, e1 k x v <-> e2 k x v) -> (forall x, g1 x = g2 x) -> filled e1 g1 names -> filled e2 g2 names.
Proof.
  intros E G [A B C O]. split; [| |exact C|].
  - intros x v. rewrite <- G, A. split; intros [k [H L]]; exists k; (split; [apply E, H|]); intros j v' Lj Hj; apply (L j v' Lj), E, Hj.
  - intros x. rewrite <- G. apply B.
  - intros i j x y L Hx Hy. destruct (O i j x y L Hx Hy) as [k [v [H M]]]. exists k, v. split; [apply E, H|]. intros l v' Hl. apply (M l v'), E, Hl.
Qed.
Lemma puts_keyed {V} (name : V -> str) (l : list (option (str * V))) : (forall x v, In (Some (x, v)) l -> name v = x) -> map name (dvals (puts l)) = dkeys (puts l).
Proof.
  intros H. assert (G : forall x v, In (x, v) (puts l) -> name v = x).
  { unfold puts. assert (B : forall x v, In (x, v) ([] : dict V) -> name v = x) by (intros x v []). revert B. generalize (@nil (str * V)) as d. induction l as [|e l IH]; intros d B; [exact B|]. cbn [fold_left]. apply IH; [intros x v I; apply H; right; exact I|].
    destruct e as [[x0 v0]|]; cbn [put]; [|exact B]. assert (N := H x0 v0 (or_introl eq_refl)). clear - B N. induction d as [|[k w] d IHd]; cbn [dset]; [intros x v [E|[]]; congruence|].
    destruct (str_eqb_spec x0 k) as [<-|K].
    - intros x v [E|I]; [congruence|apply B; right; exact I].
    - intros x v [E|I]; [apply B; left; exact E|]. apply IHd; [intros y u J; apply B; right; exact J|exact I]. }
  unfold dvals, dkeys. rewrite map_map. apply map_ext_in. intros [x v] I. exact (G x v I).
Qed.

(** ** The names that are known *)
Definition bare {V} (d : dict V) : dict unit := map (fun p => (fst p, tt)) d.
Lemma bare_get {V} x (d : dict V) : dget x (bare d) = option_map (fun _ => tt) (dget x d).
Proof. induction d as [|[k v] d IH]; [reflexivity|]. cbn [bare map fst dget]. destruct (str_eqb x k); [reflexivity|exact IH]. Qed.
Lemma bare_keys {V} (d : dict V) : dkeys (bare d) = dkeys d.
Proof. unfold bare, dkeys. rewrite map_map. reflexivity. Qed.
Lemma bare_set {V} x v (d : dict V) : bare (dset x v d) = dset x tt (bare d).
Proof. induction d as [|[k w] d IH]; [reflexivity|]. cbn [bare map fst dset]. destruct (str_eqb x k); [reflexivity|]. cbn [map fst]. f_equal. exact IH. Qed.
Lemma bare_again {V} x v w (d : dict V) : dget x d = Some w -> bare (dset x v d) = bare d.
Proof. induction d as [|[k u] d IH]; [discriminate|]. cbn [dget dset]. destruct (str_eqb x k); [reflexivity|]. intros G. cbn [bare map fst]. f_equal. exact (IH G). Qed.
Definition tables_of (dbs : dict database) (b : str) : dict unit := match dget b dbs with Some d => bare (db_tables d) | None => [] end.
Definition table_at (dbs : dict database) (b n : str) : option table := match dget b dbs with Some d => get_table d n | None => None end.

(** what a row of the sheet Tables names *)
Definition named_database (h row : list cell) : option (str * unit) :=
  match get_text h ($"Database") row with Ok b => if str_eqb b [] then None else Some (b, tt) | Err _ => None end.
Definition named_table (h : list cell) (b : str) (row : list cell) : option (str * unit) :=
  match get_text h ($"Database") row, get_text h ($"Table") row with Ok b', Ok n => if str_eqb b' b then Some (n, tt) else None | _, _ => None end.
Definition new_table (t : table) : Prop := t_cols t = [] /\ t_fks t = [] /\ t_rels t = [].
Lemma tables_fill h rows : forall id dbs ms dbs' ms', read_rows (read_table_row h) id rows (dbs, ms) = Ok (dbs', ms') ->
  bare dbs' = fold_left put (map (named_database h) rows) (bare dbs)
  /\ (forall b, b <> [] -> tables_of dbs' b = fold_left put (map (named_table h b) rows) (tables_of dbs b))
  /\ ((forall b d, dget b dbs = Some d -> db_name d = b) -> forall b d, dget b dbs' = Some d -> db_name d = b)
  /\ ((forall b n t, table_at dbs b n = Some t -> t_name t = n /\ new_table t) -> forall b n t, table_at dbs' b n = Some t -> t_name t = n /\ new_table t).
Proof.
  induction rows as [|row rows IH]; intros id dbs ms dbs' ms' E.
  - cbn [read_rows] in E. injection E as <- <-. split; [reflexivity|]. split; [intros; reflexivity|]. split; intros H; exact H.
  - cbn [read_rows] in E. destruct (read_table_row h id (dbs, ms) row) as [[dbs1 ms1]|e] eqn:R; [|discriminate]. cbn [bind] in E. destruct (IH _ _ _ _ _ E) as [I1 [I2 [I3 I4]]]. clear IH E. cbn [map fold_left]. rewrite I1.
    destruct (table_row_inv _ _ _ _ _ _ _ R) as [dbn [Gd [[Z [-> _]]|[Nd [pk [sk [nbr [name [schema [shard [_ [_ [_ [Gt [_ [_ [-> _]]]]]]]]]]]]]]]]]; clear R.
    + split; [|split; [|split]].
      * assert (X : named_database h row = None) by (unfold named_database; rewrite Gd, Z; reflexivity). rewrite X. reflexivity.
      * intros b Nb. rewrite (I2 b Nb). assert (X : named_table h b row = None) by (unfold named_table; rewrite Gd; destruct (str_eqb_spec dbn b) as [Q|_]; [congruence|]; destruct (get_text h ($"Table") row); reflexivity). rewrite X. reflexivity.
      * exact I3.
      * exact I4.
    + set (t := mk_table name schema _ shard) in *. set (d := match dget dbn dbs with Some d => d | None => empty_database dbn end) in *. split; [|split; [|split]].
      * assert (X : named_database h row = Some (dbn, tt)) by (unfold named_database; rewrite Gd; destruct (str_eqb_spec dbn []) as [Q|_]; [contradiction|reflexivity]). rewrite X. cbn [put]. rewrite bare_set. reflexivity.
      * intros b Nb. rewrite (I2 b Nb). assert (X : named_table h b row = if str_eqb dbn b then Some (name, tt) else None) by (unfold named_table; rewrite Gd, Gt; reflexivity). rewrite X. unfold tables_of. rewrite dget_dset. destruct (str_eqb_spec b dbn) as [->|Q].
        -- rewrite str_eqb_refl. cbn [put]. unfold add_table. cbn [db_tables]. rewrite bare_set. subst d. destruct (dget dbn dbs); reflexivity.
        -- destruct (str_eqb_spec dbn b) as [Q'|_]; [congruence|]. reflexivity.
      * intros H. apply I3. intros b d' G. rewrite dget_dset in G. destruct (str_eqb_spec b dbn) as [->|Q]; [|exact (H b d' G)]. injection G as <-. unfold add_table. cbn [db_name]. subst d. destruct (dget dbn dbs) as [d|] eqn:Ed; [exact (H dbn d Ed)|reflexivity].
      * intros H. apply I4. intros b n u G. unfold table_at in G. rewrite dget_dset in G. destruct (str_eqb_spec b dbn) as [->|Q]; [|exact (H b n u G)]. unfold get_table, add_table in G. cbn [db_tables] in G. rewrite dget_dset in G. destruct (str_eqb_spec n (t_name t)) as [->|Qn].
        -- injection G as <-. repeat split.
        -- apply (H dbn n u). unfold table_at. subst d. destruct (dget dbn dbs); [exact G|discriminate].
Qed.

(** ** The other sheets *)
Definition about (h : list cell) (col b n : str) (row : list cell) : Prop := get_text h ($"Database") row = Ok b /\ get_text h col row = Ok n.
Lemma rows_fill {V} tab h col missing (F : list cell -> table -> result table) (get : table -> dict V) (ent : list cell -> option (str * V)) b n :
  (forall st, missing st = Ok st) \/ (forall st, missing st = Err AttributeError) ->
  (forall row t t', about h col b n row -> t_name t = n -> F row t = Ok t' -> t_name t' = n /\ get t' = put (get t) (ent row)) ->
  (forall row, ~ about h col b n row -> ent row = None) ->
  forall rows id dbs ms dbs' ms' t, read_rows (fun _ st row => on_table tab h col missing (F row) st row) id rows (dbs, ms) = Ok (dbs', ms') ->
    table_at dbs b n = Some t -> t_name t = n ->
    exists t', table_at dbs' b n = Some t' /\ t_name t' = n /\ get t' = fold_left put (map ent rows) (get t).
Proof.
  intros M H1 H2. induction rows as [|row rows IH]; intros id dbs ms dbs' ms' t E G N.
  - cbn [read_rows] in E. injection E as <- <-. exists t. repeat split; assumption.
  - cbn [read_rows] in E. destruct (on_table tab h col missing (F row) (dbs, ms) row) as [[dbs1 ms1]|e] eqn:R; [|discriminate]. cbn [bind] in E.
    assert (S : exists t1, table_at dbs1 b n = Some t1 /\ t_name t1 = n /\ get t1 = put (get t) (ent row)).
    { unfold on_table in R. destruct (get_text h ($"Database") row) as [dbn|e] eqn:Gd; [|discriminate]. cbn [bind] in R. destruct (dget dbn dbs) as [d|] eqn:Ed.
      - destruct (get_text h col row) as [name|e] eqn:Gt; [|discriminate]. cbn [bind] in R. destruct (get_table d name) as [t0|] eqn:Gn.
        + destruct (F row t0) as [t0'|e] eqn:Ft; [|discriminate]. cbn [bind] in R. injection R as <- <-. unfold table_at in *. rewrite dget_dset. destruct (str_eqb_spec b dbn) as [->|Q].
          * rewrite Ed in G. unfold get_table, store_table in *. cbn [db_tables]. rewrite dget_dset. destruct (str_eqb_spec n name) as [->|Q].
            -- assert (t0 = t) as -> by congruence. exists t0'. split; [reflexivity|]. apply (H1 row t t0'); [split; assumption|exact N|exact Ft].
            -- exists t. split; [exact G|]. split; [exact N|]. rewrite H2; [reflexivity|]. intros [_ A]. congruence.
          * exists t. split; [exact G|]. split; [exact N|]. rewrite H2; [reflexivity|]. intros [A _]. congruence.
        + destruct M as [M|M]; rewrite M in R; [|discriminate]. injection R as <- <-. exists t. split; [exact G|]. split; [exact N|]. rewrite H2; [reflexivity|]. intros [A B]. unfold table_at in G. replace b with dbn in G by congruence. rewrite Ed in G. congruence.
      - injection R as <- <-. exists t. split; [exact G|]. split; [exact N|]. rewrite H2; [reflexivity|]. intros [A B]. unfold table_at in G. replace b with dbn in G by congruence. rewrite Ed in G. discriminate. }
    destruct S as [t1 [G1 [N1 P1]]]. destruct (IH _ _ _ _ _ _ E G1 N1) as [t' [G' [N' P']]]. exists t'. split; [exact G'|]. split; [exact N'|]. cbn [map fold_left]. rewrite P', P1. reflexivity.
Qed.
Lemma puts_none {A V} (l : list A) (d : dict V) : fold_left put (map (fun _ => None) l) d = d.
Proof. induction l as [|a l IH]; [reflexivity|exact IH]. Qed.
Lemma rows_shape tab h col missing (F : list cell -> table -> result table) : (forall st, missing st = Ok st) \/ (forall st, missing st = Err AttributeError) ->
  forall rows id dbs ms dbs' ms', read_rows (fun _ st row => on_table tab h col missing (F row) st row) id rows (dbs, ms) = Ok (dbs', ms') ->
    bare dbs' = bare dbs /\ (forall b, tables_of dbs' b = tables_of dbs b) /\ (forall b, option_map db_name (dget b dbs') = option_map db_name (dget b dbs)).
Proof.
  intros M. induction rows as [|row rows IH]; intros id dbs ms dbs' ms' E.
  - cbn [read_rows] in E. injection E as <- <-. repeat split.
  - cbn [read_rows] in E. destruct (on_table tab h col missing (F row) (dbs, ms) row) as [[dbs1 ms1]|e] eqn:R; [|discriminate]. cbn [bind] in E. destruct (IH _ _ _ _ _ E) as [I1 [I2 I3]]. clear IH E. rewrite I1.
    enough (S : bare dbs1 = bare dbs /\ (forall b, tables_of dbs1 b = tables_of dbs b) /\ (forall b, option_map db_name (dget b dbs1) = option_map db_name (dget b dbs))) by (destruct S as [S1 [S2 S3]]; split; [exact S1|]; split; intros b; [rewrite I2; apply S2|rewrite I3; apply S3]).
    clear I1 I2 I3. unfold on_table in R. destruct (get_text h ($"Database") row) as [dbn|e] eqn:Gd; [|discriminate]. cbn [bind] in R. destruct (dget dbn dbs) as [d|] eqn:Ed; [|injection R as <- <-; repeat split].
    destruct (get_text h col row) as [name|e] eqn:Gt; [|discriminate]. cbn [bind] in R. destruct (get_table d name) as [t0|] eqn:Gn; [|destruct M as [M|M]; rewrite M in R; [injection R as <- <-; repeat split|discriminate]].
    destruct (F row t0) as [t0'|e] eqn:Ft; [|discriminate]. cbn [bind] in R. injection R as <- <-. split; [exact (bare_again _ _ _ _ Ed)|]. unfold tables_of. split; intros b; rewrite dget_dset; destruct (str_eqb_spec b dbn) as [->|Q]; try reflexivity; rewrite Ed; [|reflexivity].
    unfold store_table. cbn [db_tables]. exact (bare_again _ _ _ _ Gn).
Qed.

(** ** What the rows of the three sheets add *)
Definition about_b (h : list cell) (col b n : str) (row : list cell) : bool :=
  match get_text h ($"Database") row, get_text h col row with Ok b', Ok n' => str_eqb b' b && str_eqb n' n | _, _ => false end.
Lemma about_iff h col b n row : about_b h col b n row = true <-> about h col b n row.
Proof.
  unfold about_b, about. destruct (get_text h ($"Database") row) as [b'|e]; [|split; [discriminate|intros [A _]; discriminate]]. destruct (get_text h col row) as [n'|e]; [|split; [discriminate|intros [_ A]; discriminate]].
  rewrite andb_true_iff. destruct (str_eqb_spec b' b), (str_eqb_spec n' n); split; intros [A B]; try discriminate; try congruence; split; congruence.
Qed.
Definition column_of (h : list cell) (b n : str) (row : list cell) : option (str * column) :=
  if about_b h ($"Table") b n row then
    match get_text h ($"Name") row, get_text h ($"Type") row with Ok x, Ok ty => Some (x, {| column_name := x; column_type := ty |}) | _, _ => None end
  else None.
Definition fk_of (h : list cell) (b n : str) (row : list cell) : option (str * foreign_key) :=
  if about_b h ($"From Table") b n row then
    match get_text h ($"Name") row, get_text h ($"To Table") row, get_text h ($"From Columns") row, get_text h ($"To Columns") row with
    | Ok x, Ok to, Ok fk, Ok tk => Some (x, {| fk_name := x; fk_from_table := n; fk_from_keys := cell_keys fk; fk_to_table := to; fk_to_keys := cell_keys tk |})
    | _, _, _, _ => None
    end
  else None.
Definition rel_of (h : list cell) (b n : str) (row : list cell) : option (str * relationship) :=
  if about_b h ($"From Table") b n row then
    match get_text h ($"To Table") row, get_text h ($"Conditions") row with
    | Ok to, Ok c => Some (default_rel_name n to, {| rel_name := default_rel_name n to; rel_from_table := n; rel_to_table := to; rel_conditions := c |})
    | _, _ => None
    end
  else None.
Lemma method_text h col row s : text_method h col row = Ok s -> get_text h col row = Ok s.
Proof. intros E. apply text_cell, method_cell, E. Qed.

Definition column_step (h : list cell) (row : list cell) (t : table) : result table :=
  name <- get_text h ($"Name") row ;; type <- get_text h ($"Type") row ;; c <- mk_column (Some name) (Some type) ;; Ok (add_column t c).
Definition fk_step (h : list cell) (row : list cell) (t : table) : result table :=
  name <- get_text h ($"Name") row ;; from_keys <- text_method h ($"From Columns") row ;; to_keys <- text_method h ($"To Columns") row ;; to_table <- get_text h ($"To Table") row ;;
  add_fk_parts t (Some (KeyList (cell_keys from_keys))) (Some to_table) (Some (KeyList (cell_keys to_keys))) (Some name).
Definition rel_step (h : list cell) (row : list cell) (t : table) : result table :=
  to_table <- get_text h ($"To Table") row ;; conditions <- get_text h ($"Conditions") row ;; add_rel_parts t (Some to_table) None (Some conditions).

Lemma column_steps h b n row t t' : about h ($"Table") b n row -> t_name t = n -> column_step h row t = Ok t' ->
  t_name t' = n /\ t_cols t' = put (t_cols t) (column_of h b n row) /\ t_fks t' = t_fks t /\ t_rels t' = t_rels t.
Proof.
  intros A N E. unfold column_step in E. unfold column_of. rewrite (proj2 (about_iff _ _ _ _ _) A). destruct (get_text h ($"Name") row) as [x|e]; [|discriminate]. cbn [bind] in E. destruct (get_text h ($"Type") row) as [ty|e]; [|discriminate]. cbn [bind] in E.
  unfold mk_column in E. destruct (negb (str_in ty VALID_TYPES) && negb (starts_with ($"VARCHAR") ty)); [discriminate|]. cbn [bind] in E. injection E as <-. unfold add_column, with_cols. cbn [t_name t_cols t_fks t_rels put column_name]. repeat split; assumption.
Qed.
Lemma fk_steps h b n row t t' : about h ($"From Table") b n row -> t_name t = n -> fk_step h row t = Ok t' ->
  t_name t' = n /\ t_fks t' = put (t_fks t) (fk_of h b n row) /\ t_cols t' = t_cols t /\ t_rels t' = t_rels t.
Proof.
  intros A N E. unfold fk_step in E. unfold fk_of. rewrite (proj2 (about_iff _ _ _ _ _) A). destruct (get_text h ($"Name") row) as [x|e]; [|discriminate]. cbn [bind] in E.
  destruct (text_method h ($"From Columns") row) as [fk|e] eqn:G1; [|discriminate]. cbn [bind] in E. destruct (text_method h ($"To Columns") row) as [tk|e] eqn:G2; [|discriminate]. cbn [bind] in E. destruct (get_text h ($"To Table") row) as [to|e]; [|discriminate]. cbn [bind] in E.
  rewrite (method_text _ _ _ _ G1), (method_text _ _ _ _ G2). unfold add_fk_parts, mk_foreign_key in E. cbn [keys_list] in E. destruct (negb _) in E; [discriminate|]. cbn [bind] in E. injection E as <-. unfold add_fk_obj, with_fks. cbn [t_name t_cols t_fks t_rels put fk_name]. rewrite N. repeat split.
Qed.
Lemma rel_steps h b n row t t' : about h ($"From Table") b n row -> t_name t = n -> rel_step h row t = Ok t' ->
  t_name t' = n /\ t_rels t' = put (t_rels t) (rel_of h b n row) /\ t_cols t' = t_cols t /\ t_fks t' = t_fks t.
Proof.
  intros A N E. unfold rel_step in E. unfold rel_of. rewrite (proj2 (about_iff _ _ _ _ _) A). destruct (get_text h ($"To Table") row) as [to|e]; [|discriminate]. cbn [bind] in E. destruct (get_text h ($"Conditions") row) as [c|e]; [|discriminate]. cbn [bind] in E.
  unfold add_rel_parts, mk_relationship in E. cbn [bind] in E. injection E as <-. unfold add_rel_obj, with_rels. cbn [t_name t_cols t_fks t_rels put rel_name]. rewrite N. repeat split.
Qed.
Lemma other_row {V} h col b n row (x : option (str * V)) : ~ about h col b n row -> (if about_b h col b n row then x else None) = None.
Proof. intros A. destruct (about_b h col b n row) eqn:B; [|reflexivity]. apply about_iff in B. contradiction. Qed.

(** ** Everything that was read *)
Lemma read_fills base w dbs ms : complete_book w -> read_xls base [] w = Ok (dbs, ms) -> exists h1 r1 h2 r2 h3 r3 h4 r4,
  dget ($"Tables") w = Some (h1 :: r1) /\ dget ($"Columns") w = Some (h2 :: r2) /\ dget ($"Foreign Keys") w = Some (h3 :: r3) /\ dget ($"Relationships") w = Some (h4 :: r4)
  /\ bare dbs = puts (map (named_database h1) r1)
  /\ (forall b, b <> [] -> tables_of dbs b = puts (map (named_table h1 b) r1))
  /\ (forall b d, dget b dbs = Some d -> db_name d = b)
  /\ (forall b n t, table_at dbs b n = Some t -> t_name t = n /\ t_cols t = puts (map (column_of h2 b n) r2) /\ t_fks t = puts (map (fk_of h3 b n) r3) /\ t_rels t = puts (map (rel_of h4 b n) r4)).
Proof.
  intros T E. rewrite read_format_ok in E by (apply complete_format, T). apply read_four in E. destruct E as [h1 [r1 [[b1 m1] [h2 [r2 [[b2 m2] [h3 [r3 [[b3 m3] [h4 [r4 [D1 [D2 [D3 [D4 [E1 [E2 [E3 E4]]]]]]]]]]]]]]]]]].
  exists h1, r1, h2, r2, h3, r3, h4, r4. repeat (split; [assumption|]).
  pose proof (tables_fill h1 r1 base [] [] b1 m1 E1) as [A1 [A2 [A3 A4]]]. specialize (A3 ltac:(intros b d; discriminate)). specialize (A4 ltac:(intros b n t; discriminate)).
  change (read_rows (fun _ st row => on_table ($"Columns") h2 ($"Table") (fun st => Ok st) (column_step h2 row) st row) base r2 (b1, m1) = Ok (b2, m2)) in E2.
  change (read_rows (fun _ st row => on_table ($"Foreign Keys") h3 ($"From Table") (fun st => Ok st) (fk_step h3 row) st row) base r3 (b2, m2) = Ok (b3, m3)) in E3.
  change (read_rows (fun _ st row => on_table ($"Relationships") h4 ($"From Table") (fun _ => Err AttributeError) (rel_step h4 row) st row) base r4 (b3, m3) = Ok (dbs, ms)) in E4.
  assert (M1 : (forall st : xls_state, Ok st = Ok st) \/ (forall st : xls_state, Ok st = Err AttributeError)) by (left; reflexivity).
  assert (M2 : (forall st : xls_state, @Err xls_state AttributeError = Ok st) \/ (forall st : xls_state, @Err xls_state AttributeError = Err AttributeError)) by (right; reflexivity).
  destruct (rows_shape _ _ _ (fun st => Ok st) _ M1 _ _ _ _ _ _ E2) as [S2 [T2 U2]]. destruct (rows_shape _ _ _ (fun st => Ok st) _ M1 _ _ _ _ _ _ E3) as [S3 [T3 U3]]. destruct (rows_shape _ _ _ (fun _ => Err AttributeError) _ M2 _ _ _ _ _ _ E4) as [S4 [T4 U4]].
  split; [rewrite S4, S3, S2; exact A1|]. split; [intros b Nb; rewrite T4, T3, T2; exact (A2 b Nb)|]. split.
  { intros b d G. specialize (U4 b). rewrite U3, U2, G in U4. cbn [option_map] in U4. destruct (dget b b1) as [d1|] eqn:G1; [|discriminate]. cbn [option_map] in U4. injection U4 as ->. exact (A3 b d1 G1). }
  intros b n t G. assert (exists t1, table_at b1 b n = Some t1) as [t1 G1].
  { assert (X : dget n (tables_of dbs b) = option_map (fun _ => tt) (table_at dbs b n)) by (unfold tables_of, table_at; destruct (dget b dbs); [apply bare_get|reflexivity]).
    assert (Y : dget n (tables_of b1 b) = option_map (fun _ => tt) (table_at b1 b n)) by (unfold tables_of, table_at; destruct (dget b b1); [apply bare_get|reflexivity]).
    rewrite T4, T3, T2, Y, G in X. destruct (table_at b1 b n); [eauto|discriminate]. }
  destruct (A4 b n t1 G1) as [N1 [C1 [F1 L1]]].
  (* the columns *)
  destruct (rows_fill ($"Columns") h2 ($"Table") (fun st => Ok st) (column_step h2) t_cols (column_of h2 b n) b n M1 (fun row t t' A N S => conj (proj1 (column_steps h2 b n row t t' A N S)) (proj1 (proj2 (column_steps h2 b n row t t' A N S)))) (fun row A => other_row h2 ($"Table") b n row _ A) _ _ _ _ _ _ _ E2 G1 N1) as [t2 [G2 [N2 C2]]].
  destruct (rows_fill ($"Columns") h2 ($"Table") (fun st => Ok st) (column_step h2) t_fks (fun _ => None) b n M1 (fun row t t' A N S => conj (proj1 (column_steps h2 b n row t t' A N S)) (proj1 (proj2 (proj2 (column_steps h2 b n row t t' A N S))))) (fun row A => eq_refl) _ _ _ _ _ _ _ E2 G1 N1) as [t2' [G2' [_ F2]]].
  destruct (rows_fill ($"Columns") h2 ($"Table") (fun st => Ok st) (column_step h2) t_rels (fun _ => None) b n M1 (fun row t t' A N S => conj (proj1 (column_steps h2 b n row t t' A N S)) (proj2 (proj2 (proj2 (column_steps h2 b n row t t' A N S))))) (fun row A => eq_refl) _ _ _ _ _ _ _ E2 G1 N1) as [t2'' [G2'' [_ L2]]].
  assert (t2' = t2) as -> by congruence. assert (t2'' = t2) as -> by congruence. rewrite puts_none in F2. rewrite puts_none in L2. clear G2' G2''.
  (* the foreign keys *)
  destruct (rows_fill ($"Foreign Keys") h3 ($"From Table") (fun st => Ok st) (fk_step h3) t_fks (fk_of h3 b n) b n M1 (fun row t t' A N S => conj (proj1 (fk_steps h3 b n row t t' A N S)) (proj1 (proj2 (fk_steps h3 b n row t t' A N S)))) (fun row A => other_row h3 ($"From Table") b n row _ A) _ _ _ _ _ _ _ E3 G2 N2) as [t3 [G3 [N3 F3]]].
  destruct (rows_fill ($"Foreign Keys") h3 ($"From Table") (fun st => Ok st) (fk_step h3) t_cols (fun _ => None) b n M1 (fun row t t' A N S => conj (proj1 (fk_steps h3 b n row t t' A N S)) (proj1 (proj2 (proj2 (fk_steps h3 b n row t t' A N S))))) (fun row A => eq_refl) _ _ _ _ _ _ _ E3 G2 N2) as [t3' [G3' [_ C3]]].
  destruct (rows_fill ($"Foreign Keys") h3 ($"From Table") (fun st => Ok st) (fk_step h3) t_rels (fun _ => None) b n M1 (fun row t t' A N S => conj (proj1 (fk_steps h3 b n row t t' A N S)) (proj2 (proj2 (proj2 (fk_steps h3 b n row t t' A N S))))) (fun row A => eq_refl) _ _ _ _ _ _ _ E3 G2 N2) as [t3'' [G3'' [_ L3]]].
  assert (t3' = t3) as -> by congruence. assert (t3'' = t3) as -> by congruence. rewrite puts_none in C3. rewrite puts_none in L3. clear G3' G3''.
  (* the relationships *)
  destruct (rows_fill ($"Relationships") h4 ($"From Table") (fun _ => Err AttributeError) (rel_step h4) t_rels (rel_of h4 b n) b n M2 (fun row t t' A N S => conj (proj1 (rel_steps h4 b n row t t' A N S)) (proj1 (proj2 (rel_steps h4 b n row t t' A N S)))) (fun row A => other_row h4 ($"From Table") b n row _ A) _ _ _ _ _ _ _ E4 G3 N3) as [t4 [G4 [N4 L4]]].
  destruct (rows_fill ($"Relationships") h4 ($"From Table") (fun _ => Err AttributeError) (rel_step h4) t_cols (fun _ => None) b n M2 (fun row t t' A N S => conj (proj1 (rel_steps h4 b n row t t' A N S)) (proj1 (proj2 (proj2 (rel_steps h4 b n row t t' A N S))))) (fun row A => eq_refl) _ _ _ _ _ _ _ E4 G3 N3) as [t4' [G4' [_ C4]]].
  destruct (rows_fill ($"Relationships") h4 ($"From Table") (fun _ => Err AttributeError) (rel_step h4) t_fks (fun _ => None) b n M2 (fun row t t' A N S => conj (proj1 (rel_steps h4 b n row t t' A N S)) (proj2 (proj2 (proj2 (rel_steps h4 b n row t t' A N S))))) (fun row A => eq_refl) _ _ _ _ _ _ _ E4 G3 N3) as [t4'' [G4'' [_ F4]]].
  assert (t4' = t4) as -> by congruence. assert (t4'' = t4) as -> by congruence. rewrite puts_none in C4. rewrite puts_none in F4. assert (t4 = t) as -> by congruence.
  unfold puts. split; [exact N4|]. split; [rewrite C4, C3, C2, C1; reflexivity|]. split; [rewrite F4, F3, F2, F1; reflexivity|]. rewrite L4, L3, L2, L1. reflexivity.
Qed.

(** ** In the words of the specification *)
Lemma commas_keys text l : between_commas text l <-> l = cell_keys text.
Proof.
  unfold cell_keys. split.
  - intros [ps [P [F [-> ->]]]]. f_equal. induction ps as [|p ps IH]; [contradiction|]. inversion F as [|? ? Fp Fs]; subst. destruct ps as [|q ps]; [cbn [join]; symmetry; apply GenFacts.split_one, Fp|].
    rewrite join_cons by discriminate. change ($"," ++ join ($",") (q :: ps)) with (","%char :: join ($",") (q :: ps)). rewrite GenFacts.split_free by exact Fp. rewrite <- IH by (assumption || discriminate). reflexivity.
  - intros ->. exists (split_char "," text). destruct (split_pieces ","%char text) as [F J]. split; [apply split_char_nonnil|]. split; [exact F|]. split; [exact J|reflexivity].
Qed.
Lemma nth_map_some {A B} (f : A -> option B) l k y : nth_error (map f l) k = Some (Some y) <-> exists a, nth_error l k = Some a /\ f a = Some y.
Proof.
  revert k. induction l as [|a l IH]; intros [|k]; cbn [map nth_error]; try (split; [discriminate|intros [z [Z _]]; discriminate]).
  - split; [intros E; injection E as E; exists a; split; [reflexivity|exact E]|intros [z [Z F]]; injection Z as ->; rewrite F; reflexivity].
  - apply IH.
Qed.
Ltac cell_in T D H := match type of H with holds _ ?s _ ?c _ => let R := fresh "R" in assert (R : required s c) by its; apply (holds_text _ _ _ _ _ _ _ T R D) in H; clear R end.
Ltac cell_goal T D row := match goal with |- holds _ ?s _ ?c _ => let R := fresh "R" in assert (R : required s c) by its; apply (holds_text _ _ _ _ _ _ _ T R D); exists row; split; assumption end.
Lemma databases_are w h rows : complete_book w -> dget ($"Tables") w = Some (h :: rows) -> forall k x v, nth_error (map (named_database h) rows) k = Some (Some (x, v)) <-> database_entry w k x v.
Proof.
  intros T D k x []. rewrite nth_map_some. unfold database_entry, named_database. split.
  - intros [row [N E]]. destruct (get_text h ($"Database") row) as [b|e] eqn:G; [|discriminate]. destruct (str_eqb_spec b []) as [_|Nb]; [discriminate|]. injection E as <-. split; [exact Nb|]. cell_goal T D row.
  - intros [Nb H]. cell_in T D H. destruct H as [row [N G]]. exists row. split; [exact N|]. rewrite G. destruct (str_eqb_spec x []); [contradiction|reflexivity].
Qed.
Lemma tables_are w h rows b : complete_book w -> dget ($"Tables") w = Some (h :: rows) -> forall k x v, nth_error (map (named_table h b) rows) k = Some (Some (x, v)) <-> table_entry w b k x v.
Proof.
  intros T D k x []. rewrite nth_map_some. unfold table_entry, named_table. split.
  - intros [row [N E]]. destruct (get_text h ($"Database") row) as [b'|e] eqn:G; [|discriminate]. destruct (get_text h ($"Table") row) as [n|e] eqn:Gn; [|discriminate]. destruct (str_eqb_spec b' b) as [->|_]; [|discriminate]. injection E as <-.
    split; (cell_goal T D row).
  - intros [H1 H2]. cell_in T D H1. cell_in T D H2. destruct H1 as [row [N G]], H2 as [row2 [N2 G2]]. exists row. split; [exact N|]. rewrite (same_row _ _ _ _ N2 N) in G2. rewrite G, G2, str_eqb_refl. reflexivity.
Qed.
Lemma columns_are w h rows b n : complete_book w -> dget ($"Columns") w = Some (h :: rows) -> forall k x v, nth_error (map (column_of h b n) rows) k = Some (Some (x, v)) <-> column_entry w b n k x v.
Proof.
  intros T D k x v. rewrite nth_map_some. unfold column_entry, column_of. split.
  - intros [row [N E]]. destruct (about_b h ($"Table") b n row) eqn:A; [|discriminate]. apply about_iff in A. destruct A as [A1 A2]. destruct (get_text h ($"Name") row) as [y|e] eqn:G1; [|discriminate]. destruct (get_text h ($"Type") row) as [ty|e] eqn:G2; [|discriminate]. injection E as <- <-. cbn [column_name column_type].
    repeat (split; [cell_goal T D row|]). reflexivity.
  - intros [H1 [H2 [H3 [H4 H5]]]]. cell_in T D H1; cell_in T D H2; cell_in T D H3; cell_in T D H4. destruct H1 as [row [N G1]], H2 as [r2 [N2 G2]], H3 as [r3 [N3 G3]], H4 as [r4 [N4 G4]]. rewrite (same_row _ _ _ _ N2 N) in G2. rewrite (same_row _ _ _ _ N3 N) in G3. rewrite (same_row _ _ _ _ N4 N) in G4.
    exists row. split; [exact N|]. rewrite (proj2 (about_iff _ _ _ _ _) (conj G1 G2)), G3, G4. destruct v as [y ty]. cbn [column_name column_type] in *. subst y. reflexivity.
Qed.
Lemma fks_are w h rows b n : complete_book w -> dget ($"Foreign Keys") w = Some (h :: rows) -> forall k x v, nth_error (map (fk_of h b n) rows) k = Some (Some (x, v)) <-> fk_entry w b n k x v.
Proof.
  intros T D k x v. rewrite nth_map_some. unfold fk_entry, fk_of. split.
  - intros [row [N E]]. destruct (about_b h ($"From Table") b n row) eqn:A; [|discriminate]. apply about_iff in A. destruct A as [A1 A2]. destruct (get_text h ($"Name") row) as [y|e] eqn:G1; [|discriminate]. destruct (get_text h ($"To Table") row) as [to|e] eqn:G2; [|discriminate].
    destruct (get_text h ($"From Columns") row) as [fk|e] eqn:G3; [|discriminate]. destruct (get_text h ($"To Columns") row) as [tk|e] eqn:G4; [|discriminate]. injection E as <- <-. cbn [fk_name fk_from_table fk_from_keys fk_to_table fk_to_keys].
    repeat (split; [cell_goal T D row|]).
    split; [exists fk; split; [cell_goal T D row|apply commas_keys; reflexivity]|].
    split; [exists tk; split; [cell_goal T D row|apply commas_keys; reflexivity]|]. split; reflexivity.
  - intros [H1 [H2 [H3 [H4 [[fk [H5 K5]] [[tk [H6 K6]] [H7 H8]]]]]]]. cell_in T D H1; cell_in T D H2; cell_in T D H3; cell_in T D H4; cell_in T D H5; cell_in T D H6. destruct H1 as [row [N G1]], H2 as [r2 [N2 G2]], H3 as [r3 [N3 G3]], H4 as [r4 [N4 G4]], H5 as [r5 [N5 G5]], H6 as [r6 [N6 G6]].
    rewrite (same_row _ _ _ _ N2 N) in G2. rewrite (same_row _ _ _ _ N3 N) in G3. rewrite (same_row _ _ _ _ N4 N) in G4. rewrite (same_row _ _ _ _ N5 N) in G5. rewrite (same_row _ _ _ _ N6 N) in G6. apply commas_keys in K5. apply commas_keys in K6.
    exists row. split; [exact N|]. rewrite (proj2 (about_iff _ _ _ _ _) (conj G1 G2)), G3, G4, G5, G6. destruct v as [v1 v2 v3 v4 v5]. cbn [fk_name fk_from_table fk_from_keys fk_to_table fk_to_keys] in *. subst. reflexivity.
Qed.
Lemma rels_are w h rows b n : complete_book w -> dget ($"Relationships") w = Some (h :: rows) -> forall k x v, nth_error (map (rel_of h b n) rows) k = Some (Some (x, v)) <-> rel_entry w b n k x v.
Proof.
  intros T D k x v. rewrite nth_map_some. unfold rel_entry, rel_of. split.
  - intros [row [N E]]. destruct (about_b h ($"From Table") b n row) eqn:A; [|discriminate]. apply about_iff in A. destruct A as [A1 A2]. destruct (get_text h ($"To Table") row) as [to|e] eqn:G2; [|discriminate].
    destruct (get_text h ($"Conditions") row) as [c|e] eqn:G3; [|discriminate]. apply (f_equal (fun o => match o with Some p => p | None => (x, v) end)) in E. apply pair_equal_spec in E. destruct E as [<- <-]. cbn [rel_name rel_from_table rel_to_table rel_conditions].
    repeat (split; [cell_goal T D row|]). repeat split.
  - intros [H1 [H2 [H3 [H4 [H5 [H6 H7]]]]]]. cell_in T D H1; cell_in T D H2; cell_in T D H3; cell_in T D H4. destruct H1 as [row [N G1]], H2 as [r2 [N2 G2]], H3 as [r3 [N3 G3]], H4 as [r4 [N4 G4]].
    rewrite (same_row _ _ _ _ N2 N) in G2. rewrite (same_row _ _ _ _ N3 N) in G3. rewrite (same_row _ _ _ _ N4 N) in G4.
    exists row. split; [exact N|]. rewrite (proj2 (about_iff _ _ _ _ _) (conj G1 G2)), G3, G4. destruct v as [v1 v2 v3 v4]. cbn [rel_name rel_from_table rel_to_table rel_conditions] in *. subst. reflexivity.
Qed.

(** ** When the rows can be read *)
Lemma valid_made x ty : (exists c, mk_column (Some x) (Some ty) = Ok c) <-> valid_type ty.
Proof.
  unfold mk_column, valid_type. destruct (negb (str_in ty VALID_TYPES) && negb (starts_with ($"VARCHAR") ty)) eqn:B.
  - split; [intros [c E]; discriminate|]. apply andb_true_iff in B. destruct B as [B1 B2]. apply negb_true_iff in B1. apply negb_true_iff in B2. intros [I|[r ->]].
    + apply (proj2 (str_in_true _ _)) in I. congruence.
    + assert (S : starts_with ($"VARCHAR") ($"VARCHAR" ++ r) = true) by (apply starts_with_spec; exists r; reflexivity). congruence.
  - split; [|eauto]. intros _. apply andb_false_iff in B. destruct B as [B|B]; apply negb_false_iff in B; [left; apply str_in_true, B|right; apply starts_with_spec, B].
Qed.
Lemma rows_readable tab h col missing (F : list cell -> table -> result table) (good : list cell -> Prop) :
  (forall st, missing st = Ok st) \/ (forall st, missing st = Err AttributeError) ->
  forall rows, (forall row t, In row rows -> (exists t', F row t = Ok t') <-> good row) ->
  (forall row, In row rows -> (exists b, get_text h ($"Database") row = Ok b) /\ exists n, get_text h col row = Ok n) ->
  forall id dbs ms, (exists r, read_rows (fun _ st row => on_table tab h col missing (F row) st row) id rows (dbs, ms) = Ok r) <->
    (forall row b n, In row rows -> about h col b n row -> (status dbs b n = Some true -> good row) /\ (status dbs b n = Some false -> forall st, missing st = Ok st)).
Proof.
  intros M. induction rows as [|row rows IH]; intros HF HT id dbs ms.
  - split; [intros _ row b n []|intros _; eexists; reflexivity].
  - cbn [read_rows]. destruct (HT row (or_introl eq_refl)) as [[b Gb] [n Gn]]. specialize (IH (fun r t I => HF r t (or_intror I)) (fun r I => HT r (or_intror I))).
    assert (U : forall b' n', about h col b' n' row -> b' = b /\ n' = n) by (intros b' n' [A1 A2]; split; congruence).
    assert (Go : forall dbs1 ms1, on_table tab h col missing (F row) (dbs, ms) row = Ok (dbs1, ms1) -> (forall b n, status dbs1 b n = status dbs b n)).
    { intros dbs1 ms1 E. exact (proj1 (on_table_steady tab h col missing F M 0 dbs ms row dbs1 ms1 E)). }
    destruct (on_table tab h col missing (F row) (dbs, ms) row) as [[dbs1 ms1]|e] eqn:R; cbn [bind].
    + specialize (Go _ _ eq_refl). rewrite IH. split.
      * intros H r b' n' [<-|I] A; [|rewrite <- Go; exact (H r b' n' I A)]. destruct (U _ _ A) as [-> ->]. clear H IH. unfold on_table in R. rewrite Gb in R. cbn [bind] in R. unfold status. destruct (dget b dbs) as [d|]; [|split; discriminate]. rewrite Gn in R. cbn [bind] in R. destruct (get_table d n) as [t|].
        -- split; [|discriminate]. intros _. apply (HF row t (or_introl eq_refl)). destruct (F row t) as [t'|e]; [eauto|discriminate].
        -- split; [discriminate|]. intros _. destruct M as [M|M]; [exact M|]. rewrite M in R. discriminate.
      * intros H r b' n' I A. rewrite Go. exact (H r b' n' (or_intror I) A).
    + split; [intros [r E]; discriminate|]. intros H. exfalso. destruct (H row b n (or_introl eq_refl) (conj Gb Gn)) as [H1 H2]. unfold on_table in R. rewrite Gb in R. cbn [bind] in R. unfold status in H1, H2. destruct (dget b dbs) as [d|]; [|discriminate]. rewrite Gn in R. cbn [bind] in R. destruct (get_table d n) as [t|].
      * specialize (H1 eq_refl). apply (HF row t (or_introl eq_refl)) in H1. destruct H1 as [t' E]. rewrite E in R. discriminate.
      * rewrite (H2 eq_refl) in R. discriminate.
Qed.
Lemma tables_readable h rows : (forall row, In row rows -> (exists b, get_text h ($"Database") row = Ok b) /\ (exists n, get_text h ($"Table") row = Ok n) /\ (exists s, get_text h ($"Schema") row = Ok s)
    /\ (exists s, text_method h ($"Primary Key") row = Ok s) /\ (exists s, text_method h ($"Shard Key") row = Ok s) /\ (get_cell h ($"# Shards") row = Ok (CText []) \/ exists z, get_cell h ($"# Shards") row = Ok (CNum z))) ->
  forall id st, exists r, read_rows (read_table_row h) id rows st = Ok r.
Proof.
  induction rows as [|row rows IH]; intros H id [dbs ms]; [eexists; reflexivity|]. cbn [read_rows]. destruct (H row (or_introl eq_refl)) as [[b Gb] [[n Gn] [[s Gs] [[pk Gp] [[sk Gk] Gz]]]]].
  assert (R : exists r, read_table_row h id (dbs, ms) row = Ok r); [|destruct R as [r R]; rewrite R; cbn [bind]; apply IH; intros x I; apply H; right; exact I].
  unfold read_table_row. rewrite Gb. cbn [bind]. destruct (str_eqb b []); [eexists; reflexivity|]. rewrite Gp. cbn [bind]. rewrite Gk. cbn [bind].
  destruct Gz as [Gz|[z Gz]]; rewrite Gz; cbn [bind]; rewrite Gn; cbn [bind]; rewrite Gs; cbn [bind].
  - destruct (str_eqb (strip sk) []); cbn [bind]; eexists; reflexivity.
  - destruct (str_eqb (strip sk) []); [cbn [bind]; eexists; reflexivity|]. destruct z; cbn [bind]; eexists; reflexivity.
Qed.
Lemma text_there w sheet cols col h rows row : complete_book w -> texts_only w -> In (sheet, cols) text_columns -> In col cols -> required sheet col -> dget sheet w = Some (h :: rows) -> In row rows -> exists s, get_text h col row = Ok s.
Proof.
  intros T [X _] I J R D In. apply In_nth_error in In. destruct In as [k N]. destruct (T _ _ R) as [cells C]. destruct (column_cell _ _ _ _ _ _ C D k row N) as [c [E G]]. destruct (X sheet cols col k c I J) as [s ->]; [exists cells; split; assumption|]. exists s. apply text_cell, G.
Qed.
Ltac text_at T X D I := match goal with |- exists s, get_text _ ?c _ = Ok s =>
  match type of D with dget ?sh _ = _ => let R := fresh "R" in assert (R : required sh c) by its;
    let Q := fresh "Q" in assert (Q : exists cols, In (sh, cols) text_columns /\ In c cols) by (unfold text_columns; eexists; split; [repeat (first [left; reflexivity|right])|repeat (first [left; reflexivity|right])]);
    let A := fresh "A" in let B := fresh "B" in destruct Q as [? [A B]]; exact (text_there _ _ _ _ _ _ _ T X A B R D I) end end.
Lemma book_readable base w : complete_book w -> texts_only w -> (exists dbs ms, read_xls base [] w = Ok (dbs, ms)) <-> sound_book w.
Proof.
  intros T X. rewrite read_format_ok by (apply complete_format, T).
  assert (D : forall sheet col, required sheet col -> exists h rows, dget sheet w = Some (h :: rows)) by (intros sheet col R; destruct (T _ _ R) as [cells [h [rows [i [E _]]]]]; exists h, rows; exact E).
  destruct (D ($"Tables") ($"Database")) as [h1 [r1 D1]]; [its|]. destruct (D ($"Columns") ($"Database")) as [h2 [r2 D2]]; [its|]. destruct (D ($"Foreign Keys") ($"Database")) as [h3 [r3 D3]]; [its|]. destruct (D ($"Relationships") ($"Database")) as [h4 [r4 D4]]; [its|]. clear D.
  assert (R1 : exists s1, read_rows (read_table_row h1) base r1 ([], []) = Ok s1).
  { apply tables_readable. intros row I. split; [text_at T X D1 I|]. split; [text_at T X D1 I|]. split; [text_at T X D1 I|].
    assert (M : forall c s, get_text h1 c row = Ok s -> text_method h1 c row = Ok s) by (intros c s G; apply method_cell, text_cell, G).
    split; [assert (P : exists s, get_text h1 ($"Primary Key") row = Ok s) by text_at T X D1 I; destruct P as [s P]; exists s; apply M, P|].
    split; [assert (P : exists s, get_text h1 ($"Shard Key") row = Ok s) by text_at T X D1 I; destruct P as [s P]; exists s; apply M, P|].
    assert (R : required ($"Tables") ($"# Shards")) by its. apply In_nth_error in I. destruct I as [k N]. destruct (T _ _ R) as [cells C]. destruct (column_cell _ _ _ _ _ _ C D1 k row N) as [c [E G]].
    destruct (proj2 X k c) as [->|[z ->]]; [exists cells; split; assumption|left; exact G|right; exists z; exact G]. }
  destruct R1 as [[b1 m1] E1]. destruct (tables_status _ _ _ _ _ _ _ E1) as [S1 S2]. destruct (described_rows w h1 r1 T D1) as [P1 P2].
  assert (St : forall b n, status b1 b n = Some true <-> table_described w b n).
  { intros b n. rewrite <- status_knows, S2, P2. split; [intros [[d [t [Q _]]]|Q]; [discriminate|exact Q]|intros Q; right; exact Q]. }
  assert (Sd : forall b, dget b b1 <> None <-> database_described w b).
  { intros b. rewrite S1, P1. cbn [dget]. split; [intros [Q|Q]; [congruence|exact Q]|intros Q; right; exact Q]. }
  assert (Sf : forall b n, status b1 b n = Some false <-> database_described w b /\ ~ table_described w b n).
  { intros b n. rewrite <- St, <- Sd. unfold status. destruct (dget b b1) as [d|]; [destruct (get_table d n)|]; split; intros Q; try discriminate; try (split; congruence); try (destruct Q; congruence); reflexivity. }
  assert (M1 : (forall st : xls_state, Ok st = Ok st) \/ (forall st : xls_state, Ok st = Err AttributeError)) by (left; reflexivity).
  assert (M2 : (forall st : xls_state, @Err xls_state AttributeError = Ok st) \/ (forall st : xls_state, @Err xls_state AttributeError = Err AttributeError)) by (right; reflexivity).
  pose (good2 := fun row => exists x ty, get_text h2 ($"Name") row = Ok x /\ get_text h2 ($"Type") row = Ok ty /\ valid_type ty).
  pose (good3 := fun row => exists f t, get_text h3 ($"From Columns") row = Ok f /\ get_text h3 ($"To Columns") row = Ok t /\ length (cell_keys f) = length (cell_keys t)).
  assert (G2 : forall id dbs ms, (exists r, read_rows (read_column_row h2) id r2 (dbs, ms) = Ok r) <-> (forall row b n, In row r2 -> about h2 ($"Table") b n row -> status dbs b n = Some true -> good2 row)).
  { intros id dbs ms. change (read_column_row h2) with (fun (_ : nat) st row => on_table ($"Columns") h2 ($"Table") (fun st => Ok st) (column_step h2 row) st row). rewrite (rows_readable ($"Columns") h2 ($"Table") (fun st => Ok st) (column_step h2) good2 M1).
    - split; [intros H row b n I A; exact (proj1 (H row b n I A))|intros H row b n I A; split; [exact (H row b n I A)|intros _ st; reflexivity]].
    - intros row t I. unfold column_step, good2. assert (Gx : exists x, get_text h2 ($"Name") row = Ok x) by text_at T X D2 I. assert (Gy : exists x, get_text h2 ($"Type") row = Ok x) by text_at T X D2 I. destruct Gx as [x Gx], Gy as [ty Gy]. rewrite Gx, Gy. cbn [bind]. split.
      + intros [t' E]. exists x, ty. split; [reflexivity|]. split; [reflexivity|]. apply (valid_made x). destruct (mk_column (Some x) (Some ty)) as [c|e]; [eauto|discriminate].
      + intros [x' [ty' [_ [Q V]]]]. injection Q as <-. apply (valid_made x) in V. destruct V as [c ->]. cbn [bind]. eauto.
    - intros row I. split; text_at T X D2 I. }
  assert (G3 : forall id dbs ms, (exists r, read_rows (read_fk_row h3) id r3 (dbs, ms) = Ok r) <-> (forall row b n, In row r3 -> about h3 ($"From Table") b n row -> status dbs b n = Some true -> good3 row)).
  { intros id dbs ms. change (read_fk_row h3) with (fun (_ : nat) st row => on_table ($"Foreign Keys") h3 ($"From Table") (fun st => Ok st) (fk_step h3 row) st row). rewrite (rows_readable ($"Foreign Keys") h3 ($"From Table") (fun st => Ok st) (fk_step h3) good3 M1).
    - split; [intros H row b n I A; exact (proj1 (H row b n I A))|intros H row b n I A; split; [exact (H row b n I A)|intros _ st; reflexivity]].
    - intros row t I. unfold fk_step, good3. assert (Gx : exists x, get_text h3 ($"Name") row = Ok x) by text_at T X D3 I. assert (Gf : exists x, get_text h3 ($"From Columns") row = Ok x) by text_at T X D3 I. assert (Gt : exists x, get_text h3 ($"To Columns") row = Ok x) by text_at T X D3 I. assert (Go : exists x, get_text h3 ($"To Table") row = Ok x) by text_at T X D3 I.
      destruct Gx as [x Gx], Gf as [f Gf], Gt as [tk Gt], Go as [to Go]. rewrite Gx, Gf, Gt, Go. apply text_cell in Gf. apply text_cell in Gt. rewrite (proj2 (method_cell _ _ _ _) Gf), (proj2 (method_cell _ _ _ _) Gt). cbn [bind]. unfold add_fk_parts, mk_foreign_key. cbn [keys_list].
      destruct (Nat.eqb_spec (length (cell_keys f)) (length (cell_keys tk))) as [L|L]; cbn [negb bind].
      + split; [intros _; exists f, tk; repeat split; exact L|intros _; eexists; reflexivity].
      + split; [intros [t' E]; discriminate|]. intros [f' [t' [Q1 [Q2 Q3]]]]. injection Q1 as <-. injection Q2 as <-. contradiction.
    - intros row I. split; text_at T X D3 I. }
  assert (G4 : forall id dbs ms, (exists r, read_rows (read_rel_row h4) id r4 (dbs, ms) = Ok r) <-> (forall row b n, In row r4 -> about h4 ($"From Table") b n row -> status dbs b n <> Some false)).
  { intros id dbs ms. change (read_rel_row h4) with (fun (_ : nat) st row => on_table ($"Relationships") h4 ($"From Table") (fun _ => Err AttributeError) (rel_step h4 row) st row). rewrite (rows_readable ($"Relationships") h4 ($"From Table") (fun _ => Err AttributeError) (rel_step h4) (fun _ => True) M2).
    - split; [intros H row b n I A Q; specialize (proj2 (H row b n I A) Q ([], [])) as Z; discriminate|intros H row b n I A; split; [intros _; exact Logic.I|intros Q; destruct (H row b n I A Q)]].
    - intros row t I. unfold rel_step. assert (Gx : exists x, get_text h4 ($"To Table") row = Ok x) by text_at T X D4 I. assert (Gy : exists x, get_text h4 ($"Conditions") row = Ok x) by text_at T X D4 I. destruct Gx as [x Gx], Gy as [c Gy]. rewrite Gx, Gy. cbn [bind]. split; [intros _; exact Logic.I|intros _; eexists; reflexivity].
    - intros row I. split; text_at T X D4 I. }
  assert (H2 : (forall row b n, In row r2 -> about h2 ($"Table") b n row -> status b1 b n = Some true -> good2 row) <-> (forall b n k ty, table_described w b n -> holds w ($"Columns") k ($"Database") (CText b) -> holds w ($"Columns") k ($"Table") (CText n) -> holds w ($"Columns") k ($"Type") (CText ty) -> valid_type ty)).
  { split.
    - intros H b n k ty Q A1 A2 A3. cell_in T D2 A1. cell_in T D2 A2. cell_in T D2 A3. destruct A1 as [row [N Ga]], A2 as [row2 [N2 Gb]], A3 as [row3 [N3 Gc]]. rewrite (same_row _ _ _ _ N2 N) in Gb. rewrite (same_row _ _ _ _ N3 N) in Gc.
      destruct (H row b n (nth_error_In _ _ N) (conj Ga Gb) (proj2 (St b n) Q)) as [x [ty' [_ [Gy V]]]]. congruence.
    - intros H row b n I [Ga Gb] Q. apply St in Q. assert (Gx : exists x, get_text h2 ($"Name") row = Ok x) by text_at T X D2 I. assert (Gy : exists x, get_text h2 ($"Type") row = Ok x) by text_at T X D2 I. destruct Gx as [x Gx], Gy as [ty Gy]. exists x, ty. split; [exact Gx|]. split; [exact Gy|].
      apply In_nth_error in I. destruct I as [k N]. apply (H b n k ty Q); cell_goal T D2 row. }
  assert (H3 : (forall row b n, In row r3 -> about h3 ($"From Table") b n row -> status b1 b n = Some true -> good3 row) <-> (forall b n k from to l1 l2, table_described w b n -> holds w ($"Foreign Keys") k ($"Database") (CText b) -> holds w ($"Foreign Keys") k ($"From Table") (CText n) -> holds w ($"Foreign Keys") k ($"From Columns") (CText from) -> between_commas from l1 -> holds w ($"Foreign Keys") k ($"To Columns") (CText to) -> between_commas to l2 -> length l1 = length l2)).
  { split.
    - intros H b n k from to l1 l2 Q A1 A2 A3 B1 A4 B2. apply commas_keys in B1. apply commas_keys in B2. cell_in T D3 A1. cell_in T D3 A2. cell_in T D3 A3. cell_in T D3 A4. destruct A1 as [row [N Ga]], A2 as [row2 [N2 Gb]], A3 as [row3 [N3 Gc]], A4 as [row4 [N4 Gd]]. rewrite (same_row _ _ _ _ N2 N) in Gb. rewrite (same_row _ _ _ _ N3 N) in Gc. rewrite (same_row _ _ _ _ N4 N) in Gd.
      destruct (H row b n (nth_error_In _ _ N) (conj Ga Gb) (proj2 (St b n) Q)) as [f [t [Gf [Gt L]]]]. congruence.
    - intros H row b n I [Ga Gb] Q. apply St in Q. assert (Gx : exists x, get_text h3 ($"From Columns") row = Ok x) by text_at T X D3 I. assert (Gy : exists x, get_text h3 ($"To Columns") row = Ok x) by text_at T X D3 I. destruct Gx as [f Gx], Gy as [t Gy]. exists f, t. split; [exact Gx|]. split; [exact Gy|].
      apply In_nth_error in I. destruct I as [k N]. apply (H b n k f t _ _ Q); [cell_goal T D3 row|cell_goal T D3 row|cell_goal T D3 row|apply commas_keys; reflexivity|cell_goal T D3 row|apply commas_keys; reflexivity]. }
  assert (H4 : (forall row b n, In row r4 -> about h4 ($"From Table") b n row -> status b1 b n <> Some false) <-> (forall b n, row_about w ($"Relationships") b n -> database_described w b -> table_described w b n)).
  { destruct (about_rows w ($"Relationships") h4 r4 T ltac:(right; right; left; reflexivity) D4) as [_ A]. split.
    - intros H b n R Q. apply A in R. destruct R as [row [I [Ga Gb]]]. specialize (H row b n I (conj Ga Gb)). apply St. apply Sd in Q. unfold status in *. destruct (dget b b1) as [d|]; [|contradiction]. destruct (get_table d n); [reflexivity|contradiction].
    - intros H row b n I [Ga Gb] Q. apply Sf in Q. destruct Q as [Q1 Q2]. apply Q2, H; [|exact Q1]. apply A. exists row. split; [exact I|]. split; assumption. }
  split.
  - intros [dbs [ms E]]. apply read_four in E. destruct E as [h1' [r1' [[b1' m1'] [h2' [r2' [[b2 m2] [h3' [r3' [[b3 m3] [h4' [r4' [D1' [D2' [D3' [D4' [E1' [E2 [E3 E4]]]]]]]]]]]]]]]]]].
    rewrite D1 in D1'. injection D1' as <- <-. rewrite D2 in D2'. injection D2' as <- <-. rewrite D3 in D3'. injection D3' as <- <-. rewrite D4 in D4'. injection D4' as <- <-. pose proof (eq_trans (eq_sym E1) E1') as Z. injection Z as <- <-.
    destruct (rows_steady _ _ (column_steady h2) _ _ _ _ _ E2) as [K2 _]. destruct (rows_steady _ _ (fk_steady h3) _ _ _ _ _ E3) as [K3 _].
    split; [apply H2, (proj1 (G2 base b1 m1)); eauto|apply H3|apply H4].
    + intros row b n I A. rewrite <- K2. revert row b n I A. apply (proj1 (G3 base b2 m2)). eauto.
    + intros row b n I A. rewrite <- K2, <- K3. revert row b n I A. apply (proj1 (G4 base b3 m3)). eauto.
  - intros [Y2 Y3 Y4]. pose proof (proj2 H2 Y2) as Z2. pose proof (proj2 H3 Y3) as Z3. pose proof (proj2 H4 Y4) as Z4. clear Y2 Y3 Y4.
    destruct (proj2 (G2 base b1 m1) Z2) as [[b2 m2] E2]. destruct (rows_steady _ _ (column_steady h2) _ _ _ _ _ E2) as [K2 _].
    destruct (proj2 (G3 base b2 m2)) as [[b3 m3] E3]; [intros row b n I A; rewrite K2; exact (Z3 row b n I A)|]. destruct (rows_steady _ _ (fk_steady h3) _ _ _ _ _ E3) as [K3 _].
    destruct (proj2 (G4 base b3 m3)) as [[dbs ms] E4]; [intros row b n I A; rewrite K3, K2; exact (Z4 row b n I A)|]. exists dbs, ms. apply read_four. exists h1, r1, (b1, m1), h2, r2, (b2, m2), h3, r3, (b3, m3), h4, r4. repeat (split; [assumption|]). assumption.
Qed.
