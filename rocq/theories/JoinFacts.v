(** * Lemmas about the join reviews *)
From Verif Require Export SpecJoin StrFacts FieldFacts.
From Verif Require RoundTable.
From Coq Require Import Lia.

Lemma cell_eqb_eq a b : cell_eqb a b = true <-> a = b.
Proof. destruct a as [x|], b as [y|]; cbn; try (split; congruence). rewrite str_eqb_eq. split; congruence. Qed.
Lemma cells_eqb_eq a : forall b, cells_eqb a b = true <-> a = b.
Proof.
  induction a as [|x a IH]; intros [|y b]; cbn; try (split; congruence). rewrite andb_true_iff, cell_eqb_eq, IH. split; [intros [-> ->]; reflexivity|intros [= -> ->]; auto].
Qed.
Lemma filter_ext_in' {A} (f g : A -> bool) l : (forall x, In x l -> f x = g x) -> filter f l = filter g l.
Proof. induction l as [|x l IH]; intros H; cbn [filter]; [reflexivity|]. rewrite (H x) by (left; reflexivity). rewrite IH by (intros; apply H; right; assumption). reflexivity. Qed.
Lemma filter_none {A} (f : A -> bool) l : (forall x, In x l -> f x = false) -> filter f l = [].
Proof. induction l as [|x l IH]; intros H; cbn [filter]; [reflexivity|]. rewrite (H x) by (left; reflexivity). apply IH. intros; apply H; right; assumption. Qed.
Lemma filter_all {A} (f : A -> bool) l : (forall x, In x l -> f x = true) -> filter f l = l.
Proof. induction l as [|x l IH]; intros H; cbn [filter]; [reflexivity|]. rewrite (H x) by (left; reflexivity). rewrite IH; [reflexivity|]. intros; apply H; right; assumption. Qed.
Lemma filter_flat_map {A B} (P : B -> bool) (f : A -> list B) l : filter P (flat_map f l) = flat_map (fun x => filter P (f x)) l.
Proof. induction l as [|x l IH]; cbn [flat_map]; [reflexivity|]. rewrite filter_app, IH. reflexivity. Qed.

(** ** Counting *)
Section Count.
Variable gs os : list drow.
Variable rel : drow -> drow -> bool.
Variable key : drow -> list (option str).
Variable counted : str.
Let pairs := flat_map (fun x => map (pair x) (filter (rel x) os)) gs.
Let count k := length (filter (fun p : drow * drow => cells_eqb (key (fst p)) k && negb (cell_eqb (snd p counted) None)) pairs).
Hypothesis Hk : NoDup (map key gs).
Hypothesis Hc : forall y, In y os -> y counted <> None.

Lemma pairs_in x y : In (x, y) pairs <-> In x gs /\ In y os /\ rel x y = true.
Proof.
  unfold pairs. rewrite in_flat_map. split.
  - intros [z [Hz H]]. apply in_map_iff in H. destruct H as [y' [E H]]. apply pair_equal_spec in E. destruct E as [-> ->]. apply filter_In in H. tauto.
  - intros [A [B C]]. exists x. split; [exact A|]. apply in_map. apply filter_In. auto.
Qed.
Lemma count_of x : In x gs -> count (key x) = length (filter (rel x) os).
Proof.
  intros Hx. unfold count, pairs. rewrite filter_flat_map.
  rewrite (flat_map_ext _ (fun z => if cells_eqb (key z) (key x) then map (pair z) (filter (rel z) os) else [])).
  2:{ intros z. destruct (cells_eqb (key z) (key x)) eqn:E.
      - apply filter_all. intros p Hp. apply in_map_iff in Hp. destruct Hp as [y [<- Hy]]. apply filter_In in Hy. cbn [fst snd]. rewrite E. cbn [andb].
        destruct (y counted) eqn:C; [reflexivity|]. destruct (Hc y); tauto.
      - apply filter_none. intros p Hp. apply in_map_iff in Hp. destruct Hp as [y [<- Hy]]. cbn [fst]. rewrite E. reflexivity. }
  clear pairs count. induction gs as [|z l IH]; [contradiction|]. cbn [map] in Hk. inversion Hk as [|? ? N1 N2]; subst. cbn [flat_map]. rewrite app_length. destruct Hx as [->|Hx].
  - assert (E : cells_eqb (key x) (key x) = true) by (apply cells_eqb_eq; reflexivity). rewrite E, map_length.
    assert (Z : flat_map (fun z => if cells_eqb (key z) (key x) then map (pair z) (filter (rel z) os) else []) l = []).
    { clear - N1. induction l as [|u l IH]; [reflexivity|]. cbn [flat_map]. destruct (cells_eqb (key u) (key x)) eqn:E.
      - apply cells_eqb_eq in E. exfalso. apply N1. rewrite <- E. left. reflexivity.
      - apply IH. intros H. apply N1. right. exact H. }
    rewrite Z. cbn [length]. lia.
  - destruct (cells_eqb (key z) (key x)) eqn:E.
    + apply cells_eqb_eq in E. exfalso. apply N1. rewrite E. apply in_map, Hx.
    + cbn [length]. apply IH; assumption.
Qed.
End Count.

(** ** One question *)
Section Ask.
Variable ask : oracle.
Variable data : contents.
Variable sat : condition.
Variable d : database.

Section Query.
Variable g o : table.
Variable c c0 : str.
Variable cols cols0 : list str.
Variable cond : str.
Let q := {| cq_db := db_name d; cq_schema := t_schema g; cq_table := t_name g; cq_cols := c :: cols;
            cq_odb := db_name d; cq_oschema := t_schema o; cq_other := t_name o; cq_counted := c0; cq_where := cond |}.
Hypothesis Hg : NoDup (map (values (c :: cols)) (rows_of data d g)).
Hypothesis Ho : forall y, In y (rows_of data d o) -> y c0 <> None.
Hypothesis Ht : answered data sat ask q.

Lemma cardinality_asked h : exists n, query_for_cardinality ask (count_text q) h = (Ok n, h ++ [count_text q])
  /\ ((n <= 0)%Z <-> ~ some_match sat cond (t_name g) (rows_of data d g) (t_name o) (rows_of data d o))
  /\ ((1 < n)%Z <-> several sat cond (t_name g) (rows_of data d g) (t_name o) (rows_of data d o)).
Proof.
  unfold query_for_cardinality. destruct (Ht h) as [T1 T2].
  set (rel := fun x y => sat cond (t_name g, x) (t_name o, y)).
  assert (P : forall x y, In (x, y) (related_rows data sat q) <-> In x (rows_of data d g) /\ In y (rows_of data d o) /\ rel x y = true) by (intros x y; apply pairs_in).
  assert (C : forall x, In x (rows_of data d g) -> count_for data sat q (values (cq_cols q) x) = length (filter (rel x) (rows_of data d o))).
  { intros x Hx. exact (count_of (rows_of data d g) (rows_of data d o) rel (values (c :: cols)) c0 Hg Ho x Hx). }
  destruct (related_rows data sat q) as [|p0 ps] eqn:E.
  - rewrite (T1 eq_refl). exists (-1)%Z. split; [reflexivity|]. split.
    + split; [|lia]. intros _ [x [y [A [B D]]]]. apply (proj2 (P x y)). auto.
    + split; [lia|]. intros [x [A B]]. destruct (filter (fun y => sat cond (t_name g, x) (t_name o, y)) (rows_of data d o)) as [|y l] eqn:F; [cbn in B; lia|].
      assert (I : In y (filter (fun y => sat cond (t_name g, x) (t_name o, y)) (rows_of data d o))) by (rewrite F; left; reflexivity). apply filter_In in I. exfalso. apply (proj2 (P x y)). auto.
  - destruct T2 as [r [rest [n [A [B [[p [I1 I2]] M]]]]]]; [discriminate|]. rewrite A. unfold int_column. rewrite B. cbn [bind]. rewrite RoundTable.py_int_z. exists (Z.of_nat n). split; [reflexivity|].
    destruct p as [x y]. apply P in I1. destruct I1 as [J1 [J2 J3]]. cbn [fst] in I2. rewrite C in I2 by exact J1.
    assert (G : 1 <= n). { rewrite <- I2. assert (K : In y (filter (rel x) (rows_of data d o))) by (apply filter_In; auto). destruct (filter (rel x) (rows_of data d o)); [contradiction|cbn; lia]. }
    split; [split; [lia|]|].
    + intros N. exfalso. apply N. exists x, y. auto.
    + split.
      * intros L. exists x. split; [exact J1|]. change (2 <= length (filter (rel x) (rows_of data d o))). lia.
      * intros [x' [A' B']]. change (2 <= length (filter (rel x') (rows_of data d o))) in B'. destruct (filter (rel x') (rows_of data d o)) as [|y' l] eqn:F; [cbn in B'; lia|].
        assert (I : In (x', y') (p0 :: ps)). { apply P. assert (K : In y' (filter (rel x') (rows_of data d o))) by (rewrite F; left; reflexivity). apply filter_In in K. tauto. }
        specialize (M _ I). cbn [fst] in M. rewrite C, F in M by exact A'. lia.
Qed.
End Query.

Lemma standing_columns t cols : standing_for t cols <-> cols = probe_columns t.
Proof.
  unfold standing_for, probe_columns, get_column_names. destruct (t_pk t) as [|k l]; split.
  - intros [_ H]. apply H. reflexivity.
  - intros ->. split; [contradiction|intros _; reflexivity].
  - intros [H _]. apply H. discriminate.
  - intros ->. split; [intros _; reflexivity|discriminate].
Qed.
(** the queries the review asks *)
Lemma query_text g o condition c cols : probe_columns o = c :: cols ->
  cardinality_query (db_name d) (t_schema g) (t_name g) (probe_columns g) (db_name d) (t_schema o) (t_name o) (probe_columns o) condition
  = Ok (count_text {| cq_db := db_name d; cq_schema := t_schema g; cq_table := t_name g; cq_cols := probe_columns g;
                      cq_odb := db_name d; cq_oschema := t_schema o; cq_other := t_name o; cq_counted := c; cq_where := condition |}).
Proof.
  intros E. unfold cardinality_query, count_text. rewrite E. cbn [cq_db cq_schema cq_table cq_cols cq_odb cq_oschema cq_other cq_counted cq_where]. f_equal.
  assert (M : map (fun c : str => (quoted (db_name d) ++ $"." ++ quoted (t_schema g)) ++ $"." ++ quoted (t_name g) ++ $"." ++ quoted c) (probe_columns g)
              = map (fun c : str => (quoted (db_name d) ++ $"." ++ quoted (t_schema g) ++ $"." ++ quoted (t_name g)) ++ $"." ++ quoted c) (probe_columns g))
    by (apply map_ext; intros a; rewrite <- !app_assoc; reflexivity).
  rewrite M. repeat rewrite <- app_assoc. reflexivity.
Qed.

Lemma filter_swap cond a b x ys : symmetric sat -> a <> b -> filter (fun y => sat cond (a, x) (b, y)) ys = filter (fun y => sat cond (b, y) (a, x)) ys.
Proof. intros S N. apply filter_ext_in'. intros y _. apply S. exact N. Qed.

(** one join *)
Definition parts_of (j : join_between) : query_parts := make_parts d (jb_name j) (jb_from j) (jb_to j) (jb_where j).
Definition fine (j : join_between) : Prop :=
  t_name (jb_from j) <> t_name (jb_to j) /\ keyed data d (jb_from j) /\ keyed data d (jb_to j)
  /\ (forall q, query_of_join d (jb_from j) (jb_to j) (jb_where j) q \/ query_of_join d (jb_to j) (jb_from j) (jb_where j) q -> answered data sat ask q).
Lemma test_one j l h : symmetric sat -> fine j -> exists said h', join_judged data sat d j said
  /\ test_joins ask (parts_of j :: l) h = match test_joins ask l h' with (Ok rest, h2) => (Ok (said ++ rest), h2) | (Err e, h2) => (Err e, h2) end.
Proof.
  intros S [N [[c1 [k1 [A1 [A2 A3]]]] [[c2 [k2 [B1 [B2 B3]]]] T]]]. apply standing_columns in A1. apply standing_columns in B1. symmetry in A1, B1.
  pose (q1 := {| cq_db := db_name d; cq_schema := t_schema (jb_from j); cq_table := t_name (jb_from j); cq_cols := c1 :: k1;
                 cq_odb := db_name d; cq_oschema := t_schema (jb_to j); cq_other := t_name (jb_to j); cq_counted := c2; cq_where := jb_where j |}).
  pose (q2 := {| cq_db := db_name d; cq_schema := t_schema (jb_to j); cq_table := t_name (jb_to j); cq_cols := c2 :: k2;
                 cq_odb := db_name d; cq_oschema := t_schema (jb_from j); cq_other := t_name (jb_from j); cq_counted := c1; cq_where := jb_where j |}).
  assert (T1 : answered data sat ask q1). { apply T. left. exists c2, k2. rewrite !standing_columns, A1, B1. auto. }
  assert (T2 : answered data sat ask q2). { apply T. right. exists c1, k1. rewrite !standing_columns, A1, B1. auto. }
  destruct (cardinality_asked (jb_from j) (jb_to j) c1 c2 k1 (jb_where j) A2 B3 T1 h) as [n1 [E1 [L1 M1]]].
  destruct (cardinality_asked (jb_to j) (jb_from j) c2 c1 k2 (jb_where j) B2 A3 T2 (h ++ [count_text q1])) as [n2 [E2 [L2 M2]]].
  fold q1 in E1. fold q2 in E2.
  assert (Q1 : get_to_table_cardinality_query (parts_of j) = Ok (count_text q1)).
  { unfold get_to_table_cardinality_query, parts_of, make_parts. cbn [q_from_db q_from_schema q_from_table q_from_cols q_to_db q_to_schema q_to_table q_to_cols q_condition]. rewrite (query_text _ _ _ c2 k2 B1), A1. reflexivity. }
  assert (Q2 : get_from_table_cardinality_query (parts_of j) = Ok (count_text q2)).
  { unfold get_from_table_cardinality_query, parts_of, make_parts. cbn [q_from_db q_from_schema q_from_table q_from_cols q_to_db q_to_schema q_to_table q_to_cols q_condition]. rewrite (query_text _ _ _ c1 k1 A1), B1. reflexivity. }
  exists (join_verdict (jb_name j) n1 n2), ((h ++ [count_text q1]) ++ [count_text q2]). split.
  - assert (W : some_match sat (jb_where j) (t_name (jb_to j)) (rows_of data d (jb_to j)) (t_name (jb_from j)) (rows_of data d (jb_from j))
                <-> some_match sat (jb_where j) (t_name (jb_from j)) (rows_of data d (jb_from j)) (t_name (jb_to j)) (rows_of data d (jb_to j))).
    { unfold some_match. split; intros [x [y [X [Y Z]]]]; exists y, x; (split; [exact Y|split; [exact X|]]); rewrite <- Z; apply S; cbn [fst]; congruence. }
    rewrite W in L2. unfold join_judged, join_verdict.
    destruct (Z.leb_spec n2 0) as [C|C]; cbn [orb]; [left; split; [apply L2, C|reflexivity]|].
    destruct (Z.leb_spec n1 0) as [D|D]; cbn [orb]; [left; split; [apply L1, D|reflexivity]|]. right.
    assert (Y : some_match sat (jb_where j) (t_name (jb_from j)) (rows_of data d (jb_from j)) (t_name (jb_to j)) (rows_of data d (jb_to j))).
    { destruct (related_rows data sat q1) as [|[x y] ps] eqn:E.
      - exfalso. destruct (T1 h) as [U _]. specialize (U E). unfold query_for_cardinality in E1. rewrite U in E1. apply pair_equal_spec in E1. destruct E1 as [E1 _]. assert (n1 = (-1)%Z) by congruence. lia.
      - exists x, y. assert (I : In (x, y) (related_rows data sat q1)) by (rewrite E; left; reflexivity). apply pairs_in in I. exact I. }
    destruct (Z.ltb_spec 1 n1) as [F|F].
    + destruct (Z.eqb_spec n2 1) as [G|G].
      * left. split; [exact Y|]. split; [apply M1, F|]. split; [|reflexivity]. intros K. apply M2 in K. lia.
      * right. left. split; [exact Y|]. split; [apply M1, F|]. split; [|reflexivity]. apply M2. lia.
    + right. right. split; [exact Y|]. split; [|reflexivity]. intros K. apply M1 in K. lia.
  - cbn [test_joins]. unfold abind, ret. rewrite Q1, E1, Q2, E2. cbn [parts_of make_parts q_name].
    destruct (test_joins ask l ((h ++ [count_text q1]) ++ [count_text q2])) as [[rest|e] h2]; reflexivity.
Qed.
Lemma test_all js : symmetric sat -> Forall fine js -> forall h, exists ls h', Forall2 (join_judged data sat d) js ls
  /\ test_joins ask (map parts_of js) h = (Ok (concat ls), h').
Proof.
  intros S. induction 1 as [|j js Hj _ IH]; intros h; [exists [], h; split; [constructor|reflexivity]|].
  cbn [map]. destruct (test_one j (map parts_of js) h S Hj) as [said [h1 [J E]]]. destruct (IH h1) as [ls [h2 [F G]]].
  exists (said :: ls), h2. split; [constructor; assumption|]. rewrite E, G. reflexivity.
Qed.

(** ** The joins of a table *)
Definition sep (l : list str) : str := match l with [] => [] | _ => $" AND " end.
Lemma join_sep x xs : join ($" AND ") (x :: xs) = x ++ sep xs ++ join ($" AND ") xs.
Proof. destruct xs as [|y xs]; [cbn [join sep app]; rewrite app_nil_r; reflexivity|rewrite join_cons by discriminate; reflexivity]. Qed.
Lemma fk_condition_text a b : forall ks ls first, length ks = length ls ->
  fk_condition first a b ks ls = Ok ((if first then [] else sep ks) ++ join ($" AND ") (map (fun p => pair_text a b p ++ $")") (combine ks ls))).
Proof.
  induction ks as [|k ks IH]; intros [|l ls] first L; cbn [length] in L; try discriminate; cbn [fk_condition combine map].
  - destruct first; reflexivity.
  - rewrite IH by congruence. cbn [bind]. rewrite join_sep.
    assert (T : sep (map (fun p => pair_text a b p ++ $")") (combine ks ls)) = sep ks) by (destruct ks, ls; cbn [length] in L; try discriminate; reflexivity).
    rewrite T. generalize (join ($" AND ") (map (fun p => pair_text a b p ++ $")") (combine ks ls))). intros rest. unfold pair_text. cbn [fst snd]. repeat rewrite <- app_assoc. destruct first; reflexivity.
Qed.
Lemma all_parts_ok {A} (f : A -> result query_parts) (g : A -> list join_between) l :
  (forall x, In x l -> exists j, g x = [j] /\ f x = Ok (parts_of j)) -> all_parts f l = Ok (map (parts_of) (flat_map g l)).
Proof.
  induction l as [|x l IH]; intros H; [reflexivity|]. cbn [all_parts flat_map]. destruct (H x (or_introl eq_refl)) as [j [E F]]. rewrite F, E. cbn [bind]. rewrite IH by (intros; apply H; right; assumption). reflexivity.
Qed.
Definition table_joins_of (t : table) : list join_between :=
  flat_map (fun fk => match get_table d (fk_to_table fk) with
                      | Some u => [{| jb_name := fk_name fk; jb_from := t; jb_to := u; jb_where := fk_text (t_name t) (t_name u) fk |}]
                      | None => []
                      end) (foreign_keys_iter t)
  ++ flat_map (fun r => match get_table d (rel_to_table r) with
                      | Some u => [{| jb_name := rel_name r; jb_from := t; jb_to := u; jb_where := rel_conditions r |}]
                      | None => []
                      end) (relationships_iter t).
Lemma fk_parts t fk u : get_table d (fk_to_table fk) = Some u -> length (fk_from_keys fk) = length (fk_to_keys fk) ->
  get_fk_join_parts d t fk = Ok (make_parts d (fk_name fk) t u (fk_text (t_name t) (t_name u) fk)).
Proof. intros E L. unfold get_fk_join_parts. rewrite E, fk_condition_text by exact L. reflexivity. Qed.
Lemma joins_ok t : (forall n, (exists fk, In fk (foreign_keys_iter t) /\ fk_to_table fk = n) \/ (exists r, In r (relationships_iter t) /\ rel_to_table r = n) -> get_table d n <> None) ->
  (forall fk, In fk (foreign_keys_iter t) -> length (fk_from_keys fk) = length (fk_to_keys fk)) ->
  joins_to_test d t = Ok (map (parts_of) (table_joins_of t)).
Proof.
  intros T L. unfold joins_to_test, table_joins_of. rewrite map_app.
  rewrite (all_parts_ok (get_fk_join_parts d t) (fun fk => match get_table d (fk_to_table fk) with Some u => [{| jb_name := fk_name fk; jb_from := t; jb_to := u; jb_where := fk_text (t_name t) (t_name u) fk |}] | None => [] end)).
  - cbn [bind]. rewrite (all_parts_ok (get_rel_join_parts d t) (fun r => match get_table d (rel_to_table r) with Some u => [{| jb_name := rel_name r; jb_from := t; jb_to := u; jb_where := rel_conditions r |}] | None => [] end)); [reflexivity|].
    intros r Hr. unfold get_rel_join_parts. destruct (get_table d (rel_to_table r)) as [u|] eqn:E; [eexists; split; reflexivity|]. exfalso. apply (T (rel_to_table r)); [right; eauto|exact E].
  - intros fk Hf. destruct (get_table d (fk_to_table fk)) as [u|] eqn:E; [|exfalso; apply (T (fk_to_table fk)); [left; eauto|exact E]].
    eexists. split; [reflexivity|]. rewrite (fk_parts t fk u E (L fk Hf)). reflexivity.
Qed.
Lemma all_tables ts : symmetric sat -> (forall t, In t ts -> joins_to_test d t = Ok (map (parts_of) (table_joins_of t))) -> Forall fine (flat_map table_joins_of ts) ->
  forall h, exists ls, Forall2 (join_judged data sat d) (flat_map table_joins_of ts) ls /\ fst (table_joins ask d ts h) = Ok (concat ls).
Proof.
  intros S. induction ts as [|t ts IH]; intros H F h; [exists []; split; [constructor|reflexivity]|]. cbn [flat_map] in *. apply Forall_app in F. destruct F as [F1 F2].
  destruct (test_all (table_joins_of t) S F1 h) as [ls [h1 [J E]]]. destruct (IH (fun u Hu => H u (or_intror Hu)) F2 h1) as [ls' [J' E']].
  exists (ls ++ ls'). split; [apply Forall2_app; assumption|]. cbn [table_joins]. unfold abind, ret. rewrite (H t (or_introl eq_refl)), E.
  destruct (table_joins ask d ts h1) as [r h2]. cbn [fst] in E'. rewrite E'. cbn [fst]. rewrite concat_app. reflexivity.
Qed.
End Ask.

(** ** Parentheses *)
Lemma open_name w n s : no_quote w -> open_parens false n (quoted w ++ s) = open_parens false n s.
Proof.
  intros H. unfold quoted. unfold dq. cbn [app open_parens]. change (Ascii.eqb """" """") with true. cbn [negb].
  rewrite <- app_assoc. induction w as [|c w IH].
  - cbn [app open_parens]. change (Ascii.eqb """" """") with true. reflexivity.
  - cbn [app open_parens]. destruct (Ascii.eqb_spec c """") as [E|E]; [exfalso; apply H; left; exact E|]. apply IH. intros I. apply H. right. exact I.
Qed.
Lemma open_repeat k : forall n s, open_parens false n (repeat "("%char k ++ s) = open_parens false (n + k) s.
Proof. induction k as [|k IH]; intros n s; cbn [repeat app]; [rewrite Nat.add_0_r; reflexivity|]. cbn [open_parens]. change (Ascii.eqb "(" """") with false. change (Ascii.eqb "(" "(") with true. cbn iota. rewrite IH. f_equal. lia. Qed.
Lemma open_pair a b p n s : no_quote a -> no_quote b -> no_quote (fst p) -> no_quote (snd p) ->
  open_parens false (S n) ((pair_text a b p ++ $")") ++ s) = open_parens false n s.
Proof.
  intros A B C D. unfold pair_text. repeat rewrite <- app_assoc. rewrite open_name by exact A.
  assert (dot : forall m x, open_parens false m ($"." ++ x) = open_parens false m x) by reflexivity.
  assert (eqs : forall m x, open_parens false m ($" = " ++ x) = open_parens false m x) by reflexivity.
  rewrite dot, open_name by exact C. rewrite eqs, open_name by exact B. rewrite dot, open_name by exact D. reflexivity.
Qed.
Lemma open_pairs a b l : no_quote a -> no_quote b -> (forall p, In p l -> no_quote (fst p) /\ no_quote (snd p)) ->
  open_parens false (length l) (join ($" AND ") (map (fun p => pair_text a b p ++ $")") l)) = Some 0.
Proof.
  intros A B. induction l as [|p l IH]; intros H; [reflexivity|]. cbn [map length]. rewrite join_sep. destruct (H p (or_introl eq_refl)) as [C D]. rewrite open_pair by assumption.
  assert (G : forall x y : str, open_parens false (length l) x = Some 0 -> y = sep (map (fun p => pair_text a b p ++ $")") l) -> open_parens false (length l) (y ++ x) = Some 0).
  { intros x y E ->. destruct l as [|q l']; [exact E|]. cbn [map sep]. exact E. }
  apply G; [apply IH; intros; apply H; right; assumption|reflexivity].
Qed.
Lemma fk_balanced a b fk : length (fk_from_keys fk) = length (fk_to_keys fk) -> no_quote a -> no_quote b ->
  Forall no_quote (fk_from_keys fk) -> Forall no_quote (fk_to_keys fk) -> balanced (fk_text a b fk).
Proof.
  intros L A B C D. unfold balanced, fk_text. rewrite open_repeat. cbn [Nat.add].
  assert (E : length (fk_from_keys fk) = length (combine (fk_from_keys fk) (fk_to_keys fk))) by (rewrite combine_length; lia). rewrite E.
  apply open_pairs; [assumption..|]. rewrite Forall_forall in C, D. intros [x y] I. split; [apply C; apply in_combine_l in I|apply D; apply in_combine_r in I]; exact I.
Qed.

(** ** Truthful answers exist *)
Definition top_count (data : contents) (sat : condition) (q : count_query) : nat :=
  fold_right (fun p n => Nat.max (count_for data sat q (values (cq_cols q) (fst p))) n) 0 (related_rows data sat q).
Definition honest (data : contents) (sat : condition) (qs : list count_query) : oracle := fun _ text =>
  match List.find (fun q => str_eqb (count_text q) text) qs with
  | Some q => match related_rows data sat q with [] => Ok [] | _ => Ok [fun _ => Ok (z_to_str (Z.of_nat (top_count data sat q)))] end
  | None => Ok []
  end.
Lemma honest_answers data sat qs q : NoDup (map count_text qs) -> In q qs -> answered data sat (honest data sat qs) q.
Proof.
  intros N I h. unfold honest.
  assert (F : List.find (fun q' => str_eqb (count_text q') (count_text q)) qs = Some q).
  { induction qs as [|q' qs IH]; [contradiction|]. cbn [map] in N. inversion N as [|? ? N1 N2]; subst. cbn [List.find]. destruct I as [->|I]; [rewrite (proj2 (str_eqb_eq _ _) eq_refl); reflexivity|].
    destruct (str_eqb (count_text q') (count_text q)) eqn:E; [apply str_eqb_eq in E; exfalso; apply N1; rewrite E; apply in_map, I|]. apply IH; assumption. }
  rewrite F. split; [intros ->; reflexivity|]. intros Hn. destruct (related_rows data sat q) as [|p ps] eqn:E; [contradiction|]. eexists _, [], (top_count data sat q). split; [reflexivity|]. split; [reflexivity|].
  unfold top_count. rewrite E. clear. split.
  - assert (G : forall l : list (drow * drow), l <> [] -> exists p0, In p0 l /\ count_for data sat q (values (cq_cols q) (fst p0)) = fold_right (fun p0 n => Nat.max (count_for data sat q (values (cq_cols q) (fst p0))) n) 0 l).
    { induction l as [|x l IH]; [contradiction|]. intros _. cbn [fold_right]. destruct l as [|y l]; [exists x; split; [left; reflexivity|cbn; lia]|].
      destruct IH as [z [Z1 Z2]]; [discriminate|]. destruct (Nat.max_spec (count_for data sat q (values (cq_cols q) (fst x))) (fold_right (fun p0 n => Nat.max (count_for data sat q (values (cq_cols q) (fst p0))) n) 0 (y :: l))) as [[_ M]|[_ M]]; rewrite M; [exists z; split; [right; exact Z1|exact Z2]|exists x; split; [left; reflexivity|reflexivity]]. }
    apply G. discriminate.
  - assert (G : forall (l : list (drow * drow)) p0, In p0 l -> count_for data sat q (values (cq_cols q) (fst p0)) <= fold_right (fun p0 n => Nat.max (count_for data sat q (values (cq_cols q) (fst p0))) n) 0 l).
    { induction l as [|x l IH]; [contradiction|]. intros z [->|Z]; cbn [fold_right]; [lia|]. specialize (IH z Z). lia. }
    apply G.
Qed.

(** ** Any server *)
Lemma count_cases a : exists n, match a with Ok (r :: _) => match int_column r ($"c1") with Ok z => z | Err _ => (-1)%Z end | _ => (-1)%Z end = n
  /\ (((n <= 0)%Z /\ forall m, ~ usable_count a m) \/ usable_count a n).
Proof.
  eexists. split; [reflexivity|]. destruct a as [[|r rest]|e].
  - left. split; [lia|]. intros m [[r [rest [s [E _]]]] _]. discriminate.
  - unfold int_column. destruct (r ($"c1")) as [s|e] eqn:R; cbn [bind].
    + destruct (py_int s) as [z|e] eqn:P.
      * destruct (Z.leb_spec z 0) as [L|L].
        -- left. split; [exact L|]. intros m [[r' [rest' [s' [E [E1 E2]]]]] G]. injection E as <- <-. rewrite R in E1. injection E1 as <-. rewrite P in E2. injection E2 as <-. lia.
        -- right. split; [exists r, rest, s; auto|exact L].
      * left. split; [lia|]. intros m [[r' [rest' [s' [E [E1 E2]]]]] G]. injection E as <- <-. rewrite R in E1. injection E1 as <-. rewrite P in E2. discriminate.
    + left. split; [lia|]. intros m [[r' [rest' [s' [E [E1 E2]]]]] G]. injection E as <- <-. rewrite R in E1. discriminate.
  - left. split; [lia|]. intros m [[r [rest [s [E _]]]] _]. discriminate.
Qed.
Lemma verdict_said name a b : exists n m, match a with Ok (r :: _) => match int_column r ($"c1") with Ok z => z | Err _ => (-1)%Z end | _ => (-1)%Z end = n
  /\ match b with Ok (r :: _) => match int_column r ($"c1") with Ok z => z | Err _ => (-1)%Z end | _ => (-1)%Z end = m
  /\ join_said name a b (join_verdict name n m).
Proof.
  destruct (count_cases a) as [n [En Hn]]. destruct (count_cases b) as [m [Em Hm]]. exists n, m. split; [exact En|]. split; [exact Em|]. unfold join_verdict.
  destruct Hm as [[Lm Hm]|Hm]; [left; destruct (Z.leb_spec m 0) as [_|K]; [|lia]; split; [right; exact Hm|reflexivity]|].
  destruct Hn as [[Ln Hn]|Hn]; [left; destruct (Z.leb_spec n 0) as [_|K]; [|lia]; rewrite orb_true_r; split; [left; exact Hn|reflexivity]|].
  right. exists n, m. split; [exact Hn|]. split; [exact Hm|]. destruct Hn as [_ Gn], Hm as [_ Gm].
  destruct (Z.leb_spec m 0) as [K|_]; [lia|]. destruct (Z.leb_spec n 0) as [K|_]; [lia|]. cbn [orb].
  destruct (Z.ltb_spec 1 n) as [K|K]; [|left; split; [lia|reflexivity]]. right. destruct (Z.eqb_spec m 1) as [->|N]; [left; repeat split; lia|right; repeat split; lia].
Qed.
Definition has_columns (t : table) : Prop := t_pk t <> [] \/ get_column_names t <> [].
Lemma has_probe t : has_columns t -> exists c cols, probe_columns t = c :: cols.
Proof. unfold has_columns, probe_columns, get_column_names. destruct (t_pk t) as [|k l]; [|intros _; exists k, l; reflexivity]. intros [H|H]; [destruct H; reflexivity|]. destruct (dkeys (t_cols t)) as [|c l]; [destruct H; reflexivity|exists c, l; reflexivity]. Qed.
Lemma asked_app ask d h js1 ls1 h1 js2 ls2 h2 : joins_asked ask d h js1 ls1 h1 -> joins_asked ask d h1 js2 ls2 h2 -> joins_asked ask d h (js1 ++ js2) (ls1 ++ ls2) h2.
Proof. induction 1 as [h|h j js q1 q2 said ls h' Q1 Q2 S A IH]; intros B; [exact B|]. cbn [app]. apply (asked_join ask d h j _ q1 q2); [assumption|assumption|assumption|apply IH, B]. Qed.
Lemma test_asked ask d js : Forall (fun j => has_columns (jb_from j) /\ has_columns (jb_to j)) js -> forall h, exists ls h',
  joins_asked ask d h js ls h' /\ test_joins ask (map (parts_of d) js) h = (Ok (concat ls), h').
Proof.
  induction 1 as [|j js [A B] _ IH]; intros h; [exists [], h; split; [constructor|reflexivity]|].
  destruct (has_probe _ A) as [c1 [k1 A1]], (has_probe _ B) as [c2 [k2 B1]].
  pose (q1 := {| cq_db := db_name d; cq_schema := t_schema (jb_from j); cq_table := t_name (jb_from j); cq_cols := probe_columns (jb_from j);
                 cq_odb := db_name d; cq_oschema := t_schema (jb_to j); cq_other := t_name (jb_to j); cq_counted := c2; cq_where := jb_where j |}).
  pose (q2 := {| cq_db := db_name d; cq_schema := t_schema (jb_to j); cq_table := t_name (jb_to j); cq_cols := probe_columns (jb_to j);
                 cq_odb := db_name d; cq_oschema := t_schema (jb_from j); cq_other := t_name (jb_from j); cq_counted := c1; cq_where := jb_where j |}).
  assert (Q1 : get_to_table_cardinality_query (parts_of d j) = Ok (count_text q1)) by exact (query_text d _ _ _ c2 k2 B1).
  assert (Q2 : get_from_table_cardinality_query (parts_of d j) = Ok (count_text q2)) by exact (query_text d _ _ _ c1 k1 A1).
  destruct (IH (h ++ [count_text q1; count_text q2])) as [ls [h' [I E]]].
  destruct (verdict_said (jb_name j) (ask h (count_text q1)) (ask (h ++ [count_text q1]) (count_text q2))) as [n [m [N [M S]]]].
  exists (join_verdict (jb_name j) n m :: ls), h'. split.
  - apply (asked_join ask d h j js q1 q2); [| |exact S|exact I].
    + exists c2, k2. rewrite !standing_columns. split; [reflexivity|]. split; [symmetry; exact B1|reflexivity].
    + exists c1, k1. rewrite !standing_columns. split; [reflexivity|]. split; [symmetry; exact A1|reflexivity].
  - cbn [map test_joins]. unfold abind, ret, query_for_cardinality. rewrite Q1, Q2, N, M, <- app_assoc. cbn [app]. rewrite E. reflexivity.
Qed.
Lemma tables_asked ask d ts : (forall t, In t ts -> joins_to_test d t = Ok (map (parts_of d) (table_joins_of d t))) ->
  Forall (fun j => has_columns (jb_from j) /\ has_columns (jb_to j)) (flat_map (table_joins_of d) ts) ->
  forall h, exists ls h', joins_asked ask d h (flat_map (table_joins_of d) ts) ls h' /\ table_joins ask d ts h = (Ok (concat ls), h').
Proof.
  induction ts as [|t ts IH]; intros H F h; [exists [], h; split; [constructor|reflexivity]|]. cbn [flat_map] in *. apply Forall_app in F. destruct F as [F1 F2].
  destruct (test_asked ask d _ F1 h) as [ls [h1 [J E]]]. destruct (IH (fun u Hu => H u (or_intror Hu)) F2 h1) as [ls' [h2 [J' E']]].
  exists (ls ++ ls'), h2. split; [exact (asked_app _ _ _ _ _ _ _ _ _ J J')|]. cbn [table_joins]. unfold abind, ret. rewrite (H t (or_introl eq_refl)), E, E', concat_app. reflexivity.
Qed.
