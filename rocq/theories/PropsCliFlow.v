(** * Properties of the workflow with convert_ddl (C91, C92) *)
From Verif Require Import StrFacts ParsedFacts RoundDemo ExcelRound ExcelReuse SpecRound SpecCliDiff SpecCliFlow CliFacts PropsValidate PropsExcel PropsRound PropsCli PropsCliDiff.

Lemma texts_same o b d d' : db_name d' = db_name d -> get_schema_names d' = get_schema_names d -> Forall2 same_but_rels (db_iter d) (db_iter d') ->
  map t_rels (db_iter d') = map t_rels (db_iter d) -> tql_texts o b d' = tql_texts o b d.
Proof.
  intros N S F R. unfold tql_texts. rewrite N, S.
  assert (K : forall l l', Forall2 same_but_rels l l' -> map t_rels l' = map t_rels l ->
    flat_map (table_texts o) l' = flat_map (table_texts o) l /\ flat_map (fk_texts o) l' = flat_map (fk_texts o) l /\ flat_map (rel_texts o) l' = flat_map (rel_texts o) l).
  { induction 1 as [|t t' l l' [E1 E2 E3 E4 E5 E6] _ IH]; intros Q; [split; [reflexivity|split; reflexivity]|]. cbn [map] in Q. injection Q as E7 Q.
    destruct (IH Q) as [I1 [I2 I3]]. cbn [flat_map]. rewrite I1, I2, I3. destruct t as [n sch pk sh cs fs rs], t' as [n' sch' pk' sh' cs' fs' rs'].
    cbn [t_name t_schema t_cols t_pk t_fks t_rels] in *. subst. split; [|split; reflexivity]. f_equal. unfold table_texts.
    unfold shard_of in E5. cbn [t_shard option_map] in E5. destruct sh as [[i ks m]|], sh' as [[i' ks' m']|]; try discriminate; [|reflexivity]. injection E5 as -> ->. reflexivity. }
  destruct (K _ _ F R) as [-> [-> ->]]. reflexivity.
Qed.
Lemma single {A} (l : list A) x : NoDup l -> In x l -> (forall y, In y l -> y = x) -> l = [x].
Proof.
  intros N I E. destruct l as [|a [|b l]]; [destruct I|rewrite (E a (or_introl eq_refl)); reflexivity|].
  inversion N as [|? ? N1 _]; subst. destruct N1. rewrite (E a (or_introl eq_refl)), <- (E b (or_intror (or_introl eq_refl))). left. reflexivity.
Qed.

Lemma refile_in l : forall x r, In r (relationships_iter (refile l x)) -> (exists r0, In r0 l /\ r = renamed r0) \/ In r (relationships_iter x).
Proof.
  induction l as [|a l IH]; intros x r I; [right; exact I|]. destruct (IH (add_rel_obj x (renamed a)) r I) as [[r0 [J ->]]|J]; [left; exists r0; split; [right; exact J|reflexivity]|].
  unfold relationships_iter, add_rel_obj in J. cbn [with_rels t_rels] in J. destruct (in_dset _ _ _ _ J) as [->|K]; [left; exists a; split; [left; reflexivity|reflexivity]|right; exact K].
Qed.
(** what can be written can be written with the relationships under their usual names *)
Lemma script_refiled o b d d' script base : db_name d' = db_name d -> get_schema_names d' = get_schema_names d -> Forall2 same_but_rels (db_iter d) (db_iter d') ->
  db_iter d' = map (fun p => full (fst p) (snd p)) (number base (db_iter d)) -> tql_script o b d = Ok script -> exists script', tql_script o b d' = Ok script'.
Proof.
  intros N S F I E. apply concat_results_total. intros x J. destruct (concat_ok _ _ E) as [l [L _]].
  assert (K : forall y, In y (tql_texts o b d) -> exists s, y = Ok s) by (intros y Y; rewrite L in Y; apply in_map_iff in Y; destruct Y as [s [<- _]]; exists s; reflexivity). clear E L.
  unfold tql_texts in J, K. rewrite N, S in J.
  assert (T : flat_map (table_texts o) (db_iter d') = flat_map (table_texts o) (db_iter d) /\ flat_map (fk_texts o) (db_iter d') = flat_map (fk_texts o) (db_iter d)).
  { clear - F. induction F as [|t t' l l' [E1 E2 E3 E4 E5 E6] _ [I1 I2]]; [split; reflexivity|]. cbn [flat_map]. rewrite I1, I2. destruct t as [n sch pk sh cs fs rs], t' as [n' sch' pk' sh' cs' fs' rs'].
    cbn [t_name t_schema t_cols t_pk t_fks] in *. subst. split; [|reflexivity]. f_equal. unfold table_texts.
    unfold shard_of in E5. cbn [t_shard option_map] in E5. destruct sh as [[i ks m]|], sh' as [[i' ks' m']|]; try discriminate; [|reflexivity]. injection E5 as -> ->. reflexivity. }
  destruct T as [T1 T2]. rewrite T1, T2 in J. rewrite !app_assoc in J, K. apply in_app_or in J. destruct J as [J|J]; [apply K, in_or_app; left; exact J|].
  apply in_flat_map in J. destruct J as [t' [J1 J2]]. rewrite I in J1. apply in_map_iff in J1. destruct J1 as [[id t] [<- J1]]. cbn [fst snd] in J2.
  assert (M : In t (db_iter d)) by (rewrite <- (number_snd (db_iter d) base); exact (in_map snd _ _ J1)).
  unfold rel_texts in J2. apply in_map_iff in J2. destruct J2 as [r [<- J2]]. rewrite full_refile in J2. destruct (refile_in _ _ _ J2) as [[r0 [J3 ->]]|[]].
  destruct (K (gen_relationships o t r0)) as [s Q]; [apply in_or_app; right; apply in_flat_map; exists t; split; [exact M|exact (in_map (gen_relationships o t) _ _ J3)]|].
  unfold gen_relationships in Q |- *. rewrite (sb_schema _ _ (full_same id t)). cbn [renamed rel_from_table rel_to_table rel_name rel_conditions].
  destruct (to_case o (t_schema t)) as [a|]; [|discriminate Q]. cbn [bind] in Q |- *. destruct (to_case o (rel_from_table r0)) as [b0|]; [|discriminate Q]. cbn [bind] in Q |- *.
  destruct (to_case o (rel_to_table r0)) as [c|]; [|discriminate Q]. cbn [bind]. eexists. reflexivity.
Qed.
(** C91, exactly, for models Excel can hold: what the detour through Excel writes is the TQL of the same model with
    its relationships under their usual names. *)
Theorem C91_exact : forall H message st f n s x g o t d script,
  no_failures H -> f <> [] -> n <> [] -> x <> [] -> g <> [] -> g <> $"-" ->
  files st f = Some (Text t) -> parse_text n s t = Ok d -> excel_db d ->
  tql_script (case_of (file_to_tql f n s g o)) (o_create o) d = Ok script ->
  exists book st1 st2 st3 d' script',
    excel_file (file_to_excel f n s x) book
    /\ convert H message (file_to_excel f n s x) st = (st1, Ok tt) /\ convert H message (excel_to_tql book g o) st1 = (st2, Ok tt)
    /\ convert H message (file_to_tql f n s g o) st = (st3, Ok tt)
    /\ files st2 g = Some (Text script') /\ files st3 g = Some (Text script)
    /\ tql_script (case_of (file_to_tql f n s g o)) (o_create o) d' = Ok script'
    /\ db_name d' = db_name d /\ get_schema_names d' = get_schema_names d /\ Forall2 same_but_rels (db_iter d) (db_iter d') /\ Forall2 refiled (db_iter d) (db_iter d')
    /\ ((forall t r, In t (db_iter d) -> In r (relationships_iter t) -> rel_name r = usual_name r) -> script' = script).
Proof.
  intros H message st f n s x g o t d script NF F N X G G1 T P ED S.
  destruct (c44 _ _ _ _ P) as [DN [W PT]].
  destruct (C48_read_back (h_fresh H) (h_calc H) 0 d x W ED) as [w [_ [WR _]]].
  set (a1 := file_to_excel f n s x). set (book := xls_filename x). set (a2 := excel_to_tql book g o). set (a3 := file_to_tql f n s g o).
  assert (B : excel_file a1 book) by (apply excel_file_iff; split; [exact X|reflexivity]).
  assert (BN : book <> []) by (unfold book, xls_filename; destruct (ends_with _ x); [exact X|destruct x; discriminate]).
  assert (A1 : convert_accepts a1) by (split; [right; right; left; exact F|intros _; exact N]).
  pose proof (reads_ddl H message a1 st t d F T P) as R1.
  destruct (C79_converted H message a1 st d _ script w {| is_valid := true; issues := [] |} [] NF A1 eq_refl R1) as [st1 [E1 C1]];
    [discriminate|intros [D|D]; destruct (D eq_refl)|intros _; exists book; exact WR|intros c []|].
  pose proof (cv_excel _ _ _ _ _ _ _ _ _ C1 book B) as FB.
  destruct (round_trip (h_fresh H) (h_calc H) (objects st1) d x W ED) as [w' [d' [WR' [RR [DN' [_ [[SN SI] DI']]]]]]].
  rewrite WR in WR'. injection WR' as <-.
  assert (SB : Forall2 same_but_rels (db_iter d) (db_iter d')) by (rewrite DI'; apply number_forall2; intros id u _; apply full_same).
  assert (RF : Forall2 refiled (db_iter d) (db_iter d')) by (rewrite DI'; apply number_forall2; intros id u _; apply full_refiled).
  assert (SS : get_schema_names d' = get_schema_names d).
  { destruct (db_iter d) as [|t0 ts] eqn:DI; [destruct (ed_some _ ED DI)|]. assert (S0 : t_schema t0 = s) by (apply (pt_schema _ _ (PT t0 (or_introl eq_refl)))).
    assert (IA : forall u, In u (t0 :: ts) -> t_schema u = s) by (intros u J; apply (pt_schema _ _ (PT u J))).
    rewrite (single (get_schema_names d) s); [|apply W| |apply (c44_schemas _ _ _ _ P)].
    - apply single; [exact SN|apply SI; exists t0; split; [left; reflexivity|exact S0]|]. intros y J. apply SI in J. destruct J as [u [J <-]]. apply IA, J.
    - rewrite <- S0. apply (wf_schemas _ W). rewrite DI. left. reflexivity. }
  assert (A2 : convert_accepts a2) by (split; [right; right; right; left; exact BN|intros [D|D]; destruct (D eq_refl)]).
  assert (R2 : reads H message a2 st1 d' []).
  { apply (reads_excel H message a2 st1 (saved (h_calc H) w) (db_name d, d') [] []); [intros D; exact (D eq_refl)|exact BN|exact FB|exact RR]. }
  assert (V2 : exists r, validate d' = Ok r).
  { destruct (C09_validation_issues d') as [r [V _]]; [|exists r; exact V]. intros u fk I J. revert I J. clear - SB W.
    assert (W' : forall v, In v (db_iter d) -> well_formed_table v) by apply (wf_tables _ W). clear W.
    induction SB as [|v v' l l' E _ IH]; intros I J; [destruct I|]. destruct I as [<-|I].
    - apply (wf_paired v); [apply W'; left; reflexivity|]. unfold foreign_keys_iter in *. rewrite <- (sb_fks _ _ E). exact J.
    - apply IH; [|exact I|exact J]. intros y Y. apply W'. right. exact Y. }
  destruct V2 as [r2 V2]. destruct (script_refiled _ _ d d' script (objects st1) DN' SS SB DI' S) as [script' S'].
  destruct (C79_converted H message a2 st1 d' [] script' w r2 [] NF A2 eq_refl R2) as [st2 [E2 C2]];
    [intros _; exact V2|intros _; exact S'|intros D; destruct (D eq_refl)|intros c []|].
  assert (A3 : convert_accepts a3) by (split; [right; right; left; exact F|intros _; exact N]).
  pose proof (reads_ddl H message a3 st t d F T P) as R3.
  destruct (C09_validation_issues d) as [r3 [V3 _]]; [intros u fk I J; apply (wf_paired u); [apply (wf_tables _ W), I|exact J]|].
  destruct (C79_converted H message a3 st d _ script w r3 [] NF A3 eq_refl R3) as [st3 [E3 C3]];
    [intros _; exact V3|intros _; exact S|intros D; destruct (D eq_refl)|intros c []|].
  exists book, st1, st2, st3, d', script'. split; [exact B|]. split; [exact E1|]. split; [exact E2|]. split; [exact E3|]. split; [|split; [|split; [exact S'|split; [exact DN'|split; [exact SS|split; [exact SB|split; [exact RF|]]]]]]].
  - apply (cv_tql _ _ _ _ _ _ _ _ _ C2); [split; [exact G|split; [exact G1|reflexivity]]|intros [D _]; exact (D eq_refl)|intros [D _]; exact (D eq_refl)].
  - apply (cv_tql _ _ _ _ _ _ _ _ _ C3); [split; [exact G|split; [exact G1|reflexivity]]|intros [D _]; exact (D eq_refl)|intros [D _]; exact (D eq_refl)].
  - intros U. assert (RL : map t_rels (db_iter d') = map t_rels (db_iter d)).
    { apply (C49_partial (h_fresh H) (h_calc H) (objects st1) d x w book [(db_name d, d')] [] d' W ED U WR RR). cbn [dget]. rewrite str_eqb_refl. reflexivity. }
    unfold tql_script in S, S'. rewrite (texts_same _ _ d d' DN' SS SB RL), S in S'. injection S' as <-. reflexivity.
Qed.
Print Assumptions C91_exact.
(** C91: the detour through Excel gives the same TQL file as the direct conversion, for models Excel can
    hold and relationships with their usual names. *)
Theorem C91_through_excel_partial : forall H message st f n s x g o t d script,
  no_failures H -> f <> [] -> n <> [] -> x <> [] -> g <> [] -> g <> $"-" ->
  files st f = Some (Text t) -> parse_text n s t = Ok d -> excel_db d ->
  (forall t r, In t (db_iter d) -> In r (relationships_iter t) -> rel_name r = usual_name r) ->
  tql_script (case_of (file_to_tql f n s g o)) (o_create o) d = Ok script ->
  exists book st1 st2 st3,
    excel_file (file_to_excel f n s x) book
    /\ convert H message (file_to_excel f n s x) st = (st1, Ok tt) /\ convert H message (excel_to_tql book g o) st1 = (st2, Ok tt)
    /\ convert H message (file_to_tql f n s g o) st = (st3, Ok tt)
    /\ files st2 g = Some (Text script) /\ files st3 g = Some (Text script).
Proof.
  intros H message st f n s x g o t d script NF F N X G G1 T P ED U S.
  destruct (C91_exact H message st f n s x g o t d script NF F N X G G1 T P ED S) as [book [st1 [st2 [st3 [d' [script' [B [E1 [E2 [E3 [F2 [F3 [_ [_ [_ [_ [_ Q]]]]]]]]]]]]]]]]].
  rewrite (Q U) in F2. exists book, st1, st2, st3. repeat (split; [assumption|]). assumption.
Qed.
Print Assumptions C91_through_excel_partial.
Definition flow_ddl (name : str) : str :=
  $"create table t (id int, v varchar(5), primary key (id)) partition by hash (2) key (id);" ++ [newline_char]
  ++ $"create table u (id int, primary key (id));" ++ [newline_char]
  ++ $"alter table t add constraint f foreign key (id) references u (id);" ++ [newline_char]
  ++ $"alter table t add relationship " ++ name ++ $" with u as (t.id = u.id);" ++ [newline_char].
Definition flow_state (name : str) : state :=
  {| files := fun n => if str_eqb n ($"in.ddl") then Some (Text (flow_ddl name)) else None; out := []; err := []; sent := []; objects := 0 |}.
Definition create_all : tql_options := {| o_create := true; o_lower := false; o_upper := false; o_camel := false; o_validate := true |}.
Example C91_case : exists d script, parse_text ($"d") ($"s") (flow_ddl ($"REL_t_to_u")) = Ok d /\ excel_db d /\ flat_map relationships_iter (db_iter d) <> []
  /\ (forall t r, In t (db_iter d) -> In r (relationships_iter t) -> rel_name r = usual_name r)
  /\ tql_script (case_of (file_to_tql ($"in.ddl") ($"d") ($"s") ($"out.tql") create_all)) true d = Ok script.
Proof.
  destruct (parse_text ($"d") ($"s") (flow_ddl ($"REL_t_to_u"))) as [d|] eqn:P; [|vm_compute in P; discriminate]. vm_compute in P. injection P as <-.
  eexists _, _. split; [reflexivity|]. split; [apply excel_db_ok; vm_compute; reflexivity|]. split; [vm_compute; discriminate|].
  split; [|vm_compute; reflexivity]. intros t r [<-|[<-|[]]] I; [|destruct I]. destruct I as [<-|[]]. vm_compute. reflexivity.
Qed.

(** C91 does not hold for relationships with names of their own. *)
Theorem C91_relationship_refuted : exists st f n s x g o, f <> [] /\ n <> [] /\ x <> [] /\ g <> [] /\ g <> $"-"
  /\ exists st1 st2 st3, convert quiet (fun _ => []) (file_to_excel f n s x) st = (st1, Ok tt) /\ convert quiet (fun _ => []) (excel_to_tql (x ++ $".xlsx") g o) st1 = (st2, Ok tt)
       /\ convert quiet (fun _ => []) (file_to_tql f n s g o) st = (st3, Ok tt) /\ files st2 g <> None /\ files st3 g <> None /\ files st2 g <> files st3 g.
Proof.
  exists (flow_state ($"r")), ($"in.ddl"), ($"d"), ($"s"), ($"book"), ($"out.tql"), create_all. do 5 (split; [discriminate|]).
  destruct (convert quiet (fun _ => []) (file_to_excel ($"in.ddl") ($"d") ($"s") ($"book")) (flow_state ($"r"))) as [st1 r1] eqn:E1.
  destruct (convert quiet (fun _ => []) (excel_to_tql ($"book" ++ $".xlsx") ($"out.tql") create_all) st1) as [st2 r2] eqn:E2.
  destruct (convert quiet (fun _ => []) (file_to_tql ($"in.ddl") ($"d") ($"s") ($"out.tql") create_all) (flow_state ($"r"))) as [st3 r3] eqn:E3.
  exists st1, st2, st3. vm_compute in E1, E3. injection E1 as <- <-. injection E3 as <- <-. vm_compute in E2. injection E2 as <- <-.
  do 3 (split; [reflexivity|]). split; [vm_compute; discriminate|]. split; [vm_compute; discriminate|]. vm_compute. discriminate.
Qed.
Print Assumptions C91_relationship_refuted.

(** ** Comparing a file with its own conversion *)
Lemma target_same ty : In ty target_types -> ty <> $"INT" -> read_type ty = ty.
Proof. intros I N. unfold target_types in I. repeat (destruct I as [<-|I]; [try reflexivity; destruct N; reflexivity|]). destruct I. Qed.
Definition reread (c : column) : column := {| column_name := column_name c; column_type := read_type (column_type c) |}.
Lemma columns_eq l l' : map (fun c => (column_name c, column_type c)) l' = map (fun c => (column_name c, read_type (column_type c))) l -> l' = map reread l.
Proof. revert l'. induction l as [|[a b] l IH]; intros [|[a' b'] l'] E; try discriminate; [reflexivity|]. cbn [map] in *. injection E as -> -> E. rewrite (IH _ E). reflexivity. Qed.
Lemma reread_cols s t t' : well_formed_table t -> well_formed_table t' -> read_back s t t' -> t_cols t' = map (fun p => (fst p, reread (snd p))) (t_cols t).
Proof.
  intros W W' R. destruct (wf_cols _ W) as [N K], (wf_cols _ W') as [N' K'].
  destruct (by_name column_name (t_cols t) N K) as [A _], (by_name column_name (t_cols t') N' K') as [A' _].
  pose proof (columns_eq _ _ (rb_columns _ _ _ R)) as E. unfold table_iter in E. rewrite <- A', E, !map_map. rewrite <- A at 2. rewrite map_map. apply map_ext. reflexivity.
Qed.
Lemma dget_mapped {A B} (g : A -> B) k (d : dict A) : dget k (map (fun p => (fst p, g (snd p))) d) = option_map g (dget k d).
Proof. induction d as [|[k' v] d IH]; [reflexivity|]. cbn [map dget fst snd]. destruct (str_eqb k k'); [reflexivity|exact IH]. Qed.
Lemma in_get_column t c : well_formed_table t -> In c (table_iter t) -> get_column t (column_name c) = Some c.
Proof. intros W I. destruct (wf_cols _ W) as [N K]. destruct (by_name column_name (t_cols t) N K) as [A _]. apply dget_nodup; [exact N|]. rewrite <- A. exact (in_map (fun v => (column_name v, v)) _ _ I). Qed.
Lemma read_back_looks s t t' : well_formed_table t -> well_formed_table t' -> parsed_table s t -> read_back s t t' -> (looks_same t t' <-> nothing_to_report t).
Proof.
  intros W W' P R. pose proof (reread_cols _ _ _ W W' R) as C.
  assert (G : forall k, get_column t' k = option_map reread (get_column t k)) by (intros k; unfold get_column; rewrite C; apply dget_mapped).
  split.
  - intros [LC _ _ LF [LS _]]. split; [|exact LS|].
    + intros c I Q. assert (K : get_column t (column_name c) = Some c) by (apply in_get_column; assumption).
      specialize (LC (column_name c)). rewrite G, K in LC. cbn [option_map] in LC. apply (f_equal (option_map column_type)) in LC. cbn [option_map reread column_type] in LC. rewrite Q in LC. discriminate.
    + intros fk J. assert (K : get_foreign_key t (fk_name fk) = Some fk) by (apply in_get_fk; assumption). specialize (LF (fk_name fk)).
      unfold get_foreign_key in LF, K. rewrite (rb_fks _ _ _ R), K in LF. apply LF.
  - intros [NI NS NF]. split.
    + intros k. rewrite G. destruct (get_column t k) as [c|] eqn:Q; [|reflexivity]. cbn [option_map]. f_equal.
      assert (I : In c (table_iter t)) by (apply dget_in in Q; exact (in_map snd _ _ Q)). destruct c as [n ty]. unfold reread. cbn [column_name column_type]. rewrite target_same; [reflexivity|exact (pt_types _ _ P _ I)|exact (NI _ I)].
    + symmetry. apply R.
    + intros k. unfold get_relationship. rewrite (rb_rels _ _ _ R). reflexivity.
    + intros k. unfold get_foreign_key. rewrite (rb_fks _ _ _ R). destruct (dget k (t_fks t)) as [fk|] eqn:GF; [|exact Logic.I]. split; [reflexivity|]. split; [reflexivity|].
      apply NF. apply dget_in in GF. exact (in_map snd _ _ GF).
    + split; [exact NS|]. pose proof (rb_shard _ _ _ R) as E. unfold shard_of in E. rewrite NS in E. destruct (t_shard t'); [discriminate|reflexivity].
Qed.
Lemma forall2_dget (R : table -> table -> Prop) : forall l l', Forall2 (fun x y => fst y = fst x /\ R (snd x) (snd y)) l l' ->
  forall n : str, match dget n l, dget n l' with Some t, Some t' => R t t' /\ In t (dvals l) | None, None => True | _, _ => False end.
Proof.
  induction 1 as [|[k v] [k' v'] l l' [E R1] _ IH]; intros n; [exact I|]. cbn [fst snd] in *. subst k'. cbn [dget]. destruct (str_eqb n k); [split; [exact R1|left; reflexivity]|].
  specialize (IH n). destruct (dget n l), (dget n l'); try exact IH. split; [apply IH|right; apply IH].
Qed.
Lemma named_forall2 (R : table -> table -> Prop) d d' : well_formed d -> well_formed d' -> (forall t t', R t t' -> t_name t' = t_name t) -> Forall2 R (db_iter d) (db_iter d') ->
  Forall2 (fun x y => fst y = fst x /\ R (snd x) (snd y)) (db_tables d) (db_tables d').
Proof.
  intros W W' N F. destruct (wf_names _ W) as [N1 K1], (wf_names _ W') as [N2 K2]. destruct (by_name t_name (db_tables d) N1 K1) as [A _], (by_name t_name (db_tables d') N2 K2) as [A' _].
  rewrite <- A, <- A'. fold (db_iter d) (db_iter d'). clear A A'. induction F as [|t t' l l' E _ IH]; [constructor|]. cbn [map]. constructor; [|exact IH]. cbn [fst snd]. split; [apply N, E|exact E].
Qed.

(** C92: the TQL file convert_ddl makes of a DDL file, compared with that file: nothing is reported exactly
    when there is [nothing_to_report] about any table: no column that became INT (it is read again as
    BIGINT), no shard key, and foreign keys between columns of the same names. *)
Theorem C92_conversion_same_partial : forall H message st f n s g create validated t d,
  no_failures H -> f <> [] -> n <> [] -> g <> [] -> g <> $"-" -> f <> g ->
  files st f = Some (Text t) -> parse_text n s t = Ok d -> plain_db d ->
  exists st1 st2 l1 l2,
    convert H message (file_to_tql f n s g (as_is create validated)) st = (st1, Ok tt)
    /\ ddldiff H (file_diff f g n s) st1 = (st2, Ok tt)
    /\ prints (Namespace (diff_namespace (file_diff f g n s)) :: listing ($"Database differences for DB 1:") l1 ++ listing ($"Database differences for DB 2:") l2) st1 st2
    /\ (l1 = [] /\ l2 = [] <-> forall t, In t (db_iter d) -> nothing_to_report t).
Proof.
  intros H message st f n s g create validated t d NF F N G G1 FG T P PL. destruct (c44 _ _ _ _ P) as [DN [W PT]].
  destruct (C45_read_back d create n s W PL) as [script [d2 [S [P2 [DN2 [TN RB]]]]]].
  destruct (c44 _ _ _ _ P2) as [_ [W2 _]].
  set (a := file_to_tql f n s g (as_is create validated)).
  assert (A3 : convert_accepts a) by (split; [right; right; left; exact F|intros _; exact N]).
  pose proof (reads_ddl H message a st t d F T P) as R3.
  destruct (C09_validation_issues d) as [r [V _]]; [intros u fk I J; apply (wf_paired u); [apply (wf_tables _ W), I|exact J]|].
  destruct (C79_converted H message a st d _ script [] r [] NF A3 eq_refl R3) as [st1 [E1 C1]];
    [intros _; exact V|intros _; exact S|intros D; destruct (D eq_refl)|intros c []|].
  assert (FT : files st1 f = Some (Text t)).
  { rewrite (cv_other _ _ _ _ _ _ _ _ _ C1); [exact T|intros [_ [_ Q]]; exact (FG Q)|intros [Q _]; exact (Q eq_refl)|]. left. intros [Q|[Q _]]; exact (Q eq_refl). }
  assert (GT : files st1 g = Some (Text script)).
  { apply (cv_tql _ _ _ _ _ _ _ _ _ C1); [split; [exact G|split; [exact G1|reflexivity]]|intros [D _]; exact (D eq_refl)|intros [D _]; exact (D eq_refl)]. }
  assert (BR : both_read (file_diff f g n s) st1 d d2) by (split; [split; [exact F|exact G]|exists t; split; [exact FT|exact P]|exists script; split; [exact GT|exact P2]]).
  destruct (C87_ddldiff H _ st1 d d2 NF BR) as [l1 [l2 [_ [L1 [L2 Q]]]]].
  destruct (Q [] [] ltac:(discriminate) ltac:(discriminate)) as [st2 [E2 [O _]]].
  exists st1, st2, l1, l2. split; [exact E1|]. split; [exact E2|]. split; [exact O|]. rewrite L1, L2.
  set (R := fun u u' : table => t_name u' = t_name u /\ (looks_same u u' <-> nothing_to_report u)).
  assert (SM : Forall2 (fun x y => fst y = fst x /\ R (snd x) (snd y)) (db_tables d) (db_tables d2)).
  { apply named_forall2; [exact W|exact W2|intros u u' E; apply E|]. assert (K1 : forall u, In u (db_iter d) -> well_formed_table u /\ parsed_table s u) by (intros u I; split; [apply (wf_tables _ W), I|apply PT, I]).
    assert (K2 : forall u, In u (db_iter d2) -> well_formed_table u) by apply (wf_tables _ W2). clear - RB K1 K2. induction RB as [|u u' l l' B _ IH]; [constructor|].
    constructor; [split; [apply B|apply (read_back_looks s); [apply K1; left; reflexivity|apply K2; left; reflexivity|apply K1; left; reflexivity|exact B]]|]. apply IH; intros v I; [apply K1|apply K2]; right; exact I. }
  pose proof (forall2_dget R _ _ SM) as DG. split.
  - intros [L _] u I. assert (GU : get_table d (t_name u) = Some u) by (apply in_get_table; assumption). specialize (L (t_name u)). specialize (DG (t_name u)). unfold get_table in GU, L. rewrite GU in L, DG.
    destruct (dget (t_name u) (db_tables d2)) as [u'|]; [|destruct L]. destruct DG as [[_ DG] _]. apply DG, L.
  - intros L. assert (K : look_same d d2); [|split; exact K]. intros k. unfold get_table. specialize (DG k).
    destruct (dget k (db_tables d)) as [u|] eqn:GU; [|exact DG]. destruct (dget k (db_tables d2)) as [u'|]; [|exact DG]. destruct DG as [[_ DG] I]. apply DG, L, I.
Qed.
Print Assumptions C92_conversion_same_partial.
Definition diff_ddl (ty : str) : str :=
  $"create table t (id " ++ ty ++ $", a varchar(10), primary key (id));" ++ [newline_char]
  ++ $"create table u (id bigint, primary key (id));" ++ [newline_char]
  ++ $"alter table t add constraint f foreign key (id) references u (id);" ++ [newline_char].
(** the hypotheses are met, by a file of which nothing is reported and by one with a difference *)
Example C92_case : exists d, parse_text ($"d") ($"s") (diff_ddl ($"bigint")) = Ok d /\ plain_db d /\ (forall t, In t (db_iter d) -> nothing_to_report t).
Proof.
  destruct (parse_text ($"d") ($"s") (diff_ddl ($"bigint"))) as [d|] eqn:P; [|vm_compute in P; discriminate].
  exists d. split; [reflexivity|]. vm_compute in P. injection P as <-. split; [apply plain_db_ok; vm_compute; reflexivity|].
  intros t [<-|[<-|[]]]; (split; [intros c I; repeat (destruct I as [<-|I]; [discriminate|]); destruct I|reflexivity|intros fk I; repeat (destruct I as [<-|I]; [apply Permutation_refl|]); destruct I]).
Qed.
Example C92_serial : exists d, parse_text ($"d") ($"s") (diff_ddl ($"serial")) = Ok d /\ plain_db d /\ ~ (forall t, In t (db_iter d) -> nothing_to_report t).
Proof.
  destruct (parse_text ($"d") ($"s") (diff_ddl ($"serial"))) as [d|] eqn:P; [|vm_compute in P; discriminate].
  exists d. split; [reflexivity|]. vm_compute in P. injection P as <-. split; [apply plain_db_ok; vm_compute; reflexivity|].
  intros N. exact (nr_types _ (N _ (or_introl eq_refl)) _ (or_introl eq_refl) eq_refl).
Qed.
(** The plain statement is false: of a file with a serial column the comparison reports something, whatever
    the file names and options. *)
Theorem C92_serial_refuted : exists t, forall H message st f g create validated,
  no_failures H -> f <> [] -> g <> [] -> g <> $"-" -> f <> g -> files st f = Some (Text t) ->
  exists st1 st2 l1 l2,
    convert H message (file_to_tql f ($"d") ($"s") g (as_is create validated)) st = (st1, Ok tt)
    /\ ddldiff H (file_diff f g ($"d") ($"s")) st1 = (st2, Ok tt)
    /\ prints (Namespace (diff_namespace (file_diff f g ($"d") ($"s"))) :: listing ($"Database differences for DB 1:") l1 ++ listing ($"Database differences for DB 2:") l2) st1 st2
    /\ (l1 <> [] \/ l2 <> []).
Proof.
  exists (diff_ddl ($"serial")). intros H message st f g create validated NF F G G1 FG T. destruct C92_serial as [d [P [PL N]]].
  destruct (C92_conversion_same_partial H message st f ($"d") ($"s") g create validated _ d NF F ltac:(discriminate) G G1 FG T P PL)
    as [st1 [st2 [l1 [l2 [E1 [E2 [O Q]]]]]]].
  exists st1, st2, l1, l2. split; [exact E1|]. split; [exact E2|]. split; [exact O|].
  destruct l1; [right|left; discriminate]. intros ->. apply N, Q. split; reflexivity.
Qed.
Print Assumptions C92_serial_refuted.
