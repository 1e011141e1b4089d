(** * Properties of review_model (C65, C89, C90) *)
From Verif Require Import StrFacts SpecCliReview CliFacts CliReviewFacts.

Definition said (b : bool) (s : str) : list str := if b then [s] else [].
Definition with_messages (st : state) (ms : list str) : state :=
  {| files := files st; out := out st; err := err st ++ map line ms; sent := sent st; objects := objects st |}.
Lemma complain_said b s st : complain b s st = (with_messages st (said b s), Ok tt).
Proof. destruct b; [reflexivity|]. unfold complain, said, with_messages. cbn [when map]. rewrite app_nil_r. destruct st; reflexivity. Qed.
Lemma with_messages_app st a b : with_messages (with_messages st a) b = with_messages st (a ++ b).
Proof. unfold with_messages. cbn [files out err sent objects]. rewrite map_app, app_assoc. reflexivity. Qed.
Lemma with_no_messages st : with_messages st [] = st.
Proof. unfold with_messages. cbn [map]. rewrite app_nil_r. destruct st; reflexivity. Qed.
Lemma in_said b s m : In m (said b s) <-> m = s /\ b = true.
Proof. destruct b; cbn; intuition congruence. Qed.
Lemma missing_iff o st : missing_file o st = true <-> is_given o /\ ~ file_exists st (text o).
Proof.
  unfold missing_file. rewrite andb_true_iff, negb_true_iff, given_iff, exists_false. split; intros [G N]; destruct (given_text _ G) as [T _]; rewrite T in *; tauto.
Qed.
(** C65, review_model: the complaints are exactly those that apply; with a complaint the help text is all
    that follows. *)
Theorem C65_review : forall a st,
  (review_accepts a st -> review_valid_args a st = (st, Ok true))
  /\ (~ review_accepts a st -> exists ms st', review_valid_args a st = (st', Ok false) /\ only_messages st st' ms
        /\ (forall m, In m ms <-> review_complaint a st m)
        /\ forall H order rnd commas float_str fuel safe_load queries help documented,
             review_tool H order rnd commas float_str fuel safe_load queries help documented a st = (emit (Printed help) st', Ok tt)).
Proof.
  intros a st.
  assert (R : exists ms b, review_valid_args a st = (with_messages st ms, Ok b) /\ (b = true <-> review_accepts a st) /\ (b = true -> ms = []) /\ (forall m, In m ms <-> review_complaint a st m)).
  { unfold review_valid_args, then_. rewrite !complain_said, !with_messages_app.
    eexists _, _. split; [reflexivity|]. set (n1 := negb (show_tests a) && negb (given (r_database a))). set (n2 := negb (show_tests a) && negb (given (database_file a)) && negb (given (ts_ip a))).
    set (n3 := given (database_file a) && given (ts_ip a)).
    pose proof (missing_iff (worksheet_file a) st) as M4. pose proof (missing_iff (config_file a) st) as M5.
    pose proof (given_iff (worksheet_file a)) as G4. pose proof (given_iff (config_file a)) as G5. pose proof (exists_iff st (text (worksheet_file a))) as X4. pose proof (exists_iff st (text (config_file a))) as X5.
    split; [|split].
    - rewrite !andb_true_iff, !negb_true_iff. split.
      + intros [[[[N1 N2] N3] N4] N5]. split.
        * unfold n1, n2 in *. rewrite <- !given_iff. destruct (show_tests a), (given (r_database a)), (given (database_file a)), (given (ts_ip a)); cbn in *; try discriminate; tauto.
        * rewrite <- !given_iff. unfold n3 in N3. destruct (given (database_file a)), (given (ts_ip a)); try discriminate; intros [? ?]; discriminate.
        * intros G. destruct (exists_ st (text (worksheet_file a))) eqn:E; [apply X4; reflexivity|]. apply exists_false in E. rewrite (proj2 M4 (conj G E)) in N4. discriminate.
        * intros G. destruct (exists_ st (text (config_file a))) eqn:E; [apply X5; reflexivity|]. apply exists_false in E. rewrite (proj2 M5 (conj G E)) in N5. discriminate.
      + intros [A1 A2 A3 A4]. rewrite <- !given_iff in A1. rewrite <- !given_iff in A2. unfold n1, n2, n3.
        repeat split.
        * destruct (show_tests a); [reflexivity|]. destruct A1 as [?|[-> _]]; [discriminate|reflexivity].
        * destruct (show_tests a); [reflexivity|]. destruct A1 as [?|[_ [-> | ->]]]; [discriminate|reflexivity|rewrite andb_false_r; reflexivity].
        * destruct (given (database_file a)), (given (ts_ip a)); try reflexivity. destruct A2. split; reflexivity.
        * destruct (missing_file (worksheet_file a) st); [|reflexivity]. destruct (proj1 M4 eq_refl) as [G N]. destruct (N (A3 G)).
        * destruct (missing_file (config_file a) st); [|reflexivity]. destruct (proj1 M5 eq_refl) as [G N]. destruct (N (A4 G)).
    - rewrite !andb_true_iff, !negb_true_iff. intros [[[[-> ->] ->] ->] ->]. reflexivity.
    - intros m. rewrite !in_app_iff, !in_said, M4, M5. split.
      + intros [[-> B]|[[-> B]|[[-> B]|[[E [G N]]|[E [G N]]]]]].
        * apply andb_true_iff in B. rewrite !negb_true_iff, given_false in B. apply rc_name; tauto.
        * unfold n2 in B. rewrite !andb_true_iff, !negb_true_iff, !given_false in B. apply rc_source; tauto.
        * apply andb_true_iff in B. rewrite !given_iff in B. apply rc_both; tauto.
        * destruct (given_text _ G) as [T _]. rewrite T in E. exact (rc_worksheet a st m E G N).
        * destruct (given_text _ G) as [T _]. rewrite T in E. exact (rc_config a st m E G N).
      + intros [E S G|E S G1 G2|E G1 G2|E G N|E G N].
        * left. split; [exact E|]. apply given_false in G. unfold n1. rewrite S, G. reflexivity.
        * right; left. split; [exact E|]. apply given_false in G1. apply given_false in G2. unfold n2. rewrite S, G1, G2. reflexivity.
        * right; right; left. split; [exact E|]. apply given_iff in G1. apply given_iff in G2. unfold n3. rewrite G1, G2. reflexivity.
        * right; right; right; left. destruct (given_text _ G) as [-> _]. tauto.
        * right; right; right; right. destruct (given_text _ G) as [-> _]. tauto. }
  destruct R as [ms [b [E [B [B2 C]]]]]. split.
  - intros A. apply B in A. subst b. rewrite E, (B2 eq_refl), with_no_messages. reflexivity.
  - intros N. destruct b; [destruct N; apply B; reflexivity|]. exists ms, (with_messages st ms). split; [exact E|]. split; [repeat split|]. split; [exact C|].
    intros. unfold review_tool, then_. rewrite E. reflexivity.
Qed.
Print Assumptions C65_review.
Definition review_file (f : str) (n : option str) : review_args :=
  {| r_version := false; show_tests := false; database_file := Some f; worksheet_file := None; ts_ip := None; r_username := $"admin"; r_password := $"pw";
     r_database := n; r_debug := false; config_file := None |}.
Example C65_review_case : forall st, review_accepts (review_file ($"a.ddl") (Some ($"d"))) st /\ ~ review_accepts (review_file ($"a.ddl") None) st.
Proof.
  intros st. split; [split|].
  - right. split; [discriminate|left; discriminate].
  - intros [_ N]. exact (N eq_refl).
  - intros N. destruct (N eq_refl).
  - intros N. destruct (N eq_refl).
  - intros [[D|[D _]] _ _ _]; [discriminate|exact (D eq_refl)].
Qed.

(** C65 does not hold for review_model: --version alone is refused, and a missing database file is
    accepted although its absence is fatal. *)
Definition version_only : review_args :=
  {| r_version := true; show_tests := false; database_file := None; worksheet_file := None; ts_ip := None; r_username := $"admin"; r_password := $"pw";
     r_database := None; r_debug := false; config_file := None |}.
Theorem C65_review_version_refuted : forall st, ~ review_accepts version_only st.
Proof. intros st [[D|[D _]] _ _ _]; [discriminate|exact (D eq_refl)]. Qed.
Print Assumptions C65_review_version_refuted.
Theorem C65_review_missing_refuted : forall H order rnd commas float_str fuel safe_load queries help documented f n st, f <> [] -> n <> [] -> ~ file_exists st f ->
  review_accepts (review_file f (Some n)) st
  /\ snd (review_tool H order rnd commas float_str fuel safe_load queries help documented (review_file f (Some n)) st) = Err AssertionError.
Proof.
  intros H order rnd commas float_str fuel safe_load queries help documented f n st F N X. assert (A : review_accepts (review_file f (Some n)) st).
  { split; [right; split; [exact N|left; exact F]|intros [_ Y]; exact (Y eq_refl)|intros Y; destruct (Y eq_refl)|intros Y; destruct (Y eq_refl)]. }
  split; [exact A|]. destruct (C65_review (review_file f (Some n)) st) as [V _]. unfold review_tool, then_. rewrite (V A). cbn [negb r_version review_file show_tests when done ts_ip database_file given orb r_database py_text worksheet_file].
  destruct f as [|c f]; [destruct (F eq_refl)|]. unfold parse_file. change (exists_ (emit ?o st) (c :: f)) with (exists_ st (c :: f)). rewrite (proj2 (exists_false _ _) X). reflexivity.
Qed.
Print Assumptions C65_review_missing_refuted.

(** C90: what review_model prints for a model, and what it leaves: after the arguments (and the
    descriptions) what the reviews say and then their findings, under the settings of
    the defaults; what the reviews find is described by C53-C63, what they say by C104. *)
Theorem C90_review_output : forall H order rnd commas float_str fuel safe_load queries help documented a st d ms ws ds results h vs,
  no_failures H -> review_accepts a st -> r_version a = false -> is_given (r_database a) ->
  review_reads H a st d ms -> review_worksheet safe_load a st ws -> (show_tests a = true -> get_test_descriptions documented = Ok ds) ->
  review_aloud (h_query_error H) (h_yaml_text H) order rnd commas float_str fuel [] d [] ws (connection queries a) = (results, h, vs) ->
  exists st', review_tool H order rnd commas float_str fuel safe_load queries help documented a st = (st', match results with Ok _ => Ok tt | Err e => Err e end)
    /\ prints (Namespace (review_namespace a) :: if_true (show_tests a) (description_lines ds) ++ review_lines results vs) st st'
    /\ (forall n, files st' n = review_files a st n) /\ err st' = err st ++ map line (ms ++ warned vs)
    /\ sent st' = sent st ++ if_given (ts_ip a) [script_command (text (ts_ip a)) (r_username a) (r_password a) (text (r_database a))] ++ as_commands a h.
Proof.
  intros H order rnd commas float_str fuel safe_load queries help documented a st d ms ws ds results h vs NF A V G RD W S R.
  unfold review_tool. unfold then_ at 1. rewrite (proj1 (C65_review a st) A). cbn [negb]. unfold then_ at 1. rewrite V.
  set (st0 := emit (Namespace (review_namespace a)) st).
  assert (D1 : does (Cli.when (show_tests a) (show_descriptions documented)) st0 (files st0) (if_true (show_tests a) (description_lines ds)) [] [] tt).
  { apply does_when; intros B; rewrite B; [apply does_descriptions, S, B|]. split; [reflexivity|split; [reflexivity|split; reflexivity]]. }
  destruct D1 as [st1 [E1 X1]]. unfold then_ at 1. rewrite E1.
  assert (SO : given (ts_ip a) || given (database_file a) = true) by (apply orb_true_iff; rewrite !given_iff; destruct RD; [right|left]; assumption). rewrite SO.
  assert (F1 : forall n, files st1 n = files st n) by (intros n; rewrite (ef_files _ _ _ _ _ _ X1); reflexivity).
  assert (S1 : sent st1 = sent st) by (rewrite (ef_sent _ _ _ _ _ _ X1), app_nil_r; reflexivity).
  assert (RD1 : review_reads H a st1 d ms).
  { destruct RD as [t d N F T P|lines d C RR P]; [apply (rr_file H a st1 t d N F); [rewrite F1; exact T|exact P]|apply (rr_cluster H a st1 lines d C); [rewrite S1; exact RR|exact P]]. }
  destruct (review_source H a st1 d ms NF G RD1) as [k [st2 [E2 X2]]]. unfold then_ at 1. rewrite E2.
  assert (W1 : review_worksheet safe_load a st1 ws) by (unfold review_worksheet in *; destruct (text (worksheet_file a)); [exact W|rewrite F1; exact W]).
  destruct (review_ws H safe_load a st1 st2 ws (ef_files _ _ _ _ _ _ X2) W1) as [st3 [E3 X3]]. unfold then_ at 1. rewrite E3.
  assert (C : (if given (ts_ip a) then Some (queries (py_text (ts_ip a)) (r_username a) (r_password a)) else None) = connection queries a).
  { unfold connection. destruct (ts_ip a) as [[|c s]|]; reflexivity. }
  cbv zeta. rewrite C. assert (GH : is_given (ts_ip a) \/ h = []).
  { unfold connection in R. destruct (text (ts_ip a)) eqn:Q; [right|left; unfold is_given; rewrite Q; discriminate].
    pose proof (unconnected (h_query_error H) (h_yaml_text H) order rnd commas float_str fuel [] d [] ws) as U. rewrite R in U. exact U. }
  destruct (review_run H order rnd commas float_str fuel a d ws (connection queries a) st3 k results h vs R GH) as [st4 [E4 X4]].
  exists st4. split; [exact E4|]. pose proof (effect_trans _ _ _ _ _ _ _ _ _ _ _ X1 (effect_trans _ _ _ _ _ _ _ _ _ _ _ X2 (effect_trans _ _ _ _ _ _ _ _ _ _ _ X3 X4))) as X. cbn [app] in X.
  destruct X as [XF XO XE XS]. split; [|split; [|split; [exact XE|exact XS]]].
  - apply (prints_trans [Namespace (review_namespace a)] _ st st0); [exists [Namespace (review_namespace a)]; split; reflexivity|exact XO].
  - intros n. rewrite XF, (ef_files _ _ _ _ _ _ X3), (ef_files _ _ _ _ _ _ X2). unfold review_files. destruct (text (ts_ip a)); [apply F1|rewrite F1; reflexivity].
Qed.
Print Assumptions C90_review_output.
(** without a source only the descriptions are shown *)
Theorem C90_descriptions : forall H order rnd commas float_str fuel safe_load queries help documented a st ds,
  review_accepts a st -> r_version a = false -> ~ is_given (database_file a) -> ~ is_given (ts_ip a) -> get_test_descriptions documented = Ok ds ->
  exists st', review_tool H order rnd commas float_str fuel safe_load queries help documented a st = (st', Ok tt)
    /\ prints (Namespace (review_namespace a) :: description_lines ds) st st' /\ (forall n, files st' n = files st n) /\ err st' = err st /\ sent st' = sent st.
Proof.
  intros H order rnd commas float_str fuel safe_load queries help documented a st ds A V N1 N2 S.
  unfold review_tool. unfold then_ at 1. rewrite (proj1 (C65_review a st) A). cbn [negb]. unfold then_ at 1. rewrite V.
  assert (B : show_tests a = true) by (destruct (ra_database _ _ A) as [B|[_ [B|B]]]; [exact B|destruct (N1 B)|destruct (N2 B)]). rewrite B.
  set (st0 := emit (Namespace (review_namespace a)) st). destruct (does_descriptions documented ds st0 S) as [st1 [E1 [XF XO XE XS]]].
  unfold Cli.when, then_. rewrite E1, (proj2 (given_false _) N1), (proj2 (given_false _) N2). exists st1. split; [reflexivity|]. split; [|split; [exact XF|split; [rewrite XE; apply app_nil_r|rewrite XS; apply app_nil_r]]].
  apply (prints_trans [Namespace (review_namespace a)] _ st st0); [exists [Namespace (review_namespace a)]; split; reflexivity|exact XO].
Qed.
Print Assumptions C90_descriptions.
(** a file with a table without a primary key: one finding, three reviews skipped *)
Definition no_key_ddl : str := $"CREATE TABLE ""t"" (""a"" INT);" ++ [newline_char].
Definition no_key_state : state :=
  {| files := fun n => if str_eqb n ($"a.ddl") then Some (Text no_key_ddl) else None; out := []; err := []; sent := []; objects := 0 |}.
Example C90_case : exists d, review_accepts (review_file ($"a.ddl") (Some ($"d"))) no_key_state /\ is_given (r_database (review_file ($"a.ddl") (Some ($"d"))))
  /\ (forall H, review_reads H (review_file ($"a.ddl") (Some ($"d"))) no_key_state d [])
  /\ (forall safe_load, review_worksheet safe_load (review_file ($"a.ddl") (Some ($"d"))) no_key_state None)
  /\ (forall H rnd commas float_str queries,
       review_aloud (h_query_error H) (h_yaml_text H) (fun l => l) rnd commas float_str 5 [] d [] None (connection queries (review_file ($"a.ddl") (Some ($"d"))))
         = (Ok [($"review_pks", [$"No primary key on table d.falcon_default_schema.t"])], [],
            map Shown [$"reviewing circular relationships for d database"; $"reviewing long chain (> 2) relationships for d database"; $"reviewing primary keys for d database";
                       $"reviewing relationships vs. foreign keys for d database"; $"Skipping review_sharding(database, rtql, config_file)"; $"Skipping review_table_joins(database, rtql)";
                       $"Skipping review_worksheet_joins(database, rtql, worksheet)"])).
Proof.
  destruct (parse_text ($"d") ($"falcon_default_schema") no_key_ddl) as [d|] eqn:P; [|vm_compute in P; discriminate]. exists d.
  split; [apply C65_review_case|]. split; [discriminate|]. split.
  - intros H. assert (Q : complaints H ($"d") ($"falcon_default_schema") no_key_ddl = []) by (unfold complaints; assert (E : snd (Messages.heard_text ($"d") ($"falcon_default_schema") no_key_ddl) = []) by (vm_compute; reflexivity); rewrite E; reflexivity).
    pose proof (rr_file H (review_file ($"a.ddl") (Some ($"d"))) no_key_state no_key_ddl d (fun N => N eq_refl) ltac:(discriminate) eq_refl P) as R. cbn [review_file r_database text] in R. rewrite Q in R. exact R.
  - split; [intros safe_load; reflexivity|]. vm_compute in P. injection P as <-. intros H rnd commas float_str queries. vm_compute; reflexivity.
Qed.

(** C89 does not hold: the configuration file makes no difference, whatever it says. *)
Definition with_config (c : option str) (a : review_args) : review_args :=
  {| r_version := r_version a; show_tests := show_tests a; database_file := database_file a; worksheet_file := worksheet_file a; ts_ip := ts_ip a;
     r_username := r_username a; r_password := r_password a; r_database := r_database a; r_debug := r_debug a; config_file := c |}.
Theorem C89_config_refuted : forall H order rnd commas float_str fuel safe_load queries help documented a st d ms ws ds c1 c2,
  no_failures H -> review_accepts (with_config c1 a) st -> review_accepts (with_config c2 a) st -> r_version a = false -> is_given (r_database a) ->
  review_reads H a st d ms -> review_worksheet safe_load a st ws -> (show_tests a = true -> get_test_descriptions documented = Ok ds) ->
  exists st1 st2 r l, review_tool H order rnd commas float_str fuel safe_load queries help documented (with_config c1 a) st = (st1, r)
    /\ review_tool H order rnd commas float_str fuel safe_load queries help documented (with_config c2 a) st = (st2, r)
    /\ prints (Namespace (review_namespace (with_config c1 a)) :: l) st st1 /\ prints (Namespace (review_namespace (with_config c2 a)) :: l) st st2
    /\ (forall n, files st1 n = files st2 n) /\ err st1 = err st2 /\ sent st1 = sent st2.
Proof.
  intros H order rnd commas float_str fuel safe_load queries help documented a st d ms ws ds c1 c2 NF A1 A2 V G RD W S.
  assert (K : forall c, review_reads H (with_config c a) st d ms) by (intros c; destruct RD as [t d N F T P|lines d C RR P]; [exact (rr_file H (with_config c a) st t d N F T P)|exact (rr_cluster H (with_config c a) st lines d C RR P)]).
  destruct (review_aloud (h_query_error H) (h_yaml_text H) order rnd commas float_str fuel [] d [] ws (connection queries a)) as [[results h] vs] eqn:R.
  destruct (C90_review_output H order rnd commas float_str fuel safe_load queries help documented (with_config c1 a) st d ms ws ds results h vs NF A1 V G (K c1) W S R) as [st1 [E1 [O1 [F1 [R1 S1]]]]].
  destruct (C90_review_output H order rnd commas float_str fuel safe_load queries help documented (with_config c2 a) st d ms ws ds results h vs NF A2 V G (K c2) W S R) as [st2 [E2 [O2 [F2 [R2 S2]]]]].
  eexists st1, st2, _, _. split; [exact E1|]. split; [exact E2|]. split; [exact O1|]. split; [exact O2|]. split; [intros n; rewrite F1, F2; reflexivity|]. split; [rewrite R1, R2; reflexivity|rewrite S1, S2; reflexivity].
Qed.
Print Assumptions C89_config_refuted.
(** a configuration that would change what is reported (C55) *)
Example C89_case : exists st, (forall n, n <> $"a.cfg" -> files st n = files no_key_state n)
  /\ review_accepts (with_config None (review_file ($"a.ddl") (Some ($"d")))) st /\ review_accepts (with_config (Some ($"a.cfg")) (review_file ($"a.ddl") (Some ($"d")))) st.
Proof.
  exists {| files := fun n => if str_eqb n ($"a.cfg") then Some (Text ($"max_reference_chain=1")) else files no_key_state n; out := []; err := []; sent := []; objects := 0 |}.
  split; [|split].
  - intros n N. cbn [files]. destruct (str_eqb_spec n ($"a.cfg")) as [E|_]; [destruct (N E)|reflexivity].
  - apply C65_review_case.
  - split; [right; split; [discriminate|left; discriminate]|intros [_ N]; exact (N eq_refl)|intros N; destruct (N eq_refl)|intros _; discriminate].
Qed.
