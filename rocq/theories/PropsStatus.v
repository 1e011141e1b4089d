(** * C123: what the exit status says *)
From Verif Require ExcelTalkFacts.
From Verif Require Import ArgFacts ArgTools.
From Verif Require Import StrFacts ParsedFacts SpecStatus SpecCliDiff CliFacts CliFrame PropsCli PropsCliFail PropsNoModel PropsCliDiff PropsArgs.
From Coq Require Import List. Import ListNotations.

Lemma then_inv {A B} (m : cli A) (f : A -> cli B) st st' b : then_ m f st = (st', Ok b) -> exists st1 a, m st = (st1, Ok a) /\ f a st1 = (st', Ok b).
Proof. unfold then_. destruct (m st) as [st1 [a|e]]; [eauto|discriminate]. Qed.

(** ** A run that succeeds is a run in which nothing failed *)
Definition no_trouble : env := {| open_fails := fun _ => false; write_fails := fun _ _ _ => false |}.
Definition untroubled (H : host) : host :=
  {| h_env := no_trouble; h_run := h_run H; h_calc := h_calc H; h_fresh := h_fresh H; h_as_text := h_as_text H; h_as_book := h_as_book H;
     h_path := h_path H; h_reason := h_reason H; h_query_error := h_query_error H; h_yaml_text := h_yaml_text H |}.
Definition follows {A} (m m0 : cli A) : Prop := forall st st' a, m st = (st', Ok a) -> m0 st = (st', Ok a).
Lemma follows_refl {A} (m : cli A) : follows m m.
Proof. intros st st' a E. exact E. Qed.
Lemma follows_then {A B} (m m0 : cli A) (f f0 : A -> cli B) : follows m m0 -> (forall a, follows (f a) (f0 a)) -> follows (then_ m f) (then_ m0 f0).
Proof. intros M F st st' b E. apply then_inv in E. destruct E as (st1 & a & E1 & E2). unfold then_. rewrite (M _ _ _ E1). exact (F _ _ _ _ E2). Qed.
Lemma follows_when b m m0 : follows m m0 -> follows (when b m) (when b m0).
Proof. destruct b; [auto|intros _; apply follows_refl]. Qed.
Lemma write_all_free E h l : forall tr tr', write_all E h l tr = (tr', Ok tt) -> write_all no_trouble h l tr = (tr', Ok tt).
Proof.
  induction l as [|r l IH]; intros tr tr'; cbn [write_all]; [auto|]. unfold io_bind, write_text, do_write, io_bind, throw.
  destruct r as [s|e]; [|discriminate]. destruct (write_fails E tr h s); [discriminate|]. apply IH.
Qed.
Lemma smart_open_free E n l : follows (perform (smart_open E n (fun h => write_all E h l))) (perform (smart_open no_trouble n (fun h => write_all no_trouble h l))).
Proof.
  intros st st' u. unfold perform, smart_open, io_bind, do_open.
  assert (K : forall h tr x, (let '(tr', r) := write_all E h l tr in match h with Stdout => (tr', r) | File _ => let '(tr'', _) := do_close h tr' in (tr'', r) end) = (x, Ok tt)
              -> (let '(tr', r) := write_all no_trouble h l tr in match h with Stdout => (tr', r) | File _ => let '(tr'', _) := do_close h tr' in (tr'', r) end) = (x, Ok tt)).
  { intros h tr x. destruct (write_all E h l tr) as [tr' [[]|e]] eqn:W; [rewrite (write_all_free _ _ _ _ _ W); auto|]. destruct h; cbn; discriminate. }
  assert (L : forall h tr, follows
      (fun st => let '(tr, r) := (let '(tr', r) := write_all E h l tr in match h with Stdout => (tr', r) | File _ => let '(tr'', _) := do_close h tr' in (tr'', r) end) in (fold_left happen tr st, r))
      (fun st => let '(tr, r) := (let '(tr', r) := write_all no_trouble h l tr in match h with Stdout => (tr', r) | File _ => let '(tr'', _) := do_close h tr' in (tr'', r) end) in (fold_left happen tr st, r))).
  { intros h tr s s' []. destruct (let '(tr', r) := write_all E h l tr in _) as [tr1 [[]|e]] eqn:X; [rewrite (K _ _ _ X); auto|discriminate]. }
  destruct n as [f|]; [destruct (_ && _); [cbn [open_fails no_trouble]; destruct (open_fails E f); [discriminate|]|]|]; unfold Writer.ret; apply L.
Qed.
Lemma follows_untroubled H message a : follows (convert H message a) (convert (untroubled H) message a).
Proof.
  assert (W : forall o c d n, follows (write_tql_of H o c d n) (write_tql_of (untroubled H) o c d n)).
  { intros o c [d|] n; [apply smart_open_free|]. intros st st' u. unfold write_tql_of, perform, smart_open, io_bind, throw, do_open.
    destruct n as [f|]; [destruct (_ && _); [destruct (open_fails (h_env H) f)|]|]; discriminate. }
  unfold convert. apply follows_then; [apply follows_refl|]. intros ok. destruct (negb ok); [apply follows_refl|].
  apply follows_then; [apply follows_refl|]. intros _. destruct (version a); [apply follows_refl|]. apply follows_then.
  { destruct (given (from_ddl a)); [apply follows_refl|]. destruct (given (from_excel a)); [apply follows_refl|]. destruct (given (from_ts a)); [|apply follows_refl].
    apply follows_then; [apply follows_refl|]. intros _. unfold read_from_cluster. apply follows_then; [apply follows_refl|]. intros lines.
    apply follows_then; [apply smart_open_free|]. intros _. apply follows_refl. }
  intros d. apply follows_then; [apply follows_refl|]. intros _. apply follows_then.
  { apply follows_when, follows_then; [apply follows_refl|]. intros _. apply W. }
  intros _. apply follows_then.
  { apply follows_when, follows_then; [apply follows_refl|]. intros _. unfold write_excel. destruct d as [d|]; [|apply follows_refl]. apply follows_then; [apply follows_refl|].
    intros [w f]. cbn [h_env untroubled no_trouble open_fails]. destruct (open_fails (h_env H) f); [intros st st' u; discriminate|apply follows_refl]. }
  intros _. apply follows_when, follows_then; [apply follows_refl|]. intros _. unfold write_to_ts. destruct d as [d|]; [|apply follows_refl].
  apply follows_then; [apply W|]. intros _. apply follows_refl.
Qed.

(** ** A run that succeeds has read a model and written it *)
Lemma write_ok E h l tr tr' : write_all E h l tr = (tr', Ok tt) -> exists s, concat_results l = Ok s.
Proof.
  revert tr. induction l as [|r l IH]; intros tr; cbn [write_all concat_results]; [eauto|]. unfold io_bind, write_text, do_write, io_bind, throw.
  destruct r as [s|e]; [|discriminate]. destruct (write_fails E tr h s); [discriminate|]. intros X. destruct (IH _ X) as [s' ->]. cbn [bind]. eauto.
Qed.
Lemma script_ok H o c d n st st' : write_tql_of H o c (Some d) n st = (st', Ok tt) -> exists s, tql_script o c d = Ok s.
Proof.
  unfold write_tql_of, perform, write_tql, smart_open, io_bind. match goal with |- context [match ?c [] with _ => _ end] => destruct (c []) as [tr [h|e]]; [|discriminate] end.
  destruct (write_all (h_env H) h (tql_texts o c d) tr) as [tr' [[]|e]] eqn:W; [intros _; exact (write_ok _ _ _ _ _ W)|]. destruct h; discriminate.
Qed.
Lemma none_fails H o c n st st' : write_tql_of H o c None n st <> (st', Ok tt).
Proof.
  unfold write_tql_of, perform, smart_open, io_bind, throw, do_open. destruct n as [f|]; [destruct (_ && _); [destruct (open_fails (h_env H) f)|]|]; discriminate.
Qed.
Lemma read_inv H message a st st1 o : no_failures H -> convert_accepts a -> right_kind a st -> read_step H message a st = (st1, Ok o) ->
  o = None \/ exists d ms, reads H message a st d ms.
Proof.
  intros NF [_ CA] [K1 K2]. unfold read_step. destruct (given (from_ddl a)) eqn:G1.
  { apply given_iff in G1. destruct (given_text _ G1) as [PT _]. destruct (given_text _ (CA (or_introl G1))) as [_ DT].
    unfold then_, print, read_ddl. rewrite PT, DT. destruct (files st (text (from_ddl a))) as [[t|w]|] eqn:F; [|destruct (K1 w eq_refl)|].
    - rewrite (parse_file_is H _ _ _ t) by exact F. destruct (parse_text (text (db_option a)) (schema_option a) t) as [d|e] eqn:P; [|discriminate].
      intros _. right. exists d. eexists. exact (reads_ddl H message a st t d G1 F P).
    - unfold parse_file, exists_. rewrite files_emit, F. intros E. left. injection E as _ <-. reflexivity. }
  apply given_false in G1. destruct (given (from_excel a)) eqn:G2.
  { apply given_iff in G2. destruct (given_text _ G2) as [PT _]. unfold then_ at 1, print, read_excel. rewrite PT.
    destruct (files st (text (from_excel a))) as [[t|w]|] eqn:F; [destruct (K2 t eq_refl)| |].
    - unfold then_ at 1. rewrite (read_book_is H message _ w) by exact F. rewrite ?objects_emit. destruct (read_xls (objects st) [] w) as [[dbs ms]|e] eqn:R.
      + pose proof (proj2 (ExcelTalkFacts.heard_ok _ _ _ _ _) R) as Q. rewrite Q. destruct dbs as [|d rest].
        * cbn [dvals map]. intros E. left. unfold then_, eprint, done in E. injection E as _ <-. reflexivity.
        * intros _. right. eexists _, _. exact (reads_excel H message a st w d rest ms G1 G2 F R).
      + pose proof (proj2 (ExcelTalkFacts.heard_err _ _ _ _) R) as [ms Q]. rewrite Q. discriminate.
    - unfold then_ at 1, read_book. rewrite files_emit, F. discriminate. }
  apply given_false in G2. destruct (given (from_ts a)) eqn:G3.
  { apply given_iff in G3. destruct (given_text _ G3) as [PT _]. destruct (given_text _ (CA (or_intror G3))) as [_ DT]. unfold then_ at 1, print.
    replace (read_from_cluster H (py_text (from_ts a)) (username a) (password a) (db_option a)) with (read_from_cluster H (text (from_ts a)) (username a) (password a) (Some (text (db_option a)))) by (rewrite PT, <- DT; reflexivity).
    unfold read_from_cluster. cbn [py_text]. fold (script_command (text (from_ts a)) (username a) (password a) (text (db_option a))).
    intros E. apply then_inv in E. destruct E as (s1 & lines & E1 & E). unfold run_tql_command in E1.
    destruct (h_run H (sent st) (script_command (text (from_ts a)) (username a) (password a) (text (db_option a)))) as [ls|e] eqn:R; cbn [sent emit] in E1; rewrite R in E1; [|discriminate].
    injection E1 as E1 <-. apply then_inv in E. destruct E as (s2 & [] & E2 & E). destruct (temp_name (text (db_option a))) as [N1 N2].
    destruct (does_write H (text (db_option a) ++ $".tmp") _ _ s1 NF N1 (concat_lines ls)) as [s2' [E2' X2]]. rewrite E2' in E2. injection E2 as ->. rewrite N2 in X2. cbn [if_true] in X2.
    assert (F2 : files s2 (text (db_option a) ++ $".tmp") = Some (Text (flat_map line ls))) by (rewrite (ef_files _ _ _ _ _ _ X2); unfold upd; rewrite str_eqb_refl; reflexivity).
    apply then_inv in E. destruct E as (s3 & d' & E3 & E). rewrite (parse_file_is H _ _ _ _ _ F2) in E3.
    destruct (parse_text (text (db_option a)) DEFAULT_SCHEMA (flat_map line ls)) as [d|e] eqn:P; [|discriminate].
    right. exists d. eexists. exact (reads_cluster H message a st ls d (conj G3 (conj G1 G2)) R P). }
  apply given_false in G3. destruct (db_option a) as [n|] eqn:D; [|discriminate]. intros _. right. eexists _, _. exact (reads_nothing H message a st n G1 G2 G3 D).
Qed.
Lemma reads_before H message a st d ms o : reads H message a (emit o st) d ms -> reads H message a st d ms.
Proof.
  intros [t d' G F P|w d' rest ms' N G F R|lines d' G R P|n N1 N2 N3 E]; [exact (reads_ddl H message a st t d' G F P)|exact (reads_excel H message a st w d' rest ms' N G F R)
    |exact (reads_cluster H message a st lines d' G R P)|exact (reads_nothing H message a st n N1 N2 N3 E)].
Qed.
Lemma succeeded H message a st st' : no_failures H -> convert_accepts a -> version a = false -> right_kind a st -> has_task a ->
  convert H message a st = (st', Ok tt) -> exists d ms script w r response, reads H message a st d ms
    /\ (validate_option a = true -> validate d = Ok r)
    /\ (is_given (to_tql a) \/ is_given (to_ts a) -> tql_script (case_of a) (create_db a) d = Ok script)
    /\ (is_given (to_excel a) -> exists f, write_database (h_fresh H) new_writer d (text (to_excel a)) = Ok (w, f))
    /\ (forall c, In c (to_send a script) -> h_run H (sent st ++ asked a) c = Ok response).
Proof.
  intros NF CA NV RK TK E. rewrite (convert_starts H message a st CA NV) in E. apply then_inv in E. destruct E as (s1 & o & E1 & E).
  destruct (read_inv H message a _ _ _ NF CA (RK : right_kind a (emit (Namespace (convert_namespace a)) st)) E1) as [-> |[d [ms RD]]].
  { exfalso. apply then_inv in E. destruct E as (s2 & [] & E2 & E). apply then_inv in E. destruct E as (s3 & [] & E3 & E). apply then_inv in E. destruct E as (s4 & [] & E4 & E).
    unfold has_task in TK. destruct TK as [B|TK]; [rewrite B in E2; discriminate|]. rewrite <- !given_iff in TK.
    destruct TK as [B|[B|B]]; [rewrite B in E3|rewrite B in E4|rewrite B in E]; cbn [when] in *.
    - apply then_inv in E3. destruct E3 as (s5 & [] & _ & E3). exact (none_fails _ _ _ _ _ _ E3).
    - apply then_inv in E4. destruct E4 as (s5 & [] & _ & E4). discriminate.
    - apply then_inv in E. destruct E as (s5 & [] & _ & E). discriminate. }
  destruct (does_read H message a _ d ms NF CA RD) as [dd [[AN [AS [AV AW]]] [_ [s1' [E1' X1]]]]]. rewrite E1' in E1. injection E1 as -> <-.
  apply then_inv in E. destruct E as (s2 & [] & E2 & E). apply then_inv in E. destruct E as (s3 & [] & E3 & E). apply then_inv in E. destruct E as (s4 & [] & E4 & E).
  assert (V : exists r, (validate_option a = true -> validate d = Ok r) /\ sent s2 = sent s1).
  { destruct (validate_option a); cbn [when] in E2; [|injection E2 as <-; exists new_result; split; [discriminate|reflexivity]].
    destruct (validate dd) as [r|e] eqn:V; [|unfold validate_step in E2; rewrite V in E2; discriminate]. exists r. split; [intros _; symmetry; exact AV|].
    destruct (does_validate dd r s1 V) as [s2' [E2' X2]]. rewrite E2' in E2. injection E2 as ->. rewrite (ef_sent _ _ _ _ _ _ X2), app_nil_r. reflexivity. }
  destruct V as [r [V S2]].
  assert (S3 : sent s3 = sent s2 /\ (is_given (to_tql a) -> exists s, tql_script (case_of a) (create_db a) d = Ok s)).
  { destruct (given (to_tql a)) eqn:B; cbn [when] in E3.
    - apply given_iff in B. apply then_inv in E3. destruct E3 as (s5 & [] & E5 & E3). destruct (script_ok _ _ _ _ _ _ _ E3) as [s S]. split; [|rewrite <- AS; eauto].
      destruct (given_text _ B) as [_ T]. destruct (does_write H (text (to_tql a)) _ _ s5 NF B S) as [s3' [E3' X3]].
      assert (E3'' : perform (smart_open (h_env H) (Some (text (to_tql a))) (fun h => write_all (h_env H) h (tql_texts (case_of a) (create_db a) dd))) s5 = (s3, Ok tt)) by (rewrite <- T; exact E3).
      pose proof (eq_trans (eq_sym E3') E3'') as Q. apply pair_equal_spec in Q. destruct Q as [-> _]. rewrite (ef_sent _ _ _ _ _ _ X3), app_nil_r. injection E5 as <-. reflexivity.
    - apply given_false in B. injection E3 as <-. split; [reflexivity|contradiction]. }
  destruct S3 as [S3 Q3].
  assert (S4 : sent s4 = sent s3 /\ exists w, is_given (to_excel a) -> exists f, write_database (h_fresh H) new_writer d (text (to_excel a)) = Ok (w, f)).
  { destruct (given (to_excel a)) eqn:B; cbn [when] in E4.
    - apply given_iff in B. apply then_inv in E4. destruct E4 as (s5 & [] & E5 & E4). unfold write_excel in E4. destruct (given_text _ B) as [PT _]. rewrite PT in E4.
      destruct (write_database (h_fresh H) new_writer dd (text (to_excel a))) as [[w f]|e] eqn:W; [|discriminate]. rewrite AW in W. rewrite W. cbn [lift then_] in E4.
      unfold then_, lift in E4. destruct (open_fails (h_env H) f); [discriminate|]. injection E4 as <-. injection E5 as <-. split; [reflexivity|]. eauto.
    - apply given_false in B. injection E4 as <-. split; [reflexivity|]. exists []. contradiction. }
  destruct S4 as [S4 [w Q4]].
  assert (S1 : sent s1 = sent st ++ asked a) by (rewrite (ef_sent _ _ _ _ _ _ X1); reflexivity).
  destruct (given (to_ts a)) eqn:B; cbn [when] in E.
  - pose proof (proj1 (given_iff _) B) as G. apply then_inv in E. destruct E as (s5 & [] & E5 & E). unfold write_to_ts in E. destruct (given_text _ G) as [PT _]. rewrite PT in E.
    apply then_inv in E. destruct E as (s6 & [] & E6 & E). destruct (script_ok _ _ _ _ _ _ _ E6) as [s S]. destruct (temp_name (db_name dd)) as [N1 N2].
    destruct (does_write H (db_name dd ++ $".tmp") _ _ s5 NF N1 S) as [s6' [E6' X6]]. pose proof (eq_trans (eq_sym E6') E6) as Q. apply pair_equal_spec in Q. destruct Q as [-> _]. rewrite N2 in X6. cbn [if_true] in X6.
    assert (F6 : files s6 (db_name dd ++ $".tmp") = Some (Text s)) by (rewrite (ef_files _ _ _ _ _ _ X6); unfold upd; rewrite str_eqb_refl; reflexivity).
    apply then_inv in E. destruct E as (s7 & t & E7 & E). unfold read_text in E7. rewrite F6 in E7. injection E7 as <- <-.
    apply then_inv in E. destruct E as (s8 & response & E8 & _). unfold run_tql_command in E8.
    match type of E8 with context [h_run H ?x ?c] => destruct (h_run H x c) as [ls|e] eqn:R end; [|discriminate]. injection E8 as _ ->.
    exists d, ms, s, w, r, response. split; [exact (reads_before _ _ _ _ _ _ _ RD)|]. split; [exact V|]. split; [intros _; rewrite <- AS; exact S|]. split; [exact Q4|].
    intros c I. unfold to_send in I. rewrite (given_yes _ _ B) in I. destruct I as [<-|[]]. rewrite <- R. f_equal. rewrite (ef_sent _ _ _ _ _ _ X6), app_nil_r.
    injection E5 as <-. change (sent (emit ?x ?y)) with (sent y). congruence.
  - destruct (given (to_tql a)) eqn:B'.
    + destruct (Q3 (proj1 (given_iff _) B')) as [s S]. exists d, ms, s, w, r, []. split; [exact (reads_before _ _ _ _ _ _ _ RD)|]. split; [exact V|]. split; [intros _; exact S|]. split; [exact Q4|].
      intros c I. unfold to_send in I. rewrite (proj1 (given_no _ _ B)) in I. destruct I.
    + exists d, ms, [], w, r, []. split; [exact (reads_before _ _ _ _ _ _ _ RD)|]. split; [exact V|]. split; [intros [Z|Z]; apply given_iff in Z; congruence|]. split; [exact Q4|].
      intros c I. unfold to_send in I. rewrite (proj1 (given_no _ _ B)) in I. destruct I.
Qed.

(** ** The three statuses *)
(** C123: a command line that can be read gives 0 when the tool ends by itself and 1 when it is stopped
    by an exception.  Any other one gives 2 and one message, or it asks for help, which gives 0; nothing is
    done then. *)
Lemma main_parsed p ws l : declared p -> SpecArgs.line p ws l -> exists ns, parse_args p ws = Parsed ns.
Proof. intros D L. exists (values p l). apply (C102_exact p ws _ D). eauto. Qed.
Theorem C123_convert : forall H message help usage ws st, let status := convert_status H message help usage ws st in
  (forall l, SpecArgs.line convert_parser ws l ->
     (status = 0 <-> exists st', convert H message (convert_values l) st = (st', Ok tt))
     /\ (status = 1 <-> exists st' e, convert H message (convert_values l) st = (st', Err e)) /\ (status = 0 \/ status = 1))
  /\ ((forall l, ~ SpecArgs.line convert_parser ws l) -> exists st', fst (convert_main H message help usage ws st) = st' /\ nothing_done st st'
        /\ ((status = 0 /\ out st' = out st ++ [Printed (help ++ [newline])] /\ err st' = err st)
            \/ (status = 2 /\ out st' = out st /\ exists m, err st' = err st ++ [m]))).
Proof.
  intros H message help usage ws st. cbv zeta. unfold convert_status, exit_status. destruct (C102_convert H message help usage ws) as [A B]. split.
  - intros l L. destruct (main_parsed _ _ _ ArgTools.convert_declared L) as [ns ->]. destruct (A l L) as [-> _].
    destruct (convert H message (convert_values l) st) as [st' [[]|e]]; cbn [snd]; (split; [|split; [|auto]]); split; intros X; try discriminate; eauto;
      destruct X as [s X]; first [discriminate X | destruct X as [e' X]; discriminate X].
  - intros N. destruct (B N st) as (st' & E & F & S' & K). exists st'. rewrite E. cbn [fst snd]. split; [reflexivity|]. split; [split; [intros n; rewrite F; reflexivity|exact S']|].
    destruct K as [(-> & O & R)|(r & -> & O & R)]; [left; auto|right; eauto].
Qed.
Print Assumptions C123_convert.
Theorem C123_diff : forall H help usage ws st, let status := diff_status H help usage ws st in
  (forall l, SpecArgs.line diff_parser ws l ->
     (status = 0 <-> exists st', ddldiff H (diff_values l) st = (st', Ok tt))
     /\ (status = 1 <-> exists st' e, ddldiff H (diff_values l) st = (st', Err e)) /\ (status = 0 \/ status = 1))
  /\ ((forall l, ~ SpecArgs.line diff_parser ws l) -> exists st', fst (diff_main H help usage ws st) = st' /\ nothing_done st st'
        /\ ((status = 0 /\ out st' = out st ++ [Printed (help ++ [newline])] /\ err st' = err st)
            \/ (status = 2 /\ out st' = out st /\ exists m, err st' = err st ++ [m]))).
Proof.
  intros H help usage ws st. cbv zeta. unfold diff_status, exit_status. destruct (C102_diff H help usage ws) as [A B]. split.
  - intros l L. destruct (main_parsed _ _ _ ArgTools.diff_declared L) as [ns ->]. destruct (A l L) as [-> _].
    destruct (ddldiff H (diff_values l) st) as [st' [[]|e]]; cbn [snd]; (split; [|split; [|auto]]); split; intros X; try discriminate; eauto;
      destruct X as [s X]; first [discriminate X | destruct X as [e' X]; discriminate X].
  - intros N. destruct (B N st) as (st' & E & F & S' & K). exists st'. rewrite E. cbn [fst snd]. split; [reflexivity|]. split; [split; [intros n; rewrite F; reflexivity|exact S']|].
    destruct K as [(-> & O & R)|(r & -> & O & R)]; [left; auto|right; eauto].
Qed.
Print Assumptions C123_diff.

(** ** 0 means done *)
(** C123: when convert_ddl accepts its arguments and has something to do, status 0 means that it is done:
    a model was read, and every place named holds it.  Files and clusters may fail in any way. *)
Theorem C123_done : forall H message help usage ws st l, SpecArgs.line convert_parser ws l -> let a := convert_values l in
  convert_accepts a -> version a = false -> right_kind a st -> has_task a -> convert_status H message help usage ws st = 0 ->
  exists d ms script w r response, reads H message a st d ms
    /\ (validate_option a = true -> validate d = Ok r)
    /\ (is_given (to_tql a) \/ is_given (to_ts a) -> tql_script (case_of a) (create_db a) d = Ok script)
    /\ (is_given (to_excel a) -> exists f, write_database (h_fresh H) new_writer d (text (to_excel a)) = Ok (w, f))
    /\ converted a d script (saved (h_calc H) w) r ms response st (fst (convert_main H message help usage ws st)).
Proof.
  intros H message help usage ws st l L a CA NV RK TK S. destruct (C123_convert H message help usage ws st) as [A _]. destruct (A l L) as [[A' _] _].
  destruct (A' S) as [st' E]. fold a in E. apply follows_untroubled in E.
  destruct (succeeded (untroubled H) message a st st' (conj (fun _ => eq_refl) (fun _ _ _ => eq_refl)) CA NV RK TK E) as (d & ms & script & w & r & response & RD & V & SC & X & R).
  destruct (C79_converted (untroubled H) message a st d ms script w r response (conj (fun _ => eq_refl) (fun _ _ _ => eq_refl)) CA NV RD V SC X R) as [st'' [E' C]].
  exists d, ms, script, w, r, response. split.
  { destruct RD as [t d' G F P|w' d' rest ms' N G F R'|lines d' G R' P|n N1 N2 N3 Q]; [exact (reads_ddl H message a st t d' G F P)|exact (reads_excel H message a st w' d' rest ms' N G F R')
    |exact (reads_cluster H message a st lines d' G R' P)|exact (reads_nothing H message a st n N1 N2 N3 Q)]. }
  split; [exact V|]. split; [exact SC|]. split; [exact X|].
  destruct (C102_convert H message help usage ws) as [B _]. destruct (B l L) as [-> _]. destruct (A' S) as [s0 E0]. fold a in E0 |- *. rewrite E0. cbn [fst].
  apply follows_untroubled in E0. rewrite E0 in E'. injection E' as ->. exact C.
Qed.
Print Assumptions C123_done.
(** And where nothing fails, it is 0 exactly if there is a model to read that can be written. *)
Theorem C123_exact : forall H message help usage ws st l, no_failures H -> SpecArgs.line convert_parser ws l -> let a := convert_values l in
  convert_accepts a -> version a = false -> right_kind a st -> has_task a ->
  (convert_status H message help usage ws st = 0 <-> exists d ms script w r response, reads H message a st d ms
    /\ (validate_option a = true -> validate d = Ok r)
    /\ (is_given (to_tql a) \/ is_given (to_ts a) -> tql_script (case_of a) (create_db a) d = Ok script)
    /\ (is_given (to_excel a) -> exists f, write_database (h_fresh H) new_writer d (text (to_excel a)) = Ok (w, f))
    /\ (forall c, In c (to_send a script) -> h_run H (sent st ++ asked a) c = Ok response)).
Proof.
  intros H message help usage ws st l NF L a CA NV RK TK. destruct (C123_convert H message help usage ws st) as [A _]. destruct (A l L) as [A' _]. rewrite A'. fold a. split.
  - intros [st' E]. exact (succeeded H message a st st' NF CA NV RK TK E).
  - intros (d & ms & script & w & r & response & RD & V & SC & X & R). destruct (C79_converted H message a st d ms script w r response NF CA NV RD V SC X R) as [st' [E _]]. eauto.
Qed.
Print Assumptions C123_exact.

(** ** 0 does not mean done *)
(** C123 as stated is false: arguments that are not accepted give 0 although nothing is done, *)
Theorem C123_rejected_refuted : forall H message help usage st,
  (forall ws l, SpecArgs.line convert_parser ws l -> ~ convert_accepts (convert_values l) ->
     convert_status H message help usage ws st = 0 /\ nothing_done st (fst (convert_main H message help usage ws st)))
  /\ (forall ws l, SpecArgs.line diff_parser ws l -> ~ diff_accepts (diff_values l) st ->
     diff_status H help usage ws st = 0 /\ nothing_done st (fst (diff_main H help usage ws st))).
Proof.
  intros H message help usage st. split; intros ws l L N.
  - destruct (C123_convert H message help usage ws st) as [A _]. destruct (A l L) as [A' _]. destruct (proj2 (C65_convert _ st) N) as (m & st' & _ & (F & _ & S' & _) & _ & _ & E). specialize (E H message).
    split; [apply A'; eauto|]. destruct (C102_convert H message help usage ws) as [B _]. destruct (B l L) as [-> _]. rewrite E. split; assumption.
  - destruct (C123_diff H help usage ws st) as [A _]. destruct (A l L) as [A' _]. destruct (proj2 (C65_ddldiff _ st) N) as (ms & st' & _ & (F & _ & S' & _) & _ & _ & E). specialize (E H).
    split; [apply A'; eauto|]. destruct (C102_diff H help usage ws) as [B _]. destruct (B l L) as [-> _]. rewrite E. split; assumption.
Qed.
Print Assumptions C123_rejected_refuted.
(** and so does a DDL file that does not exist, as long as nothing is to be done with the model. *)
Theorem C123_missing_refuted : forall H message help usage ws st l, SpecArgs.line convert_parser ws l -> let a := convert_values l in
  convert_accepts a -> version a = false -> is_given (from_ddl a) -> files st (text (from_ddl a)) = None ->
  (convert_status H message help usage ws st = 0 <-> ~ has_task a).
Proof.
  intros H message help usage ws st l L a CA NV G F. destruct (C123_convert H message help usage ws st) as [A _]. destruct (A l L) as [A' _]. rewrite A'. fold a. clear A A'.
  assert (R : exists st1, read_step H message a (emit (Namespace (convert_namespace a)) st) = (st1, Ok None)).
  { unfold read_step. rewrite (proj2 (given_iff _) G). unfold then_, print, read_ddl, parse_file, exists_. destruct (given_text _ G) as [-> _]. rewrite ?files_emit. rewrite F. eexists. reflexivity. }
  destruct R as [st1 R]. rewrite (convert_starts H message a st CA NV). unfold then_ at 1. rewrite R. unfold has_task. rewrite <- !given_iff. split.
  - intros [st' E] TK. apply then_inv in E. destruct E as (s2 & [] & E2 & E). apply then_inv in E. destruct E as (s3 & [] & E3 & E). apply then_inv in E. destruct E as (s4 & [] & E4 & E).
    destruct TK as [B|[B|[B|B]]]; [rewrite B in E2; discriminate|rewrite B in E3|rewrite B in E4|rewrite B in E]; cbn [when] in *.
    + apply then_inv in E3. destruct E3 as (s5 & [] & _ & E3). exact (none_fails _ _ _ _ _ _ E3).
    + apply then_inv in E4. destruct E4 as (s5 & [] & _ & E4). discriminate.
    + apply then_inv in E. destruct E as (s5 & [] & _ & E). discriminate.
  - intros N. destruct (validate_option a), (given (to_tql a)), (given (to_excel a)), (given (to_ts a)); try (exfalso; apply N; auto 6; fail). eexists. reflexivity.
Qed.
Print Assumptions C123_missing_refuted.
(** A model with errors gives 0 as one without does. *)
Theorem C123_invalid_refuted : forall H message help usage ws st l d ms r, no_failures H -> SpecArgs.line convert_parser ws l -> let a := convert_values l in
  convert_accepts a -> version a = false -> right_kind a st -> reads H message a st d ms -> validate_option a = true -> validate d = Ok r ->
  ~ is_given (to_tql a) -> ~ is_given (to_excel a) -> ~ is_given (to_ts a) -> convert_status H message help usage ws st = 0.
Proof.
  intros H message help usage ws st l d ms r NF L a CA NV RK RD V VR N1 N2 N3. apply (C123_exact H message help usage ws st l NF L CA NV RK (or_introl V)).
  exists d, ms, [], [], r, []. split; [exact RD|]. split; [intros _; exact VR|]. split; [intros [G|G]; contradiction|]. split; [contradiction|].
  intros c I. unfold to_send in I. fold a in I. rewrite (proj1 (given_no _ _ (proj2 (given_false _) N3))) in I. destruct I.
Qed.
Print Assumptions C123_invalid_refuted.
(** ddldiff returns 0 whether the databases differ or not. *)
Theorem C123_differences_refuted : forall H help usage ws st l d1 d2, no_failures H -> SpecArgs.line diff_parser ws l -> let a := diff_values l in
  both_read a st d1 d2 -> alter1 a = false -> alter2 a = false -> diff_status H help usage ws st = 0.
Proof.
  intros H help usage ws st l d1 d2 NF L a B A1 A2. destruct (C123_diff H help usage ws st) as [A _]. destruct (A l L) as [A' _]. apply A'. fold a.
  destruct (C87_ddldiff H a st d1 d2 NF B) as (l1 & l2 & _ & _ & _ & K). destruct (K [] []) as (st' & E & _); [congruence|congruence|]. eauto.
Qed.
Print Assumptions C123_differences_refuted.
(** With --alter1 alone it is 1 exactly if the changes cannot be written: a table of both has a key in the
    second model that is not its key in the first. *)
Theorem C123_alter1 : forall H help usage ws st l d1 d2, no_failures H -> SpecArgs.line diff_parser ws l -> let a := diff_values l in
  both_read a st d1 d2 -> alter1 a = true -> alter2 a = false ->
  (diff_status H help usage ws st = 0 <-> forall n t1 t2, get_table d1 n = Some t1 -> get_table d2 n = Some t2 -> t_pk t2 = [] \/ t_pk t1 = t_pk t2).
Proof.
  intros H help usage ws st l d1 d2 NF L a B A1 A2. destruct (C123_diff H help usage ws st) as [A _]. destruct (A l L) as [A' _]. rewrite A'. fold a.
  rewrite <- (C87_alter1 H a st d1 d2 NF B A1 A2). destruct (ddldiff H a st) as [st' r]. cbn [snd]. split; [intros [s E]; congruence|intros ->; eauto].
Qed.
Print Assumptions C123_alter1.

(** ** A case *)
Definition some_words : list str := [$"--from_ddl"; $"in.ddl"; $"--to_tql"; $"out.tql"; $"--database"; $"d"].
Example C123_case : exists l, SpecArgs.line convert_parser some_words l /\ convert_accepts (convert_values l) /\ version (convert_values l) = false
  /\ right_kind (convert_values l) small_state /\ has_task (convert_values l) /\ convert_status quiet (fun _ => []) [] (fun _ => []) some_words small_state = 0.
Proof.
  assert (T : forall w o n v, In o convert_parser -> In ($"--" ++ n) (o_names o) -> n <> [] -> w = $"--" ++ n -> takes_text o -> parse_optional convert_parser v = Argument ->
              item convert_parser [w; v] [(o, Some v)]).
  { intros w o n v I N E -> K A. apply it_text; [apply (exact_long _ _ n); assumption|exact K|apply (text_word_argument _ _ ArgTools.convert_declared); exact A]. }
  exists [(takes [] ($"from_ddl") ANone, Some ($"in.ddl")); (takes [] ($"to_tql") ANone, Some ($"out.tql")); (takes [$"-d"] ($"database") ANone, Some ($"d"))]. split.
  - apply (li_more _ [$"--from_ddl"; $"in.ddl"] [_]); [apply (T _ _ ($"from_ddl")); [member|member|discriminate|reflexivity|eexists; reflexivity|vm_compute; reflexivity]|].
    apply (li_more _ [$"--to_tql"; $"out.tql"] [_]); [apply (T _ _ ($"to_tql")); [member|member|discriminate|reflexivity|eexists; reflexivity|vm_compute; reflexivity]|].
    apply (li_more _ [$"--database"; $"d"] [_] [] []); [apply (T _ _ ($"database")); [member|member|discriminate|reflexivity|eexists; reflexivity|vm_compute; reflexivity]|constructor].
  - split; [split; [right; right; left; discriminate|intros _; discriminate]|]. split; [reflexivity|]. split; [split; intros x; vm_compute; discriminate|]. split; [right; left; discriminate|]. vm_compute. reflexivity.
Qed.
(** no such file; an option that does not exist; no source *)
Example C123_case_others :
  convert_status quiet (fun _ => []) [] (fun _ => []) [$"--from_ddl"; $"no.ddl"; $"--to_tql"; $"out.tql"; $"--database"; $"d"] small_state = 1
  /\ convert_status quiet (fun _ => []) [] (fun _ => []) [$"--from_ddl"; $"no.ddl"; $"--database"; $"d"] small_state = 0
  /\ convert_status quiet (fun _ => []) [] (fun _ => []) [$"--from_dll"; $"in.ddl"] small_state = 2
  /\ convert_status quiet (fun _ => []) [] (fun _ => []) [$"--help"] small_state = 0
  /\ convert_status quiet (fun _ => []) [] (fun _ => []) [$"--from_ddl"; $"in.ddl"; $"--validate"; $"--database"; $"d"] small_state = 0
  /\ convert_status quiet (fun _ => []) [] (fun _ => []) [$"--to_tql"; $"out.tql"] small_state = 0
  /\ diff_status quiet [] (fun _ => []) [$"--ddl1"; $"in.ddl"; $"--ddl2"; $"in.ddl"] small_state = 0
  /\ diff_status quiet [] (fun _ => []) [$"--ddl1"; $"in.ddl"; $"--ddl2"; $"in.ddl"; $"--alter2"] small_state = 0.
Proof. repeat split; vm_compute; reflexivity. Qed.
