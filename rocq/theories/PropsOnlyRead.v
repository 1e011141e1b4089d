(** * C112: ddldiff and review_model leave files alone *)
From Verif Require Import StrFacts ParsedFacts CliFacts CliFrame CliReviewFacts SpecCliReview SpecCliDiff PropsCli PropsCliReview PropsCliDiff PropsTemp SilentFacts.
From Coq Require Import List. Import ListNotations.

(** ** ddldiff *)
Definition mute {A} (m : cli A) : Prop := forall st, sent (fst (m st)) = sent st.
Lemma mute_then {A B} (m : cli A) (f : A -> cli B) : mute m -> (forall a, mute (f a)) -> mute (then_ m f).
Proof. intros M F st. unfold then_. pose proof (M st) as E. destruct (m st) as [st1 [a|e]]; cbn [fst] in E; [rewrite (F a st1); exact E|exact E]. Qed.
Lemma mute_when b m : mute m -> mute (when b m).
Proof. destruct b; [exact (fun x => x)|intros _ st; reflexivity]. Qed.
Lemma mute_each {A} (f : A -> cli unit) : (forall x, mute (f x)) -> forall l, mute (each f l).
Proof. intros M. induction l as [|x l IH]; [intros st; reflexivity|]. apply mute_then; [apply M|intros _; exact IH]. Qed.
Lemma mute_parse H name schema n : mute (parse_file H name schema n).
Proof.
  assert (E : forall l, mute (Cli.each (fun m => eprint (Messages.message_text (h_reason H) m)) l)) by (apply mute_each; intros m st; reflexivity).
  intros st. unfold parse_file. destruct (exists_ st n); [|reflexivity].
  match goal with |- sent (fst (?m st)) = _ => cut (mute m); [intros M; apply M|] end. clear st.
  apply mute_then; [intros st; reflexivity|]. intros d0. apply mute_then; [intros st; reflexivity|]. intros t st. cbn zeta.
  destruct (Messages.heard_statements schema (objects st) (get_statements t) d0) as [r ms].
  match goal with |- sent (fst (?m st)) = _ => cut (mute m); [intros M; apply M|] end. clear st.
  apply mute_then; [apply E|]. intros _. apply mute_then; [intros st; reflexivity|]. intros _. apply mute_then; [intros st; reflexivity|]. intros d st. reflexivity.
Qed.
Lemma happen_sent tr : forall st, sent (fold_left happen tr st) = sent st.
Proof. induction tr as [|e tr IH]; intros st; [reflexivity|]. cbn [fold_left]. rewrite IH. destruct e as [n|[|n] x|n]; reflexivity. Qed.
Lemma mute_perform {A} (m : io A) : mute (perform m).
Proof. intros st. unfold perform. destruct (m []) as [tr r]. apply happen_sent. Qed.
Lemma mute_check n : mute (check_file n).
Proof. intros st. unfold check_file. destruct (exists_ st n); reflexivity. Qed.
Lemma keeps_check P n : keeps P (check_file n).
Proof. apply keeps_same; intros st; [intros m|..]; unfold check_file; destruct (exists_ st n); reflexivity. Qed.
Lemma keeps_alters H P l : keeps P (perform (write_alters (h_env H) l None)).
Proof. apply keeps_writes. intros n E. discriminate. Qed.
Lemma ddldiff_keeps H a : keeps (fun _ => False) (ddldiff H a).
Proof.
  unfold ddldiff. apply keeps_then.
  - unfold diff_valid_args. destruct (negb (given (ddl1 a)) || negb (given (ddl2 a))); [apply keeps_then; [apply keeps_eprint|intros _; apply keeps_done]|].
    apply keeps_then; [apply keeps_check|]. intros b1. apply keeps_then; [apply keeps_check|]. intros b2. apply keeps_done.
  - intros b. destruct (negb b); [apply keeps_done|]. apply keeps_then; [apply keeps_emit|]. intros _. apply keeps_then; [apply keeps_parse|]. intros o1. apply keeps_then; [apply keeps_parse|]. intros o2.
    apply keeps_then; [destruct o1; [apply keeps_done|apply keeps_fails]|]. intros d1. apply keeps_then; [destruct o2; [apply keeps_done|apply keeps_fails]|]. intros d2. apply keeps_then; [apply keeps_lift|]. intros [l1 l2].
    apply keeps_then; [apply keeps_when, keeps_then; [apply keeps_print|intros _; apply keeps_alters]|]. intros _. apply keeps_then; [apply keeps_when, keeps_then; [apply keeps_print|intros _; apply keeps_alters]|]. intros _.
    apply keeps_when, keeps_then; [|intros _]; unfold show_differences; (apply keeps_then; [apply keeps_print|intros _; apply keeps_each; intros d; apply keeps_print]).
Qed.
Lemma ddldiff_mute H a : mute (ddldiff H a).
Proof.
  unfold ddldiff. apply mute_then.
  - unfold diff_valid_args. destruct (negb (given (ddl1 a)) || negb (given (ddl2 a))); [intros st; reflexivity|].
    apply mute_then; [apply mute_check|]. intros b1. apply mute_then; [apply mute_check|]. intros b2 st. reflexivity.
  - intros b. destruct (negb b); [intros st; reflexivity|]. apply mute_then; [intros st; reflexivity|]. intros _. apply mute_then; [apply mute_parse|]. intros o1. apply mute_then; [apply mute_parse|]. intros o2.
    apply mute_then; [destruct o1; intros st; reflexivity|]. intros d1. apply mute_then; [destruct o2; intros st; reflexivity|]. intros d2. apply mute_then; [intros st; reflexivity|]. intros [l1 l2].
    apply mute_then; [apply mute_when, mute_then; [intros st; reflexivity|intros _; apply mute_perform]|]. intros _. apply mute_then; [apply mute_when, mute_then; [intros st; reflexivity|intros _; apply mute_perform]|]. intros _.
    apply mute_when, mute_then; [|intros _]; unfold show_differences; (apply mute_then; [intros st; reflexivity|intros _; apply mute_each; intros d st; reflexivity]).
Qed.
(** ddldiff changes no file and sends nothing, whatever it is given and however it ends. *)
Theorem C112_ddldiff : forall H a st, (forall n, files (fst (ddldiff H a st)) n = files st n) /\ sent (fst (ddldiff H a st)) = sent st.
Proof. intros H a st. split; [intros n; apply (kp_files _ _ (ddldiff_keeps H a)); intros []|apply ddldiff_mute]. Qed.
Print Assumptions C112_ddldiff.

(** ** review_model *)
(** the file it writes what it reads from the cluster into *)
Definition scratch (a : review_args) (n : str) : Prop := is_given (ts_ip a) /\ n = (match r_database a with Some s => s | None => $"None" end) ++ $".tmp".
Lemma keeps_speak P vs : keeps P (Cli.each speak vs).
Proof. apply keeps_each. intros [n|n]; [apply keeps_print|apply keeps_eprint]. Qed.
Lemma keeps_record P a h : keeps P (record_queries a h).
Proof. split; intros st; cbn [record_queries fst files out sent]; [reflexivity|apply same_app|eexists; reflexivity]. Qed.
Lemma keeps_review_valid P a : keeps P (review_valid_args a).
Proof.
  assert (K : forall b1 b2 b3 b4 b5 s1 s2 s3 s4 s5 r, keeps P (_ <-- complain b1 s1 ;; _ <-- complain b2 s2 ;; _ <-- complain b3 s3 ;; _ <-- complain b4 s4 ;; _ <-- complain b5 s5 ;; done (r : bool))).
  { intros. repeat (apply keeps_then; [apply keeps_when, keeps_eprint|intros _]). apply keeps_done. }
  split; intros st; unfold review_valid_args; [apply (kp_files _ _ (K _ _ _ _ _ _ _ _ _ _ _))|apply (kp_out _ _ (K _ _ _ _ _ _ _ _ _ _ _))|apply (kp_sent _ _ (K _ _ _ _ _ _ _ _ _ _ _))].
Qed.
Section Review.
Variables (H : host) (order : list str -> list str) (rnd : Q -> Q) (commas : setting -> str) (float_str : Q -> str) (fuel : nat) (safe_load : str -> result yaml)
  (queries : str -> str -> str -> oracle) (help : str) (documented : list (str * list str * option str)).
Lemma keeps_reviews P a d ws rtql : keeps P (run_reviews H order rnd commas float_str fuel a d ws rtql).
Proof.
  unfold run_reviews. destruct d as [d|]; [|apply keeps_fails]. destruct (review_aloud _ _ _ _ _ _ _ _ _ _ _ _) as [[r h] vs]. apply keeps_then; [apply keeps_speak|]. intros _. apply keeps_then; [apply keeps_record|]. intros _. apply keeps_lift.
Qed.
Lemma keeps_listing {A} P (f : A -> str) (g : A -> list str) l : keeps P (Cli.each (fun kv => _ <-- print (f kv) ;; Cli.each (fun s => print ([tab] ++ s)) (g kv)) l).
Proof. apply keeps_each. intros kv. apply keeps_then; [apply keeps_print|]. intros _. apply keeps_each. intros x. apply keeps_print. Qed.
Lemma keeps_descriptions P : keeps P (show_descriptions documented).
Proof.
  unfold show_descriptions. apply keeps_then; [apply keeps_lift|]. intros l. apply keeps_then; [apply keeps_print|]. intros _. apply keeps_then; [|intros _; apply keeps_print].
  apply keeps_each. intros kv. apply keeps_then; [apply keeps_print|]. intros _. apply keeps_then; [apply keeps_print|]. intros _. apply keeps_each. intros x. apply keeps_print.
Qed.
Lemma keeps_worksheet P n : keeps P (read_worksheet_file H safe_load n).
Proof. apply keeps_then; [apply keeps_read|]. intros t. apply keeps_lift. Qed.
(** what follows the reading of the model *)
Definition rest (a : review_args) (d : option database) : cli unit :=
  ws <-- (if given (worksheet_file a) then w <-- read_worksheet_file H safe_load (py_text (worksheet_file a)) ;; done (Some w) else done None) ;;
  let rtql := if given (ts_ip a) then Some (queries (py_text (ts_ip a)) (r_username a) (r_password a)) else None in
  results <-- run_reviews H order rnd commas float_str fuel a d ws rtql ;;
  Cli.each (fun kv => _ <-- print (fst kv ++ $":") ;; Cli.each (fun s => print ([tab] ++ s)) (snd kv)) results.
Lemma keeps_rest P a d : keeps P (rest a d).
Proof.
  unfold rest. apply keeps_then; [destruct (given (worksheet_file a)); [apply keeps_then; [apply keeps_worksheet|intros w; apply keeps_done]|apply keeps_done]|].
  intros ws. apply keeps_then; [apply keeps_reviews|]. intros r. apply keeps_listing.
Qed.
Lemma review_keeps a : keeps (scratch a) (review_tool H order rnd commas float_str fuel safe_load queries help documented a).
Proof.
  unfold review_tool. apply keeps_then; [apply keeps_review_valid|]. intros b. destruct (negb b); [apply keeps_emit|]. apply keeps_then; [apply keeps_emit|]. intros _. destruct (r_version a); [apply keeps_print|].
  apply keeps_then; [apply keeps_when, keeps_descriptions|]. intros _. destruct (given (ts_ip a) || given (database_file a)); [|apply keeps_done]. apply keeps_then; [|intros d; apply (keeps_rest _ a d)].
  destruct (given (ts_ip a)) eqn:G; [|apply keeps_parse]. apply given_iff in G. apply keeps_cluster. split; [exact G|reflexivity].
Qed.
Lemma review_cleans a : cleans (fun _ => False) (review_tool H order rnd commas float_str fuel safe_load queries help documented a).
Proof.
  unfold review_tool. apply cleans_then; [apply cleans_keeps, keeps_review_valid|]. intros b. destruct (negb b); [apply cleans_keeps, keeps_emit|]. apply cleans_then; [apply cleans_keeps, keeps_emit|]. intros _. destruct (r_version a); [apply cleans_keeps, keeps_print|].
  apply cleans_then; [apply cleans_keeps, keeps_when, keeps_descriptions|]. intros _. destruct (given (ts_ip a) || given (database_file a)); [|apply cleans_keeps, keeps_done]. apply cleans_then; [|intros d; apply cleans_keeps, (keeps_rest _ a d)].
  destruct (given (ts_ip a)) eqn:G; [apply cleans_cluster|apply cleans_keeps, keeps_parse].
Qed.
(** review_model changes at most one file, and none without an address: the one named after the database,
    for what it reads from the cluster.  This holds whatever it is given and however it ends. *)
Theorem C112_review : forall a st n, ~ scratch a n -> files (fst (review_tool H order rnd commas float_str fuel safe_load queries help documented a st)) n = files st n.
Proof. intros a st n N. exact (kp_files _ _ (review_keeps a) st n N). Qed.
(** A run that finishes leaves every file as it was, or has removed this one. *)
Theorem C112_review_finished : forall a st st', review_tool H order rnd commas float_str fuel safe_load queries help documented a st = (st', Ok tt) ->
  forall n, files st' n = files st n \/ files st' n = None /\ scratch a n.
Proof.
  intros a st st' E n. destruct (review_cleans a st st' tt E n (fun x => x)) as [Q|[Q [s T]]]; [left; exact Q|].
  destruct (given (ts_ip a)) eqn:G.
  - apply given_iff in G. destruct (str_eqb n (py_text (r_database a) ++ $".tmp")) eqn:Z; [apply str_eqb_eq in Z; right; split; [exact Q|split; [exact G|exact Z]]|].
    left. pose proof (kp_files _ _ (review_keeps a) st n) as W. rewrite E in W. apply W. intros [_ ->]. change (match r_database a with Some s => s | None => $"None" end) with (py_text (r_database a)) in Z. rewrite str_eqb_refl in Z. discriminate.
  - left. apply given_false in G. pose proof (kp_files _ _ (review_keeps a) st n) as W. rewrite E in W. apply W. intros [X _]. contradiction.
Qed.
End Review.
Print Assumptions C112_review.
Print Assumptions C112_review_finished.

(** ** What one would expect and does not hold *)
Lemma review_begins H order rnd commas float_str fuel safe_load queries help documented a st : review_accepts a st -> r_version a = false -> show_tests a = false -> is_given (ts_ip a) ->
  review_tool H order rnd commas float_str fuel safe_load queries help documented a st
  = (d <-- read_from_cluster H (text (ts_ip a)) (r_username a) (r_password a) (Some (text (r_database a))) ;; rest H order rnd commas float_str fuel safe_load queries a d) (emit (Namespace (review_namespace a)) st).
Proof.
  intros A V S G. destruct (C65_review a st) as [W _]. unfold review_tool, rest. unfold then_ at 1. rewrite (W A). cbn [negb]. unfold then_ at 1. rewrite V, S. unfold then_ at 1. cbn [Cli.when done]. rewrite (proj2 (given_iff _) G). cbn [orb].
  destruct (given_text _ G) as [-> _]. assert (Q : is_given (r_database a)) by (destruct (ra_database _ _ A) as [X|[X _]]; [congruence|exact X]). destruct (given_text _ Q) as [_ ->]. cbn [text]. reflexivity.
Qed.
(** An answer of the cluster that cannot be parsed stays behind in the file, in place of what was there. *)
Theorem C112_left_refuted : forall H order rnd commas float_str fuel safe_load queries help documented a st lines e, no_failures H -> review_accepts a st -> r_version a = false -> show_tests a = false -> is_given (ts_ip a) ->
  h_run H (sent st) (script_command (text (ts_ip a)) (r_username a) (r_password a) (text (r_database a))) = Ok lines ->
  parse_text (text (r_database a)) ($"falcon_default_schema") (flat_map line lines) = Err e ->
  exists st', review_tool H order rnd commas float_str fuel safe_load queries help documented a st = (st', Err e) /\ files st' (text (r_database a) ++ $".tmp") = Some (Text (flat_map line lines)).
Proof.
  intros H order rnd commas float_str fuel safe_load queries help documented a st lines e NF A V S G R P. rewrite review_begins by assumption. set (st0 := emit _ st). unfold read_from_cluster. cbn [py_text]. fold (script_command (text (ts_ip a)) (r_username a) (r_password a) (text (r_database a))).
  assert (R0 : h_run H (sent st0) (script_command (text (ts_ip a)) (r_username a) (r_password a) (text (r_database a))) = Ok lines) by exact R. destruct (does_run H _ _ st0 R0) as [st1 [E1 X1]]. destruct (temp_name (text (r_database a))) as [T1 T2].
  destruct (does_write H (text (r_database a) ++ $".tmp") _ _ st1 NF T1 (concat_lines lines)) as [st2 [E2 X2]]. rewrite T2 in X2. cbn [if_true] in X2.
  assert (F2 : files st2 (text (r_database a) ++ $".tmp") = Some (Text (flat_map line lines))) by (rewrite (ef_files _ _ _ _ _ _ X2); unfold upd; rewrite str_eqb_refl; reflexivity).
  unfold then_ at 1. unfold then_ at 1. rewrite E1. unfold then_ at 1. rewrite E2. unfold then_ at 1. change DEFAULT_SCHEMA with ($"falcon_default_schema"). rewrite (parse_file_is H _ _ _ _ st2 F2), P. cbn [map_ok].
  eexists. split; [reflexivity|]. exact F2.
Qed.
Print Assumptions C112_left_refuted.
(** Read with success, it is removed, even if it was there before the run. *)
Theorem C112_removed_refuted : forall H order rnd commas float_str fuel safe_load queries help documented a st lines d, no_failures H -> review_accepts a st -> r_version a = false -> show_tests a = false -> is_given (ts_ip a) ->
  h_run H (sent st) (script_command (text (ts_ip a)) (r_username a) (r_password a) (text (r_database a))) = Ok lines ->
  parse_text (text (r_database a)) ($"falcon_default_schema") (flat_map line lines) = Ok d ->
  files (fst (review_tool H order rnd commas float_str fuel safe_load queries help documented a st)) (text (r_database a) ++ $".tmp") = None.
Proof.
  intros H order rnd commas float_str fuel safe_load queries help documented a st lines d NF A V S G R P. rewrite review_begins by assumption. set (st0 := emit _ st).
  assert (R0 : h_run H (sent st0) (script_command (text (ts_ip a)) (r_username a) (r_password a) (text (r_database a))) = Ok lines) by exact R. destruct (does_cluster H _ _ _ _ _ d st0 NF R0 P) as [k [st1 [E1 X1]]].
  unfold then_ at 1. rewrite E1. rewrite (kp_files _ _ (keeps_rest H order rnd commas float_str fuel safe_load queries (fun _ => False) a (Some (renum k d))) st1 _ (fun x => x)).
  rewrite (ef_files _ _ _ _ _ _ X1). unfold upd. rewrite str_eqb_refl. reflexivity.
Qed.
Print Assumptions C112_removed_refuted.

(** ** Cases *)
Definition asking : review_args :=
  {| r_version := false; show_tests := false; database_file := None; worksheet_file := None; ts_ip := Some ($"host"); r_username := $"admin"; r_password := $"pw";
     r_database := Some ($"d"); r_debug := false; config_file := None |}.
(** a cluster whose answer is read, and one whose answer is not *)
Example C112_case : (forall st, review_accepts asking st) /\ is_given (ts_ip asking) /\ scratch asking ($"d.tmp") /\ ~ scratch asking ($"a.tql")
  /\ (exists d, parse_text (text (r_database asking)) ($"falcon_default_schema") (flat_map line [$"create table t (id int);"]) = Ok d)
  /\ (exists e, parse_text (text (r_database asking)) ($"falcon_default_schema") (flat_map line [$"create table a (x int,, y int);"]) = Err e).
Proof.
  split; [intros st; split; cbn; [right; split; [discriminate|right; discriminate]|intros [X _]; exact (X eq_refl)|intros X; destruct (X eq_refl)|intros X; destruct (X eq_refl)]|]. split; [discriminate|]. split; [split; [discriminate|reflexivity]|]. split; [intros [_ X]; discriminate|].
  split; eexists; vm_compute; reflexivity.
Qed.
Example C112_ddldiff_case :
  let a := {| ddl1 := Some ($"a.ddl"); ddl2 := Some ($"b.ddl"); database1 := $"d"; schema1 := $"s"; alter1 := true; alter2 := false; ignore_case := false |} in
  let st := set_file ($"b.ddl") (Some (Text ($"create table u (x int);" ++ [newline]))) (set_file ($"a.ddl") (Some (Text ($"create table t (x int);" ++ [newline]))) small_state) in
  snd (ddldiff quiet a st) = Ok tt /\ length (out (fst (ddldiff quiet a st))) = length (out st) + 4.
Proof. cbv zeta. split; vm_compute; reflexivity. Qed.
