(** * C82: temporary files of runs that finish *)
From Verif Require Import StrFacts ParsedFacts SpecCli CliFacts CliFrame PropsCli.

(** [cleans P m]: when [m] finishes, a file outside [P] is as before, or it is gone and had the name of a temporary file *)
Definition temporary (n : str) : Prop := exists s, n = s ++ $".tmp".
Definition cleans {A} (P : str -> Prop) (m : cli A) : Prop := forall st st' a, m st = (st', Ok a) -> forall n, ~ P n ->
  files st' n = files st n \/ files st' n = None /\ temporary n.
Lemma cleans_keeps {A} P (m : cli A) : keeps P m -> cleans P m.
Proof. intros K st st' a E n N. left. pose proof (kp_files _ _ K st n N) as Q. rewrite E in Q. exact Q. Qed.
Lemma cleans_then {A B} P (m : cli A) (f : A -> cli B) : cleans P m -> (forall a, cleans P (f a)) -> cleans P (then_ m f).
Proof.
  intros M F st st' b E n N. unfold then_ in E. destruct (m st) as [st1 [a|e]] eqn:E1; [|discriminate].
  destruct (F a st1 st' b E n N) as [Q|Q]; [|right; exact Q]. rewrite Q. exact (M st st1 a E1 n N).
Qed.
Lemma cleans_when P b m : cleans P m -> cleans P (when b m).
Proof. destruct b; [exact (fun x => x)|]. intros _. apply cleans_keeps, keeps_done. Qed.
(** writing a file and removing it afterwards *)
Lemma cleans_removed {A B} (m : cli A) (f : A -> cli B) s P : keeps (fun n => n = s ++ $".tmp") m ->
  (forall a, keeps (fun _ => False) (f a)) -> cleans P (a <-- m ;; _ <-- remove (s ++ $".tmp") ;; f a).
Proof.
  intros K F st st' b E n N. unfold then_ in E. destruct (m st) as [st1 [a|e]] eqn:E1; [|discriminate]. unfold remove in E.
  pose proof (kp_files _ _ (F a) (set_file (s ++ $".tmp") None st1) n (fun x => x)) as Q. rewrite E in Q. cbn [fst] in Q. rewrite Q. cbn [set_file with_files files].
  destruct (str_eqb n (s ++ $".tmp")) eqn:Z.
  - right. split; [reflexivity|]. apply str_eqb_eq in Z. exists s. exact Z.
  - left. pose proof (kp_files _ _ K st n) as W. rewrite E1 in W. apply W. intros ->. rewrite str_eqb_refl in Z. discriminate.
Qed.
Lemma then_assoc {A B C} (m : cli A) (f : A -> cli B) (g : B -> cli C) st : then_ (then_ m f) g st = then_ m (fun a => then_ (f a) g) st.
Proof. unfold then_. destruct (m st) as [st1 [a|e]]; reflexivity. Qed.
Lemma cleans_ext {A} P (m m' : cli A) : (forall st, m st = m' st) -> cleans P m -> cleans P m'.
Proof. intros X K st st' a E. apply (K st st' a). rewrite X. exact E. Qed.

Lemma cleans_cluster H P address user pass db : cleans P (read_from_cluster H address user pass db).
Proof.
  unfold read_from_cluster. set (t := py_text db ++ $".tmp").
  eapply cleans_ext; [|apply (cleans_removed
    (lines <-- run_tql_command H {| c_host := address; c_user := user; c_password := pass; c_text := $"script database " ++ py_text db ++ $";" |} ;;
     _ <-- perform (smart_open (h_env H) (Some t) (fun h => write_all (h_env H) h (map (fun l => Ok (l ++ [newline])) lines))) ;;
     parse_file H db DEFAULT_SCHEMA t) (fun d => done d) (py_text db) P)].
  - intros st. rewrite then_assoc. unfold then_ at 1. unfold then_ at 4. destruct (run_tql_command _ _ st) as [st1 [lines|e]]; [|reflexivity]. rewrite then_assoc. reflexivity.
  - apply keeps_then; [apply keeps_run|]. intros lines. apply keeps_then; [apply keeps_writes; intros n E _ _; injection E as <-; reflexivity|]. intros _. apply keeps_parse.
  - intros d. apply keeps_done.
Qed.
Lemma cleans_to_ts H P a d : cleans P (write_to_ts H a d).
Proof.
  unfold write_to_ts. destruct d as [d|]; [|intros st st' x E; discriminate].
  eapply cleans_ext; [|apply (cleans_removed
    (_ <-- write_tql_of H (case_of a) (create_db a) (Some d) (Some (db_name d ++ $".tmp")) ;;
     text <-- read_text H (db_name d ++ $".tmp") ;;
     run_tql_command H {| c_host := py_text (to_ts a); c_user := username a; c_password := password a; c_text := universal_newlines text |})
    (fun response st => (emit (Response response) st, Ok tt)) (db_name d) P)].
  - intros st. rewrite then_assoc. unfold then_ at 1. unfold then_ at 4. destruct (write_tql_of _ _ _ _ _ st) as [st1 [x|e]]; [|reflexivity]. rewrite then_assoc. reflexivity.
  - apply keeps_then; [apply keeps_write_tql; intros n E _ _; injection E as <-; reflexivity|]. intros _. apply keeps_then; [apply keeps_read|]. intros t. apply keeps_run.
  - intros r. apply keeps_emit.
Qed.

Definition an_output (a : convert_args) (n : str) : Prop := tql_file a n \/ excel_file a n.
Lemma cleans_convert H message a : cleans (an_output a) (convert H message a).
Proof.
  apply cleans_then; [apply cleans_keeps, keeps_convert_valid|]. intros b. destruct (negb b); [apply cleans_keeps, keeps_done|].
  apply cleans_then; [apply cleans_keeps, keeps_emit|]. intros _. destruct (version a); [apply cleans_keeps, keeps_print|]. apply cleans_then.
  - destruct (given (from_ddl a)) eqn:G1; [apply cleans_keeps, keeps_then; [apply keeps_print|intros _; apply keeps_parse]|].
    destruct (given (from_excel a)) eqn:G2; [apply cleans_keeps, keeps_then; [apply keeps_print|intros _; apply keeps_excel]|].
    destruct (given (from_ts a)) eqn:G3; [|apply cleans_keeps, keeps_lift]. apply cleans_then; [apply cleans_keeps, keeps_print|]. intros _. apply cleans_cluster.
  - intros d. apply cleans_then.
    { apply cleans_keeps, keeps_when, keeps_then; [apply keeps_print|]. intros _. destruct d as [d|]; [|apply keeps_fails]. apply keeps_then; [apply keeps_lift|]. intros r.
      destruct (is_valid r); [apply keeps_print|apply keeps_each; intros i; apply keeps_eprint]. }
    intros _. apply cleans_then.
    { destruct (given (to_tql a)) eqn:G; [|apply cleans_keeps, keeps_done]. apply given_iff in G. apply cleans_keeps, keeps_then; [apply keeps_print|]. intros _. apply keeps_write_tql. intros n E _ N. left. unfold tql_file. rewrite E. cbn [text]. rewrite E in G.
      split; [exact G|split; [exact N|reflexivity]]. }
    intros _. apply cleans_then.
    { destruct (given (to_excel a)) eqn:G; [|apply cleans_keeps, keeps_done]. apply given_iff in G. apply cleans_keeps, keeps_then; [apply keeps_print|]. intros _. unfold write_excel. destruct d as [d|]; [|apply keeps_fails].
      destruct (write_database (h_fresh H) new_writer d (py_text (to_excel a))) as [[w f]|e] eqn:E.
      - assert (Q : excel_file a f) by (apply excel_file_iff; split; [exact G|]; rewrite (database_file_name _ _ _ _ _ _ E); destruct (given_text _ G) as [-> _]; reflexivity).
        split; unfold then_; cbn [lift]; intros st; destruct (open_fails (h_env H) f); cbn [fails fst set_file with_files files out sent]; try reflexivity; try apply same_app.
        intros n N. destruct (str_eqb n f) eqn:Z; [|reflexivity]. apply str_eqb_eq in Z. subst n. destruct N. right. exact Q.
      - split; unfold then_; cbn [lift]; intros st; [reflexivity|apply same_app|apply same_app]. }
    intros _. apply cleans_when. apply cleans_then; [apply cleans_keeps, keeps_print|]. intros _. apply cleans_to_ts.
Qed.

(** C82, runs that finish, with any answers and failures around: no temporary file is there that was not there
    before.  A file changes only if it is a named output, or if it had the name of a temporary file; then it is gone. *)
Theorem C82_finished : forall H message a st st', convert H message a st = (st', Ok tt) -> forall n, ~ tql_file a n -> ~ excel_file a n ->
  files st' n = files st n \/ files st' n = None /\ (exists s, n = s ++ $".tmp") /\ (is_given (to_ts a) \/ from_cluster a).
Proof.
  intros H message a st st' E n N1 N2. assert (N : ~ an_output a n) by (intros [X|X]; contradiction).
  destruct (cleans_convert H message a st st' tt E n N) as [Q|[Q [s T]]]; [left; exact Q|].
  destruct (given (to_ts a)) eqn:G; [right; split; [exact Q|split; [exists s; exact T|left; apply given_iff, G]]|].
  destruct (given (from_ddl a)) eqn:G1; [|destruct (given (from_excel a)) eqn:G2; [|destruct (given (from_ts a)) eqn:G3]].
  all: apply given_false in G.
  3: { right. split; [exact Q|]. split; [exists s; exact T|]. right. apply given_false in G1. apply given_false in G2. apply given_iff in G3. repeat split; assumption. }
  all: left; pose proof (kp_files _ _ (keeps_convert H message a) st n) as W; rewrite E in W; apply W; intros [X|[X|[[X|(X1 & X2 & X3)] _]]];
    try contradiction; try (apply given_iff in G1; contradiction); try (apply given_iff in G2; contradiction); apply given_false in G3; contradiction.
Qed.
Print Assumptions C82_finished.
(** so a temporary file that a run leaves behind means that the run raised *)
Theorem C82_left_behind : forall H message a st n c, files (fst (convert H message a st)) n = Some c -> files st n <> Some c ->
  ~ tql_file a n -> ~ excel_file a n -> exists e, snd (convert H message a st) = Err e.
Proof.
  intros H message a st n c F N N1 N2. destruct (convert H message a st) as [st' [[]|e]] eqn:E; cbn [fst snd] in *; [|exists e; reflexivity].
  exfalso. destruct (C82_finished H message a st st' E n N1 N2) as [Q|[Q _]]; congruence.
Qed.
Print Assumptions C82_left_behind.
(** a run that finishes, with a file of the name of the temporary one, and a run that raises and leaves one *)
Example C82_finished_case :
  let st := set_file ($"d.tmp") (Some (Text ($"mine"))) small_state in
  snd (convert quiet (fun _ => []) to_everything st) = Ok tt /\ ~ tql_file to_everything ($"d.tmp") /\ ~ excel_file to_everything ($"d.tmp") /\
  files (fst (convert quiet (fun _ => []) to_everything st)) ($"d.tmp") = None.
Proof.
  cbv zeta. split; [vm_compute; reflexivity|]. split; [intros (_ & _ & E); discriminate|]. split; [intros E; apply excel_file_iff in E; destruct E as [_ E]; discriminate|].
  vm_compute. reflexivity.
Qed.
Definition deaf : host :=
  {| h_env := h_env quiet; h_run := fun _ _ => Err OSError; h_calc := h_calc quiet; h_fresh := h_fresh quiet; h_as_text := h_as_text quiet;
     h_as_book := h_as_book quiet; h_path := h_path quiet; h_reason := h_reason quiet; h_query_error := h_query_error quiet; h_yaml_text := h_yaml_text quiet |}.
Example C82_left_behind_case : exists c, files (fst (convert deaf (fun _ => []) to_everything small_state)) ($"d.tmp") = Some c /\ files small_state ($"d.tmp") <> Some c.
Proof. eexists. split; [vm_compute; reflexivity | discriminate]. Qed.
