(** * What a tool may touch, whatever happens *)
From Verif Require Import GenFacts ExcelReuse.
From Verif Require Export CliFacts.

(** [keeps P m]: files outside [P] are as before, and standard output and the commands sent only grow *)
Record keeps {A} (P : str -> Prop) (m : cli A) : Prop := {
  kp_files : forall st n, ~ P n -> files (fst (m st)) n = files st n;
  kp_out : forall st, exists l, out (fst (m st)) = out st ++ l;
  kp_sent : forall st, exists l, sent (fst (m st)) = sent st ++ l }.
Lemma same_app {A} (l : list A) : exists l', l = l ++ l'.
Proof. exists []. rewrite app_nil_r. reflexivity. Qed.
Lemma keeps_same {A} P (m : cli A) : (forall st n, files (fst (m st)) n = files st n) -> (forall st, out (fst (m st)) = out st) -> (forall st, sent (fst (m st)) = sent st) -> keeps P m.
Proof. intros F O S. split; intros; [apply F|rewrite O; apply same_app|rewrite S; apply same_app]. Qed.
Lemma keeps_then {A B} P (m : cli A) (f : A -> cli B) : keeps P m -> (forall a, keeps P (f a)) -> keeps P (then_ m f).
Proof.
  intros [F O S] K. unfold then_. split.
  - intros st n N. specialize (F st n N). destruct (m st) as [st1 [a|e]]; cbn [fst] in *; [|exact F]. rewrite (kp_files _ _ (K a) st1 n N). exact F.
  - intros st. specialize (O st). destruct (m st) as [st1 [a|e]]; cbn [fst] in *; [|exact O]. destruct O as [l O]. destruct (kp_out _ _ (K a) st1) as [l' O']. exists (l ++ l'). rewrite O', O, app_assoc. reflexivity.
  - intros st. specialize (S st). destruct (m st) as [st1 [a|e]]; cbn [fst] in *; [|exact S]. destruct S as [l S]. destruct (kp_sent _ _ (K a) st1) as [l' S']. exists (l ++ l'). rewrite S', S, app_assoc. reflexivity.
Qed.
Lemma keeps_done {A} P (a : A) : keeps P (done a).
Proof. apply keeps_same; reflexivity. Qed.
Lemma keeps_fails {A} P e : keeps P (fails (A := A) e).
Proof. apply keeps_same; reflexivity. Qed.
Lemma keeps_lift {A} P (r : result A) : keeps P (lift r).
Proof. apply keeps_same; reflexivity. Qed.
Lemma keeps_emit P o : keeps P (fun st => (emit o st, Ok tt)).
Proof. split; intros st; [reflexivity|exists [o]; reflexivity|apply same_app]. Qed.
Lemma keeps_print P s : keeps P (print s).
Proof. apply keeps_emit. Qed.
Lemma keeps_eprint P s : keeps P (eprint s).
Proof. apply keeps_same; reflexivity. Qed.
Lemma keeps_when P b m : keeps P m -> keeps P (when b m).
Proof. destruct b; [exact (fun x => x)|intros _; apply keeps_done]. Qed.
Lemma keeps_each {A} P (f : A -> cli unit) : (forall x, keeps P (f x)) -> forall l, keeps P (each f l).
Proof. intros K. induction l as [|x l IH]; [apply keeps_done|]. apply keeps_then; [apply K|intros _; exact IH]. Qed.
Lemma keeps_run H P c : keeps P (run_tql_command H c).
Proof. split; intros st; [reflexivity|apply same_app|exists [c]; reflexivity]. Qed.
Lemma keeps_remove (P : str -> Prop) n : P n -> keeps P (remove n).
Proof.
  intros Q. split; intros st; [|apply same_app|apply same_app]. intros m N. cbn [remove fst files set_file with_files]. destruct (str_eqb m n) eqn:E; [|reflexivity]. apply str_eqb_eq in E. subst m. contradiction.
Qed.
Lemma keeps_read H P n : keeps P (read_text H n).
Proof. apply keeps_same; reflexivity. Qed.
Lemma keeps_parse H P name schema n : keeps P (parse_file H name schema n).
Proof.
  assert (K : keeps P (d0 <-- lift (mk_database name) ;; text <-- read_text H n ;;
     (fun st' => let stmts := get_statements text in
        let '(r, ms) := Messages.heard_statements schema (objects st') stmts d0 in
        (_ <-- Cli.each (fun m => eprint (Messages.message_text (h_reason H) m)) ms ;;
         _ <-- count_objects (length stmts) ;;
         d <-- lift r ;; done (Some d)) st'))).
  { apply keeps_then; [apply keeps_lift|]. intros d0. apply keeps_then; [apply keeps_read|]. intros t.
    assert (Q : forall r ms, keeps P (_ <-- Cli.each (fun m => eprint (Messages.message_text (h_reason H) m)) ms ;; _ <-- count_objects (length (get_statements t)) ;; d <-- lift r ;; done (Some d) : cli (option database))).
    { intros r ms. apply keeps_then; [apply keeps_each; intros m; apply keeps_eprint|]. intros _. apply keeps_then; [apply keeps_same; reflexivity|]. intros _. apply keeps_then; [apply keeps_lift|]. intros d. apply keeps_done. }
    split; intros st; cbn zeta; destruct (Messages.heard_statements schema (objects st) (get_statements t) d0) as [r ms];
      [apply (kp_files _ _ (Q r ms))|apply (kp_out _ _ (Q r ms))|apply (kp_sent _ _ (Q r ms))]. }
  assert (K2 : keeps P (_ <-- eprint ($"Input file " ++ n ++ $" doesn't exist for parsing.") ;; done (@None database))) by (apply keeps_then; [apply keeps_eprint|intros _; apply keeps_done]).
  split; intros st; unfold parse_file; destruct (exists_ st n); [apply (kp_files _ _ K)|apply (kp_files _ _ K2)|apply (kp_out _ _ K)|apply (kp_out _ _ K2)|apply (kp_sent _ _ K)|apply (kp_sent _ _ K2)].
Qed.
Lemma happen_writes h : forall l st, (forall n, h <> File n -> files (fold_left happen (map (Write h) l) st) n = files st n)
  /\ (exists o, out (fold_left happen (map (Write h) l) st) = out st ++ o) /\ sent (fold_left happen (map (Write h) l) st) = sent st.
Proof.
  induction l as [|x l IH]; intros st; cbn [map fold_left]; [split; [reflexivity|split; [apply same_app|reflexivity]]|].
  destruct (IH (happen st (Write h x))) as [A [[o B] C]]. split; [|split].
  - intros n N. rewrite A; [|exact N]. destruct h as [|m]; [reflexivity|]. cbn [happen files set_file with_files]. destruct (str_eqb n m) eqn:E; [apply str_eqb_eq in E; subst; congruence|reflexivity].
  - destruct h as [|m]; [exists (Printed x :: o); rewrite B; cbn [happen emit out]; rewrite <- app_assoc; reflexivity|exists o; exact B].
  - rewrite C. destruct h; reflexivity.
Qed.
Lemma keeps_writes H (P : str -> Prop) f texts : (forall n, f = Some n -> n <> [] -> n <> $"-" -> P n) ->
  keeps P (perform (smart_open (h_env H) f (fun h => write_all (h_env H) h texts))).
Proof.
  intros N. assert (K : forall st, let st' := fst (perform (smart_open (h_env H) f (fun h => write_all (h_env H) h texts)) st) in
    (forall n, ~ P n -> files st' n = files st n) /\ (exists o, out st' = out st ++ o) /\ sent st' = sent st).
  { intros st. unfold perform. destruct (smart_open_writes (h_env H) f texts []) as [A B].
    assert (D : to_stdout f \/ exists n, f = Some n /\ ~ to_stdout f).
    { destruct f as [n|]; [|left; left; reflexivity]. destruct (str_eqb n []) eqn:E1; [apply str_eqb_eq in E1; subst; left; right; left; reflexivity|].
      destruct (str_eqb n ($"-")) eqn:E2; [apply str_eqb_eq in E2; subst; left; right; right; reflexivity|]. right. exists n. split; [reflexivity|].
      intros [Q|[Q|Q]]; [discriminate|injection Q as ->; rewrite str_eqb_refl in E1; discriminate|injection Q as ->; rewrite str_eqb_refl in E2; discriminate]. }
    destruct D as [D|[n [-> D]]].
    - destruct (A D) as [wr [r [-> _]]]. cbn [app fst]. destruct (happen_writes Stdout wr st) as [X [Y Z]]. split; [intros n _; apply X; discriminate|split; assumption].
    - destruct (B n eq_refl D) as [B1 B2]. destruct (open_fails (h_env H) n) eqn:OF.
      + rewrite (B1 eq_refl). split; [reflexivity|split; [apply same_app|reflexivity]].
      + destruct (B2 eq_refl) as [wr [r [-> _]]]. cbn [app fold_left fst]. rewrite fold_left_app. cbn [fold_left]. change (happen ?x (Close _)) with x.
        destruct (happen_writes (File n) wr (happen st (Open n))) as [X [Y Z]]. split; [|split; assumption].
        intros m NP. assert (m <> n).
        { intros ->. apply NP, (N n eq_refl); intros ->; apply D; [right; left|right; right]; reflexivity. }
        rewrite X; [|congruence]. cbn [happen files set_file with_files]. destruct (str_eqb m n) eqn:E; [apply str_eqb_eq in E; contradiction|reflexivity]. }
  split; intros st; destruct (K st) as [A [B C]]; [exact A|exact B|rewrite C; apply same_app].
Qed.
Lemma keeps_write_tql H (P : str -> Prop) o c d f : (forall n, f = Some n -> n <> [] -> n <> $"-" -> P n) -> keeps P (write_tql_of H o c d f).
Proof.
  intros N. destruct d as [d|]; [apply keeps_writes, N|]. unfold write_tql_of.
  change (fun _ : handle => throw (A := unit) (Err AttributeError)) with (fun h : handle => (fun _ => throw (A := unit) (Err AttributeError)) h).
  pose proof (keeps_writes H P f [Err AttributeError] N) as K. exact K.
Qed.
Lemma keeps_cluster H (P : str -> Prop) address user pass db : P (py_text db ++ $".tmp") -> keeps P (read_from_cluster H address user pass db).
Proof.
  intros Q. apply keeps_then; [apply keeps_run|]. intros lines. apply keeps_then; [apply keeps_writes; intros n E _ _; injection E as <-; exact Q|]. intros _.
  apply keeps_then; [apply keeps_parse|]. intros d. apply keeps_then; [apply keeps_remove, Q|]. intros _. apply keeps_done.
Qed.
Lemma keeps_excel H message P a : keeps P (read_excel H message a).
Proof.
  unfold read_excel. apply keeps_then.
  - assert (K : forall (c : content) n, keeps P (wb <-- lift (match c with Book w => Ok w | Text s => h_as_book H s end) ;;
       (fun st' => let '(r, ms) := ExcelTalk.heard_xls (objects st') [] wb in
                   (_ <-- each (fun m => eprint (message m)) ms ;; dbs <-- lift r ;;
                    (fun st'' => ({| files := files st''; out := out st''; err := err st''; sent := sent st''; objects := objects st'' + n wb |}, Ok dbs))) st'))).
    { intros c n. apply keeps_then; [apply keeps_lift|]. intros wb.
      assert (K2 : forall ms (r : result (dict database)), keeps P (_ <-- each (fun m => eprint (message m)) ms ;; dbs <-- lift r ;; (fun st'' => ({| files := files st''; out := out st''; err := err st''; sent := sent st''; objects := objects st'' + n wb |}, Ok dbs)))).
      { intros ms r. apply keeps_then; [apply keeps_each; intros m; apply keeps_eprint|]. intros _. apply keeps_then; [apply keeps_lift|]. intros dbs. apply keeps_same; reflexivity. }
      split; intros st; destruct (ExcelTalk.heard_xls (objects st) [] wb) as [r ms];
        [apply (kp_files _ _ (K2 ms r))|apply (kp_out _ _ (K2 ms r))|apply (kp_sent _ _ (K2 ms r))]. }
    split; intros st; unfold read_book; destruct (files st (py_text (from_excel a))) as [c|]; try reflexivity; try apply same_app;
      [apply (kp_files _ _ (K c (fun wb => length (List.concat (dvals wb)))))|apply (kp_out _ _ (K c (fun wb => length (List.concat (dvals wb)))))|apply (kp_sent _ _ (K c (fun wb => length (List.concat (dvals wb)))))].
  - intros dbs. destruct (dvals dbs) as [|d l]; [apply keeps_then; [apply keeps_eprint|intros _; apply keeps_done]|].
    apply keeps_then; [destruct l; [apply keeps_done|apply keeps_eprint]|intros _; apply keeps_done].
Qed.
Lemma keeps_convert_valid P a : keeps P (convert_valid_args a).
Proof.
  unfold convert_valid_args. destruct (_ && negb (given (from_ts a))); [apply keeps_then; [apply keeps_eprint|intros _; apply keeps_done]|].
  destruct (_ && negb (given (db_option a))); [apply keeps_then; [apply keeps_eprint|intros _; apply keeps_done]|apply keeps_done].
Qed.
Definition may_touch (a : convert_args) (n : str) : Prop :=
  tql_file a n \/ excel_file a n \/ (is_given (to_ts a) \/ from_cluster a) /\ exists s, n = s ++ $".tmp".
Lemma keeps_convert_body H message a : keeps (may_touch a)
    (if version a then print ($"convert_ddl (v2.0):  " ++ h_path H ++ $"/convert_ddl")
    else
      database <-- read_step H message a ;;
      _ <-- when (validate_option a) (validate_step database) ;;
      _ <-- when (given (to_tql a)) (_ <-- print ($"Writing TQL ...") ;; write_tql_of H (case_of a) (create_db a) database (to_tql a)) ;;
      _ <-- when (given (to_excel a)) (_ <-- print ($"Writing Excel ...") ;; write_excel H a database) ;;
      when (given (to_ts a)) (_ <-- print ($"Writing to ThoughtSpot ...") ;; write_to_ts H a database)).
Proof.
  destruct (version a); [apply keeps_print|]. apply keeps_then.
  - unfold read_step. destruct (given (from_ddl a)) eqn:G1; [apply keeps_then; [apply keeps_print|intros _; apply keeps_parse]|].
    destruct (given (from_excel a)) eqn:G2; [apply keeps_then; [apply keeps_print|intros _; apply keeps_excel]|].
    destruct (given (from_ts a)) eqn:G3; [|apply keeps_lift]. apply keeps_then; [apply keeps_print|]. intros _. apply keeps_cluster. right; right.
    split; [right; apply given_false in G1; apply given_false in G2; apply given_iff in G3; repeat split; assumption|eexists; reflexivity].
  - intros d. apply keeps_then.
    { apply keeps_when, keeps_then; [apply keeps_print|]. intros _. destruct d as [d|]; [|apply keeps_fails]. apply keeps_then; [apply keeps_lift|]. intros r.
      destruct (is_valid r); [apply keeps_print|apply keeps_each; intros i; apply keeps_eprint]. }
    intros _. apply keeps_then.
    { destruct (given (to_tql a)) eqn:G; [|apply keeps_done]. apply given_iff in G. apply keeps_then; [apply keeps_print|]. intros _. apply keeps_write_tql. intros n E _ N. left. unfold tql_file. rewrite E. cbn [text]. rewrite E in G.
      split; [exact G|split; [exact N|reflexivity]]. }
    intros _. apply keeps_then.
    { destruct (given (to_excel a)) eqn:G; [|apply keeps_done]. apply given_iff in G. apply keeps_then; [apply keeps_print|]. intros _. unfold write_excel. destruct d as [d|]; [|apply keeps_fails].
      destruct (write_database (h_fresh H) new_writer d (py_text (to_excel a))) as [[w f]|e] eqn:E.
      - assert (Q : excel_file a f) by (apply excel_file_iff; split; [exact G|]; rewrite (database_file_name _ _ _ _ _ _ E); destruct (given_text _ G) as [-> _]; reflexivity).
        split; unfold then_; cbn [lift]; intros st; destruct (open_fails (h_env H) f); cbn [fails fst set_file with_files files out sent]; try reflexivity; try apply same_app.
        intros n N. destruct (str_eqb n f) eqn:Z; [|reflexivity]. apply str_eqb_eq in Z. subst n. destruct N. right; left. exact Q.
      - split; unfold then_; cbn [lift]; intros st; [reflexivity|apply same_app|apply same_app]. }
    intros _. destruct (given (to_ts a)) eqn:G; [|apply keeps_done]. apply given_iff in G. apply keeps_then; [apply keeps_print|]. intros _. unfold write_to_ts. destruct d as [d|]; [|apply keeps_fails].
    assert (Q : may_touch a (db_name d ++ $".tmp")) by (right; right; split; [left; exact G|eexists; reflexivity]).
    apply keeps_then; [apply keeps_write_tql; intros n E _ _; injection E as <-; exact Q|]. intros _. apply keeps_then; [apply keeps_read|]. intros t. apply keeps_then; [apply keeps_run|]. intros rs.
    apply keeps_then; [apply keeps_remove, Q|]. intros _. apply keeps_emit.
Qed.
Lemma keeps_convert H message a : keeps (may_touch a) (convert H message a).
Proof.
  apply keeps_then; [apply keeps_convert_valid|]. intros b. destruct (negb b); [apply keeps_done|]. apply keeps_then; [apply keeps_emit|]. intros _. exact (keeps_convert_body H message a).
Qed.
