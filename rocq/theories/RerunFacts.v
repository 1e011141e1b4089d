(** * Lemmas for C113: what a tool's run depends on *)
From Verif Require Import StrFacts ParsedFacts GenFacts ExcelReuse CliFacts CliFrame CliReviewFacts PropsOnlyRead.
From Verif Require Export SpecRerun.
From Coq Require Import List. Import ListNotations.

(** [depends K m]: runs of [m] that agree on the files in [K] are the same *)
Definition depends {A} (K : str -> Prop) (m : cli A) : Prop :=
  forall st1 st2, same_process st1 st2 -> (forall n, K n -> files st1 n = files st2 n) -> same_run m st1 st2.

Lemma writes_refl st1 st2 : same_writes st1 st2 st1 st2.
Proof. intros n. right. split; reflexivity. Qed.
Lemma writes_trans a1 a2 b1 b2 c1 c2 : same_writes a1 a2 b1 b2 -> same_writes b1 b2 c1 c2 -> same_writes a1 a2 c1 c2.
Proof.
  intros P Q n. destruct (Q n) as [E|[E1 E2]]; [left; exact E|]. destruct (P n) as [E|[F1 F2]]; [left; rewrite E1, E2; exact E|right; rewrite E1, E2; split; assumption].
Qed.
Lemma writes_keep (K : str -> Prop) a1 a2 b1 b2 : same_writes a1 a2 b1 b2 -> (forall n, K n -> files a1 n = files a2 n) -> forall n, K n -> files b1 n = files b2 n.
Proof. intros W E n k. destruct (W n) as [Q|[Q1 Q2]]; [exact Q|rewrite Q1, Q2; apply E, k]. Qed.

Lemma same_then {A B} (K : str -> Prop) (m : cli A) (f : A -> cli B) st1 st2 : same_run m st1 st2 -> (forall n, K n -> files st1 n = files st2 n) ->
  (forall a, depends K (f a)) -> same_run (then_ m f) st1 st2.
Proof.
  intros [R [P Q]] E F. unfold same_run, then_. destruct (m st1) as [st1' r1]. destruct (m st2) as [st2' r2]. cbn [fst snd] in *. subst r2.
  destruct r1 as [a|e]; [|split; [reflexivity|split; [exact P|exact Q]]].
  destruct (F a st1' st2' P (writes_keep K _ _ _ _ Q E)) as [R2 [P2 Q2]]. split; [exact R2|]. split; [exact P2|]. exact (writes_trans _ _ _ _ _ _ Q Q2).
Qed.
Lemma depends_then {A B} K (m : cli A) (f : A -> cli B) : depends K m -> (forall a, depends K (f a)) -> depends K (then_ m f).
Proof. intros M F st1 st2 T E. apply (same_then K); [apply M; assumption|exact E|exact F]. Qed.
(** a step that looks at no file and changes none *)
Lemma depends_step {A} K (m : cli A) (r : list output -> list str -> list command -> nat -> list output * list str * list command * nat * result A) :
  (forall st, m st = let '(o, e, s, k, x) := r (out st) (err st) (sent st) (objects st) in ({| files := files st; out := o; err := e; sent := s; objects := k |}, x)) -> depends K m.
Proof.
  intros D st1 st2 [T1 [T2 [T3 T4]]] _. unfold same_run. rewrite !D, T1, T2, T3, T4. destruct (r _ _ _ _) as [[[[o e] s] k] x]. cbn [fst snd].
  split; [reflexivity|]. split; [repeat split|]. intros n. right. split; reflexivity.
Qed.
Lemma depends_lift {A} K (r : result A) : depends K (lift r).
Proof. apply (depends_step K _ (fun o e s k => (o, e, s, k, r))). intros []; reflexivity. Qed.
Lemma depends_done {A} K (a : A) : depends K (done a).
Proof. apply (depends_lift K (Ok a)). Qed.
Lemma depends_fails {A} K e : depends K (fails (A := A) e).
Proof. apply (depends_lift K (Err e)). Qed.
Lemma depends_emit K x : depends K (fun st => (emit x st, Ok tt)).
Proof. apply (depends_step K _ (fun o e s k => (o ++ [x], e, s, k, Ok tt))). intros []; reflexivity. Qed.
Lemma depends_print K s : depends K (print s).
Proof. apply depends_emit. Qed.
Lemma depends_eprint K x : depends K (eprint x).
Proof. apply (depends_step K _ (fun o e s k => (o, e ++ [x ++ [newline]], s, k, Ok tt))). intros []; reflexivity. Qed.
Lemma depends_count K n : depends K (count_objects n).
Proof. apply (depends_step K _ (fun o e s k => (o, e, s, k + n, Ok tt))). intros []; reflexivity. Qed.
Lemma depends_run H K c : depends K (run_tql_command H c).
Proof. apply (depends_step K _ (fun o e s k => (o, e, s ++ [c], k, h_run H s c))). intros []; reflexivity. Qed.
Lemma depends_when K b m : depends K m -> depends K (when b m).
Proof. destruct b; [exact (fun x => x)|intros _; apply depends_done]. Qed.
Lemma depends_each {A} K (f : A -> cli unit) : (forall x, depends K (f x)) -> forall l, depends K (Cli.each f l).
Proof. intros D. induction l as [|x l IH]; [apply depends_done|]. apply depends_then; [apply D|intros _; exact IH]. Qed.
Lemma depends_remove K n : depends K (Cli.remove n).
Proof.
  intros st1 st2 T E. unfold same_run, Cli.remove. cbn [fst snd]. split; [reflexivity|]. split; [exact T|]. intros m. cbn [set_file with_files files].
  destruct (str_eqb m n); [left; reflexivity|right; split; reflexivity].
Qed.
(** what depends on the state also through a file or a number *)
Lemma depends_at {A B} (K : str -> Prop) (g : state -> B) (m : B -> cli A) :
  (forall st1 st2, same_process st1 st2 -> (forall n, K n -> files st1 n = files st2 n) -> g st1 = g st2) -> (forall b, depends K (m b)) -> depends K (fun st => m (g st) st).
Proof. intros G M st1 st2 T E. unfold same_run. rewrite (G st1 st2 T E). apply (M (g st2) st1 st2 T E). Qed.
Lemma depends_ext {A} K (m m' : cli A) : (forall st, m' st = m st) -> depends K m -> depends K m'.
Proof. intros X D st1 st2 T E. unfold same_run. rewrite !X. exact (D st1 st2 T E). Qed.
Lemma depends_read H (K : str -> Prop) n : K n -> depends K (read_text H n).
Proof.
  intros k. apply (depends_at K (fun st => files st n) (fun c => lift (match c with None => Err FileNotFoundError | Some (Text s) => Ok s | Some (Book w) => Ok (h_as_text H w) end))).
  - intros st1 st2 _ E. apply E, k.
  - intros b. apply depends_lift.
Qed.
Lemma depends_parse H (K : str -> Prop) name schema n : K n -> depends K (parse_file H name schema n).
Proof.
  intros k. eapply depends_ext; [|apply (depends_at K (fun st => exists_ st n) (fun b => if b then
    (d0 <-- lift (mk_database name) ;; text <-- read_text H n ;;
     (fun st' => let stmts := get_statements text in
        let '(r, ms) := Messages.heard_statements schema (objects st') stmts d0 in
        (_ <-- Cli.each (fun m => eprint (Messages.message_text (h_reason H) m)) ms ;;
         _ <-- count_objects (length stmts) ;;
         d <-- lift r ;; done (Some d)) st'))
    else (_ <-- eprint ($"Input file " ++ n ++ $" doesn't exist for parsing.") ;; done None)))].
  - intros st. unfold parse_file. destruct (exists_ st n); reflexivity.
  - intros st1 st2 _ E. unfold exists_. rewrite (E n k). reflexivity.
  - intros [|]; [|apply depends_then; [apply depends_eprint|intros _; apply depends_done]].
    apply depends_then; [apply depends_lift|]. intros d0. apply depends_then; [apply depends_read, k|]. intros t.
    apply (depends_at K objects (fun k st' => let stmts := get_statements t in
        let '(r, ms) := Messages.heard_statements schema k stmts d0 in
        (_ <-- Cli.each (fun m => eprint (Messages.message_text (h_reason H) m)) ms ;;
         _ <-- count_objects (length stmts) ;;
         d <-- lift r ;; done (Some d)) st')).
    + intros st1 st2 [_ [_ [_ T]]] _. exact T.
    + intros o. cbn zeta. destruct (Messages.heard_statements schema o (get_statements t) d0) as [r ms].
      apply depends_then; [apply depends_each; intros m; apply depends_eprint|]. intros _. apply depends_then; [apply depends_count|]. intros _. apply depends_then; [apply depends_lift|]. intros d. apply depends_done.
Qed.

(** writing a file or to standard output *)
Lemma writes_same n l : forall st1 st2, same_process st1 st2 -> files st1 n = files st2 n ->
  let st1' := fold_left happen (map (Write (File n)) l) st1 in let st2' := fold_left happen (map (Write (File n)) l) st2 in
  same_process st1' st2' /\ files st1' n = files st2' n.
Proof.
  induction l as [|x l IH]; intros st1 st2 T E; cbn [map fold_left]; [split; assumption|]. apply IH; [exact T|].
  cbn [happen set_file with_files files]. rewrite str_eqb_refl, E. reflexivity.
Qed.
Lemma prints_same l : forall st1 st2, same_process st1 st2 ->
  same_process (fold_left happen (map (Write Stdout) l) st1) (fold_left happen (map (Write Stdout) l) st2).
Proof.
  induction l as [|x l IH]; intros st1 st2 T; cbn [map fold_left]; [exact T|]. apply IH. destruct T as [T1 [T2 [T3 T4]]].
  cbn [happen]. repeat split; cbn [emit out err sent objects]; [rewrite T1; reflexivity|assumption..].
Qed.
Lemma to_stdout_or f : to_stdout f \/ exists n, f = Some n /\ ~ to_stdout f.
Proof.
  destruct f as [n|]; [|left; left; reflexivity]. destruct (str_eqb n []) eqn:E1; [apply str_eqb_eq in E1; subst; left; right; left; reflexivity|].
  destruct (str_eqb n ($"-")) eqn:E2; [apply str_eqb_eq in E2; subst; left; right; right; reflexivity|]. right. exists n. split; [reflexivity|].
  intros [Q|[Q|Q]]; [discriminate|injection Q as ->; rewrite str_eqb_refl in E1; discriminate|injection Q as ->; rewrite str_eqb_refl in E2; discriminate].
Qed.
Lemma perform_writes H f texts st1 st2 : same_process st1 st2 ->
  same_run (perform (smart_open (h_env H) f (fun h => write_all (h_env H) h texts))) st1 st2
  /\ (forall n a, f = Some n -> ~ to_stdout f -> snd (perform (smart_open (h_env H) f (fun h => write_all (h_env H) h texts)) st1) = Ok a ->
      files (fst (perform (smart_open (h_env H) f (fun h => write_all (h_env H) h texts)) st1)) n
      = files (fst (perform (smart_open (h_env H) f (fun h => write_all (h_env H) h texts)) st2)) n).
Proof.
  intros T. unfold same_run, perform. destruct (smart_open_writes (h_env H) f texts []) as [A B]. destruct (to_stdout_or f) as [D|[n [-> D]]].
  - destruct (A D) as [wr [r [-> _]]]. cbn [app fst snd]. split; [|intros n a _ ND; contradiction]. split; [reflexivity|]. split; [apply prints_same, T|].
    intros n. right. split; apply happen_writes; discriminate.
  - destruct (B n eq_refl D) as [B1 B2]. destruct (open_fails (h_env H) n) eqn:OF.
    + rewrite (B1 eq_refl). cbn [app fst snd fold_left]. split; [|intros m a _ _ X; discriminate]. split; [reflexivity|]. split; [exact T|apply writes_refl].
    + destruct (B2 eq_refl) as [wr [r [-> _]]]. cbn [app fold_left fst snd]. rewrite !fold_left_app. cbn [fold_left]. change (happen ?x (Close _)) with x. change (happen ?x (Close _)) with x.
      destruct (writes_same n wr (happen st1 (Open n)) (happen st2 (Open n)) T) as [P Q]; [cbn [happen set_file with_files files]; rewrite str_eqb_refl; reflexivity|].
      split; [|intros m a X _ _; injection X as <-; exact Q]. split; [reflexivity|]. split; [exact P|]. intros m.
      destruct (str_eqb m n) eqn:E; [apply str_eqb_eq in E; subst m; left; exact Q|].
      assert (N : File n <> File m) by (intros X; injection X as ->; rewrite str_eqb_refl in E; discriminate).
      right. split; (rewrite (proj1 (happen_writes (File n) wr _) m N); cbn [happen set_file with_files files]; rewrite E; reflexivity).
Qed.
Lemma depends_writes H K f texts : depends K (perform (smart_open (h_env H) f (fun h => write_all (h_env H) h texts))).
Proof. intros st1 st2 T _. apply (perform_writes H f texts st1 st2 T). Qed.
Lemma depends_tql H K o c d f : depends K (write_tql_of H o c d f).
Proof. destruct d as [d|]; [apply depends_writes|apply (depends_writes H K f [Err AttributeError])]. Qed.
(** a temporary file: its name is neither empty nor a dash *)
Lemma tmp_is_file s : ~ to_stdout (Some (s ++ $".tmp")).
Proof.
  intros [E|[E|E]]; [discriminate| |]; assert (X : s ++ $".tmp" = [] \/ s ++ $".tmp" = $"-") by (injection E as E; auto);
    destruct X as [X|X]; destruct s as [|c s]; try discriminate; cbn [app] in X; injection X as _ X; destruct s; discriminate.
Qed.
Lemma depends_over H K (o : list (result str)) s {A} (f : unit -> cli A) : (forall u, depends (fun n => K n \/ n = s ++ $".tmp") (f u)) ->
  depends K (then_ (perform (smart_open (h_env H) (Some (s ++ $".tmp")) (fun h => write_all (h_env H) h o))) f).
Proof.
  intros F st1 st2 T E. destruct (perform_writes H (Some (s ++ $".tmp")) o st1 st2 T) as [[R [P Q]] V]. unfold same_run, then_.
  destruct (perform _ st1) as [st1' r1]. destruct (perform _ st2) as [st2' r2]. cbn [fst snd] in *. subst r2.
  destruct r1 as [a|e]; [|split; [reflexivity|split; [exact P|exact Q]]].
  destruct (F a st1' st2' P) as [R2 [P2 Q2]].
  - intros n [k| ->]; [exact (writes_keep K _ _ _ _ Q E n k)|exact (V _ a eq_refl (tmp_is_file s) eq_refl)].
  - split; [exact R2|]. split; [exact P2|]. exact (writes_trans _ _ _ _ _ _ Q Q2).
Qed.
Lemma depends_cluster H K address user pass db : depends K (read_from_cluster H address user pass db).
Proof.
  unfold read_from_cluster. apply depends_then; [apply depends_run|]. intros lines. cbn zeta. apply depends_over. intros _.
  apply depends_then; [apply depends_parse; right; reflexivity|]. intros d. apply depends_then; [apply depends_remove|]. intros _. apply depends_done.
Qed.
Lemma depends_to_ts H K a d : depends K (write_to_ts H a d).
Proof.
  unfold write_to_ts. destruct d as [d|]; [|apply depends_fails]. cbn zeta. apply (depends_over H K (tql_texts (case_of a) (create_db a) d) (db_name d)). intros _.
  apply depends_then; [apply depends_read; right; reflexivity|]. intros t. apply depends_then; [apply depends_run|]. intros r. apply depends_then; [apply depends_remove|]. intros _. apply depends_emit.
Qed.
Lemma depends_excel_out H K a d : depends K (write_excel H a d).
Proof.
  unfold write_excel. destruct d as [d|]; [|apply depends_fails]. apply depends_then; [apply depends_lift|]. intros [w f].
  destruct (open_fails (h_env H) f); [apply depends_fails|]. intros st1 st2 T E. unfold same_run. cbn [fst snd]. split; [reflexivity|]. split; [exact T|].
  intros m. cbn [set_file with_files files]. destruct (str_eqb m f); [left; reflexivity|right; split; reflexivity].
Qed.
Lemma depends_excel_in H message (K : str -> Prop) a : K (py_text (from_excel a)) -> depends K (read_excel H message a).
Proof.
  intros k. unfold read_excel. apply depends_then.
  - eapply depends_ext; [|apply (depends_at K (fun st => files st (py_text (from_excel a))) (fun c => match c with None => fails FileNotFoundError | Some c =>
      (wb <-- lift (match c with Book w => Ok w | Text s => h_as_book H s end) ;;
       (fun st' => let '(r, ms) := ExcelTalk.heard_xls (objects st') [] wb in
                   (_ <-- Cli.each (fun m => eprint (message m)) ms ;;
                    dbs <-- lift r ;;
                    (fun st'' => ({| files := files st''; out := out st''; err := err st''; sent := sent st'';
                                     objects := objects st'' + length (List.concat (dvals wb)) |}, Ok dbs))) st')) end))].
    + intros st. unfold read_book. destruct (files st _); reflexivity.
    + intros st1 st2 _ E. apply E, k.
    + intros [c|]; [|apply depends_fails]. apply depends_then; [apply depends_lift|]. intros wb.
      apply (depends_at K objects (fun o st' => let '(r, ms) := ExcelTalk.heard_xls o [] wb in
                   (_ <-- Cli.each (fun m => eprint (message m)) ms ;;
                    dbs <-- lift r ;;
                    (fun st'' => ({| files := files st''; out := out st''; err := err st''; sent := sent st'';
                                     objects := objects st'' + length (List.concat (dvals wb)) |}, Ok dbs))) st')).
      * intros st1 st2 [_ [_ [_ T]]] _. exact T.
      * intros o. destruct (ExcelTalk.heard_xls o [] wb) as [r ms]. apply depends_then; [apply depends_each; intros m; apply depends_eprint|]. intros _. apply depends_then; [apply depends_lift|]. intros dbs.
        apply (depends_step K _ (fun o e s k => (o, e, s, k + length (List.concat (dvals wb)), Ok dbs))). intros []; reflexivity.
  - intros dbs. destruct (dvals dbs) as [|d l]; [apply depends_then; [apply depends_eprint|intros _; apply depends_done]|].
    apply depends_then; [destruct l; [apply depends_done|apply depends_eprint]|intros _; apply depends_done].
Qed.

Lemma depends_convert H message a : depends (convert_input a) (convert H message a).
Proof.
  unfold convert. apply depends_then.
  { unfold convert_valid_args. destruct (_ && negb (given (from_ts a))); [apply depends_then; [apply depends_eprint|intros _; apply depends_done]|].
    destruct (_ && negb (given (db_option a))); [apply depends_then; [apply depends_eprint|intros _; apply depends_done]|apply depends_done]. }
  intros b. destruct (negb b); [apply depends_done|]. apply depends_then; [apply depends_emit|]. intros _. destruct (version a); [apply depends_print|]. apply depends_then.
  { destruct (given (from_ddl a)) eqn:G1; [apply depends_then; [apply depends_print|intros _; apply depends_parse]|].
    { left. apply given_iff in G1. split; [exact G1|]. apply given_text, G1. }
    destruct (given (from_excel a)) eqn:G2; [apply depends_then; [apply depends_print|intros _; apply depends_excel_in]|].
    { right. apply given_false in G1. apply given_iff in G2. split; [exact G1|]. split; [exact G2|]. apply given_text, G2. }
    destruct (given (from_ts a)) eqn:G3; [|apply depends_lift]. apply depends_then; [apply depends_print|]. intros _. apply depends_cluster. }
  intros d. apply depends_then.
  { apply depends_when, depends_then; [apply depends_print|]. intros _. destruct d as [d|]; [|apply depends_fails]. apply depends_then; [apply depends_lift|]. intros r.
    destruct (is_valid r); [apply depends_print|apply depends_each; intros i; apply depends_eprint]. }
  intros _. apply depends_then; [apply depends_when, depends_then; [apply depends_print|intros _; apply depends_tql]|].
  intros _. apply depends_then; [apply depends_when, depends_then; [apply depends_print|intros _; apply depends_excel_out]|].
  intros _. apply depends_when, depends_then; [apply depends_print|intros _; apply depends_to_ts].
Qed.

Lemma depends_check (K : str -> Prop) n : K n -> depends K (check_file n).
Proof.
  intros k. eapply depends_ext; [|apply (depends_at K (fun st => exists_ st n) (fun b => if b then done true else (_ <-- eprint ($"file " ++ n ++ $" doesn't exist") ;; done false)))].
  - intros st. unfold check_file. destruct (exists_ st n); reflexivity.
  - intros st1 st2 _ E. unfold exists_. rewrite (E n k). reflexivity.
  - intros [|]; [apply depends_done|apply depends_then; [apply depends_eprint|intros _; apply depends_done]].
Qed.
Lemma depends_ddldiff H a : depends (diff_input a) (ddldiff H a).
Proof.
  destruct (given (ddl1 a) && given (ddl2 a)) eqn:G.
  - apply andb_prop in G. destruct G as [G1 G2]. unfold ddldiff, diff_valid_args. rewrite G1, G2. cbn [negb orb]. apply given_iff in G1. apply given_iff in G2.
    assert (K1 : diff_input a (py_text (ddl1 a))) by (left; split; [exact G1|apply given_text, G1]).
    assert (K2 : diff_input a (py_text (ddl2 a))) by (right; split; [exact G2|apply given_text, G2]).
    apply depends_then; [apply depends_then; [apply depends_check, K1|]; intros b1; apply depends_then; [apply depends_check, K2|]; intros b2; apply depends_done|].
    intros b. destruct (negb b); [apply depends_done|]. apply depends_then; [apply depends_emit|]. intros _. apply depends_then; [apply depends_parse, K1|]. intros o1. apply depends_then; [apply depends_parse, K2|]. intros o2.
    apply depends_then; [destruct o1; [apply depends_done|apply depends_fails]|]. intros d1. apply depends_then; [destruct o2; [apply depends_done|apply depends_fails]|]. intros d2. apply depends_then; [apply depends_lift|]. intros [l1 l2].
    apply depends_then; [apply depends_when, depends_then; [apply depends_print|intros _; apply depends_writes]|]. intros _. apply depends_then; [apply depends_when, depends_then; [apply depends_print|intros _; apply depends_writes]|]. intros _.
    apply depends_when, depends_then; [|intros _]; unfold show_differences; (apply depends_then; [apply depends_print|intros _; apply depends_each; intros d; apply depends_print]).
  - apply (depends_ext _ (_ <-- eprint ($"--ddl1 and --ddl2 must be provided") ;; done tt)); [|apply depends_then; [apply depends_eprint|intros _; apply depends_done]].
    intros st. unfold ddldiff, diff_valid_args. destruct (given (ddl1 a)); destruct (given (ddl2 a)); try discriminate G; reflexivity.
Qed.

Section Review.
Variables (H : host) (order : list str -> list str) (rnd : Q -> Q) (commas : setting -> str) (float_str : Q -> str) (fuel : nat) (safe_load : str -> result yaml)
  (queries : str -> str -> str -> oracle) (help : str) (documented : list (str * list str * option str)).
Lemma depends_rest (K : str -> Prop) a d : (is_given (worksheet_file a) -> K (py_text (worksheet_file a))) -> depends K (rest H order rnd commas float_str fuel safe_load queries a d).
Proof.
  intros k. unfold rest. apply depends_then.
  - destruct (given (worksheet_file a)) eqn:G; [|apply depends_done]. apply depends_then; [|intros w; apply depends_done].
    apply depends_then; [apply depends_read, k, given_iff, G|]. intros t. apply depends_lift.
  - intros ws. cbn zeta. apply depends_then.
    + unfold run_reviews. destruct d as [d|]; [|apply depends_fails]. destruct (review_aloud _ _ _ _ _ _ _ _ _ _ _ _) as [[r h] vs].
      apply depends_then; [apply depends_each; intros [n|n]; [apply depends_print|apply depends_eprint]|]. intros _. apply depends_then; [|intros _; apply depends_lift].
      apply (depends_step K _ (fun o e s k => (o, e, s ++ map (fun q => {| c_host := py_text (ts_ip a); c_user := r_username a; c_password := r_password a; c_text := q |}) h, k, Ok tt))). intros []; reflexivity.
    + intros r. apply depends_each. intros kv. apply depends_then; [apply depends_print|]. intros _. apply depends_each. intros x. apply depends_print.
Qed.
(** of the worksheet file and the configuration file the checks use only whether they are there *)
Lemma review_valid_same a st1 st2 : same_process st1 st2 -> missing_file (worksheet_file a) st1 = missing_file (worksheet_file a) st2 ->
  missing_file (config_file a) st1 = missing_file (config_file a) st2 -> same_run (review_valid_args a) st1 st2.
Proof.
  intros T E1 E2. unfold same_run, review_valid_args. cbn zeta. rewrite E1, E2.
  match goal with |- snd (?m st1) = _ /\ _ => assert (D : depends (fun _ => False) m) end.
  { repeat (apply depends_then; [apply depends_when, depends_eprint|intros _]). apply depends_done. }
  exact (D st1 st2 T (fun n x => match x with end)).
Qed.
Lemma review_same a st1 st2 : same_process st1 st2 -> (forall n, review_input a n -> files st1 n = files st2 n) ->
  (forall n, review_config a n -> (files st1 n = None <-> files st2 n = None)) ->
  same_run (review_tool H order rnd commas float_str fuel safe_load queries help documented a) st1 st2.
Proof.
  intros T E C. assert (V : same_run (review_valid_args a) st1 st2).
  { apply review_valid_same; [exact T|..]; unfold missing_file, exists_.
    - destruct (given (worksheet_file a)) eqn:G; [|reflexivity]. apply given_iff in G. rewrite E; [reflexivity|]. right. split; [exact G|apply given_text, G].
    - destruct (given (config_file a)) eqn:G; [|reflexivity]. apply given_iff in G. assert (Q := C (py_text (config_file a)) (conj G (proj1 (given_text _ G)))).
      destruct (files st1 _), (files st2 _); try reflexivity; [pose proof (proj2 Q eq_refl) as Z|pose proof (proj1 Q eq_refl) as Z]; discriminate Z. }
  assert (D : forall b, depends (review_input a) (if negb b then (fun st => (emit (Printed help) st, Ok tt))
    else _ <-- (fun st => (emit (Namespace (review_namespace a)) st, Ok tt)) ;;
    if r_version a then print ($"convert_ddl (v1.0):  " ++ h_path H ++ $"/convert_ddl")
    else _ <-- when (show_tests a) (show_descriptions documented) ;;
      if given (ts_ip a) || given (database_file a) then
        d <-- (if given (ts_ip a) then read_from_cluster H (py_text (ts_ip a)) (r_username a) (r_password a) (r_database a)
               else parse_file H (r_database a) DEFAULT_SCHEMA (py_text (database_file a))) ;;
        rest H order rnd commas float_str fuel safe_load queries a d
      else done tt)).
  { intros b. destruct (negb b); [apply depends_emit|]. apply depends_then; [apply depends_emit|]. intros _. destruct (r_version a); [apply depends_print|]. apply depends_then.
    - apply depends_when. unfold show_descriptions. apply depends_then; [apply depends_lift|]. intros l. apply depends_then; [apply depends_print|]. intros _. apply depends_then; [|intros _; apply depends_print].
      apply depends_each. intros kv. apply depends_then; [apply depends_print|]. intros _. apply depends_then; [apply depends_print|]. intros _. apply depends_each. intros x. apply depends_print.
    - intros _. destruct (given (ts_ip a)) eqn:G1; cbn [orb].
      + apply depends_then; [apply depends_cluster|]. intros d. apply depends_rest. intros G. right. split; [exact G|apply given_text, G].
      + destruct (given (database_file a)) eqn:G2; [|apply depends_done]. apply given_iff in G2. apply depends_then; [apply depends_parse; left; split; [exact G2|apply given_text, G2]|].
        intros d. apply depends_rest. intros G. right. split; [exact G|apply given_text, G]. }
  apply (same_then (review_input a)); [exact V|exact E|exact D].
Qed.
End Review.
