(** * C105: the texts of a model, and what review_model asks a cluster *)
From Verif Require Import StrFacts ParseFacts ParsedFacts CliReviewFacts TalkFacts CliFrame MessageSame PropsParse PropsCliReview PropsTalk ReadsFacts.
From Coq Require Import List. Import ListNotations.

(** Every character of a name, key or condition of the model comes from the script, but for the names made
    up for foreign keys and relationships, brackets read as double quotes, and blanks for line ends; and
    none is a semicolon, a line end or a tab, unless the given names have one. *)
Definition origin (name schema text : str) (c : ascii) : Prop :=
  In c (name ++ schema) \/ (In c text \/ In c ($"FK_REL_to """)) /\ ~ In c [";"%char; ascii_of_nat 10; ascii_of_nat 9].
Lemma statements_origin name schema text s : In s (get_statements text) -> made (origin name schema text) s.
Proof.
  intros I c J. right. destruct (C38_clean text s I) as [N1 N2 N3 _ _]. split; [|intros [<-|[<-|[<-|[]]]]; auto].
  assert (M : made (fun c => (In c text \/ In c ($"FK_REL_to """)) \/ c = newline) s).
  { apply (get_statements_made (fun c => (In c text \/ In c ($"FK_REL_to """)) \/ c = newline)) with (text := text); [left; right; cbn; tauto|right; reflexivity|intros x K; left; left; exact K|exact I]. }
  destruct (M c J) as [H|E]; [exact H|]. subst c. destruct (N2 J).
Qed.
Lemma origin_made name schema text id d : parse_statements schema id (get_statements text) (empty_database name) = Ok d -> model_made (origin name schema text) d.
Proof.
  apply (statements_made (origin name schema text)).
  - right. split; [right; cbn; tauto|intros [E|[E|[E|[]]]]; discriminate].
  - intros c I. right. split; [right; revert I; cbn; tauto|]. intros J. cbn in I. destruct J as [<-|[<-|[<-|[]]]]; repeat (destruct I as [I|I]; [discriminate|]); exact I.
  - intros c I. left. apply in_or_app. right. exact I.
  - intros s. apply statements_origin.
  - apply empty_made. intros c I. left. apply in_or_app. left. exact I.
Qed.
Theorem C105_texts : forall name schema text d, parse_text name schema text = Ok d ->
  forall s c, In s (texts_of d) -> In c s ->
  In c (name ++ schema) \/ (In c text \/ In c ($"FK_REL_to """)) /\ ~ In c [";"%char; ascii_of_nat 10; ascii_of_nat 9].
Proof. intros name schema text d E s c I J. exact (origin_made name schema text 0 d E s I c J). Qed.
Print Assumptions C105_texts.

(** Of a model that is read, reviews ask one statement at a time, and each only reads. *)
Theorem C105_reads : forall name schema text d, parse_text name schema text = Ok d -> ~ In ";"%char (name ++ schema) ->
  forall order rnd commas float_str fuel c names ws rtql q, In q (snd (fst (review_model order rnd commas float_str fuel c d names ws rtql))) -> reads_only q.
Proof.
  intros name schema text d E N order rnd commas float_str fuel c names ws rtql. apply Forall_forall. apply model_reads.
  intros s I x J ->. destruct (C105_texts name schema text d E s _ I J) as [K|[_ K]]; [exact (N K)|]. apply K. left. reflexivity.
Qed.
Print Assumptions C105_reads.

(** ** The tool *)
Definition sends {A} (Q : command -> Prop) (R : A -> Prop) (m : cli A) : Prop := forall st, exists cs, sent (fst (m st)) = sent st ++ cs /\ Forall Q cs /\ forall a, snd (m st) = Ok a -> R a.
Lemma sends_none {A} Q (R : A -> Prop) (m : cli A) : (forall st, sent (fst (m st)) = sent st) -> (forall st a, snd (m st) = Ok a -> R a) -> sends Q R m.
Proof. intros S K st. exists []. rewrite app_nil_r. split; [apply S|]. split; [constructor|apply K]. Qed.
Lemma sends_then {A B} Q (R : A -> Prop) (R' : B -> Prop) (m : cli A) (f : A -> cli B) : sends Q R m -> (forall a, R a -> sends Q R' (f a)) -> sends Q R' (then_ m f).
Proof.
  intros S K st. unfold then_. destruct (S st) as [cs [E [F G]]]. destruct (m st) as [st1 [a|e]]; cbn [fst snd] in *; [|exists cs; split; [exact E|split; [exact F|intros b X; discriminate]]].
  destruct (K a (G a eq_refl) st1) as [cs' [E' [F' G']]]. exists (cs ++ cs'). split; [rewrite E', E, app_assoc; reflexivity|]. split; [apply Forall_app; split; assumption|exact G'].
Qed.
Lemma sends_done {A} Q (R : A -> Prop) a : R a -> sends Q R (done a).
Proof. intros K. apply sends_none; [reflexivity|]. intros st b E. cbn [done snd] in E. apply ok_inj in E. subst b. exact K. Qed.
Lemma sends_lift {A} Q (R : A -> Prop) r : (forall a, r = Ok a -> R a) -> sends Q R (lift r).
Proof. intros K. apply sends_none; [reflexivity|]. intros st a E. exact (K a E). Qed.
Definition any {A} (_ : A) : Prop := True.
Lemma sends_any {A} Q (m : cli A) : (forall st, sent (fst (m st)) = sent st) -> sends Q any m.
Proof. intros S. apply sends_none; [exact S|]. intros st a _. exact I. Qed.
Lemma sends_each {A} Q (f : A -> cli unit) : (forall x, sends Q any (f x)) -> forall l, sends Q any (Cli.each f l).
Proof. intros K. induction l as [|x l IH]; [apply sends_done; exact I|]. cbn [Cli.each]. apply (sends_then Q any); [apply K|intros _ _; exact IH]. Qed.
Lemma sends_perform {A} Q (m : io A) : sends Q any (perform m).
Proof.
  apply sends_any. intros st. unfold perform. destruct (m []) as [tr r]. cbn [fst]. revert st. induction tr as [|e tr IH]; intros st; [reflexivity|]. cbn [fold_left]. rewrite IH. destruct e as [n|[|n] s|n]; reflexivity.
Qed.
Definition calm_model (o : option database) : Prop := forall d, o = Some d -> forall s, In s (texts_of d) -> calm s.
Lemma sends_parse H Q db schema n : calm schema -> (forall s, db = Some s -> calm s) -> sends Q calm_model (parse_file H db schema n).
Proof.
  intros CS CD. assert (K2 : sends Q calm_model (_ <-- eprint ($"Input file " ++ n ++ $" doesn't exist for parsing.") ;; done (@None database))).
  { apply (sends_then Q any); [apply sends_any; reflexivity|]. intros _ _. apply sends_done. intros d E. discriminate. }
  assert (K1 : sends Q calm_model (d0 <-- lift (mk_database db) ;; text <-- read_text H n ;;
     (fun st' => let stmts := get_statements text in
        let '(r, ms) := Messages.heard_statements schema (objects st') stmts d0 in
        (_ <-- Cli.each (fun m => eprint (Messages.message_text (h_reason H) m)) ms ;;
         _ <-- count_objects (length stmts) ;;
         d <-- lift r ;; done (Some d)) st'))).
  { apply (sends_then Q (fun d0 => exists s, db = Some s /\ d0 = empty_database s)).
    { apply sends_lift. intros d0 E. destruct db as [s|]; [|discriminate]. exists s. split; [reflexivity|]. apply ok_inj in E. subst d0. reflexivity. }
    intros d0 [name [-> ->]]. specialize (CD name eq_refl). apply (sends_then Q any); [apply sends_any; reflexivity|]. intros t _ st. cbn zeta.
    pose proof (heard_statements_same schema (get_statements t) (objects st) (empty_database name)) as HS.
    destruct (Messages.heard_statements schema (objects st) (get_statements t) (empty_database name)) as [r ms]. cbn [fst] in HS.
    apply (sends_then Q any); [apply sends_each; intros m; apply sends_any; reflexivity|]. intros _ _. apply (sends_then Q any); [apply sends_any; reflexivity|]. intros _ _.
    apply (sends_then Q (fun d => r = Ok d)); [apply sends_lift; auto|]. intros d E. apply sends_done. intros d' E'. injection E' as <-. rewrite E in HS. symmetry in HS.
    intros s I x J ->. destruct (origin_made _ _ _ _ _ HS s I _ J) as [K|[_ K]]; [apply in_app_or in K; destruct K as [K|K]; [exact (CD _ K eq_refl)|exact (CS _ K eq_refl)]|]. apply K. left. reflexivity. }
  intros st. unfold parse_file. destruct (exists_ st n); [apply K1|apply K2].
Qed.
Theorem C105_tool : forall H order rnd commas float_str fuel safe_load queries help documented a st,
  (forall n, r_database a = Some n -> ~ In ";"%char n) ->
  exists cs, sent (fst (review_tool H order rnd commas float_str fuel safe_load queries help documented a st)) = sent st ++ cs
    /\ forall c, In c cs -> is_given (ts_ip a) /\ c_host c = text (ts_ip a) /\ c_user c = r_username a /\ c_password c = r_password a
         /\ (c_text c = $"script database " ++ (match r_database a with Some n => n | None => $"None" end) ++ $";" \/ reads_only (c_text c)).
Proof.
  intros H order rnd commas float_str fuel safe_load queries help documented a st CD.
  set (Q := fun c => is_given (ts_ip a) /\ c_host c = text (ts_ip a) /\ c_user c = r_username a /\ c_password c = r_password a
         /\ (c_text c = $"script database " ++ (match r_database a with Some n => n | None => $"None" end) ++ $";" \/ reads_only (c_text c))).
  enough (S : sends Q any (review_tool H order rnd commas float_str fuel safe_load queries help documented a)).
  { destruct (S st) as [cs [E [F _]]]. exists cs. split; [exact E|]. apply Forall_forall. exact F. }
  assert (CC : forall n, r_database a = Some n -> calm n) by (intros n E; apply calm_iff, CD, E).
  assert (CS : calm DEFAULT_SCHEMA) by (apply calm_lit; reflexivity).
  assert (PR : forall s, sends Q any (print s)) by (intros s; apply sends_any; reflexivity).
  assert (EP : forall s, sends Q any (eprint s)) by (intros s; apply sends_any; reflexivity).
  unfold review_tool. apply (sends_then Q any).
  { intros s. unfold review_valid_args. cbn zeta. assert (W : forall b x, sends Q any (complain b x)) by (intros [|] x; [apply EP|apply sends_done; exact I]).
    do 5 (apply (sends_then Q any); [apply W|intros _ _]). apply sends_done. exact I. }
  intros ok _. destruct (negb ok); [apply sends_any; reflexivity|]. apply (sends_then Q any); [apply sends_any; reflexivity|]. intros _ _. destruct (r_version a); [apply PR|].
  apply (sends_then Q any).
  { destruct (show_tests a); [|apply sends_done; exact I]. cbn [Cli.when]. unfold show_descriptions. apply (sends_then Q any); [apply sends_any; reflexivity|]. intros ds _.
    apply (sends_then Q any); [apply PR|]. intros _ _. apply (sends_then Q any); [|intros _ _; apply PR]. apply sends_each. intros kv. do 2 (apply (sends_then Q any); [apply PR|intros _ _]). apply sends_each. intros s. apply PR. }
  intros _ _. destruct (given (ts_ip a) || given (database_file a)); [|apply sends_done; exact I].
  apply (sends_then Q calm_model).
  { destruct (given (ts_ip a)) eqn:G; [|apply sends_parse; assumption]. apply given_iff in G. destruct (given_text _ G) as [GT _]. unfold read_from_cluster. apply (sends_then Q any).
    - intros s. eexists. split; [reflexivity|]. split; [|intros l _; exact I]. constructor; [|constructor]. unfold Q. cbn [c_host c_user c_password c_text]. rewrite GT. split; [exact G|]. repeat split. left. destruct (r_database a); reflexivity.
    - intros lines _. cbn zeta. apply (sends_then Q any); [apply sends_perform|]. intros _ _. apply (sends_then Q calm_model); [apply sends_parse; assumption|]. intros d D.
      apply (sends_then Q any); [apply sends_any; reflexivity|]. intros _ _. apply sends_done. exact D. }
  intros d D. apply (sends_then Q any).
  { destruct (given (worksheet_file a)); [|apply sends_done; exact I]. apply (sends_then Q any); [|intros w _; apply sends_done; exact I]. unfold read_worksheet_file. apply (sends_then Q any); [apply sends_any; reflexivity|].
    intros t _. apply sends_any. reflexivity. }
  intros ws _. cbn zeta. apply (sends_then Q any); [|intros r _; apply sends_each; intros kv; apply (sends_then Q any); [apply PR|intros _ _; apply sends_each; intros s; apply PR]].
  unfold run_reviews. destruct d as [d|]; [|apply sends_any; reflexivity]. specialize (D d eq_refl).
  set (rtql := if given (ts_ip a) then _ else _). destruct (review_aloud _ _ _ _ _ _ _ _ d [] ws rtql) as [[r h] vs] eqn:E.
  apply (sends_then Q any); [apply sends_each; intros [s|s]; [apply PR|apply EP]|]. intros _ _.
  pose proof (C104_same (h_query_error H) (h_yaml_text H) order rnd commas float_str fuel (reviewer_settings (fun _ => None) None) d [] ws rtql) as M. rewrite E in M. cbn [fst] in M.
  pose proof (model_reads d D order rnd commas float_str fuel (reviewer_settings (fun _ => None) None) [] ws rtql) as RO. rewrite <- M in RO. cbn [snd] in RO.
  apply (sends_then Q any); [|intros _ _; apply sends_any; reflexivity]. intros s. eexists. split; [reflexivity|]. split; [|intros x _; exact I].
  destruct (given (ts_ip a)) eqn:G.
  - apply given_iff in G. destruct (given_text _ G) as [GT _]. apply Forall_map. revert RO. apply Forall_impl. intros q R. unfold Q. cbn [c_host c_user c_password c_text]. rewrite GT. split; [exact G|]. repeat split. right. exact R.
  - unfold rtql in E. pose proof (unconnected (h_query_error H) (h_yaml_text H) order rnd commas float_str fuel (reviewer_settings (fun _ => None) None) d [] ws) as U. rewrite E in U. cbn [fst snd] in U. subst h. constructor.
Qed.
Print Assumptions C105_tool.
(** The name of the database is sent as it is given, so a name with a semicolon is another statement. *)
Definition review_cluster (ip : str) (n : option str) : review_args :=
  {| r_version := false; show_tests := false; database_file := None; worksheet_file := None; ts_ip := Some ip; r_username := $"admin"; r_password := $"pw";
     r_database := n; r_debug := false; config_file := None |}.
Theorem C105_option_refuted : forall H order rnd commas float_str fuel safe_load queries help documented ip n st e, ip <> [] -> In ";"%char n ->
  h_run H (sent st) (script_command ip ($"admin") ($"pw") n) = Err e ->
  sent (fst (review_tool H order rnd commas float_str fuel safe_load queries help documented (review_cluster ip (Some n)) st)) = sent st ++ [script_command ip ($"admin") ($"pw") n]
  /\ ~ reads_only (c_text (script_command ip ($"admin") ($"pw") n)).
Proof.
  intros H order rnd commas float_str fuel safe_load queries help documented ip n st e I N R. split; [|intros [E|[b [E _]]]; discriminate E].
  assert (A : review_accepts (review_cluster ip (Some n)) st).
  { split; cbn; [right; split; [destruct n; [destruct N|discriminate]|right; exact I]|intros [X _]; exact (X eq_refl)|intros X; destruct (X eq_refl)|intros X; destruct (X eq_refl)]. }
  destruct (C65_review (review_cluster ip (Some n)) st) as [V _]. unfold review_tool. unfold then_ at 1. rewrite (V A). destruct ip as [|x ip]; [destruct (I eq_refl)|].
  cbn [negb r_version review_cluster show_tests Cli.when done then_ ts_ip given orb r_username r_password r_database py_text].
  assert (RC : forall st', sent st' = sent st -> read_from_cluster H (x :: ip) ($"admin") ($"pw") (Some n) st'
    = ({| files := files st'; out := out st'; err := err st'; sent := sent st' ++ [script_command (x :: ip) ($"admin") ($"pw") n]; objects := objects st' |}, Err e)).
  { intros st' S. unfold read_from_cluster, then_ at 1, run_tql_command. rewrite S. fold (script_command (x :: ip) ($"admin") ($"pw") n). cbn [py_text].
    change ({| c_host := x :: ip; c_user := $"admin"; c_password := $"pw"; c_text := $"script database " ++ n ++ $";" |}) with (script_command (x :: ip) ($"admin") ($"pw") n). rewrite R. reflexivity. }
  unfold then_ at 1. rewrite RC; [reflexivity|]. reflexivity.
Qed.
Print Assumptions C105_option_refuted.

(** A script with a name in brackets and a relationship without a name, and the queries about it. *)
Definition shop_ddl : str := $"CREATE TABLE [big orders] (""id"" INT, ""cust"" INT);" ++ [newline] ++ $"CREATE TABLE ""customers"" (""id"" INT);" ++ [newline]
  ++ $"ALTER TABLE ""customers"" ADD CONSTRAINT PRIMARY KEY (""id"");" ++ [newline]
  ++ $"ALTER TABLE ""big orders"" ADD RELATIONSHIP WITH ""customers"" AS ""big orders"".""cust"" = ""customers"".""id"";" ++ [newline].
Example C105_case : exists d, parse_text ($"db") ($"s") shop_ddl = Ok d /\ ~ In ";"%char ($"db" ++ $"s")
  /\ In ($"REL_big orders_to_customers") (texts_of d) /\ In ($"""big orders"".""cust"" = ""customers"".""id""") (texts_of d)
  /\ snd (fst (review_model (fun l => l) (fun q => q) (fun _ => []) (fun _ => []) 9 [] d [] None (Some (fun _ _ => Ok [])))) = [$"show statistics for server;";
       $"select ""db"".""s"".""big orders"".""id"",""db"".""s"".""big orders"".""cust"", count(""db"".""s"".""customers"".""id"") as c1 from ""db"".""s"".""big orders"", ""db"".""s"".""customers"" where ""big orders"".""cust"" = ""customers"".""id"" group by ""big orders"".""id"",""big orders"".""cust"" order by c1 desc limit 1;";
       $"select ""db"".""s"".""customers"".""id"", count(""db"".""s"".""big orders"".""id"") as c1 from ""db"".""s"".""customers"", ""db"".""s"".""big orders"" where ""big orders"".""cust"" = ""customers"".""id"" group by ""customers"".""id"" order by c1 desc limit 1;"].
Proof.
  destruct (parse_text ($"db") ($"s") shop_ddl) as [d|] eqn:E; [|vm_compute in E; discriminate]. exists d. split; [reflexivity|]. split; [intros [H|[H|[H|[]]]]; discriminate|]. vm_compute in E. apply ok_inj in E. subst d.
  split; [vm_compute; do 9 right; left; reflexivity|]. split; [vm_compute; do 12 right; left; reflexivity|]. vm_compute. reflexivity.
Qed.
