(** * C124: the log of --debug *)
From Verif Require Import StrFacts ParseFacts ParsedFacts MessageFacts MessageSame SpecDebug CliFacts.
From Coq Require Import List. Import ListNotations.

Lemma traced_line_is st raw : fst (traced_line st raw) = read_line st raw.
Proof. unfold traced_line, read_line. destruct (should_ignore_line _); [reflexivity|]. destruct (feed _ _ _) as [b i]. destruct (contains _ b); reflexivity. Qed.
Lemma traced_lines_log raws : forall st, exists ps,
  fst (traced_lines raws st) = fold_left read_line raws st /\ r_statements (fold_left read_line raws st) = r_statements st ++ map strip ps
  /\ reading_log (r_buffer st) (r_in_comment st) raws (snd (traced_lines raws st)) ps.
Proof.
  induction raws as [|raw raws IH]; intros st; cbn [traced_lines fold_left]; [exists []; split; [reflexivity|]; split; [rewrite app_nil_r; reflexivity|constructor]|].
  pose proof (traced_line_is st raw) as T. pose proof (line_content_ok raw) as K. destruct (traced_line st raw) as [st1 l1] eqn:E. cbn [fst] in T. subst st1.
  destruct (IH (read_line st raw)) as (ps & A & B & C). destruct (traced_lines raws (read_line st raw)) as [st2 l2]. cbn [fst snd] in *. subst st2. unfold traced_line in E.
  set (l := before ($"--") (clean_line raw)) in *. unfold should_ignore_line in E. destruct (starts_with ($"GO") l) eqn:G.
  { injection E as E <-. rewrite <- E in *. exists ps. split; [reflexivity|]. split; [exact B|]. apply starts_with_spec in G. destruct G as [r G]. rewrite G in *. apply rl_go; assumption. }
  assert (NG : ~ exists r, l = $"GO" ++ r) by (intros [r Hr]; rewrite (proj2 (starts_with_spec _ _)) in G; [discriminate | exists r; exact Hr]).
  destruct (feed_adds l (r_buffer st) (r_in_comment st)) as [x [j [F1 F2]]]. rewrite F2 in E.
  destruct (contains_spec ($";") (r_buffer st ++ x)) as [S'|S']; injection E as E <-; rewrite <- E in *; cbn [r_statements r_buffer r_in_comment] in *.
  - exists (before ($";") (r_buffer st ++ x) :: ps). split; [reflexivity|]. split; [rewrite B, <- app_assoc; reflexivity|]. cbn [app]. eapply rl_ends; [exact K|exact NG|exact F1|apply cut_some, S'|exact C].
  - exists ps. split; [reflexivity|]. split; [exact B|]. eapply rl_line; eassumption.
Qed.
Lemma traced_statement_is schema id d s : exists ls, understood s ls /\ fst (traced_statement schema id d s) = fst (heard_statement schema id d s)
  /\ snd (traced_statement schema id d s) = Debug ($">>> " ++ s) :: map Debug ls ++ map Message (snd (heard_statement schema id d s)).
Proof.
  unfold traced_statement, heard_statement. cbn zeta.
  destruct (contains_spec ($"create database") (lower s)) as [A|A]; [eexists; split; [apply un_database, A|split; reflexivity]|].
  destruct (contains_spec ($"create table") (lower s)) as [B|B]; cbn [orb].
  { exists []. split; [apply un_create; split; auto|]. destruct (heard_create_table schema id d s); split; reflexivity. }
  destruct (contains_spec ($"create or replace table") (lower s)) as [C|C].
  { exists []. split; [apply un_create; split; auto|]. destruct (heard_create_table schema id d s); split; reflexivity. }
  destruct (contains_spec ($"alter table") (lower s)) as [D|D].
  2:{ eexists. split; [apply un_other; [exact A|intros [_ [X|X]]; contradiction|exact D]|split; reflexivity]. }
  assert (L : SpecMessages.alters s) by (constructor; assumption).
  destruct (contains_spec ($"primary key") (lower s)) as [P|P].
  { eexists. split; [apply un_key; split; assumption|]. destruct (heard_primary_key d s); split; reflexivity. }
  destruct (contains_spec ($"foreign") (lower s)) as [F|F].
  { eexists. split; [apply un_foreign; repeat (split; try assumption)|]. destruct (heard_foreign_key d s); split; reflexivity. }
  destruct (contains_spec ($"relationship") (lower s)) as [R|R].
  { eexists. split; [apply un_relationship; repeat (split; try assumption)|]. destruct (heard_relationship d s); split; reflexivity. }
  destruct (contains_spec ($"hash") (lower s)) as [X|X].
  { eexists. split; [apply un_shard; repeat (split; try assumption)|]. split; reflexivity. }
  eexists. split; [apply un_alter; [exact L|intros [_ Y]; contradiction|intros (_ & _ & Y); contradiction|intros (_ & _ & _ & Y); contradiction|intros (_ & _ & _ & _ & Y); contradiction]|]. split; reflexivity.
Qed.
Lemma traced_statements_log schema stmts : forall id d,
  handling_log schema id d stmts (snd (traced_statements schema id stmts d)) (fst (traced_statements schema id stmts d)).
Proof.
  induction stmts as [|s stmts IH]; intros id d; cbn [traced_statements]; [constructor|]. destruct (traced_statement_is schema id d s) as (ls & U & A & B).
  destruct (traced_statement schema id d s) as [r es]. cbn [fst snd] in A, B. subst es. destruct (heard_statement schema id d s) as [r' ms] eqn:E. cbn [fst snd] in *. subst r'.
  destruct r as [d'|e]; [|apply (hl_stop _ _ _ _ _ _ _ _ U E)]. specialize (IH (S id) d'). destruct (traced_statements schema (S id) stmts d') as [r es']. cbn [fst snd] in *.
  replace ((Debug ($">>> " ++ s) :: map Debug ls ++ map Message ms) ++ es') with (Debug ($">>> " ++ s) :: map Debug ls ++ map Message ms ++ es') by (cbn [app]; rewrite <- app_assoc; reflexivity).
  exact (hl_next _ _ _ _ _ _ _ _ _ _ U E IH).
Qed.
Lemma messages_app a b : messages_of (a ++ b) = messages_of a ++ messages_of b.
Proof. apply flat_map_app. Qed.
Lemma messages_debug l : messages_of (map Debug l) = [].
Proof. induction l; [reflexivity|assumption]. Qed.
Lemma messages_message l : messages_of (map Message l) = l.
Proof. induction l as [|m l IH]; [reflexivity|]. change (messages_of (map Message (m :: l))) with (m :: messages_of (map Message l)). rewrite IH. reflexivity. Qed.
Lemma handling_heard schema id d stmts es r : handling_log schema id d stmts es r -> heard_statements schema id stmts d = (r, messages_of es).
Proof.
  induction 1 as [id d|id d s ls ms d' stmts es r U E L IH|id d s ls ms e stmts U E]; [reflexivity|..]; cbn [heard_statements]; rewrite E; change (messages_of (Debug ?x :: ?l)) with (messages_of l).
  - rewrite IH, !messages_app, messages_debug, messages_message. reflexivity.
  - rewrite messages_app, messages_debug, messages_message. reflexivity.
Qed.

(** C124: the log is the lines, with the statements that end on them, and then the statements, each with how
    it is understood and what is said about it. *)
Theorem C124_exact : forall name schema id text r es, traced_text name schema id text = (r, es) ->
  exists t raws log ps es', newlines_read text t /\ in_lines t raws /\ reading_log [] false raws log ps /\ Forall2 tidy ps (get_statements text)
    /\ es = map Debug log ++ es' /\ handling_log schema id (empty_database name) (get_statements text) es' r.
Proof.
  intros name schema id text r es E. unfold traced_text in E. destruct (traced_lines_log (file_lines (universal_newlines text)) start_reading) as (ps & A & B & C).
  destruct (traced_lines (file_lines (universal_newlines text)) start_reading) as [rd log]. cbn [fst snd] in *. subst rd. fold (read_lines (file_lines (universal_newlines text))) in *.
  pose proof (traced_statements_log schema (get_statements text) id (empty_database name)) as L. unfold get_statements at 1 2 3 in L.
  destruct (traced_statements schema id _ (empty_database name)) as [r' es']. cbn [fst snd] in L. injection E as <- <-.
  exists (universal_newlines text), (file_lines (universal_newlines text)), log, ps, es'. split; [eapply universal_ok, le_n|]. split; [apply file_lines_ok|]. split; [exact C|]. split; [|split; [reflexivity|exact L]].
  unfold get_statements. rewrite B. cbn [start_reading r_statements app]. clear. induction ps as [|p ps IH]; cbn [map]; constructor; [apply sub_runs_spec|exact IH].
Qed.
Print Assumptions C124_exact.

(** C124: --debug changes neither what is read nor what is said. *)
Theorem C124_same : forall name schema text,
  fst (traced_text name schema 0 text) = parse_text name schema text /\ messages_of (snd (traced_text name schema 0 text)) = snd (heard_text name schema text).
Proof.
  intros name schema text. destruct (traced_text name schema 0 text) as [r es] eqn:E. destruct (C124_exact _ _ _ _ _ _ E) as (t & raws & log & ps & es' & _ & _ & _ & _ & -> & L).
  apply handling_heard in L. cbn [fst snd]. rewrite messages_app, messages_debug. unfold heard_text, parse_text. rewrite <- heard_statements_same, L. split; reflexivity.
Qed.
Print Assumptions C124_same.

Lemma understood_others s ls : understood s ls -> forall e, In e (map Debug ls) -> ~ shows_statement e.
Proof.
  intros U e I [x ->]. apply in_map_iff in I. destruct I as [l [E I]]. injection E as ->.
  destruct U; cbn [In] in I; repeat (destruct I as [I|I]; [discriminate I|]); exact I.
Qed.
Lemma message_others ms e : In e (map Message ms) -> ~ shows_statement e.
Proof. intros I [x ->]. apply in_map_iff in I. destruct I as [m [E _]]. discriminate. Qed.
(** the statement whose turn it is at a place of the log *)
Lemma log_turn schema id d stmts es r : handling_log schema id d stmts es r -> forall a m b, es = a ++ Message m :: b ->
  exists l1 s l2 d', stmts = l1 ++ s :: l2 /\ parse_statements schema id l1 d = Ok d' /\ In m (snd (heard_statement schema (id + length l1) d' s)) /\ last_shown a s.
Proof.
  assert (K : forall s ls ms a m b x, understood s ls -> Debug ($">>> " ++ s) :: map Debug ls ++ map Message ms ++ x = a ++ Message m :: b ->
                (In m ms /\ last_shown a s) \/ exists a', a = (Debug ($">>> " ++ s) :: map Debug ls ++ map Message ms) ++ a' /\ x = a' ++ Message m :: b).
  { intros s ls ms a m b x U E. destruct a as [|e0 a]; [discriminate|]. cbn [app] in E. injection E as <- E. rewrite app_assoc in E.
    destruct (app_eq_app _ _ _ _ E) as [k [[A B]|[A B]]].
    - destruct k as [|e k]; [right; exists []; rewrite app_nil_r in A; subst; rewrite app_nil_r; split; [reflexivity|symmetry; exact B]|]. cbn [app] in B. injection B as <- B. left.
      assert (I : In (Message m) (map Debug ls ++ map Message ms)) by (rewrite A; apply in_or_app; right; left; reflexivity).
      split; [apply in_app_or in I; destruct I as [I|I]; apply in_map_iff in I; destruct I as [y [Y1 Y2]]; [discriminate|injection Y1 as <-; exact Y2]|].
      exists [], a. split; [reflexivity|]. intros e I'. assert (I2 : In e (map Debug ls ++ map Message ms)) by (rewrite A; apply in_or_app; left; exact I').
      apply in_app_or in I2. destruct I2 as [I2|I2]; [exact (understood_others _ _ U _ I2)|exact (message_others _ _ I2)].
    - right. exists k. split; [rewrite A; reflexivity|exact B]. }
  induction 1 as [id d|id d s ls ms d' stmts es r U E L IH|id d s ls ms e stmts U E]; intros a m b Q.
  - destruct a; discriminate.
  - destruct (K _ _ _ _ _ _ _ U Q) as [[I S']|[a' [-> Q']]].
    + exists [], s, stmts, d. split; [reflexivity|]. split; [reflexivity|]. cbn [length]. rewrite Nat.add_0_r, E. split; assumption.
    + destruct (IH a' m b Q') as (l1 & s' & l2 & d2 & -> & P & I & (x & y & -> & N)). exists (s :: l1), s', l2, d2. split; [reflexivity|].
      pose proof (heard_statements_same schema (s :: l1) id d) as HS. cbn [heard_statements] in HS. rewrite E in HS. pose proof (heard_statements_same schema l1 (S id) d') as HS'.
      destruct (heard_statements schema (S id) l1 d') as [r' ms']. cbn [fst] in HS, HS'. split; [rewrite <- HS, HS'; exact P|].
      cbn [length]. rewrite Nat.add_succ_r. split; [exact I|]. eexists (_ ++ x), y. split; [rewrite <- app_assoc; reflexivity|exact N].
  - assert (Q2 : Debug ($">>> " ++ s) :: map Debug ls ++ map Message ms ++ [] = a ++ Message m :: b) by (rewrite app_nil_r; exact Q).
    destruct (K _ _ _ _ _ _ _ U Q2) as [[I S']|[a' [_ Q']]]; [|destruct a'; discriminate]. exists [], s, stmts, d. split; [reflexivity|]. split; [reflexivity|]. cbn [length]. rewrite Nat.add_0_r, E. split; assumption.
Qed.
(** C124: a message is about the statement that was shown last before it. *)
Theorem C124_message : forall name schema text r a m b, traced_text name schema 0 text = (r, a ++ Message m :: b) ->
  exists l1 s l2 d, get_statements text = l1 ++ s :: l2 /\ parse_statements schema 0 l1 (empty_database name) = Ok d
    /\ In m (snd (heard_statement schema (length l1) d s)) /\ last_shown a s.
Proof.
  intros name schema text r a m b E. destruct (C124_exact _ _ _ _ _ _ E) as (t & raws & log & ps & es' & _ & _ & _ & _ & Q & L).
  assert (A : exists a', a = map Debug log ++ a' /\ es' = a' ++ Message m :: b).
  { destruct (app_eq_app _ _ _ _ Q) as [k [[A B]|[A B]]]; [subst a; exists k; auto|]. destruct k as [|e k]; [exists []; cbn [app] in *; rewrite app_nil_r in *; subst; auto|]. cbn [app] in B. injection B as <- B. exfalso.
    assert (I : In (Message m) (map Debug log)) by (rewrite A; apply in_or_app; right; left; reflexivity). apply in_map_iff in I. destruct I as [y [Y _]]. discriminate. }
  destruct A as [a' [-> ->]]. destruct (log_turn _ _ _ _ _ _ L _ _ _ eq_refl) as (l1 & s & l2 & d & S' & P & I & (x & y & -> & N)). exists l1, s, l2, d.
  split; [exact S'|]. split; [exact P|]. split; [exact I|]. exists (map Debug log ++ x), y. split; [rewrite app_assoc; reflexivity|exact N].
Qed.
Print Assumptions C124_message.
Lemma log_stop schema id d stmts es r : handling_log schema id d stmts es r -> forall e, r = Err e ->
  exists l1 s l2 d', stmts = l1 ++ s :: l2 /\ parse_statements schema id l1 d = Ok d' /\ fst (heard_statement schema (id + length l1) d' s) = Err e /\ last_shown es s.
Proof.
  induction 1 as [id d|id d s ls ms d' stmts es r U E L IH|id d s ls ms e' stmts U E]; intros e Q; [discriminate|..].
  - destruct (IH e Q) as (l1 & s' & l2 & d2 & -> & P & I & (x & y & -> & N)). exists (s :: l1), s', l2, d2. split; [reflexivity|].
    pose proof (heard_statements_same schema (s :: l1) id d) as HS. cbn [heard_statements] in HS. rewrite E in HS. pose proof (heard_statements_same schema l1 (S id) d') as HS'.
    destruct (heard_statements schema (S id) l1 d') as [r' ms']. cbn [fst] in HS, HS'. split; [rewrite <- HS, HS'; exact P|].
    cbn [length]. rewrite Nat.add_succ_r. split; [exact I|]. exists (Debug ($">>> " ++ s) :: map Debug ls ++ map Message ms ++ x), y. split; [cbn [app]; rewrite <- !app_assoc; reflexivity|exact N].
  - injection Q as ->. exists [], s, stmts, d. split; [reflexivity|]. split; [reflexivity|]. cbn [length]. rewrite Nat.add_0_r, E. split; [reflexivity|]. exists [], (map Debug ls ++ map Message ms). split; [reflexivity|].
    intros x I. apply in_app_or in I. destruct I as [I|I]; [exact (understood_others _ _ U _ I)|exact (message_others _ _ I)].
Qed.
(** C124: when the parse raises, the statement shown last is the one that made it. *)
Theorem C124_stopped : forall name schema text e es, traced_text name schema 0 text = (Err e, es) ->
  exists l1 s l2 d, get_statements text = l1 ++ s :: l2 /\ parse_statements schema 0 l1 (empty_database name) = Ok d
    /\ fst (heard_statement schema (length l1) d s) = Err e /\ last_shown es s.
Proof.
  intros name schema text e es E. destruct (C124_exact _ _ _ _ _ _ E) as (t & raws & log & ps & es' & _ & _ & _ & _ & -> & L).
  destruct (log_stop _ _ _ _ _ _ L e eq_refl) as (l1 & s & l2 & d & S' & P & I & (x & y & -> & N)). exists l1, s, l2, d.
  split; [exact S'|]. split; [exact P|]. split; [exact I|]. exists (map Debug log ++ x), y. split; [rewrite app_assoc; reflexivity|exact N].
Qed.
Print Assumptions C124_stopped.

(** C124: for the tools, --debug adds lines that begin with DEBUG to standard error, and changes nothing else. *)
Theorem C124_file : forall H name schema f st st1 r1 st2 r2, parse_file H name schema f st = (st1, r1) -> parse_file_debug H name schema f st = (st2, r2) ->
  r2 = r1 /\ files st2 = files st1 /\ out st2 = out st1 /\ sent st2 = sent st1 /\ objects st2 = objects st1
  /\ exists ls, err st2 = err st ++ ls /\ err st1 = err st ++ filter not_debug ls.
Proof.
  intros H name schema f st st1 r1 st2 r2 E1 E2. unfold parse_file in E1. unfold parse_file_debug in E2. destruct (exists_ st f).
  2:{ unfold then_, eprint, done in *. rewrite E1 in E2. injection E2 as <- <-. injection E1 as <- <-. do 5 (split; [reflexivity|]). eexists [_]. split; reflexivity. }
  unfold lift, then_ at 1 in E1. unfold lift, then_ at 1 in E2. destruct name as [n|]; cbn [mk_database] in *.
  2:{ injection E1 as <- <-. injection E2 as <- <-. do 5 (split; [reflexivity|]). exists []. cbn [filter]. rewrite !app_nil_r. split; reflexivity. }
  unfold then_ at 1 in E1. unfold then_ at 1 in E2. destruct (read_text H f st) as [s1 [t|e]] eqn:R; assert (s1 = st) as -> by (unfold read_text in R; destruct (files st f) as [[]|]; congruence).
  2:{ injection E1 as <- <-. injection E2 as <- <-. do 5 (split; [reflexivity|]). exists []. cbn [filter]. rewrite !app_nil_r. split; reflexivity. }
  cbn [db_name] in E2. destruct (traced_text n schema (objects st) t) as [r es] eqn:T. destruct (C124_exact _ _ _ _ _ _ T) as (x & raws & log & ps & es' & _ & _ & _ & _ & -> & L).
  apply handling_heard in L. unfold empty_database in L. rewrite L in E1. unfold then_ in E1, E2. rewrite each_eprint_is in E1. rewrite each_eprint_is in E2. unfold count_objects in E1, E2. cbn [files out err sent objects] in E1, E2.
  assert (F : forall l, filter not_debug (map line (map (entry_text (h_reason H)) l)) = map line (map (message_text (h_reason H)) (messages_of l))).
  { induction l as [|[s|m] l IH]; cbn [map filter]; [reflexivity|exact IH|]. change (messages_of (Message m :: l)) with (m :: messages_of l). cbn [map entry_text].
    assert (N : not_debug (line (message_text (h_reason H) m)) = true) by (destruct m as [k s|k e s|k s]; reflexivity). rewrite N, IH. reflexivity. }
  assert (M : messages_of (map Debug log ++ es') = messages_of es') by (rewrite messages_app, messages_debug; reflexivity).
  destruct r as [d|e]; cbn [done] in E1, E2; injection E1 as <- <-; injection E2 as <- <-; cbn [files out err sent objects]; do 5 (split; [reflexivity|]); eexists; (split; [reflexivity|]); rewrite F, M; reflexivity.
Qed.
Print Assumptions C124_file.
(** ** The whole tool *)
Lemma fewer_refl l : fewer l l.
Proof. induction l; constructor; assumption. Qed.
Lemma fewer_app a b c d : fewer a b -> fewer c d -> fewer (a ++ c) (b ++ d).
Proof. intros H. revert c d. induction H; intros c d K; cbn [app]; [exact K|constructor; auto|constructor; auto]. Qed.
Lemma fewer_trans b c : fewer b c -> forall a, fewer a b -> fewer a c.
Proof. induction 1 as [|x l1 l2 H IH|s l1 l2 H IH]; intros a K; [exact K| |constructor; auto]. inversion K; subst; constructor; auto. Qed.
Lemma fewer_filter l : fewer (filter not_debug l) l.
Proof.
  induction l as [|x l IH]; cbn [filter]; [constructor|]. destruct (not_debug x) eqn:N; [constructor; exact IH|]. unfold not_debug in N. apply Bool.negb_false_iff, starts_with_spec in N.
  destruct N as [s ->]. constructor. exact IH.
Qed.
Lemma same_output_refl l : same_output l l.
Proof. induction l; constructor; assumption. Qed.
Lemma same_output_app a b c d : same_output a b -> same_output c d -> same_output (a ++ c) (b ++ d).
Proof. intros H. revert c d. induction H; intros c d K; cbn [app]; [exact K|constructor; auto|constructor; auto]. Qed.
Definition with_err (e : list str * list output) (st : state) : state := {| files := files st; out := snd e; err := fst e; sent := sent st; objects := objects st |}.
Definition near (e : list str * list output) (st : state) : Prop := fewer (fst e) (err st) /\ same_output (snd e) (out st).
(** [m1] does what [m2] does, with fewer lines on standard error, and another value of debug in the output *)
Definition less {A} (m1 m2 : cli A) : Prop := forall st e, near e st -> exists e', m1 (with_err e st) = (with_err e' (fst (m2 st)), snd (m2 st)) /\ near e' (fst (m2 st)).
Lemma less_lift {A} (r : result A) : less (lift r) (lift r).
Proof. intros st e F. exists e. split; [reflexivity|exact F]. Qed.
Lemma less_then {A B} (m1 m2 : cli A) (f1 f2 : A -> cli B) : less m1 m2 -> (forall a, less (f1 a) (f2 a)) -> less (then_ m1 f1) (then_ m2 f2).
Proof.
  intros M F st e K. destruct (M st e K) as (e1 & E1 & K1). unfold then_. rewrite E1. destruct (m2 st) as [st1 [a|x]]; cbn [fst snd] in *; [exact (F a st1 e1 K1)|]. exists e1. split; [reflexivity|exact K1].
Qed.
Lemma less_when b m1 m2 : less m1 m2 -> less (when b m1) (when b m2).
Proof. intros M. destruct b; [exact M|exact (less_lift (Ok tt))]. Qed.
Lemma less_emits o1 o2 : same_output [o1] [o2] -> less (fun st => (emit o1 st, Ok tt)) (fun st => (emit o2 st, Ok tt)).
Proof. intros O st e [F G]. exists (fst e, snd e ++ [o1]). split; [reflexivity|]. split; [exact F|apply same_output_app; [exact G|exact O]]. Qed.
Lemma less_emit o : less (fun st => (emit o st, Ok tt)) (fun st => (emit o st, Ok tt)).
Proof. apply less_emits, same_output_refl. Qed.
Lemma less_eprint s : less (eprint s) (eprint s).
Proof. intros st e [F G]. eexists (_, snd e). split; [reflexivity|]. split; [apply fewer_app; [exact F|apply fewer_refl]|exact G]. Qed.
Lemma less_each {A} (f : A -> cli unit) l : (forall x, less (f x) (f x)) -> less (Cli.each f l) (Cli.each f l).
Proof. intros K. induction l as [|x l IH]; cbn [Cli.each]; [exact (less_lift (Ok tt))|]. apply less_then; [apply K|intros _; exact IH]. Qed.
Lemma less_perform {A} (m : io A) : less (perform m) (perform m).
Proof.
  intros st e F. unfold perform. destruct (m []) as [tr r]. cbn [fst snd]. revert st e F. induction tr as [|v tr IH]; intros st e F; cbn [fold_left]; [exists e; split; [reflexivity|exact F]|].
  assert (Q : exists e', happen (with_err e st) v = with_err e' (happen st v) /\ near e' (happen st v)).
  { destruct F as [F G]. destruct v as [n|[|n] s|h]; [exists e; split; [reflexivity|split; assumption]| |exists e; split; [reflexivity|split; assumption]|exists e; split; [reflexivity|split; assumption]].
    eexists (fst e, _). split; [reflexivity|]. split; [exact F|]. apply same_output_app; [exact G|apply same_output_refl]. }
  destruct Q as (e' & -> & N). exact (IH _ _ N).
Qed.
Lemma less_read_text H n : less (read_text H n) (read_text H n).
Proof. intros st e F. exists e. split; [reflexivity|exact F]. Qed.
Lemma less_set n c : less (fun st => (set_file n c st, Ok tt)) (fun st => (set_file n c st, Ok tt)).
Proof. intros st e F. exists e. split; [reflexivity|exact F]. Qed.
Lemma less_run H c : less (run_tql_command H c) (run_tql_command H c).
Proof. intros st e F. exists e. split; [reflexivity|exact F]. Qed.
Lemma less_count n : less (count_objects n) (count_objects n).
Proof. intros st e F. exists e. split; [reflexivity|exact F]. Qed.
Lemma less_parse H name schema f : less (parse_file H name schema f) (parse_file H name schema f).
Proof.
  intros st e F. unfold parse_file. change (exists_ (with_err e st) f) with (exists_ st f). destruct (exists_ st f).
  - revert st e F. apply less_then; [apply less_lift|]. intros d0. apply less_then; [apply less_read_text|]. intros t st e F. cbv zeta.
    change (objects (with_err e st)) with (objects st). destruct (Messages.heard_statements schema (objects st) (get_statements t) d0) as [r ms].
    revert st e F. apply less_then; [apply less_each; intros m; apply less_eprint|]. intros _.
    apply less_then; [apply less_count|]. intros _. apply less_then; [apply less_lift|]. intros d. exact (less_lift (Ok (Some d))).
  - revert st e F. apply less_then; [apply less_eprint|]. intros _. exact (less_lift (Ok None)).
Qed.
Lemma less_debug H name schema f : less (parse_file H name schema f) (parse_file_debug H name schema f).
Proof.
  intros st e F. destruct (less_parse H name schema f st e F) as (e1 & E1 & F1 & G1). destruct (parse_file H name schema f st) as [st1 r1] eqn:P1. destruct (parse_file_debug H name schema f st) as [st2 r2] eqn:P2.
  destruct (C124_file _ _ _ _ _ _ _ _ _ P1 P2) as (-> & A & B & C & D & ls & L2 & L1). cbn [fst snd] in *. exists e1. split.
  - rewrite E1. unfold with_err. rewrite A, C, D. reflexivity.
  - split; [|rewrite B; exact G1]. rewrite L2. rewrite L1 in F1. apply (fewer_trans (err st ++ filter not_debug ls)); [apply fewer_app; [apply fewer_refl|apply fewer_filter]|exact F1].
Qed.
Lemma less_book H message n : less (read_book H message n) (read_book H message n).
Proof.
  intros st e F. unfold read_book. change (files (with_err e st) n) with (files st n). destruct (files st n) as [c|]; [|exact (less_lift (Err FileNotFoundError) st e F)].
  revert st e F. apply less_then; [apply less_lift|]. intros wb st e F. change (objects (with_err e st)) with (objects st). destruct (ExcelTalk.heard_xls (objects st) [] wb) as [r ms].
  revert st e F. apply less_then; [apply less_each; intros m; apply less_eprint|]. intros _. apply less_then; [apply less_lift|]. intros dbs st e F. exists e. split; [reflexivity|exact F].
Qed.
Lemma less_tql H o c d n : less (write_tql_of H o c d n) (write_tql_of H o c d n).
Proof. apply less_perform. Qed.
Lemma less_cluster H address user pass db : less (read_from_cluster H address user pass db) (read_from_cluster_debug H address user pass db).
Proof.
  unfold read_from_cluster, read_from_cluster_debug. apply less_then; [apply less_run|]. intros lines. apply less_then; [apply less_perform|]. intros _.
  apply less_then; [apply less_debug|]. intros d. apply less_then; [apply less_set|]. intros _. exact (less_lift (Ok d)).
Qed.
Lemma dget_other {A} n (l1 : list (str * A)) v1 v2 l2 k : k <> n -> dget k (l1 ++ (n, v1) :: l2) = dget k (l1 ++ (n, v2) :: l2).
Proof. intros K. induction l1 as [|[k' v] l1 IH]; cbn [app dget]; [|rewrite IH; reflexivity]. destruct (str_eqb_spec k n); [congruence|reflexivity]. Qed.
Lemma less_convert H message a : less (convert H message (set_debug false a)) (convert_debug H message (set_debug true a)).
Proof.
  unfold convert, convert_debug. apply less_then.
  { unfold convert_valid_args. destruct (_ && _); [apply less_then; [apply less_eprint|intros _; exact (less_lift (Ok false))]|]. destruct (_ && _); [apply less_then; [apply less_eprint|intros _; exact (less_lift (Ok false))]|exact (less_lift (Ok true))]. }
  intros ok. destruct (negb ok); [exact (less_lift (Ok tt))|]. apply less_then; [apply less_emits|].
  { apply so_arguments; [reflexivity| |constructor]. intros k K. exact (dget_other _ (firstn 17 (convert_namespace a)) (AFlag false) (AFlag true) [] k K). }
  intros _. cbn [version from_ddl to_tql from_ts to_ts username password from_excel to_excel db_option schema_option create_db validate_option set_debug]. destruct (version a); [apply less_emit|]. apply less_then.
  { destruct (given (from_ddl a)); [apply less_then; [apply less_emit|intros _; apply less_debug]|]. destruct (given (from_excel a)).
    { apply less_then; [apply less_emit|intros _]. unfold read_excel. apply less_then; [apply less_book|]. intros dbs. destruct (dvals dbs) as [|d l]; [apply less_then; [apply less_eprint|intros _; exact (less_lift (Ok None))]|].
      apply less_then; [destruct l; [exact (less_lift (Ok tt))|apply less_eprint]|intros _; exact (less_lift (Ok (Some d)))]. }
    destruct (given (from_ts a)); [|apply less_lift]. apply less_then; [apply less_emit|intros _]. apply less_cluster. }
  intros d. apply less_then.
  { apply less_when. unfold validate_step. apply less_then; [apply less_emit|intros _]. destruct d as [d|]; [|exact (less_lift (Err AttributeError))]. apply less_then; [apply less_lift|]. intros vr.
    destruct (is_valid vr); [apply less_emit|apply less_each; intros i; apply less_eprint]. }
  intros _. apply less_then; [apply less_when, less_then; [apply less_emit|intros _; apply less_tql]|]. intros _. apply less_then.
  { apply less_when, less_then; [apply less_emit|intros _]. unfold write_excel. destruct d as [d|]; [|exact (less_lift (Err TypeError))]. apply less_then; [apply less_lift|]. intros [w f].
    destruct (open_fails (h_env H) f); [exact (less_lift (Err OSError))|apply less_set]. }
  intros _. apply less_when, less_then; [apply less_emit|intros _]. unfold write_to_ts. destruct d as [d|]; [|exact (less_lift (Err AttributeError))]. apply less_then; [apply less_tql|]. intros _.
  apply less_then; [apply less_read_text|]. intros t. apply less_then; [apply less_run|]. intros response. apply less_then; [apply less_set|]. intros _. apply less_emit.
Qed.
(** C124: with --debug convert_ddl ends in the same way, with the same files, the same output but for the value
    of debug among the arguments, and the same commands sent; standard error has lines that begin with DEBUG in addition. *)
Theorem C124_convert : forall H message a st, let without := convert H message (set_debug false a) st in let with_ := convert_debug H message (set_debug true a) st in
  snd with_ = snd without /\ files (fst with_) = files (fst without) /\ same_output (out (fst without)) (out (fst with_)) /\ sent (fst with_) = sent (fst without)
  /\ fewer (err (fst without)) (err (fst with_)).
Proof.
  intros H message a st. cbv zeta. destruct (less_convert H message a st (err st, out st) (conj (fewer_refl _) (same_output_refl _))) as (e & E & F & G).
  replace (with_err (err st, out st) st) with st in E by (destruct st; reflexivity). rewrite E. cbn [fst snd with_err files out err sent]. auto 6.
Qed.
Print Assumptions C124_convert.
(** two lines with a statement that is understood and one that is not *)
Example C124_case : exists d, traced_text ($"d") ($"s") 0 ($"drop x; -- old" ++ [newline] ++ $"alter table t add primary" ++ [newline] ++ $"key (a);")
  = (Ok d, [Debug ($"drop x; "); Debug ($"adding statement:   drop x"); Debug ($"alter table t add primary"); Debug ($"key (a);"); Debug ($"adding statement:    alter table t add primary key (a)");
            Debug ($">>> drop x"); Debug ($"ignoring statement:  drop x"); Debug ($">>> alter table t add primary key (a)"); Debug ($"altering a table....");
            Debug ($"adding a primary key:  alter table t add primary key (a)"); Debug ($"Trying to extract primary key from alter table t add primary key (a)"); Message (NoTable PrimaryKey ($"t"))]).
Proof. eexists. vm_compute. reflexivity. Qed.
