(** * Lemmas for C103 *)
From Verif Require Import StrFacts ParseFacts MessageFacts MessageSame.
From Verif Require Export CliFrame.
From Verif Require Import CliReviewFacts PropsCli PropsCliReview PropsCliFail PropsMessages SpecSilent.
From Coq Require Import List Lia. Import ListNotations.

(** standard error only grows *)
Definition grows {A} (m : cli A) : Prop := forall st, exists l, err (fst (m st)) = err st ++ l.
Lemma grows_same {A} (m : cli A) : (forall st, err (fst (m st)) = err st) -> grows m.
Proof. intros E st. rewrite E. apply same_app. Qed.
Lemma grows_then {A B} (m : cli A) (f : A -> cli B) : grows m -> (forall a, grows (f a)) -> grows (then_ m f).
Proof.
  intros G K st. unfold then_. destruct (G st) as [l E]. destruct (m st) as [st1 [a|e]]; cbn [fst] in *; [|exists l; exact E].
  destruct (K a st1) as [l' E']. exists (l ++ l'). rewrite E', E, app_assoc. reflexivity.
Qed.
Lemma grows_done {A} (a : A) : grows (done a).
Proof. apply grows_same. reflexivity. Qed.
Lemma grows_fails {A} e : grows (fails (A := A) e).
Proof. apply grows_same. reflexivity. Qed.
Lemma grows_lift {A} (r : result A) : grows (lift r).
Proof. apply grows_same. reflexivity. Qed.
Lemma grows_emit o : grows (fun st => (emit o st, Ok tt)).
Proof. apply grows_same. reflexivity. Qed.
Lemma grows_print s : grows (print s).
Proof. apply grows_emit. Qed.
Lemma grows_eprint s : grows (eprint s).
Proof. intros st. exists [s ++ [newline]]. reflexivity. Qed.
Lemma grows_when b m : grows m -> grows (Cli.when b m).
Proof. destruct b; [exact (fun x => x)|intros _; apply grows_done]. Qed.
Lemma grows_each {A} (f : A -> cli unit) : (forall x, grows (f x)) -> forall l, grows (Cli.each f l).
Proof. intros K. induction l as [|x l IH]; [apply grows_done|]. apply grows_then; [apply K|intros _; exact IH]. Qed.
Lemma happens_err tr : forall st, err (fold_left happen tr st) = err st.
Proof. induction tr as [|e tr IH]; intros st; [reflexivity|]. cbn [fold_left]. rewrite IH. destruct e as [n|[|n] s|n]; reflexivity. Qed.
Lemma grows_perform {A} (m : io A) : grows (perform m).
Proof. apply grows_same. intros st. unfold perform. destruct (m []) as [tr r]. apply happens_err. Qed.
Lemma grows_read H n : grows (read_text H n).
Proof. apply grows_same. reflexivity. Qed.
Lemma grows_run H c : grows (run_tql_command H c).
Proof. apply grows_same. reflexivity. Qed.
Lemma grows_remove n : grows (Cli.remove n).
Proof. apply grows_same. reflexivity. Qed.
Lemma grows_parse H name schema n : grows (parse_file H name schema n).
Proof.
  intros st. unfold parse_file. destruct (exists_ st n); [|apply (grows_then _ _ (grows_eprint _) (fun _ => grows_done _))].
  unfold then_ at 1. cbn [lift]. destruct (mk_database name) as [d0|e]; [|apply same_app]. unfold then_ at 1. unfold read_text. destruct (files st n) as [[t|w]|]; [| |apply same_app];
    destruct (Messages.heard_statements _ _ _ _) as [r ms]; (apply (grows_then _ _ (grows_each _ (fun m => grows_eprint _) ms)); intros _; apply grows_then; [apply grows_same; reflexivity|]; intros _;
    apply grows_then; [apply grows_lift|intros d; apply grows_done]).
Qed.
Lemma grows_validate d : grows (validate_step d).
Proof.
  apply grows_then; [apply grows_print|]. intros _. destruct d as [d|]; [|apply grows_fails]. apply grows_then; [apply grows_lift|]. intros r.
  destruct (is_valid r); [apply grows_print|apply grows_each; intros i; apply grows_eprint].
Qed.
Lemma grows_excel H a d : grows (write_excel H a d).
Proof.
  destruct d as [d|]; [|apply grows_fails]. unfold write_excel. apply grows_then; [apply grows_lift|]. intros [w f]. destruct (open_fails _ f); [apply grows_fails|apply grows_same; reflexivity].
Qed.
Lemma grows_ts H a d : grows (write_to_ts H a d).
Proof.
  destruct d as [d|]; [|apply grows_fails]. unfold write_to_ts. apply grows_then; [apply grows_perform|]. intros _. apply grows_then; [apply grows_read|]. intros t. apply grows_then; [apply grows_run|]. intros r.
  apply grows_then; [apply grows_remove|]. intros _. apply grows_emit.
Qed.

(** ** The tools *)
Lemma convert_told H message a st t : convert_accepts a -> version a = false -> is_given (from_ddl a) -> files st (text (from_ddl a)) = Some (Text t) ->
  told (complaints H (text (db_option a)) (schema_option a) t) st (fst (convert H message a st)).
Proof.
  intros CA NV G F. rewrite (convert_starts H message a st CA NV). unfold read_step. rewrite (proj2 (given_iff _) G). unfold then_ at 1, then_ at 1, print, read_ddl.
  destruct (given_text _ G) as [-> _]. destruct CA as [_ CA]. destruct (given_text _ (CA (or_introl G))) as [_ DT]. rewrite DT.
  rewrite (parse_file_is H _ _ _ t); [|exact F]. cbn [err emit text].
  destruct (parse_text _ _ t) as [d|e]; cbn [map_ok]; [|exists []; cbn [fst err]; rewrite app_nil_r; reflexivity].
  match goal with |- told _ _ (fst (?m ?s)) => assert (R : grows m) end.
  { apply grows_then; [apply grows_when, grows_validate|]. intros _. apply grows_then; [apply grows_when, grows_then; [apply grows_print|intros _; apply grows_perform]|]. intros _.
    apply grows_then; [apply grows_when, grows_then; [apply grows_print|intros _; apply grows_excel]|]. intros _. apply grows_when, grows_then; [apply grows_print|intros _; apply grows_ts]. }
  match goal with |- told _ _ (fst (_ ?s)) => destruct (R s) as [l E] end. exists l. rewrite E. cbn [err]. rewrite app_assoc. reflexivity.
Qed.
Lemma ddldiff_told H a st t1 t2 d1 : is_given (ddl1 a) -> is_given (ddl2 a) -> files st (text (ddl1 a)) = Some (Text t1) -> files st (text (ddl2 a)) = Some (Text t2) ->
  parse_text (database1 a) (schema1 a) t1 = Ok d1 ->
  told (complaints H (database1 a) (schema1 a) t1 ++ complaints H (database1 a) (schema1 a) t2) st (fst (ddldiff H a st)).
Proof.
  intros G1 G2 F1 F2 P1. destruct (C65_ddldiff a st) as [V _]. assert (AC : diff_accepts a st) by (split; [split; assumption|split; unfold file_exists; congruence]).
  destruct (given_text _ G1) as [T1 _], (given_text _ G2) as [T2 _]. unfold ddldiff, then_ at 1. rewrite (V AC). cbn [negb]. unfold then_ at 1. rewrite T1. unfold then_ at 1.
  rewrite (parse_file_is H _ _ _ t1); [|exact F1]. rewrite P1. cbn [map_ok]. rewrite T2. unfold then_ at 1. rewrite (parse_file_is H _ _ _ t2); [|exact F2].
  destruct (parse_text _ _ t2) as [d2|e]; cbn [map_ok]; [|exists []; cbn [fst err emit]; rewrite app_nil_r, map_app, app_assoc; reflexivity].
  match goal with |- told _ _ (fst (?m ?s)) => assert (R : grows m) end.
  { apply grows_then; [apply grows_done|]. intros x1. apply grows_then; [apply grows_done|]. intros x2. apply grows_then; [apply grows_lift|]. intros [l1 l2].
    apply grows_then; [apply grows_when, grows_then; [apply grows_print|intros _; apply grows_perform]|]. intros _.
    apply grows_then; [apply grows_when, grows_then; [apply grows_print|intros _; apply grows_perform]|]. intros _.
    apply grows_when, grows_then; [|intros _]; (apply grows_then; [apply grows_print|intros _; apply grows_each; intros x; apply grows_print]). }
  match goal with |- told _ _ (fst (_ ?s)) => destruct (R s) as [l E] end. exists l. rewrite E. cbn [err emit]. rewrite map_app, !app_assoc. reflexivity.
Qed.
Lemma review_told H order rnd commas float_str fuel safe_load queries help documented a st t : review_accepts a st -> r_version a = false -> show_tests a = false -> is_given (database_file a) ->
  files st (text (database_file a)) = Some (Text t) ->
  told (complaints H (text (r_database a)) ($"falcon_default_schema") t) st
    (fst (review_tool H order rnd commas float_str fuel safe_load queries help documented a st)).
Proof.
  intros AC V S G F. assert (N : ~ is_given (ts_ip a)) by (intros X; exact (ra_one _ _ AC (conj G X))).
  assert (GD : is_given (r_database a)) by (destruct (ra_database _ _ AC) as [X|[X _]]; [congruence|exact X]). destruct (given_text _ GD) as [_ DT].
  unfold review_tool, then_ at 1. rewrite (proj1 (C65_review a st) AC). cbn [negb]. unfold then_ at 1. rewrite V, S. cbn [Cli.when]. unfold then_ at 1, done at 1.
  rewrite (proj2 (given_iff _) G), (proj2 (given_false _) N). cbn [orb]. unfold then_ at 1. destruct (given_text _ G) as [-> _].
  replace (parse_file H (r_database a)) with (parse_file H (Some (text (r_database a)))) by (rewrite <- DT; reflexivity).
  rewrite (parse_file_is H _ _ _ t); [|exact F].
  change DEFAULT_SCHEMA with ($"falcon_default_schema"). destruct (parse_text _ _ t) as [d|e]; cbn [map_ok]; [|exists []; cbn [fst err emit]; rewrite app_nil_r; reflexivity].
  match goal with |- told _ _ (fst (?m ?s)) => assert (R : grows m) end.
  { apply grows_then; [destruct (given (worksheet_file a)); [|apply grows_done]; apply grows_then; [apply grows_then; [apply grows_read|intros x; apply grows_lift]|intros w; apply grows_done]|].
    intros ws. cbn zeta. apply grows_then.
    - unfold run_reviews. destruct (review_aloud _ _ _ _ _ _ _ _ _ _ _ _) as [[r h] vs]. apply grows_then; [apply grows_each; intros [n|n]; [apply grows_print|apply grows_eprint]|]. intros _. apply grows_then; [apply grows_same; reflexivity|intros _; apply grows_lift].
    - intros r. apply grows_each. intros kv. apply grows_then; [apply grows_print|]. intros _. apply grows_each. intros x. apply grows_print. }
  match goal with |- told _ _ (fst (_ ?s)) => destruct (R s) as [l E] end. exists l. rewrite E. cbn [err emit]. rewrite app_assoc. reflexivity.
Qed.

(** ** Scripts *)
Lemma contains_spec p s : occurs p s \/ ~ occurs p s.
Proof. destruct (contains p s) eqn:E; [left; apply contains_true; exact E|right; apply contains_false; exact E]. Qed.
Lemma silent_took name schema t d : Messages.heard_text name schema t = (Ok d, []) -> all_took_effect name schema t d.
Proof.
  intros E before s after S. destruct (C96_quiet_file name schema t d E before s after S) as (d1 & d2 & A & B & C). exists d1, d2. split; [exact A|]. split; [|exact C].
  destruct (C96_heard_partial _ _ _ _ _ _ B) as (K1 & K2 & K3 & _ & K5 & _). split.
  - intros Q. destruct (K1 Q) as [[_ (d' & E' & X)]|[_ (m & E' & _)]]; [injection E' as <-; exact X|discriminate].
  - intros Q. destruct (K2 Q) as [[_ (d' & E' & X)]|[_ (m & E' & _)]]; [injection E' as <-; exact X|discriminate].
  - intros Q P. destruct (K3 Q P) as [[_ (d' & E' & X)]|[[_ [X _]]|(k & m & d' & _ & _ & _ & E' & _)]]; [injection E' as <-; exact X|destruct (X eq_refl)|discriminate].
  - intros Q. destruct (K5 Q d2 eq_refl) as (u & E' & X & Y). exists u. split; [exact E'|]. destruct (contains_spec ($"partition by hash") (lower s)) as [O|O].
    + split; [intros _; exact O|intros _]. destruct (X O) as [[_ Z]|[_ (e & Z)]]; [exact Z|discriminate].
    + split; [|contradiction]. intros Z. destruct (Y O) as [_ W]. contradiction.
Qed.
Lemma said_within schema l1 s l2 : forall id d d1 d2 ms r ms', fst (heard_statements schema id l1 d) = Ok d1 -> heard_statement schema (id + length l1) d1 s = (d2, ms) ->
  heard_statements schema id (l1 ++ s :: l2) d = (r, ms') -> incl ms ms'.
Proof.
  induction l1 as [|x l1 IH]; intros id d d1 d2 ms r ms' A B C; cbn [app heard_statements length fst] in *.
  - injection A as <-. rewrite Nat.add_0_r in B. rewrite B in C. destruct d2 as [d2|e]; [|apply pair_equal_spec in C; destruct C as [_ <-]; apply incl_refl].
    destruct (heard_statements schema (S id) l2 d2) as [r' m']. apply pair_equal_spec in C. destruct C as [_ <-]. apply incl_appl, incl_refl.
  - destruct (heard_statement schema id d x) as [[d0|e] m0]; [|discriminate]. destruct (heard_statements schema (S id) (l1 ++ s :: l2) d0) as [r0 m1] eqn:R.
    apply pair_equal_spec in C. destruct C as [_ <-]. apply incl_appr. refine (IH (S id) d0 d1 d2 ms r0 m1 _ _ R).
    + destruct (heard_statements schema (S id) l1 d0). exact A.
    + rewrite <- B. f_equal. lia.
Qed.
Lemma alters_not_creates s : alters s -> ~ creates s.
Proof. intros A [_ [Y|Y]]; [exact (al_table _ A Y)|exact (al_replace _ A Y)]. Qed.
Lemma concerns_shows k s d m f : alters s -> called s (construct_text k) -> k <> HashKey -> k <> ShardKey -> concerns k s d m -> shows s d (message_text f m).
Proof.
  intros A C N1 N2 [->|[(e & ->)|(n & -> & G)]]; cbn [message_text].
  - destruct k; try congruence; [apply (shows_unable s d ($"primary key")); [exact C|discriminate]|apply (shows_unable s d ($"foreign key")); [exact C|discriminate]|apply shows_generic; exact C].
  - apply shows_failed; [exact C|apply alters_not_creates, A].
  - apply shows_missing; [exact C|exact G].
Qed.
Lemma quoted_shows s d e f : creates s -> shows s d (message_text f (Failed HashKey e (with_quotes s))).
Proof. intros C. exact (shows_quoted s d _ C). Qed.
Lemma lost_shown H name schema t before s after d1 d2 : get_statements t = before ++ s :: after -> parse_statements schema 0 before (empty_database name) = Ok d1 ->
  parse_statement schema (length before) d1 s = Ok d2 -> ~ took_effect d1 s d2 -> exists c, In c (complaints H name schema t) /\ shows s d1 c.
Proof.
  intros S A B N. destruct (heard_statement schema (length before) d1 s) as [r ms] eqn:E. pose proof (heard_statement_same schema (length before) d1 s) as Q. rewrite E, B in Q. cbn [fst] in Q. subst r.
  destruct (Messages.heard_text name schema t) as [r ms'] eqn:W. pose proof W as W'. unfold Messages.heard_text in W'. rewrite S in W'.
  assert (I : incl ms ms').
  { apply (said_within schema before s after 0 (empty_database name) d1 (Ok d2) ms r ms'); [rewrite heard_statements_same; exact A|exact E|exact W']. }
  assert (K : exists m, In m ms /\ forall f, shows s d1 (message_text f m)).
  { destruct ms as [|m ms0].
    - exfalso. apply N. destruct (C96_heard_partial _ _ _ _ _ _ E) as (K1 & K2 & K3 & _ & K5 & _). split.
      + intros Q. destruct (K1 Q) as [[_ (d' & E' & X)]|[_ (m & E' & _)]]; [injection E' as <-; exact X|discriminate].
      + intros Q. destruct (K2 Q) as [[_ (d' & E' & X)]|[_ (m & E' & _)]]; [injection E' as <-; exact X|discriminate].
      + intros Q P. destruct (K3 Q P) as [[_ (d' & E' & X)]|[[_ [X _]]|(k & m & d' & _ & _ & _ & E' & _)]]; [injection E' as <-; exact X|destruct (X eq_refl)|discriminate].
      + intros Q. destruct (K5 Q d2 eq_refl) as (u & E' & X & Y). exists u. split; [exact E'|]. destruct (contains_spec ($"partition by hash") (lower s)) as [O|O].
        * split; [intros _; exact O|intros _]. destruct (X O) as [[_ Z]|[_ (e & Z)]]; [exact Z|discriminate].
        * split; [|contradiction]. intros Z. destruct (Y O) as [_ Z']. contradiction.
    - exists m. split; [left; reflexivity|]. intros f. destruct (C96_heard_partial _ _ _ _ _ _ E) as (K1 & K2 & K3 & K4 & K5 & K6).
      assert (D : creates s \/ about_primary_key s \/ about_foreign_key s \/ about_relationship s \/ about_shard_key s).
      { destruct (contains_spec ($"create database") (lower s)) as [O1|O1].
        - exfalso. destruct K6 as [_ X]; [intros [Y _]; exact (al_db _ Y O1)|intros [Y _]; exact (al_db _ Y O1)|intros [Y _]; exact (al_db _ Y O1)|intros [Y _]; exact (al_db _ Y O1)|intros [Y _]; exact (Y O1)|discriminate].
        - destruct (contains_spec ($"create table") (lower s)) as [O2|O2]; [left; split; [exact O1|left; exact O2]|].
          destruct (contains_spec ($"create or replace table") (lower s)) as [O3|O3]; [left; split; [exact O1|right; exact O3]|].
          destruct (contains_spec ($"alter table") (lower s)) as [O4|O4].
          2:{ exfalso. destruct K6 as [_ X]; [intros [Y _]; exact (O4 (al_words _ Y))|intros [Y _]; exact (O4 (al_words _ Y))|intros [Y _]; exact (O4 (al_words _ Y))|intros [Y _]; exact (O4 (al_words _ Y))|intros [_ [Y|Y]]; contradiction|discriminate]. }
          assert (L : alters s) by (split; assumption). right.
          destruct (contains_spec ($"primary key") (lower s)) as [P1|P1]; [left; split; assumption|]. destruct (contains_spec ($"foreign") (lower s)) as [P2|P2]; [right; left; split; [exact L|split; assumption]|].
          destruct (contains_spec ($"relationship") (lower s)) as [P3|P3]; [right; right; left; split; [exact L|split; [|split]; assumption]|].
          destruct (contains_spec ($"hash") (lower s)) as [P4|P4]; [right; right; right; split; [exact L|split; [|split; [|split]]; assumption]|].
          exfalso. destruct K6 as [_ X]; [intros [_ Y]; contradiction|intros [_ [_ [_ Y]]]; contradiction|intros [_ [_ Y]]; contradiction|intros [_ [_ [_ [_ Y]]]]; contradiction|intros [_ [Y|Y]]; contradiction|discriminate]. }
      destruct D as [D|[D|[D|[D|D]]]].
      + destruct (K5 D d2 eq_refl) as (u & _ & X & Y). destruct (contains_spec ($"partition by hash") (lower s)) as [O|O].
        * destruct (X O) as [[Z _]|[_ (e & Z)]]; [discriminate|]. injection Z as -> _. apply quoted_shows, D.
        * destruct (Y O) as [Z _]. discriminate.
      + destruct (K1 D) as [[Z _]|[_ (m' & Z & X)]]; [discriminate|]. injection Z as -> _. exact (concerns_shows PrimaryKey s d1 _ f (proj1 D) (called_primary s D) ltac:(discriminate) ltac:(discriminate) X).
      + destruct (Nat.eq_0_gt_0_cases (constraints s)) as [C|C].
        * exfalso. apply N. split; [intros [_ Y]; destruct D as [_ [D _]]; contradiction|intros [_ [_ [Y _]]]; destruct D as [_ [_ D]]; contradiction|intros _ Y; lia|].
          intros [_ [Y|Y]]; destruct D as [D _]; [destruct (al_table _ D Y)|destruct (al_replace _ D Y)].
        * destruct (K3 D C) as [[Z _]|[[_ [_ X]]|(k & m' & d' & _ & _ & _ & Z & X)]]; [discriminate|exact (concerns_shows ForeignKey s d1 _ f (proj1 D) (called_foreign s D) ltac:(discriminate) ltac:(discriminate) (X m (or_introl eq_refl)))|]. injection Z as -> _. exact (concerns_shows ForeignKey s d1 _ f (proj1 D) (called_foreign s D) ltac:(discriminate) ltac:(discriminate) X).
      + destruct (K2 D) as [[Z _]|[_ (m' & Z & X)]]; [discriminate|]. injection Z as -> _. exact (concerns_shows Relationship s d1 _ f (proj1 D) (called_relationship s D) ltac:(discriminate) ltac:(discriminate) X).
      + exfalso. apply N. destruct D as [L [P1 [P2 [P3 _]]]]. split; [intros [_ Y]; contradiction|intros [_ [_ [_ Y]]]; contradiction|intros [_ [_ Y]]; contradiction|].
        intros [_ [Y|Y]]; [destruct (al_table _ L Y)|destruct (al_replace _ L Y)]. }
  destruct K as (m & J & X). exists (message_text (h_reason H) m). split; [|apply X]. unfold complaints. apply in_map. rewrite W. cbn [snd]. exact (I m J).
Qed.
