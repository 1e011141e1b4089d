(** * C103: nothing said means nothing lost *)
From Verif Require Import StrFacts ParseFacts MessageFacts.
From Verif Require Import SilentFacts CliReviewFacts PropsCli PropsCliReview PropsCliFail PropsCliDiff PropsMessages SpecSilent.
From Coq Require Import List Lia. Import ListNotations.

(** The parser's messages reach standard error, before anything else and whatever happens later: the
    file has a syntax error, validation fails, an output cannot be opened or the cluster refuses. *)
Theorem C103_convert : forall H message a st t, convert_accepts a -> version a = false -> is_given (from_ddl a) -> files st (text (from_ddl a)) = Some (Text t) ->
  told (complaints H (text (db_option a)) (schema_option a) t) st (fst (convert H message a st)).
Proof. exact convert_told. Qed.
Print Assumptions C103_convert.
Theorem C103_ddldiff : forall H a st t1 t2 d1, is_given (ddl1 a) -> is_given (ddl2 a) -> files st (text (ddl1 a)) = Some (Text t1) -> files st (text (ddl2 a)) = Some (Text t2) ->
  parse_text (database1 a) (schema1 a) t1 = Ok d1 ->
  told (complaints H (database1 a) (schema1 a) t1 ++ complaints H (database1 a) (schema1 a) t2) st (fst (ddldiff H a st)).
Proof. exact ddldiff_told. Qed.
Print Assumptions C103_ddldiff.
Theorem C103_review : forall H order rnd commas float_str fuel safe_load queries help documented a st t, review_accepts a st -> r_version a = false -> show_tests a = false ->
  is_given (database_file a) -> files st (text (database_file a)) = Some (Text t) ->
  told (complaints H (text (r_database a)) ($"falcon_default_schema") t) st
    (fst (review_tool H order rnd commas float_str fuel safe_load queries help documented a st)).
Proof. exact review_told. Qed.
Print Assumptions C103_review.

(** A statement that does not take effect at its turn is shown: some line of standard error contains
    it, or the name of a table that is missing. *)
Theorem C103_lost_partial : forall H name schema t before s after d1 d2, get_statements t = before ++ s :: after ->
  parse_statements schema 0 before (empty_database name) = Ok d1 -> parse_statement schema (length before) d1 s = Ok d2 -> ~ took_effect d1 s d2 ->
  exists c, In c (complaints H name schema t) /\ shows s d1 c.
Proof. exact lost_shown. Qed.
Print Assumptions C103_lost_partial.

Lemma told_nothing ms st st' : told ms st st' -> err st' = err st -> ms = [].
Proof.
  intros [more E] Q. rewrite Q in E. rewrite <- (app_nil_r (err st)) in E at 1. apply app_inv_head in E. symmetry in E. apply app_eq_nil in E. destruct E as [E _]. apply map_eq_nil in E. exact E.
Qed.
Lemma none_took H name schema t d : complaints H name schema t = [] -> parse_text name schema t = Ok d -> all_took_effect name schema t d.
Proof.
  intros C P. apply silent_took. apply map_eq_nil in C. rewrite <- (C96_same name schema t) in P. destruct (Messages.heard_text name schema t). cbn [fst snd] in *. subst. reflexivity.
Qed.

(** Hence silence is a guarantee.  [partial]: a foreign key without the word CONSTRAINT and an ALTER
    TABLE that adds a shard key are not covered; see below. *)
Theorem C103_silent_convert_partial : forall H message a st st' t, convert_accepts a -> version a = false -> is_given (from_ddl a) -> files st (text (from_ddl a)) = Some (Text t) ->
  convert H message a st = (st', Ok tt) -> err st' = err st ->
  exists d, parse_text (text (db_option a)) (schema_option a) t = Ok d /\ all_took_effect (text (db_option a)) (schema_option a) t d.
Proof.
  intros H message a st st' t CA NV G F R Q. pose proof (convert_told H message a st t CA NV G F) as T. rewrite R in T. apply told_nothing in T; [|exact Q].
  destruct (parse_text (text (db_option a)) (schema_option a) t) as [d|e] eqn:P; [exists d; split; [reflexivity|exact (none_took H _ _ _ _ T P)]|]. exfalso.
  rewrite (convert_starts H message a st CA NV) in R. unfold read_step in R. rewrite (proj2 (given_iff _) G) in R. unfold then_ at 1, then_ at 1, print, read_ddl in R.
  destruct (given_text _ G) as [PT _]. rewrite PT in R. destruct CA as [_ CA]. destruct (given_text _ (CA (or_introl G))) as [_ DT].
  replace (parse_file H (db_option a)) with (parse_file H (Some (text (db_option a)))) in R by (rewrite <- DT; reflexivity).
  rewrite (parse_file_is H _ _ _ t) in R; [|exact F]. rewrite P in R. discriminate R.
Qed.
Print Assumptions C103_silent_convert_partial.
Theorem C103_silent_ddldiff_partial : forall H a st st' t1 t2, is_given (ddl1 a) -> is_given (ddl2 a) -> files st (text (ddl1 a)) = Some (Text t1) -> files st (text (ddl2 a)) = Some (Text t2) ->
  ddldiff H a st = (st', Ok tt) -> err st' = err st ->
  exists d1 d2, parse_text (database1 a) (schema1 a) t1 = Ok d1 /\ parse_text (database1 a) (schema1 a) t2 = Ok d2
    /\ all_took_effect (database1 a) (schema1 a) t1 d1 /\ all_took_effect (database1 a) (schema1 a) t2 d2.
Proof.
  intros H a st st' t1 t2 G1 G2 F1 F2 R Q.
  assert (X : exists d1 d2, parse_text (database1 a) (schema1 a) t1 = Ok d1 /\ parse_text (database1 a) (schema1 a) t2 = Ok d2).
  { destruct (C65_ddldiff a st) as [V _]. assert (AC : diff_accepts a st) by (split; [split; assumption|split; unfold file_exists; congruence]).
    destruct (given_text _ G1) as [T1 _], (given_text _ G2) as [T2 _]. unfold ddldiff, then_ at 1 in R. rewrite (V AC) in R. cbn [negb] in R. unfold then_ at 1 in R. rewrite T1 in R. unfold then_ at 1 in R.
    rewrite (parse_file_is H _ _ _ t1) in R; [|exact F1]. destruct (parse_text _ _ t1) as [d1|]; [|discriminate R]. cbn [map_ok] in R. rewrite T2 in R. unfold then_ at 1 in R.
    rewrite (parse_file_is H _ _ _ t2) in R; [|exact F2]. destruct (parse_text _ _ t2) as [d2|]; [|discriminate R]. eauto. }
  destruct X as (d1 & d2 & P1 & P2). exists d1, d2. split; [exact P1|]. split; [exact P2|].
  pose proof (ddldiff_told H a st t1 t2 d1 G1 G2 F1 F2 P1) as T. rewrite R in T. apply told_nothing in T; [|exact Q]. apply app_eq_nil in T. destruct T as [A B].
  split; [exact (none_took H _ _ _ _ A P1)|exact (none_took H _ _ _ _ B P2)].
Qed.
Print Assumptions C103_silent_ddldiff_partial.
Theorem C103_silent_review_partial : forall H order rnd commas float_str fuel safe_load queries help documented a st st' t, review_accepts a st -> r_version a = false -> show_tests a = false ->
  is_given (database_file a) -> files st (text (database_file a)) = Some (Text t) ->
  review_tool H order rnd commas float_str fuel safe_load queries help documented a st = (st', Ok tt) -> err st' = err st ->
  exists d, parse_text (text (r_database a)) ($"falcon_default_schema") t = Ok d /\ all_took_effect (text (r_database a)) ($"falcon_default_schema") t d.
Proof.
  intros H order rnd commas float_str fuel safe_load queries help documented a st st' t AC V S G F R Q.
  pose proof (review_told H order rnd commas float_str fuel safe_load queries help documented a st t AC V S G F) as T. rewrite R in T. apply told_nothing in T; [|exact Q].
  destruct (parse_text (text (r_database a)) ($"falcon_default_schema") t) as [d|e] eqn:P; [exists d; split; [reflexivity|exact (none_took H _ _ _ _ T P)]|]. exfalso.
  assert (N : ~ is_given (ts_ip a)) by (intros X; exact (ra_one _ _ AC (conj G X))).
  assert (GD : is_given (r_database a)) by (destruct (ra_database _ _ AC) as [X|[X _]]; [congruence|exact X]). destruct (given_text _ GD) as [_ DT]. destruct (given_text _ G) as [PT _].
  unfold review_tool, then_ at 1 in R. rewrite (proj1 (C65_review a st) AC) in R. cbn [negb] in R. unfold then_ at 1 in R. rewrite V, S in R. cbn [Cli.when] in R. unfold then_ at 1, done at 1 in R.
  rewrite (proj2 (given_iff _) G), (proj2 (given_false _) N) in R. cbn [orb] in R. unfold then_ at 1 in R. rewrite PT in R.
  replace (parse_file H (r_database a)) with (parse_file H (Some (text (r_database a)))) in R by (rewrite <- DT; reflexivity).
  rewrite (parse_file_is H _ _ _ t) in R; [|exact F]. change DEFAULT_SCHEMA with ($"falcon_default_schema") in R. rewrite P in R. discriminate R.
Qed.
Print Assumptions C103_silent_review_partial.

(** Silence also means that no ALTER TABLE statement adds a shard key (none of them is ever carried
    out), unless a table has the empty name. *)
Theorem C103_shard_partial : forall H name schema t d before s after d1, complaints H name schema t = [] -> parse_text name schema t = Ok d ->
  get_statements t = before ++ s :: after -> about_shard_key s -> parse_statements schema 0 before (empty_database name) = Ok d1 -> get_table d1 [] <> None.
Proof.
  intros H name schema t d before s after d1 C P S A B. apply map_eq_nil in C. rewrite <- (C96_same name schema t) in P. destruct (Messages.heard_text name schema t) as [r ms] eqn:W. cbn [fst snd] in *. subst.
  destruct (C96_quiet_file _ _ _ _ W _ _ _ S) as (d1' & d2 & X & Y & _). rewrite B in X. injection X as <-. destruct (C96_heard_partial _ _ _ _ _ _ Y) as (_ & _ & _ & K & _). destruct (K A) as [_ Q].
  intros N. discriminate (Q N).
Qed.
Print Assumptions C103_shard_partial.

(** and there is a line about each of them *)
Theorem C103_shard_told : forall H name schema t before s after d1, get_statements t = before ++ s :: after -> parse_statements schema 0 before (empty_database name) = Ok d1 ->
  about_shard_key s -> get_table d1 [] = None -> In (not_found ($"shard key") []) (complaints H name schema t).
Proof.
  intros H name schema t before s after d1 S A D N. destruct (Messages.heard_statement schema (length before) d1 s) as [r ms] eqn:E. destruct (C96_heard_partial _ _ _ _ _ _ E) as (_ & _ & _ & K & _). destruct (K D) as [_ Q].
  destruct (Messages.heard_text name schema t) as [r' ms'] eqn:W. pose proof W as W'. unfold Messages.heard_text in W'. rewrite S in W'.
  assert (I : incl ms ms') by (apply (said_within schema before s after 0 (empty_database name) d1 r ms r' ms'); [rewrite heard_statements_same; exact A|exact E|exact W']).
  unfold complaints. rewrite W. cbn [snd]. apply in_map_iff. exists (Messages.NoTable Messages.ShardKey []). split; [reflexivity|]. apply I. rewrite (Q N). left. reflexivity.
Qed.
Print Assumptions C103_shard_told.

(** The claim is false of a foreign key that is not named: at every place of every script, reading up
    to it and reading it gives the same model and the same messages. *)
Theorem C103_unnamed_refuted : forall name schema before s, about_foreign_key s -> constraints s = 0 -> adds_to_table s -> ~ In newline s ->
  Messages.heard_statements schema 0 (before ++ [s]) (empty_database name) = Messages.heard_statements schema 0 before (empty_database name).
Proof.
  intros name schema before s A C T N. generalize (empty_database name). generalize 0. induction before as [|x l IH]; intros id d; cbn [app Messages.heard_statements].
  - destruct (C96_unnamed_refuted schema id d s A C N) as [X [_ Y]]. specialize (Y T). destruct (Messages.heard_statement schema id d s) as [r ms]. cbn [fst snd] in *. subst. reflexivity.
  - destruct (Messages.heard_statement schema id d x) as [[d0|e] m0]; [rewrite IH|]; reflexivity.
Qed.
Print Assumptions C103_unnamed_refuted.

(** a silent conversion of a file with a key, a shard key and a foreign key; and one that is not *)
Example C103_case : let a := {| version := false; empty := false; from_ddl := Some ($"in.ddl"); to_tql := Some ($"out.tql"); from_ts := None; to_ts := None;
     username := $"admin"; password := $"pw"; from_excel := None; to_excel := None; db_option := Some ($"d"); schema_option := $"s";
     create_db := false; lower_option := false; upper_option := false; camel_option := false; validate_option := false; debug := false |} in
  let started t := {| files := fun n => if str_eqb n ($"in.ddl") then Some (Text t) else None; out := []; err := []; sent := []; objects := 0 |} in
  (convert_accepts a /\ version a = false /\ is_given (from_ddl a))
  /\ (exists st', convert quiet (fun _ => []) a (started small_ddl) = (st', Ok tt) /\ err st' = [])
  /\ (exists st', convert quiet (fun _ => []) a (started ($"create table t (id int);" ++ [newline_char] ++ $"alter table u add primary key (id);")) = (st', Ok tt)
       /\ err st' = [line ($"ERROR:root:Attempting to add a primary key to table u, which is not in the database.")])
  /\ length (get_statements small_ddl) = 2 /\ about_foreign_key (nth 1 (get_statements small_ddl) []) /\ constraints (nth 1 (get_statements small_ddl) []) = 1
  /\ creates (nth 0 (get_statements small_ddl) []) /\ occurs ($"partition by hash") (lower (nth 0 (get_statements small_ddl) [])).
Proof.
  cbn zeta. split; [split; [split; [right; right; left; discriminate|intros _; discriminate]|split; [reflexivity|discriminate]]|].
  split; [eexists; split; [vm_compute; reflexivity|reflexivity]|]. split; [eexists; split; [vm_compute; reflexivity|vm_compute; reflexivity]|].
  split; [vm_compute; reflexivity|]. split.
  - split; [constructor; first [apply contains_true; vm_compute; reflexivity | apply contains_false; vm_compute; reflexivity]|split; [apply contains_false; vm_compute; reflexivity | apply contains_true; vm_compute; reflexivity]].
  - split; [vm_compute; reflexivity|]. split; [split; [apply contains_false; vm_compute; reflexivity|left; apply contains_true; vm_compute; reflexivity]|apply contains_true; vm_compute; reflexivity].
Qed.
