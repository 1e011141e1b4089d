(** * C123: the exit status of review_model *)
From Verif Require Import ArgTools PropsCli.
From Verif Require Import StrFacts SpecStatus SpecCliReview PropsCliReview PropsArgs PropsStatus.
From Coq Require Import List. Import ListNotations.

Section Review.
Variables (H : host) (order : list str -> list str) (rnd : Q -> Q) (commas : setting -> str) (float_str : Q -> str) (fuel : nat)
  (safe_load : str -> result yaml) (queries : str -> str -> str -> oracle) (help : str) (documented : list (str * list str * option str)) (usage : refusal -> str).
Notation tool := (review_tool H order rnd commas float_str fuel safe_load queries help documented).
Notation main := (review_main H order rnd commas float_str fuel safe_load queries help documented usage).
Notation status := (review_status H order rnd commas float_str fuel safe_load queries help documented usage).

(** C123: the three statuses, as for the other tools *)
Theorem C123_review : forall ws st,
  (forall l, SpecArgs.line review_parser ws l ->
     (status ws st = 0 <-> exists st', tool (review_values l) st = (st', Ok tt))
     /\ (status ws st = 1 <-> exists st' e, tool (review_values l) st = (st', Err e)) /\ (status ws st = 0 \/ status ws st = 1))
  /\ ((forall l, ~ SpecArgs.line review_parser ws l) -> exists st', fst (main ws st) = st' /\ nothing_done st st'
        /\ ((status ws st = 0 /\ out st' = out st ++ [Printed (help ++ [newline])] /\ err st' = err st)
            \/ (status ws st = 2 /\ out st' = out st /\ exists m, err st' = err st ++ [m]))).
Proof.
  intros ws st. unfold review_status, exit_status. destruct (C102_review H order rnd commas float_str fuel safe_load queries help documented usage ws) as [A B]. split.
  - intros l L. destruct (main_parsed _ _ _ ArgTools.review_declared L) as [ns ->]. destruct (A l L) as [-> _].
    destruct (tool (review_values l) st) as [st' [[]|e]]; cbn [snd]; (split; [|split; [|auto]]); split; intros X; try discriminate; eauto;
      destruct X as [s X]; first [discriminate X | destruct X as [e' X]; discriminate X].
  - intros N. destruct (B N st) as (st' & E & F & S' & K). exists st'. rewrite E. cbn [fst snd]. split; [reflexivity|]. split; [split; [intros n; rewrite F; reflexivity|exact S']|].
    destruct K as [(-> & O & R)|(r & -> & O & R)]; [left; auto|right; eauto].
Qed.

(** C123: where nothing fails and the inputs can be read, it is 0 exactly if the reviews end, and then their
    results are printed; which results they are makes no difference. *)
Theorem C123_review_exact : forall ws st l d ms w ds results h vs, no_failures H -> SpecArgs.line review_parser ws l -> let a := review_values l in
  review_accepts a st -> r_version a = false -> is_given (r_database a) -> review_reads H a st d ms -> review_worksheet safe_load a st w ->
  (show_tests a = true -> get_test_descriptions documented = Ok ds) ->
  review_aloud (h_query_error H) (h_yaml_text H) order rnd commas float_str fuel [] d [] w (connection queries a) = (results, h, vs) ->
  (status ws st = 0 <-> exists r, results = Ok r)
  /\ (status ws st = 0 -> prints (Namespace (review_namespace a) :: if_true (show_tests a) (description_lines ds) ++ review_lines results vs) st (fst (main ws st))).
Proof.
  intros ws st l d ms w ds results h vs NF L a RA NV G RR RW DS RE. destruct (C123_review ws st) as [A _]. destruct (A l L) as [A' _].
  destruct (C90_review_output H order rnd commas float_str fuel safe_load queries help documented a st d ms w ds results h vs NF RA NV G RR RW DS RE) as (st' & E & P & _).
  rewrite A'. fold a. rewrite E. split.
  - destruct results as [r|e]; split; intros [x X]; try discriminate; eauto.
  - intros _. destruct (C102_review H order rnd commas float_str fuel safe_load queries help documented usage ws) as [B _]. destruct (B l L) as [-> _]. fold a. rewrite E. exact P.
Qed.

(** Rejected arguments give 0 here too. *)
Theorem C123_review_rejected_refuted : forall ws st l, SpecArgs.line review_parser ws l -> ~ review_accepts (review_values l) st ->
  status ws st = 0 /\ nothing_done st (fst (main ws st)).
Proof.
  intros ws st l L N. destruct (C123_review ws st) as [A _]. destruct (A l L) as [A' _]. destruct (proj2 (C65_review _ st) N) as (ms & st' & _ & (F & _ & S' & _) & _ & E).
  specialize (E H order rnd commas float_str fuel safe_load queries help documented). split; [apply A'; eauto|].
  destruct (C102_review H order rnd commas float_str fuel safe_load queries help documented usage ws) as [B _]. destruct (B l L) as [-> _]. rewrite E. split; assumption.
Qed.
End Review.
Print Assumptions C123_review.
Print Assumptions C123_review_exact.
Print Assumptions C123_review_rejected_refuted.
(** a model with an issue; no such file; an option that does not exist; no database name *)
Example C123_review_case : let status ws := review_status quiet (fun l => l) (fun q => q) (fun _ => []) (fun _ => []) 5 (fun _ => Ok YNull) (fun _ _ _ _ _ => Ok []) [] [] (fun _ => []) ws no_key_state in
  status [$"--database_file"; $"a.ddl"; $"--database"; $"d"] = 0 /\ status [$"--database_file"; $"b.ddl"; $"--database"; $"d"] = 1
  /\ status [$"--database_fail"; $"a.ddl"] = 2 /\ status [$"--database_file"; $"a.ddl"] = 0.
Proof. cbv zeta. repeat split; vm_compute; reflexivity. Qed.
