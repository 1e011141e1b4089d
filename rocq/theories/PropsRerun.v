(** * C113: only the files named as inputs matter, and running again changes nothing *)
From Verif Require Import StrFacts ParsedFacts CliFacts CliFrame CliReviewFacts PropsCli PropsCliReview PropsOnlyRead.
From Verif Require Import RerunFacts.
From Coq Require Import List. Import ListNotations.

(** Two runs of convert_ddl that agree on the file it is told to read are the same run, whatever the other files
    hold, also the ones it writes: they end the same way, print and send the same, and leave the same in every
    file that one of them changes. *)
Theorem C113_convert : forall H message a st1 st2, same_process st1 st2 -> (forall n, convert_input a n -> files st1 n = files st2 n) ->
  same_run (convert H message a) st1 st2.
Proof. intros H message a. apply depends_convert. Qed.
Print Assumptions C113_convert.
(** So it is for ddldiff. *)
Theorem C113_ddldiff : forall H a st1 st2, same_process st1 st2 -> (forall n, diff_input a n -> files st1 n = files st2 n) ->
  same_run (ddldiff H a) st1 st2.
Proof. intros H a. apply depends_ddldiff. Qed.
Print Assumptions C113_ddldiff.
(** So it is for review_model; of the configuration file it matters only whether it is there. *)
Theorem C113_review : forall H order rnd commas float_str fuel safe_load queries help documented a st1 st2, same_process st1 st2 ->
  (forall n, review_input a n -> files st1 n = files st2 n) -> (forall n, review_config a n -> (files st1 n = None <-> files st2 n = None)) ->
  same_run (review_tool H order rnd commas float_str fuel safe_load queries help documented a) st1 st2.
Proof. intros H order rnd commas float_str fuel safe_load queries help documented. apply review_same. Qed.
Print Assumptions C113_review.

(** ** Running again on the files a run has left *)
Lemma again {A} (m : cli A) st : same_run m st (on_files (files (fst (m st))) st) ->
  snd (m (on_files (files (fst (m st))) st)) = snd (m st) /\ same_process (fst (m (on_files (files (fst (m st))) st))) (fst (m st))
  /\ forall n, files (fst (m (on_files (files (fst (m st))) st))) n = files (fst (m st)) n.
Proof.
  intros [R [[P1 [P2 [P3 P4]]] W]]. split; [symmetry; exact R|]. split; [repeat split; symmetry; assumption|]. intros n. destruct (W n) as [Q|[_ Q]]; [symmetry; exact Q|exact Q].
Qed.
(** A run of convert_ddl that has left its input as it was can be repeated: it prints and sends the same, and no file changes. *)
Theorem C113_again : forall H message a st, (forall n, convert_input a n -> files (fst (convert H message a st)) n = files st n) ->
  let st1 := fst (convert H message a st) in let r := convert H message a (on_files (files st1) st) in
  snd r = snd (convert H message a st) /\ same_process (fst r) st1 /\ forall n, files (fst r) n = files st1 n.
Proof.
  intros H message a st E. apply again, C113_convert; [repeat split|]. intros n I. symmetry. exact (E n I).
Qed.
Print Assumptions C113_again.
(** So can every run of ddldiff. *)
Theorem C113_again_ddldiff : forall H a st, let st1 := fst (ddldiff H a st) in let r := ddldiff H a (on_files (files st1) st) in
  snd r = snd (ddldiff H a st) /\ same_process (fst r) st1 /\ forall n, files (fst r) n = files st1 n.
Proof.
  intros H a st. apply again, C113_ddldiff; [repeat split|]. intros n _. symmetry. apply C112_ddldiff.
Qed.
Print Assumptions C113_again_ddldiff.
(** So can a run of review_model that is not told to read the file it keeps the answer of a cluster in. *)
Theorem C113_again_review : forall H order rnd commas float_str fuel safe_load queries help documented a st,
  (forall n, review_input a n \/ review_config a n -> ~ scratch a n) ->
  let st1 := fst (review_tool H order rnd commas float_str fuel safe_load queries help documented a st) in
  let r := review_tool H order rnd commas float_str fuel safe_load queries help documented a (on_files (files st1) st) in
  snd r = snd (review_tool H order rnd commas float_str fuel safe_load queries help documented a st) /\ same_process (fst r) st1 /\ forall n, files (fst r) n = files st1 n.
Proof.
  intros H order rnd commas float_str fuel safe_load queries help documented a st N. apply again, C113_review; [repeat split|..]; intros n I; cbn [on_files files].
  - symmetry. apply C112_review, N. left. exact I.
  - rewrite C112_review by (apply N; right; exact I). reflexivity.
Qed.
Print Assumptions C113_again_review.

(** ** Cases *)
Definition from_to (f t : str) : convert_args :=
  {| version := false; empty := false; from_ddl := Some f; to_tql := Some t; from_ts := None; to_ts := None; username := $"u"; password := $"p"; from_excel := None; to_excel := None;
     db_option := Some ($"d"); schema_option := $"s"; create_db := false; lower_option := false; upper_option := false; camel_option := false; validate_option := false; debug := false |}.
Definition before (t : str) : state :=
  set_file ($"b.tql") (Some (Text t)) (set_file ($"a.ddl") (Some (Text ($"create table t (x int);" ++ [newline]))) small_state).
(** the old contents of the output are different, and make no difference *)
Example C113_case : let a := from_to ($"a.ddl") ($"b.tql") in forall message,
  (forall n, convert_input a n -> files (before ($"old")) n = files (before ($"older")) n) /\ files (before ($"old")) ($"b.tql") <> files (before ($"older")) ($"b.tql")
  /\ files (fst (convert quiet message a (before ($"old")))) ($"b.tql") <> files (before ($"old")) ($"b.tql")
  /\ (forall n, convert_input a n -> files (fst (convert quiet message a (before ($"old")))) n = files (before ($"old")) n).
Proof.
  cbv zeta. intros message.
  assert (I : forall n, convert_input (from_to ($"a.ddl") ($"b.tql")) n -> n = $"a.ddl") by (intros n [[_ ->]|[_ [X _]]]; [reflexivity|destruct (X eq_refl)]).
  split; [intros n X; rewrite (I n X); reflexivity|]. split; [vm_compute; discriminate|]. split; [vm_compute; discriminate|]. intros n X. rewrite (I n X). vm_compute. reflexivity.
Qed.
(** without the condition: when a run writes over its input, the next one reads something else *)
Example C113_over_case : forall message, let a := from_to ($"a.ddl") ($"a.ddl") in
  let st := set_file ($"a.ddl") (Some (Text ($"create table t (x int);" ++ [newline] ++ $"alter table u add constraint primary key (x);" ++ [newline]))) small_state in
  err (fst (convert quiet message a (on_files (files (fst (convert quiet message a st))) st))) <> err (fst (convert quiet message a st)).
Proof. intros message. vm_compute. discriminate. Qed.
