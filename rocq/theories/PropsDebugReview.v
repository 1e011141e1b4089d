(** * C124 for review_model *)
From Verif Require Import StrFacts.
From Verif Require Import DebugReview SpecDebug PropsDebug PropsCli PropsCliReview.

(** the command line without and with --debug *)
Definition set_review_debug (v : bool) (a : review_args) : review_args :=
  {| r_version := r_version a; show_tests := show_tests a; database_file := database_file a; worksheet_file := worksheet_file a; ts_ip := ts_ip a;
     r_username := r_username a; r_password := r_password a; r_database := r_database a; r_debug := v; config_file := config_file a |}.

Lemma less_review H order rnd commas float_str fuel safe_load queries help documented a :
  less (review_tool H order rnd commas float_str fuel safe_load queries help documented (set_review_debug false a)) (review_debug H order rnd commas float_str fuel safe_load queries help documented (set_review_debug true a)).
Proof.
  unfold review_tool, review_debug. apply less_then.
  { intros st e F. unfold review_valid_args, missing_file. cbn [show_tests database_file worksheet_file ts_ip r_database config_file set_review_debug]. change (exists_ (with_err e st)) with (exists_ st). revert F.
    generalize (given (worksheet_file a) && negb (exists_ st (py_text (worksheet_file a)))). generalize (given (config_file a) && negb (exists_ st (py_text (config_file a)))). intros b c F. revert st e F.
    repeat (apply less_then; [apply less_when, less_eprint|intros _]). apply (less_lift (Ok _)). }
  intros ok. destruct (negb ok); [apply less_emit|]. apply less_then; [apply less_emits|].
  { apply so_arguments; [reflexivity| |constructor]. intros k K. exact (dget_other _ (firstn 8 (review_namespace a)) (AFlag false) (AFlag true) (skipn 9 (review_namespace a)) k K). }
  intros _. cbn [r_version show_tests database_file worksheet_file ts_ip r_username r_password r_database set_review_debug]. destruct (r_version a); [apply less_emit|]. apply less_then.
  { apply less_when. unfold show_descriptions. apply less_then; [apply less_lift|]. intros ds. apply less_then; [apply less_emit|]. intros _. apply less_then; [|intros _; apply less_emit].
    apply less_each. intros kv. apply less_then; [apply less_emit|]. intros _. apply less_then; [apply less_emit|]. intros _. apply less_each. intros s. apply less_emit. }
  intros _. destruct (given (ts_ip a) || given (database_file a)); [|exact (less_lift (Ok tt))]. apply less_then.
  { destruct (given (ts_ip a)); [|apply less_debug]. apply less_cluster. }
  intros d. apply less_then.
  { destruct (given (worksheet_file a)); [|exact (less_lift (Ok None))]. apply less_then; [|intros w; exact (less_lift (Ok (Some w)))]. apply less_then; [apply less_read_text|]. intros t. apply less_lift. }
  intros ws. apply less_then.
  { unfold run_reviews. destruct d as [d|]; [|exact (less_lift (Err AssertionError))]. destruct (review_aloud _ _ _ _ _ _ _ _ _ _ _ _) as [[r h] vs].
    apply less_then; [apply less_each; intros [s|s]; [apply less_emit|apply less_eprint]|]. intros _. apply less_then; [|intros _; apply less_lift]. intros st e F. exists e. split; [reflexivity|exact F]. }
  intros rs. apply less_each. intros kv. apply less_then; [apply less_emit|]. intros _. apply less_each. intros s. apply less_emit.
Qed.
(** C124: the same for review_model, whatever the reviews find and the clusters answer. *)
Theorem C124_review : forall H order rnd commas float_str fuel safe_load queries help documented a st,
  let without := review_tool H order rnd commas float_str fuel safe_load queries help documented (set_review_debug false a) st in
  let with_ := review_debug H order rnd commas float_str fuel safe_load queries help documented (set_review_debug true a) st in
  snd with_ = snd without /\ files (fst with_) = files (fst without) /\ same_output (out (fst without)) (out (fst with_)) /\ sent (fst with_) = sent (fst without)
  /\ fewer (err (fst without)) (err (fst with_)).
Proof.
  intros H order rnd commas float_str fuel safe_load queries help documented a st. cbv zeta.
  destruct (less_review H order rnd commas float_str fuel safe_load queries help documented a st (err st, out st) (conj (fewer_refl _) (same_output_refl _))) as (e & E & F & G).
  replace (with_err (err st, out st) st) with st in E by (destruct st; reflexivity). rewrite E. cbn [fst snd with_err files out err sent]. auto 6.
Qed.
Print Assumptions C124_review.
(** a file to TQL, Excel and a cluster, with an invalid foreign key; a review *)
Example C124_convert_case : let without := convert quiet (fun _ => []) (set_debug false to_everything) small_state in let with_ := convert_debug quiet (fun _ => []) (set_debug true to_everything) small_state in
  snd with_ = Ok tt /\ length (err (fst without)) = 1 /\ length (err (fst with_)) = 9 /\ sent (fst with_) <> [] /\ out (fst with_) <> out (fst without).
Proof. cbv zeta. repeat split; vm_compute; first [reflexivity|discriminate]. Qed.
Example C124_review_case : let with_ := review_debug quiet (fun l => l) (fun q => q) (fun _ => []) (fun _ => []) 5 (fun _ => Ok YNull) (fun _ _ _ _ _ => Ok []) [] [] (review_file ($"a.ddl") (Some ($"d"))) no_key_state in
  snd with_ = Ok tt /\ length (err (fst with_)) > 2.
Proof. cbv zeta. split; vm_compute; [reflexivity|repeat constructor]. Qed.
