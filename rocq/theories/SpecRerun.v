(** * C113: what two runs of a tool have in common *)
From Verif Require Export SpecCli SpecCliReview.
From Coq Require Import List. Import ListNotations.

(** two states that differ at most in the contents of files *)
Definition same_process (st1 st2 : state) : Prop :=
  out st1 = out st2 /\ err st1 = err st2 /\ sent st1 = sent st2 /\ objects st1 = objects st2.
(** one run from [st1] to [st1'], another from [st2] to [st2']: every file ends up the same, or neither run has changed it *)
Definition same_writes (st1 st2 st1' st2' : state) : Prop :=
  forall n, files st1' n = files st2' n \/ files st1' n = files st1 n /\ files st2' n = files st2 n.
(** the two runs end the same way, print and send the same, and write the same *)
Definition same_run {A} (m : cli A) (st1 st2 : state) : Prop :=
  snd (m st1) = snd (m st2) /\ same_process (fst (m st1)) (fst (m st2)) /\ same_writes st1 st2 (fst (m st1)) (fst (m st2)).

(** the file convert_ddl is told to read, if it is told one *)
Definition convert_input (a : convert_args) (n : str) : Prop :=
  is_given (from_ddl a) /\ n = text (from_ddl a)
  \/ ~ is_given (from_ddl a) /\ is_given (from_excel a) /\ n = text (from_excel a).
(** the files ddldiff is told to read *)
Definition diff_input (a : diff_args) (n : str) : Prop :=
  is_given (ddl1 a) /\ n = text (ddl1 a) \/ is_given (ddl2 a) /\ n = text (ddl2 a).
(** the files review_model is told to read; of the configuration file only that it is there matters *)
Definition review_input (a : review_args) (n : str) : Prop :=
  is_given (database_file a) /\ n = text (database_file a) \/ is_given (worksheet_file a) /\ n = text (worksheet_file a).
Definition review_config (a : review_args) (n : str) : Prop := is_given (config_file a) /\ n = text (config_file a).

(** the same process, on a file system in another state *)
Definition on_files (f : str -> option content) (st : state) : state :=
  {| files := f; out := out st; err := err st; sent := sent st; objects := objects st |}.
