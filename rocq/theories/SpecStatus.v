(** * Specification: exit statuses (C123)

    [SpecArgs] says what a command line means, [SpecCli] what is read and written. *)
From Verif Require Export Status SpecArgs SpecCli.

(** convert_ddl is told to do something with the model *)
Definition has_task (a : convert_args) : Prop :=
  validate_option a = true \/ is_given (to_tql a) \/ is_given (to_excel a) \/ is_given (to_ts a).
(** what --from_ddl names is a text, if anything, and what --from_excel names a workbook *)
Definition right_kind (a : convert_args) (st : state) : Prop :=
  (forall w, files st (text (from_ddl a)) <> Some (Book w)) /\ (forall s, files st (text (from_excel a)) <> Some (Text s)).
(** nothing was done *)
Definition nothing_done (st st' : state) : Prop := (forall n, files st' n = files st n) /\ sent st' = sent st.
