(** * Specification: the tests that exist (C126) *)
From Verif Require Export Reviewer.

(** dt/review/review_tests.py: the functions whose names begin with review_ *)
Definition existing_tests : list str :=
  [$"review_circular_relationships"; $"review_long_chain_relationships"; $"review_pks"; $"review_relationships"; $"review_sharding";
   $"review_table_joins"; $"review_worksheet_joins"].
(** a test was run, or the user was told that it is skipped *)
Definition mentioned (n : str) (ev : list event) : Prop := In (Called n) ev \/ In (Skipped n) ev.
