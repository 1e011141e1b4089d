(** * Exact conditions for C07 and C14, whose plain statements are false *)
From Verif Require Import ExactFacts.

(** C07: after any history a schema is listed exactly when a live table is in it or, at some moment, a
    table of that schema was replaced while live; what is leaked stays listed for ever. *)
Theorem C07_exact : forall ops n0 d s, run_db_ops ops (empty_database n0) = Ok d ->
  (In s (get_schema_names d) <-> (exists t, In t (db_iter d) /\ t_schema t = s) \/ replaced ops s).
Proof. exact c07_exact. Qed.
Print Assumptions C07_exact.
Definition leaking_ops : list db_op :=
  [ AddTable (mk_table ($"A") ($"s1") None None); AddTable (mk_table ($"B") ($"s3") None None);
    AddTable (mk_table ($"A") ($"s2") None None); DropTable ($"A"); DropTable ($"B") ].
Example C07_case : exists d, run_db_ops leaking_ops (empty_database ($"db")) = Ok d
  /\ db_iter d = [] /\ get_schema_names d = [$"s1"] /\ replaced leaking_ops ($"s1").
Proof.
  eexists. split; [reflexivity|]. split; [reflexivity|]. split; [reflexivity|].
  exists (firstn 2 leaking_ops), (mk_table ($"A") ($"s2") None None), [DropTable ($"A"); DropTable ($"B")],
    (mk_table ($"A") ($"s1") None None).
  split; [reflexivity|]. split; [|reflexivity]. exists [], [Put ($"B") (mk_table ($"B") ($"s3") None None)].
  split; [reflexivity|]. intros e [<-|[]]. discriminate.
Qed.

(** C14: converting a converted name always succeeds, and changes nothing exactly when the name had no
    two underscores side by side between other characters. *)
Theorem C14_exact : forall v r, to_camel v = Ok r ->
  (exists r', to_camel r = Ok r') /\ (to_camel r = Ok r <-> ~ inner_pair v).
Proof. exact c14_exact. Qed.
Print Assumptions C14_exact.
Example C14_case : to_camel ($"__a_b__") = Ok ($"AB") /\ to_camel ($"AB") = Ok ($"AB")
  /\ to_camel ($"_a__b") = Ok ($"A_b") /\ inner_pair ($"_a__b").
Proof.
  split; [reflexivity|]. split; [reflexivity|]. split; [reflexivity|].
  exists ($"_"), "a"%char, [], [], "b"%char, []. split; [reflexivity|]. split; discriminate.
Qed.
