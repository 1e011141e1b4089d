(** * Properties of validation (C08-C10) *)
From Verif Require Import ValidateFacts.

(** C08: the verdict is exactly consistency. *)
Theorem C08_validation_verdict : forall d, paired_db d ->
  exists r, validate d = Ok r /\ (is_valid r = true <-> consistent_db d).
Proof. exact c08_verdict. Qed.
Print Assumptions C08_validation_verdict.

(** C09: validation returns; the verdict is the emptiness of the issue list; the warnings are exactly
    those about UNKNOWN columns, in order; every other issue is an error; every issue names the
    database and a table that is indeed inconsistent, and every inconsistent table is named. *)
Theorem C09_validation_issues : forall d, paired_db d -> exists r, validate d = Ok r
  /\ (is_valid r = true <-> issues r = [])
  /\ filter is_warning (issues r)
     = flat_map (fun t => map (fun c => (warning_text d t c, WARNING)) (unknown_columns t)) (db_iter d)
  /\ (forall s l, In (s, l) (issues r) -> l = ERROR \/ l = WARNING)
  /\ (forall s l, In (s, l) (issues r) -> exists t rest, In t (db_iter d)
        /\ s = $"database " ++ db_name d ++ $", table " ++ t_name t ++ $":  " ++ rest
        /\ ~ consistent d t)
  /\ (forall t, In t (db_iter d) -> ~ consistent d t -> exists rest l,
        In ($"database " ++ db_name d ++ $", table " ++ t_name t ++ $":  " ++ rest, l) (issues r)).
Proof. exact c09_issues. Qed.
Print Assumptions C09_validation_issues.

(** C10 holds for foreign keys whose to columns are distinct.  Missing: foreign keys that list a to
    column twice, for which it is false (next theorem). *)
Theorem C10_valid_fk_covers_key_partial : forall d r, paired_db d -> validate d = Ok r -> is_valid r = true ->
  forall t fk, In t (db_iter d) -> In fk (foreign_keys_iter t) -> NoDup (fk_to_keys fk) ->
  exists tot, get_table d (fk_to_table fk) = Some tot /\ Permutation (fk_to_keys fk) (t_pk tot).
Proof. exact c10_partial. Qed.
Print Assumptions C10_valid_fk_covers_key_partial.
Theorem C10_valid_fk_covers_key_refuted : exists d r t fk tot, paired_db d /\ validate d = Ok r /\ is_valid r = true
  /\ In t (db_iter d) /\ In fk (foreign_keys_iter t) /\ get_table d (fk_to_table fk) = Some tot
  /\ ~ Permutation (fk_to_keys fk) (t_pk tot).
Proof. exact c10_refuted. Qed.
Print Assumptions C10_valid_fk_covers_key_refuted.
(** For a referenced key without repeated columns, it holds exactly for those foreign keys. *)
Theorem C10_exact : forall d r, paired_db d -> validate d = Ok r -> is_valid r = true ->
  forall t fk tot, In t (db_iter d) -> In fk (foreign_keys_iter t) -> get_table d (fk_to_table fk) = Some tot -> NoDup (t_pk tot) ->
  (Permutation (fk_to_keys fk) (t_pk tot) <-> NoDup (fk_to_keys fk)).
Proof.
  intros d r P V I t fk tot It If G N. split.
  - intros Q. exact (Permutation_NoDup (Permutation_sym Q) N).
  - intros Nk. destruct (C10_valid_fk_covers_key_partial d r P V I t fk It If Nk) as [tot' [G' Q]]. assert (tot' = tot) as -> by congruence. exact Q.
Qed.
Print Assumptions C10_exact.

Example C08_case : paired_db good_db /\ paired_db bad_db
  /\ (exists r, validate good_db = Ok r /\ is_valid r = true)
  /\ (exists r, validate bad_db = Ok r /\ map snd (issues r) = [WARNING; ERROR; ERROR; ERROR; ERROR]).
Proof. exact valid_cases. Qed.
