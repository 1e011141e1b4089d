(** * Showing that a text does not contain another one *)
From Verif Require Export TypeFacts.

Lemma occurs_app p a b : occurs p a \/ occurs p b -> occurs p (a ++ b).
Proof.
  intros [H|H]; [exact (occurs_within p [] a b H)|]. apply (occurs_within p a b []) in H. rewrite app_nil_r in H. exact H.
Qed.
(** an occurrence avoiding a separator lies on one side of it *)
Lemma occurs_sep p c a b : ~ In c p -> occurs p (a ++ c :: b) -> occurs p a \/ occurs p b.
Proof.
  intros Hc [u [v E]]. destruct (le_lt_dec (length u + length p) (length a)) as [L|L].
  - left. exists u, (firstn (length a - (length u + length p)) v).
    apply (f_equal (firstn (length a))) in E. rewrite firstn_app, firstn_all, Nat.sub_diag, firstn_O, app_nil_r in E.
    rewrite E at 1. rewrite app_assoc, firstn_app, firstn_all2 by (rewrite app_length; lia). rewrite app_length, <- app_assoc. reflexivity.
  - destruct (le_lt_dec (length u) (length a)) as [L'|L'].
    + exfalso. destruct p as [|p0 p]; [cbn in L; lia|]. apply Hc.
      assert (N : nth_error (a ++ c :: b) (length a) = Some c) by (rewrite nth_error_app2, Nat.sub_diag by lia; reflexivity).
      rewrite E, nth_error_app2 in N by lia. rewrite nth_error_app1 in N by lia. eapply nth_error_In. exact N.
    + right. exists (skipn (S (length a)) u), v. apply (f_equal (skipn (S (length a)))) in E.
      rewrite skipn_app in E. rewrite skipn_all2 in E by lia. replace (S (length a) - length a) with 1 in E by lia. change (b = skipn (S (length a)) (u ++ p ++ v)) in E.
      rewrite E, skipn_app. replace (S (length a) - length u) with 0 by lia. reflexivity.
Qed.
Lemma nocc_sep p c a b : ~ In c p -> contains p a = false -> contains p b = false -> contains p (a ++ c :: b) = false.
Proof. rewrite !contains_false. intros H Ha Hb O. apply (occurs_sep _ _ _ _ H) in O. tauto. Qed.
Lemma occ_sep p c a b : ~ In c p -> contains p (a ++ c :: b) = contains p a || contains p b.
Proof.
  intros H. destruct (contains_spec p (a ++ c :: b)) as [O|O].
  - apply (occurs_sep _ _ _ _ H) in O. symmetry. apply orb_true_iff. rewrite !contains_true. exact O.
  - symmetry. apply orb_false_iff. rewrite !contains_false. split; intros X; apply O; [apply occurs_app; left; exact X|].
    change (a ++ c :: b) with (a ++ [c] ++ b). rewrite app_assoc. apply occurs_app. right. exact X.
Qed.
Lemma nocc_absent p c s : In c p -> ~ In c s -> contains p s = false.
Proof.
  intros Hc Hs. apply contains_false. intros [a [b ->]]. apply Hs, in_or_app. right. apply in_or_app. left. exact Hc.
Qed.
Lemma nocc_within p a s b : contains p (a ++ s ++ b) = false -> contains p s = false.
Proof. rewrite !contains_false. intros H O. apply H, occurs_within, O. Qed.
Lemma not_in_b c (s : str) : existsb (Ascii.eqb c) s = false -> ~ In c s.
Proof.
  intros H Hin. assert (existsb (Ascii.eqb c) s = true) by (apply existsb_exists; exists c; split; [exact Hin|apply Ascii.eqb_refl]). congruence.
Qed.
