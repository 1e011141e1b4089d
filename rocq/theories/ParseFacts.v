(** * Lemmas on the string primitives of the parser and on statement splitting *)
From Verif Require Export Parser SpecParse StrFacts.

(** ** Occurrences *)
Lemma starts_with_spec p s : starts_with p s = true <-> exists b, s = p ++ b.
Proof.
  revert s. induction p as [|x p IH]; intros s; cbn [starts_with app].
  - split; [exists s; reflexivity | reflexivity].
  - destruct s as [|y s]; [split; [discriminate | intros [b H]; discriminate] |].
    rewrite andb_true_iff, IH, Ascii.eqb_eq. split.
    + intros [-> [b ->]]. exists b. reflexivity.
    + intros [b H]. injection H as -> ->. split; [reflexivity | exists b; reflexivity].
Qed.
Lemma find_opt_some p s n : find_opt p s = Some n ->
  n <= length s /\ first_cut p s (firstn n s) (skipn (n + length p) s).
Proof.
  revert n. induction s as [|c s IH]; intros n H; cbn [find_opt] in H.
  - destruct (starts_with p []) eqn:E; [|discriminate]. injection H as <-. apply starts_with_spec in E. destruct E as [b E].
    destruct p; [|discriminate]. split; [reflexivity|]. split; [reflexivity|]. intros. cbn. lia.
  - destruct (starts_with p (c :: s)) eqn:E.
    + injection H as <-. apply starts_with_spec in E. destruct E as [b E]. split; [cbn; lia|]. split.
      * rewrite E. cbn [firstn app Nat.add]. rewrite skipn_app, Nat.sub_diag, skipn_all. reflexivity.
      * intros. cbn. lia.
    + destruct (find_opt p s) as [m|] eqn:F; [|discriminate]. injection H as <-. destruct (IH _ eq_refl) as [Hl [He Hf]].
      split; [cbn; lia|]. split.
      * cbn [firstn Nat.add skipn app]. rewrite <- He. reflexivity.
      * intros a' b' Ha. destruct a' as [|x a'].
        { exfalso. assert (starts_with p (c :: s) = true) by (apply starts_with_spec; exists b'; exact Ha). congruence. }
        cbn [app] in Ha. injection Ha as -> Ha. apply Hf in Ha. cbn [firstn length]. lia.
Qed.
Lemma find_opt_none p s : find_opt p s = None <-> ~ occurs p s.
Proof.
  induction s as [|c s IH]; cbn [find_opt].
  - destruct (starts_with p []) eqn:E.
    + split; [discriminate|]. intros H. exfalso. apply H. apply starts_with_spec in E. destruct E as [b E]. exists [], b. exact E.
    + split; [|reflexivity]. intros _ [a [b H]]. destruct a; [|discriminate].
      assert (starts_with p [] = true) by (apply starts_with_spec; exists b; exact H). congruence.
  - destruct (starts_with p (c :: s)) eqn:E.
    + split; [discriminate|]. intros H. exfalso. apply H. apply starts_with_spec in E. destruct E as [b E]. exists [], b. exact E.
    + destruct (find_opt p s) eqn:F.
      * split; [discriminate|]. intros H. exfalso. apply H. apply find_opt_some in F. destruct F as [_ [F _]].
        eexists (c :: _), _. cbn [app]. rewrite <- F. reflexivity.
      * split; [|reflexivity]. intros _ [a [b H]]. destruct a as [|x a].
        { assert (starts_with p (c :: s) = true) by (apply starts_with_spec; exists b; exact H). congruence. }
        cbn [app] in H. injection H as -> H. apply (proj1 IH eq_refl). exists a, b. exact H.
Qed.
Lemma contains_spec p s : reflect (occurs p s) (contains p s).
Proof.
  unfold contains. destruct (find_opt p s) eqn:E; constructor.
  - apply find_opt_some in E. destruct E as [_ [E _]]. eexists _, _. exact E.
  - apply find_opt_none, E.
Qed.
Lemma contains_true p s : contains p s = true <-> occurs p s.
Proof. destruct (contains_spec p s); split; congruence || tauto. Qed.
Lemma contains_false p s : contains p s = false <-> ~ occurs p s.
Proof. destruct (contains_spec p s); split; congruence || tauto. Qed.
Lemma cut_some p s : occurs p s -> first_cut p s (before p s) (after p s).
Proof.
  intros H. unfold before, after, py_partition. destruct (find_opt p s) eqn:E.
  - apply find_opt_some in E. exact (proj2 E).
  - apply find_opt_none in E. contradiction.
Qed.
Lemma cut_none p s : ~ occurs p s -> before p s = s /\ after p s = [].
Proof. intros H. unfold before, after, py_partition. apply find_opt_none in H. rewrite H. auto. Qed.
Lemma first_cut_fun p s a b a' b' : first_cut p s a b -> first_cut p s a' b' -> a = a' /\ b = b'.
Proof.
  intros [E H] [E' H']. assert (L : length a = length a') by (apply H in E'; apply H' in E; lia).
  rewrite E' in E. assert (a' = a /\ p ++ b' = p ++ b) as [-> Hp].
  { clear - E L. revert a' L E. induction a as [|x a IH]; intros [|y a'] L E; try discriminate; cbn in *; [auto|].
    injection E as -> E. destruct (IH a') as [-> ->]; auto. }
  apply app_inv_head in Hp. auto.
Qed.
Lemma occurs_char c s : occurs [c] s <-> In c s.
Proof.
  split.
  - intros [a [b ->]]. apply in_or_app. right. left. reflexivity.
  - intros H. apply in_split in H. destruct H as [a [b ->]]. exists a, b. reflexivity.
Qed.
Lemma first_cut_char c s a b : first_cut [c] s a b -> ~ In c a.
Proof.
  intros [E H] Hin. apply in_split in Hin. destruct Hin as [x [y ->]].
  specialize (H x (y ++ [c] ++ b)). rewrite app_length in H. cbn in H.
  assert (x ++ [c] ++ y ++ [c] ++ b = s) by (rewrite E, <- !app_assoc; reflexivity). symmetry in H0. apply H in H0. lia.
Qed.

(** ** Runs of a character *)
Lemma squeeze_run c s : exists s', squeeze c false s = s' /\ runs_to_blank c s s'
  /\ exists n r, s = repeat c n ++ r /\ (forall x t, r = x :: t -> x <> c) /\ runs_to_blank c r (squeeze c true s).
Proof.
  induction s as [|x s [s' [E [R [n [r [Es [Hr Rr]]]]]]]]; cbn [squeeze].
  - exists []. split; [reflexivity|]. split; [constructor|]. exists 0, []. split; [reflexivity|]. split; [discriminate|constructor].
  - destruct (Ascii.eqb x c) eqn:Ex.
    + apply Ascii.eqb_eq in Ex as ->. eexists. split; [reflexivity|]. split.
      * rewrite Es at 1. apply (rb_run c n r); assumption.
      * exists (S n), r. split; [cbn [repeat app]; f_equal; exact Es|]. split; [exact Hr|exact Rr].
    + apply Ascii.eqb_neq in Ex. eexists. split; [reflexivity|]. rewrite E. split; [constructor; assumption|].
      exists 0, (x :: s). split; [reflexivity|]. split; [intros ? ? H; injection H as -> ->; exact Ex|constructor; assumption].
Qed.
Lemma sub_runs_spec c s : runs_to_blank c s (sub_runs c s).
Proof. destruct (squeeze_run c s) as [s' [E [R _]]]. unfold sub_runs. rewrite E. exact R. Qed.
Lemma runs_fun c s a b : runs_to_blank c s a -> runs_to_blank c s b -> a = b.
Proof.
  intros H. revert b. induction H as [|x s s' Hx H IH|n s s' Hs H IH]; intros b Hb.
  - inversion Hb; [reflexivity].
  - inversion Hb; subst; [f_equal; auto|]. exfalso. apply Hx. reflexivity.
  - remember (repeat c (S n) ++ s) as t eqn:Et. destruct Hb as [|x t t' Hx Hb|m t t' Ht Hb].
    + discriminate.
    + cbn in Et. injection Et as -> _. contradiction.
    + f_equal. apply IH. assert (t = s); [|subst; exact Hb].
      clear - Et Hs Ht. assert (repeat c m ++ t = repeat c n ++ s) by (cbn in Et; injection Et as Et; exact Et). clear Et.
      revert n H. induction m as [|m IH]; intros [|n] H; cbn in H.
      * exact H.
      * exfalso. eapply Ht; [exact H|reflexivity].
      * exfalso. symmetry in H. eapply Hs; [exact H|reflexivity].
      * injection H as H. eauto.
Qed.

(** ** Lines *)
Lemma line_content_ok raw : line_content raw (before ($"--") (clean_line raw)).
Proof.
  exists (sub_runs " " (strip raw)), (clean_line raw). split; [apply sub_runs_spec|]. split; [apply sub_runs_spec|].
  destruct (contains_spec ($"--") (clean_line raw)) as [H|H].
  - left. eexists. apply cut_some, H.
  - right. split; [exact H|]. apply cut_none, H.
Qed.
Lemma feed_adds l buf i : exists x j, line_adds i l x j /\ feed l buf i = (buf ++ x, j).
Proof.
  unfold feed. destruct i.
  - destruct (contains_spec ($"*/") l) as [H|H].
    + eexists _, _. split; [eapply la_close, cut_some, H|]. reflexivity.
    + exists [], true. split; [apply la_inside, H|]. rewrite app_nil_r. reflexivity.
  - destruct (contains_spec ($"/*") l) as [H|H].
    + destruct (contains_spec ($"*/") (after ($"/*") l)) as [H'|H'].
      * eexists _, _. split; [eapply la_both; [apply cut_some, H|apply cut_some, H']|]. rewrite <- app_assoc. reflexivity.
      * eexists _, _. split; [eapply la_open; [apply cut_some, H|exact H']|]. reflexivity.
    + eexists _, _. split; [apply la_plain, H|]. reflexivity.
Qed.
Lemma semicolons_app a b : semicolons (a ++ b) = semicolons a + semicolons b.
Proof. apply count_occ_app. Qed.
Lemma semicolons_pos s : semicolons s > 0 <-> occurs ($";") s.
Proof. change ($";") with [";"%char]. rewrite occurs_char. symmetry. apply count_occ_In. Qed.
Lemma cut_semi s : occurs ($";") s ->
  s = before ($";") s ++ $";" ++ after ($";") s /\ ~ In ";"%char (before ($";") s)
  /\ semicolons s = S (semicolons (after ($";") s)).
Proof.
  intros H. pose proof (cut_some _ _ H) as C. assert (N : ~ In ";"%char (before ($";") s)) by (eapply first_cut_char; exact C).
  destruct C as [E _]. split; [exact E|]. split; [exact N|]. rewrite E at 1. rewrite !semicolons_app.
  assert (semicolons (before ($";") s) = 0) as -> by (apply count_occ_not_In; exact N). reflexivity.
Qed.

(** the loop, from any state *)
Lemma reading_spec raws : forall st, exists ls xs ps,
  kept_lines raws ls /\ lines_add (r_in_comment st) ls xs (r_in_comment (fold_left read_line raws st))
  /\ r_statements (fold_left read_line raws st) = r_statements st ++ map strip ps
  /\ r_buffer st ++ concat xs = terminated ps ++ r_buffer (fold_left read_line raws st)
  /\ Forall (fun p => ~ In ";"%char p) ps
  /\ length ps = taken (semicolons (r_buffer st)) (map semicolons xs)
  /\ semicolons (r_buffer (fold_left read_line raws st)) = left_waiting (semicolons (r_buffer st)) (map semicolons xs).
Proof.
  induction raws as [|raw raws IH]; intros st; cbn [fold_left].
  - exists [], [], []. split; [constructor|]. split; [constructor|]. cbn. rewrite !app_nil_r.
    repeat split; constructor.
  - assert (K := line_content_ok raw). unfold read_line at 2 4 6 8. cbn zeta.
    set (l := before ($"--") (clean_line raw)) in *. unfold should_ignore_line.
    destruct (starts_with ($"GO") l) eqn:G.
    + apply starts_with_spec in G. destruct G as [r G]. rewrite G in K.
      destruct (IH st) as [ls [xs [ps [H1 H]]]]. exists ls, xs, ps. split; [econstructor; [exact K | exact H1] | exact H].
    + assert (NG : ~ exists r, l = $"GO" ++ r) by (intros [r Hr]; rewrite (proj2 (starts_with_spec _ _)) in G; [discriminate | exists r; exact Hr]).
      destruct (feed_adds l (r_buffer st) (r_in_comment st)) as [x [j [A F]]]. rewrite F. cbn beta iota zeta.
      destruct (contains_spec ($";") (r_buffer st ++ x)) as [S|S].
      * destruct (cut_semi _ S) as [E [N C]].
        set (st' := {| r_statements := _; r_buffer := _; r_in_comment := _ |}).
        destruct (IH st') as [ls [xs [ps [H1 [H2 [H3 [H4 [H5 [H6 H7]]]]]]]]].
        exists (l :: ls), (x :: xs), (before ($";") (r_buffer st ++ x) :: ps).
        split; [constructor; assumption|]. split; [econstructor; eassumption|].
        split; [rewrite H3; unfold st'; cbn [r_statements map]; rewrite <- app_assoc; reflexivity|].
        split; [|split; [constructor; assumption|]].
        { cbn [concat terminated flat_map]. fold (terminated ps). rewrite app_assoc, E at 1. rewrite <- !app_assoc.
          do 2 f_equal. exact H4. }
        cbn [map taken left_waiting length]. rewrite <- semicolons_app, C.
        split; [f_equal; exact H6|exact H7].
      * set (st' := {| r_statements := _; r_buffer := _; r_in_comment := _ |}).
        destruct (IH st') as [ls [xs [ps [H1 [H2 [H3 [H4 [H5 [H6 H7]]]]]]]]].
        exists (l :: ls), (x :: xs), ps.
        split; [constructor; assumption|]. split; [econstructor; eassumption|]. split; [exact H3|].
        split; [cbn [concat]; rewrite app_assoc; exact H4|]. split; [exact H5|].
        cbn [map taken left_waiting]. rewrite <- semicolons_app.
        assert (Z : semicolons (r_buffer st ++ x) = 0).
        { destruct (semicolons (r_buffer st ++ x)) eqn:Z; [reflexivity|]. exfalso. apply S, semicolons_pos. lia. }
        rewrite Z. unfold st' in H6, H7. cbn [r_buffer] in H6, H7. rewrite Z in H6, H7. auto.
Qed.
