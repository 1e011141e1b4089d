(** * Lemmas: reading a script made of well-behaved lines (for C45) *)
From Verif Require Export RoundText.

Definition ok_text (s : str) : bool :=
  noch newline s && (noch (chr 13) s && (noch tab s && (noch ";" s && (lacks ($"--") s && (lacks ($"/*") s && lacks ($"  ") s))))).
Lemma ok_text_sepable : sepable ok_text.
Proof.
  unfold ok_text. repeat apply and_sepable; try (apply noch_sepable; discriminate); apply lacks_sepable; apply not_in_b; reflexivity.
Qed.
Record line_ok (c : str) : Prop := { lo_hard : ends_hard c = true; lo_text : ok_text c = true; lo_go : starts_with ($"GO") c = false }.

Ltac ok_split H := let H' := fresh in unfold ok_text in H; repeat (apply andb_true_iff in H; destruct H as [H' H]; revert H'; intro).

Lemma ok_parts s : ok_text s = true -> ~ In newline s /\ ~ In (chr 13) s /\ ~ In tab s /\ ~ In ";"%char s /\ contains ($"--") s = false
  /\ contains ($"/*") s = false /\ contains ($"  ") s = false.
Proof.
  unfold ok_text. rewrite !andb_true_iff, !noch_ok. unfold lacks. rewrite !negb_true_iff. tauto.
Qed.
Lemma lacks_snoc p s c : ~ In c p -> contains p s = false -> p <> [] -> contains p (s ++ [c]) = false.
Proof. intros H N Np. apply nocc_sep; [exact H|exact N|]. apply contains_false. intros [a [b E]]. destruct p; [contradiction|]. destruct a; discriminate. Qed.

Lemma blanks_space w : forallb (Ascii.eqb " ") w = true -> forallb is_space w = true.
Proof. rewrite !forallb_forall. intros H c Hc. specialize (H c Hc). apply Ascii.eqb_eq in H. subst c. reflexivity. Qed.
Lemma clean_line_ok w c : forallb (Ascii.eqb " ") w = true -> ends_hard c = true -> contains ($"  ") c = false -> ~ In tab c -> clean_line (w ++ c ++ [newline]) = c.
Proof.
  intros W H B T. unfold clean_line. rewrite strip_around; [|apply blanks_space; exact W|reflexivity|exact H].
  rewrite sub_runs_blank by exact B. apply sub_runs_absent, T.
Qed.
Lemma before_absent p s : contains p s = false -> before p s = s.
Proof. intros H. apply contains_false in H. apply (cut_none p s H). Qed.

Lemma read_plain st w c : line_ok c -> forallb (Ascii.eqb " ") w = true -> r_in_comment st = false -> ~ In ";"%char (r_buffer st) ->
  read_line st (w ++ c ++ [newline]) = {| r_statements := r_statements st; r_buffer := r_buffer st ++ $" " ++ c; r_in_comment := false |}.
Proof.
  intros [H O G] W C B. apply ok_parts in O. destruct O as [_ [_ [O3 [O4 [O5 [O6 O7]]]]]].
  unfold read_line. rewrite clean_line_ok by assumption. rewrite before_absent by exact O5. unfold should_ignore_line. rewrite G.
  unfold feed. rewrite C, O6. replace (contains ($";") (r_buffer st ++ $" " ++ c)) with false; [reflexivity|].
  symmetry. apply contains_false. intros X. apply (proj1 (occurs_char _ _)) in X. apply in_app_or in X. destruct X as [X|X]; [contradiction|].
  apply in_app_or in X. destruct X as [[X|[]]|X]; [discriminate X|contradiction].
Qed.
Lemma read_final st w c : line_ok c -> c <> [] -> forallb (Ascii.eqb " ") w = true -> r_in_comment st = false -> ~ In ";"%char (r_buffer st) ->
  starts_with ($"GO") (c ++ $";") = false ->
  read_line st (w ++ (c ++ $";") ++ [newline])
  = {| r_statements := r_statements st ++ [strip (r_buffer st ++ $" " ++ c)]; r_buffer := []; r_in_comment := false |}.
Proof.
  intros [H O G] Nc W C B G'. apply ok_parts in O. destruct O as [_ [_ [O3 [O4 [O5 [O6 O7]]]]]].
  assert (H' : ends_hard (c ++ $";") = true).
  { unfold ends_hard in *. rewrite rev_app_distr. destruct c as [|x c]; [contradiction|]. apply andb_true_iff in H. destruct H as [H _]. cbn [app]. cbn [app] in H. rewrite H. reflexivity. }
  unfold read_line. rewrite clean_line_ok; [|exact W|exact H'| |].
  2: { apply lacks_snoc; [apply not_in_b; reflexivity|exact O7|discriminate]. }
  2: { intros X. apply in_app_or in X. destruct X as [X|[X|[]]]; [contradiction|discriminate X]. }
  rewrite before_absent; [|apply lacks_snoc; [apply not_in_b; reflexivity|exact O5|discriminate]].
  unfold should_ignore_line. rewrite G'. unfold feed. rewrite C.
  assert (O6' : contains ($"/*") (c ++ $";") = false) by (apply lacks_snoc; [apply not_in_b; reflexivity|exact O6|discriminate]). rewrite O6'.
  assert (F : first_cut ($";") (r_buffer st ++ $" " ++ c ++ $";") (r_buffer st ++ $" " ++ c) []).
  { apply cut_char; [rewrite <- !app_assoc; reflexivity|]. intros X. apply in_app_or in X. destruct X as [X|X]; [contradiction|].
    apply in_app_or in X. destruct X as [[X|[]]|X]; [discriminate X|contradiction]. }
  pose proof (cut_occurs _ _ _ _ F) as Oc. destruct (contains_spec ($";") (r_buffer st ++ $" " ++ c ++ $";")) as [_|N]; [|contradiction].
  destruct (first_cut_fun _ _ _ _ _ _ (cut_some _ _ Oc) F) as [-> ->]. reflexivity.
Qed.

(** ** Texts that can be put one after the other *)
Definition whole (text : str) : Prop := ~ In (chr 13) text /\ (text = [] \/ exists t, text = t ++ [newline]).
Record reads (text : str) (es : list str) : Prop := {
  rd_whole : whole text;
  rd_run : forall st, r_in_comment st = false -> forallb is_space (r_buffer st) = true ->
    exists ps b, fold_left read_line (file_lines text) st = {| r_statements := r_statements st ++ ps; r_buffer := b; r_in_comment := false |}
      /\ forallb is_space b = true /\ map (sub_runs " ") ps = es }.
Lemma file_lines_line w s : ~ In newline w -> file_lines (w ++ newline :: s) = (w ++ [newline]) :: file_lines s.
Proof.
  induction w as [|x w IH]; intros H; [reflexivity|]. cbn [app file_lines]. destruct (Ascii.eqb_spec x newline) as [->|N]; [exfalso; apply H; left; reflexivity|].
  rewrite IH by (intros X; apply H; right; exact X). reflexivity.
Qed.
Lemma file_lines_app a b : whole a -> file_lines (a ++ b) = file_lines a ++ file_lines b.
Proof.
  intros [_ [->|[t ->]]]; [reflexivity|]. induction t as [|x t IH]; [reflexivity|]. cbn [app file_lines]. destruct (Ascii.eqb x newline); [rewrite IH; reflexivity|].
  rewrite IH. destruct (file_lines (t ++ [newline])) as [|l ls] eqn:E; [|reflexivity]. exfalso. clear -E.
  destruct t as [|y t]; [discriminate|]. cbn [app file_lines] in E. destruct (Ascii.eqb y newline); [discriminate|]. destruct (file_lines (t ++ [newline])); discriminate.
Qed.
Lemma reads_nil : reads [] [].
Proof. split; [split; [intros []|left; reflexivity]|]. intros st C B. exists [], (r_buffer st). rewrite app_nil_r. split; [destruct st; cbn in *; subst; reflexivity|auto]. Qed.
Lemma reads_app a b es fs : reads a es -> reads b fs -> reads (a ++ b) (es ++ fs).
Proof.
  intros [Wa Ra] [Wb Rb]. split.
  - destruct Wa as [Ca Wa], Wb as [Cb Wb]. split; [intros X; apply in_app_or in X; tauto|]. destruct Wb as [->|[t ->]]; [rewrite app_nil_r; exact Wa|].
    right. exists (a ++ t). rewrite app_assoc. reflexivity.
  - intros st C B. rewrite file_lines_app, fold_left_app by exact Wa. destruct (Ra st C B) as [ps [b1 [E [B1 M]]]]. rewrite E.
    destruct (Rb {| r_statements := r_statements st ++ ps; r_buffer := b1; r_in_comment := false |} eq_refl B1) as [qs [b2 [E2 [B2 M2]]]].
    rewrite E2. exists (ps ++ qs), b2. cbn [r_statements]. rewrite app_assoc, map_app, M, M2. auto.
Qed.
Lemma space_no_semi b : forallb is_space b = true -> ~ In ";"%char b.
Proof. rewrite forallb_forall. intros H X. discriminate (H _ X). Qed.
Lemma reads_newline : reads [newline] [].
Proof.
  split; [split; [intros [X|[]]; discriminate X|right; exists []; reflexivity]|]. intros st C B. exists [], (r_buffer st ++ $" ").
  cbn [file_lines]. change (Ascii.eqb newline newline) with true. cbn [fold_left].
  pose proof (read_plain st [] [] ltac:(split; reflexivity) eq_refl C (space_no_semi _ B)) as R. cbn [app] in R. cbv iota.
  cbn [fold_left]. rewrite R. rewrite !app_nil_r. split; [reflexivity|]. rewrite forallb_app, B. auto.
Qed.

(** one statement over several lines, each with its indentation *)
Definition line_text (l : str * str) : str := fst l ++ snd l ++ [newline].
Definition stmt_text (ls : list (str * str)) (c : str) : str := concat (map line_text ls) ++ c ++ $";" ++ [newline].
Lemma reads_stmt ls c e : Forall (fun l => forallb (Ascii.eqb " ") (fst l) = true /\ line_ok (snd l)) ls -> line_ok c -> c <> [] ->
  starts_with ($"GO") (c ++ $";") = false ->
  e = join ($" ") (map snd ls ++ [c]) -> ends_hard e = true -> contains ($"  ") e = false -> reads (stmt_text ls c) [e].
Proof.
  intros L C Nc G E He Be. split.
  - unfold stmt_text. split.
    + intros X. apply in_app_or in X. destruct X as [X|X].
      * apply in_concat in X. destruct X as [t [Ht X]]. apply in_map_iff in Ht. destruct Ht as [[w d] [<- Hl]]. rewrite Forall_forall in L. destruct (L _ Hl) as [W [_ O _]].
        cbn [fst snd] in *. unfold line_text in X. cbn [fst snd] in X. apply in_app_or in X. destruct X as [X|X].
        -- rewrite forallb_forall in W. specialize (W _ X). discriminate W.
        -- apply in_app_or in X. destruct X as [X|[X|[]]]; [|discriminate X]. apply ok_parts in O. tauto.
      * destruct C as [_ O _]. apply ok_parts in O. apply in_app_or in X. destruct X as [X|[X|[X|[]]]]; [tauto|discriminate X|discriminate X].
    + right. exists (concat (map line_text ls) ++ c ++ $";"). rewrite <- !app_assoc. reflexivity.
  - intros st Cm B. unfold stmt_text.
    assert (Run : forall ls st, Forall (fun l => forallb (Ascii.eqb " ") (fst l) = true /\ line_ok (snd l)) ls -> r_in_comment st = false -> ~ In ";"%char (r_buffer st) ->
      forall rest, exists st', fold_left read_line (file_lines (concat (map line_text ls) ++ rest)) st = fold_left read_line (file_lines rest) st'
        /\ st' = {| r_statements := r_statements st; r_buffer := r_buffer st ++ flat_map (fun l => $" " ++ snd l) ls; r_in_comment := false |}
        /\ ~ In ";"%char (r_buffer st')).
    { clear. induction ls as [|[w d] ls IH]; intros st L Cm B rest.
      - eexists. split; [|split; [reflexivity|]]; cbn [map concat app flat_map]; rewrite app_nil_r; [|exact B]. destruct st; cbn in *; subst; reflexivity.
      - inversion L as [|? ? [W Ld] L']; subst. cbn [fst snd] in *. cbn [map concat]. unfold line_text at 1. cbn [fst snd].
        replace (((w ++ d ++ [newline]) ++ concat (map line_text ls)) ++ rest) with ((w ++ d) ++ newline :: concat (map line_text ls) ++ rest) by (rewrite <- !app_assoc; reflexivity).
        rewrite file_lines_line.
        2: { intros X. apply in_app_or in X. destruct X as [X|X]; [rewrite forallb_forall in W; specialize (W _ X); discriminate W|]. destruct Ld as [_ O _]. apply ok_parts in O. tauto. }
        cbn [fold_left]. rewrite <- app_assoc. rewrite read_plain by assumption.
        assert (B2 : ~ In ";"%char (r_buffer st ++ $" " ++ d)).
        { intros X. destruct Ld as [_ O _]. apply ok_parts in O. apply in_app_or in X. destruct X as [X|X]; [contradiction|]. apply in_app_or in X. destruct X as [[X|[]]|X]; [discriminate X|tauto]. }
        destruct (IH {| r_statements := r_statements st; r_buffer := r_buffer st ++ $" " ++ d; r_in_comment := false |} L' eq_refl B2 rest) as [st' [E [-> B']]].
        eexists. split; [exact E|]. split; [|exact B']. cbn [r_statements r_buffer flat_map snd]. rewrite <- !app_assoc. reflexivity. }
    destruct (Run ls st L Cm (space_no_semi _ B) (c ++ $";" ++ [newline])) as [st' [-> [E' B']]].
    replace (c ++ $";" ++ [newline]) with ((c ++ $";") ++ newline :: []) by (rewrite <- app_assoc; reflexivity).
    rewrite file_lines_line.
    2: { intros X. destruct C as [_ O _]. apply ok_parts in O. apply in_app_or in X. destruct X as [X|[X|[]]]; [tauto|discriminate X]. }
    cbn [file_lines fold_left]. pose proof (read_final st' [] c C Nc eq_refl) as R. rewrite E' in R. cbn [r_in_comment r_buffer r_statements] in R. rewrite E' in B'. cbn [r_buffer] in B'.
    specialize (R eq_refl B' G). cbn [app] in R. rewrite E'. rewrite R.
    eexists [_], []. split; [reflexivity|]. split; [reflexivity|]. cbn [map]. f_equal.
    replace ((r_buffer st ++ flat_map (fun l => $" " ++ snd l) ls) ++ $" " ++ c) with ((r_buffer st ++ $" ") ++ e ++ []).
    + rewrite strip_around; [apply sub_runs_blank; exact Be|rewrite forallb_app, B; reflexivity|reflexivity|exact He].
    + rewrite E, app_nil_r, <- !app_assoc. f_equal. clear. induction ls as [|[w d] ls IH]; [reflexivity|]. cbn [map flat_map snd app].
      rewrite join_cons by (intros X; apply (f_equal (@length _)) in X; rewrite app_length in X; cbn in X; lia). rewrite IH, <- !app_assoc. reflexivity.
Qed.
Lemma universal_none s : ~ In (chr 13) s -> universal_newlines s = s.
Proof.
  induction s as [|x s IH]; intros H; [reflexivity|]. cbn [universal_newlines]. destruct (Ascii.eqb_spec x (chr 13)) as [->|N]; [exfalso; apply H; left; reflexivity|].
  f_equal. apply IH. intros X. apply H. right. exact X.
Qed.
Lemma reads_statements text es : reads text es -> get_statements text = es.
Proof.
  intros [[C _] R]. unfold get_statements, read_lines. rewrite universal_none by exact C. destruct (R start_reading eq_refl eq_refl) as [ps [b [-> [_ M]]]].
  exact M.
Qed.
