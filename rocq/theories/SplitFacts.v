(** * Statement splitting: C36-C38 *)
From Verif Require Export ParseFacts.

(** ** Reading lines *)
Lemma universal_ok : forall n s, length s <= n -> newlines_read s (universal_newlines s).
Proof.
  induction n as [|n IH]; intros [|c s] H; cbn [length] in H; try lia; [constructor|constructor|].
  cbn [universal_newlines]. destruct (Ascii.eqb c (chr 13)) eqn:E.
  - apply Ascii.eqb_eq in E as ->. change (chr 13) with cr. change newline with lf. destruct s as [|d s].
    + apply nr_cr; [discriminate|constructor].
    + destruct (Ascii.eqb d lf) eqn:E.
      * apply Ascii.eqb_eq in E as ->. apply nr_crlf, IH. cbn in H. lia.
      * apply Ascii.eqb_neq in E. apply nr_cr; [congruence|]. apply IH. lia.
  - apply Ascii.eqb_neq in E. apply nr_other; [exact E|]. apply IH. lia.
Qed.
Lemma newlines_fun s a b : newlines_read s a -> newlines_read s b -> a = b.
Proof.
  intros H. revert b. induction H as [|s s' H IH|s s' Hs H IH|c s s' Hc H IH]; intros b Hb.
  - inversion Hb; reflexivity.
  - remember (cr :: lf :: s) as t eqn:Et. destruct Hb as [|t t' Hb|t t' Ht Hb|c t t' Hc Hb]; try discriminate.
    + injection Et as ->. f_equal. auto.
    + injection Et as ->. exfalso. apply (Ht s). reflexivity.
    + injection Et as -> ->. contradiction.
  - remember (cr :: s) as t eqn:Et. destruct Hb as [|t t' Hb|t t' Ht Hb|c t t' Hc Hb]; try discriminate.
    + injection Et as <-. exfalso. apply (Hs t). reflexivity.
    + injection Et as ->. f_equal. auto.
    + injection Et as -> ->. contradiction.
  - remember (c :: s) as t eqn:Et. destruct Hb as [|t t' Hb|t t' Ht Hb|c' t t' Hc' Hb]; try discriminate.
    + injection Et as <- _. contradiction.
    + injection Et as <- _. contradiction.
    + injection Et as -> ->. f_equal. auto.
Qed.
Lemma file_lines_ok s : in_lines s (file_lines s).
Proof.
  induction s as [|c s IH]; cbn [file_lines]; [constructor|]. change newline with lf. destruct (Ascii.eqb c lf) eqn:E.
  - apply Ascii.eqb_eq in E as ->. apply (il_line [] s); [tauto|exact IH].
  - apply Ascii.eqb_neq in E. destruct IH as [|w Hw Hn|w s ls Hn IH].
    + apply il_last; [discriminate|]. intros [H|[]]. congruence.
    + apply il_last; [discriminate|]. intros [H|H]; [congruence|contradiction].
    + apply (il_line (c :: w)); [|exact IH]. intros [H|H]; [congruence|contradiction].
Qed.
Lemma app_sep_inj (x : ascii) a b a' b' : ~ In x a -> ~ In x a' -> a ++ x :: b = a' ++ x :: b' -> a = a' /\ b = b'.
Proof.
  revert a'. induction a as [|y a IH]; intros [|y' a'] H H' E; cbn in E.
  - injection E as ->. auto.
  - injection E as -> _. exfalso. apply H'. left. reflexivity.
  - injection E as -> _. exfalso. apply H. left. reflexivity.
  - injection E as -> E. destruct (IH a') as [-> ->]; auto; intros Hi; [apply H|apply H']; right; exact Hi.
Qed.
Lemma in_lines_fun s a b : in_lines s a -> in_lines s b -> a = b.
Proof.
  intros H. revert b. induction H as [|w Hw Hn|w s ls Hn H IH]; intros b Hb.
  - inversion Hb; subst; [reflexivity|contradiction|]. destruct w; discriminate.
  - destruct Hb as [|w Hw' Hn'|w s ls Hn' Hb]; [contradiction|reflexivity|]. exfalso. apply Hn, in_or_app. right. left. reflexivity.
  - remember (w ++ lf :: s) as t eqn:Et. destruct Hb as [|w' Hw' Hn'|w' s' ls' Hn' Hb].
    + destruct w; discriminate.
    + exfalso. apply Hn'. rewrite Et. apply in_or_app. right. left. reflexivity.
    + apply app_sep_inj in Et; try assumption. destruct Et as [-> ->]. f_equal. auto.
Qed.
Lemma line_content_fun r a b : line_content r a -> line_content r b -> a = b.
Proof.
  intros [m [m' [H1 [H2 H3]]]] [n [n' [G1 [G2 G3]]]]. assert (m = n) by (eapply runs_fun; eassumption). subst n.
  assert (m' = n') by (eapply runs_fun; eassumption). subst n'.
  destruct H3 as [[x C]|[N ->]], G3 as [[y C']|[N' ->]].
  - apply (first_cut_fun _ _ _ _ _ _ C C').
  - exfalso. apply N'. destruct C as [-> _]. eexists _, _. reflexivity.
  - exfalso. apply N. destruct C' as [-> _]. eexists _, _. reflexivity.
  - reflexivity.
Qed.
Lemma kept_lines_fun r a b : kept_lines r a -> kept_lines r b -> a = b.
Proof.
  intros H. revert b. induction H as [|raw l rs ls Hl Hn H IH|raw r rs ls Hl H IH]; intros b Hb; inversion Hb; subst.
  - reflexivity.
  - f_equal; [eapply line_content_fun; eassumption|auto].
  - exfalso. apply Hn. eexists. eapply line_content_fun; eassumption.
  - exfalso. match goal with N : ~ exists _, _ = _ |- _ => apply N end. eexists. eapply line_content_fun; eassumption.
  - auto.
Qed.
Lemma cut_occurs p s a b : first_cut p s a b -> occurs p s.
Proof. intros [-> _]. eexists _, _. reflexivity. Qed.
Lemma line_adds_fun i l x j y k : line_adds i l x j -> line_adds i l y k -> x = y /\ j = k.
Proof.
  intros H G. destruct H; inversion G; subst; auto;
  repeat match goal with
  | C : first_cut ?p ?s _ _, D : first_cut ?p ?s _ _ |- _ =>
      destruct (first_cut_fun _ _ _ _ _ _ C D) as [? ?]; clear D; subst
  end; auto; exfalso;
  match goal with N : ~ occurs _ _ |- _ => apply N; eapply cut_occurs; eassumption end.
Qed.
Lemma lines_add_fun i ls xs j : lines_add i ls xs j -> forall ys k, lines_add i ls ys k -> xs = ys /\ j = k.
Proof.
  induction 1 as [|i l x j ls xs k A H IH]; intros ys k' G; inversion G; subst; [auto|].
  destruct (line_adds_fun _ _ _ _ _ _ A H3) as [-> ->]. apply IH in H6. destruct H6 as [-> ->]. auto.
Qed.
Lemma terminated_inj ps qs r r' : Forall (fun p => ~ In ";"%char p) ps -> Forall (fun p => ~ In ";"%char p) qs ->
  length ps = length qs -> terminated ps ++ r = terminated qs ++ r' -> ps = qs /\ r = r'.
Proof.
  intros H. revert qs. induction H as [|p ps Hp H IH]; intros [|q qs] G L E; try discriminate; [auto|].
  inversion G as [|? ? Hq G']; subst. cbn [terminated flat_map] in E. fold (terminated ps) in E. fold (terminated qs) in E.
  rewrite <- !app_assoc in E. change ($";") with [";"%char] in E. cbn [app] in E.
  apply app_sep_inj in E; try assumption. destruct E as [-> E]. destruct (IH qs) as [-> ->]; auto.
Qed.
Lemma splits_fun text xs ps r xs' ps' r' : splits text xs ps r -> splits text xs' ps' r' -> xs = xs' /\ ps = ps' /\ r = r'.
Proof.
  intros [[t [raws [ls [j [N [L [K A]]]]]]] E C T] [[t' [raws' [ls' [j' [N' [L' [K' A']]]]]]] E' C' T'].
  assert (t = t') by (eapply newlines_fun; eassumption). subst t'.
  assert (raws = raws') by (eapply in_lines_fun; eassumption). subst raws'.
  assert (ls = ls') by (eapply kept_lines_fun; eassumption). subst ls'.
  destruct (lines_add_fun _ _ _ _ A _ _ A') as [<- <-]. split; [reflexivity|].
  rewrite E in E'. exact (terminated_inj _ _ _ _ C C' (eq_trans T (eq_sym T')) E').
Qed.
Lemma delivers_fun text a b : delivers text a -> delivers text b -> a = b.
Proof.
  intros [xs [ps [r [S T]]]] [xs' [ps' [r' [S' T']]]]. destruct (splits_fun _ _ _ _ _ _ _ S S') as [_ [<- _]].
  clear - T T'. revert b T'. induction T as [|p q ps qs H T IH]; intros b T'; inversion T'; subst; [reflexivity|].
  f_equal; [eapply runs_fun; eassumption|auto].
Qed.
Lemma get_statements_splits text : exists xs ps rest, splits text xs ps rest
  /\ get_statements text = map (sub_runs " ") (map strip ps)
  /\ semicolons rest = left_waiting 0 (map semicolons xs).
Proof.
  destruct (reading_spec (file_lines (universal_newlines text)) start_reading) as [ls [xs [ps [K [A [S [E [C [T W]]]]]]]]].
  exists xs, ps, (r_buffer (read_lines (file_lines (universal_newlines text)))). split; [split|].
  - eexists _, _, _, _. split; [apply (universal_ok _ _ (le_n _))|]. split; [apply file_lines_ok|]. split; eassumption.
  - exact E.
  - exact C.
  - exact T.
  - split; [|exact W]. unfold get_statements, read_lines. rewrite S. reflexivity.
Qed.
Lemma delivers_get text : delivers text (get_statements text).
Proof.
  destruct (get_statements_splits text) as [xs [ps [r [S [E _]]]]]. exists xs, ps, r. split; [exact S|]. rewrite E.
  clear. induction ps; cbn [map]; constructor; [apply sub_runs_spec|assumption].
Qed.
Lemma c36 text stmts : delivers text stmts <-> stmts = get_statements text.
Proof. split; [intros H; eapply delivers_fun; [exact H|apply delivers_get] | intros ->; apply delivers_get]. Qed.
Lemma c36_plain ls xs j : lines_add false ls xs j -> (forall l, In l ls -> ~ occurs ($"/*") l) ->
  xs = map (cons " "%char) ls /\ j = false.
Proof.
  remember false as i eqn:Hi. induction 1 as [|i l x j ls xs k A H IH]; intros N; [auto|]. subst i. inversion A; subst.
  - destruct (IH eq_refl) as [-> ->]; [intros; apply N; right; assumption|]. auto.
  - exfalso. apply (N l); [left; reflexivity|]. eapply cut_occurs. eassumption.
  - exfalso. apply (N l); [left; reflexivity|]. eapply cut_occurs. eassumption.
Qed.
Lemma taken_bounds l : forall w, taken w l <= length l /\ taken w l + left_waiting w l = w + list_sum l.
Proof.
  induction l as [|a l IH]; intros w; [cbn; lia|]. cbn [taken left_waiting length].
  destruct (w + a) eqn:E; cbn [pred].
  - destruct (IH 0). change (list_sum (a :: l)) with (a + list_sum l). lia.
  - destruct (IH n). change (list_sum (a :: l)) with (a + list_sum l). lia.
Qed.
Lemma semicolons_concat xs : semicolons (concat xs) = list_sum (map semicolons xs).
Proof. induction xs as [|x xs IH]; [reflexivity|]. cbn [concat map list_sum]. rewrite semicolons_app, IH. reflexivity. Qed.
Lemma waiting_small l : Forall (fun a => a <= 1) l -> left_waiting 0 l = 0.
Proof. induction 1 as [|a l H _ IH]; [reflexivity|]. cbn [left_waiting]. destruct a as [|[|a]]; cbn; [exact IH|exact IH|lia]. Qed.

(** semicolons never multiply on the way from a raw line to what it adds *)
Lemma semi_cons c s : semicolons (c :: s) = (if Ascii.eqb c ";" then 1 else 0) + semicolons s.
Proof.
  unfold semicolons. cbn [count_occ]. destruct (ascii_dec c ";") as [->|N]; [reflexivity|].
  apply Ascii.eqb_neq in N. rewrite N. reflexivity.
Qed.
Lemma semi_lstrip s : semicolons (lstrip s) <= semicolons s.
Proof. induction s as [|c s IH]; [reflexivity|]. cbn [lstrip]. destruct (is_space c); [|reflexivity]. rewrite semi_cons. lia. Qed.
Lemma semi_rev s : semicolons (rev s) = semicolons s.
Proof. induction s as [|c s IH]; [reflexivity|]. cbn [rev]. rewrite semicolons_app, semi_cons, IH, semi_cons. cbn. lia. Qed.
Lemma semi_strip s : semicolons (strip s) <= semicolons s.
Proof. unfold strip, rstrip. rewrite semi_rev. etransitivity; [apply semi_lstrip|]. rewrite semi_rev. apply semi_lstrip. Qed.
Lemma semi_runs c s s' : c <> ";"%char -> runs_to_blank c s s' -> semicolons s' = semicolons s.
Proof.
  intros Hc. induction 1 as [|x s s' Hx H IH|n s s' Hs H IH]; [reflexivity| |].
  - rewrite !semi_cons. congruence.
  - rewrite semi_cons, semicolons_app. change (Ascii.eqb " " ";") with false. cbn iota.
    assert (Z : forall m, semicolons (repeat c m) = 0).
    { induction m; [reflexivity|]. cbn [repeat]. rewrite semi_cons. apply Ascii.eqb_neq in Hc. rewrite Hc. exact IHm. }
    rewrite Z. exact IH.
Qed.
Lemma semi_line r l : line_content r l -> semicolons l <= semicolons r.
Proof.
  intros [m [m' [H1 [H2 H3]]]]. apply semi_runs in H1, H2; try discriminate. pose proof (semi_strip r).
  assert (semicolons l <= semicolons m'); [|lia]. destruct H3 as [[b [E _]]|[_ ->]]; [|reflexivity].
  rewrite E, !semicolons_app. lia.
Qed.
Lemma semi_kept rs ls n : kept_lines rs ls -> Forall (fun r => semicolons r <= n) rs -> Forall (fun l => semicolons l <= n) ls.
Proof.
  induction 1 as [|raw l rs ls Hl Hn H IH|raw r rs ls Hl H IH]; intros F; inversion F; subst; auto.
  constructor; auto. apply semi_line in Hl. lia.
Qed.
Lemma semi_adds i l x j : line_adds i l x j -> semicolons x <= semicolons l.
Proof.
  destruct 1 as [l H|l a b [E _]|l H|l a b [E _] H|l a b c d [E _] [E' _]]; subst; rewrite ?semicolons_app, ?semi_cons; cbn; lia.
Qed.
Lemma semi_lines i ls xs j n : lines_add i ls xs j -> Forall (fun l => semicolons l <= n) ls -> Forall (fun a => a <= n) (map semicolons xs).
Proof.
  induction 1 as [|i l x j ls xs k A H IH]; intros F; inversion F; subst; cbn [map]; constructor; auto.
  apply semi_adds in A. lia.
Qed.
Lemma c37_partial text t raws : newlines_read text t -> in_lines t raws -> Forall (fun r => semicolons r <= 1) raws ->
  exists xs ps rest, splits text xs ps rest /\ Forall2 tidy ps (get_statements text)
    /\ ~ In ";"%char rest /\ length (get_statements text) = semicolons (concat xs).
Proof.
  intros N L F. destruct (get_statements_splits text) as [xs [ps [r [S [E W]]]]]. exists xs, ps, r. split; [exact S|].
  assert (T : Forall2 tidy ps (get_statements text)).
  { rewrite E. clear. induction ps; cbn [map]; constructor; [apply sub_runs_spec|assumption]. }
  split; [exact T|]. destruct S as [[t' [raws' [ls [j [N' [L' [K A]]]]]]] E' C T'].
  assert (t = t') by (eapply newlines_fun; eassumption). subst t'.
  assert (raws = raws') by (eapply in_lines_fun; eassumption). subst raws'.
  assert (Z : left_waiting 0 (map semicolons xs) = 0) by (eapply waiting_small, semi_lines; [exact A|]; eapply semi_kept; eassumption).
  rewrite Z in W. split; [apply (count_occ_not_In ascii_dec); exact W|].
  rewrite E, !map_length, T', semicolons_concat. destruct (taken_bounds (map semicolons xs) 0) as [_ B]. lia.
Qed.
Lemma c37_exact text xs ps rest : splits text xs ps rest ->
  semicolons (concat xs) = length (get_statements text) + left_waiting 0 (map semicolons xs)
  /\ length (get_statements text) <= length xs.
Proof.
  intros S. destruct (get_statements_splits text) as [xs' [ps' [r' [S' [E _]]]]].
  destruct (splits_fun _ _ _ _ _ _ _ S S') as [<- [<- _]]. rewrite E, !map_length, (sp_count _ _ _ _ S), semicolons_concat.
  destruct (taken_bounds (map semicolons xs) 0) as [B B']. rewrite map_length in B. lia.
Qed.
Lemma c37_refuted : exists text xs ps rest, splits text xs ps rest
  /\ semicolons (concat xs) = 2 /\ rest = $" b;" /\ get_statements text = [$"a"].
Proof.
  exists ($"a; b;"). destruct (get_statements_splits ($"a; b;")) as [xs [ps [r [S [E _]]]]]. exists xs, ps, r. split; [exact S|].
  assert (S' : splits ($"a; b;") [$" a; b;"] [$" a"] ($" b;")).
  { split.
    - exists ($"a; b;"), [$"a; b;"], [$"a; b;"], false. split; [exact (universal_ok _ ($"a; b;") (le_n _))|]. split; [exact (file_lines_ok ($"a; b;"))|].
      split.
      + apply kl_keep; [exact (line_content_ok ($"a; b;"))| |constructor]. intros [x H]. discriminate.
      + eapply lsa_cons; [apply (la_plain ($"a; b;")), contains_false; reflexivity|constructor].
    - reflexivity.
    - constructor; [|constructor]. intros H. vm_compute in H. repeat destruct H as [H|H]; try discriminate; exact H.
    - reflexivity. }
  destruct (splits_fun _ _ _ _ _ _ _ S S') as [-> [-> ->]]. repeat split; reflexivity.
Qed.
