(** * Delivered statements are clean: C38 *)
From Verif Require Export SplitFacts.

(** ** strip *)
Lemma lstrip_suffix s : exists w, s = w ++ lstrip s /\ forall c, In c w -> is_space c = true.
Proof.
  induction s as [|c s [w [E H]]]; cbn [lstrip]; [exists []; split; [reflexivity|intros ? []]|].
  destruct (is_space c) eqn:S; [|exists []; split; [reflexivity|intros ? []]].
  exists (c :: w). split; [cbn [app]; f_equal; exact E|]. intros d [<-|Hd]; auto.
Qed.
Lemma lstrip_head s c r : lstrip s = c :: r -> is_space c = false.
Proof.
  induction s as [|d s IH]; cbn [lstrip]; [discriminate|]. destruct (is_space d) eqn:S; [exact IH|]. intros H. injection H as -> _. exact S.
Qed.
Lemma rstrip_prefix s : exists w, s = rstrip s ++ w /\ forall c, In c w -> is_space c = true.
Proof.
  destruct (lstrip_suffix (rev s)) as [w [E H]]. exists (rev w). split.
  - unfold rstrip. rewrite <- rev_app_distr, <- E, rev_involutive. reflexivity.
  - intros c Hc. apply H, in_rev, Hc.
Qed.
Lemma strip_within s : exists a b, s = a ++ strip s ++ b.
Proof.
  destruct (lstrip_suffix s) as [a [E _]]. destruct (rstrip_prefix (lstrip s)) as [b [E' _]]. exists a, b.
  unfold strip. rewrite <- E'. exact E.
Qed.
Lemma strip_trimmed s : trimmed (strip s).
Proof.
  split.
  - intros c r H. unfold strip in H. destruct (rstrip_prefix (lstrip s)) as [w [E _]]. rewrite H in E. cbn [app] in E.
    eapply lstrip_head. exact E.
  - intros c r H. unfold strip, rstrip in H. apply (f_equal (@rev ascii)) in H. rewrite rev_involutive, rev_app_distr in H.
    cbn [rev app] in H. eapply lstrip_head. exact H.
Qed.
Lemma lstrip_app a b : lstrip (a ++ b) = match lstrip a with [] => lstrip b | l => l ++ b end.
Proof. induction a as [|c a IH]; [reflexivity|]. cbn [app lstrip]. destruct (is_space c); [exact IH|reflexivity]. Qed.
Lemma strip_snoc w c : is_space c = true -> strip (w ++ [c]) = strip w.
Proof.
  intros S. unfold strip. rewrite lstrip_app. destruct (lstrip w) as [|d l] eqn:E; [cbn [lstrip]; rewrite S; reflexivity|].
  unfold rstrip. rewrite rev_app_distr. cbn [rev app lstrip]. rewrite S. reflexivity.
Qed.

(** ** Runs *)
Lemma runs_chars c s s' x : runs_to_blank c s s' -> In x s' -> In x s /\ x <> c \/ x = " "%char.
Proof.
  induction 1 as [|y s s' Hy H IH|n s s' Hs H IH]; intros Hin; [contradiction| |].
  - destruct Hin as [->|Hin]; [left; split; [left; reflexivity|exact Hy]|]. destruct (IH Hin) as [[]|]; [left; split; [right|]; assumption|right; assumption].
  - destruct Hin as [<-|Hin]; [right; reflexivity|]. destruct (IH Hin) as [[]|]; [left; split; [apply in_or_app; right|]; assumption|right; assumption].
Qed.
Lemma runs_no c s s' : c <> " "%char -> runs_to_blank c s s' -> ~ In c s'.
Proof. intros Hc H Hin. destruct (runs_chars _ _ _ _ H Hin) as [[_ N]|]; congruence. Qed.
Lemma runs_head c s s' x r : runs_to_blank c s s' -> s = x :: r -> x <> c -> exists r', s' = x :: r'.
Proof. intros H E Hx. destruct H as [|y s s' Hy H|n s s' Hs H]; [discriminate| |]; cbn in E; injection E as -> _; [eauto|contradiction]. Qed.
Lemma runs_nil c s' : runs_to_blank c [] s' -> s' = [].
Proof. intros H. remember [] as s eqn:E. destruct H; [reflexivity|discriminate|discriminate]. Qed.
Lemma runs_last c s s' : runs_to_blank c s s' -> forall t x, s = t ++ [x] -> x <> c -> exists t', s' = t' ++ [x].
Proof.
  induction 1 as [|y s s' Hy H IH|n s s' Hs H IH]; intros t x E Hx.
  - destruct t; discriminate.
  - destruct t as [|z t]; cbn in E; injection E as -> E.
    + subst s. apply runs_nil in H. subst s'. exists []. reflexivity.
    + destruct (IH _ _ E Hx) as [t' ->]. exists (z :: t'). reflexivity.
  - destruct s as [|z s] using rev_ind.
    + exfalso. rewrite app_nil_r in E. assert (In x (repeat c (S n))) by (rewrite E; apply in_or_app; right; left; reflexivity).
      apply repeat_spec in H0. contradiction.
    + rewrite app_assoc in E. apply app_inj_tail in E. destruct E as [_ ->].
      destruct (IH s x eq_refl Hx) as [t' ->]. exists (" "%char :: t'). reflexivity.
Qed.
Lemma runs_trimmed s s' : runs_to_blank " " s s' -> trimmed s -> trimmed s'.
Proof.
  intros R [H1 H2]. split.
  - intros c r E. destruct s as [|x s]; [apply runs_nil in R; congruence|]. specialize (H1 _ _ eq_refl).
    destruct (runs_head _ _ _ x s R eq_refl) as [r' E']; [intros ->; discriminate|]. congruence.
  - intros c r E. destruct s as [|x s] using rev_ind; [apply runs_nil in R; subst; destruct r; discriminate|]. specialize (H2 _ _ eq_refl).
    destruct (runs_last _ _ _ R s x eq_refl) as [r' E']; [intros ->; discriminate|]. rewrite E' in E. apply app_inj_tail in E.
    destruct E as [_ <-]. exact H2.
Qed.
Lemma runs_single s s' : runs_to_blank " " s s' -> ~ occurs ($"  ") s'.
Proof.
  change ($"  ") with [" "%char; " "%char].
  induction 1 as [|y s s' Hy H IH|n s s' Hs H IH]; intros [a [b E]].
  - destruct a; discriminate.
  - destruct a as [|z a]; cbn in E; injection E as -> E; [contradiction|]. apply IH. exists a, b. exact E.
  - destruct a as [|z a]; cbn in E; [injection E as E | injection E as _ E].
    + destruct s as [|x s]; [apply runs_nil in H; congruence|].
      destruct (runs_head _ _ _ x s H eq_refl) as [r' E']; [eapply Hs; reflexivity|]. rewrite E' in E. injection E as -> _.
      exact (Hs _ _ eq_refl eq_refl).
    + apply IH. exists a, b. exact E.
Qed.
Lemma runs_pair c x y s s' : x <> " "%char -> y <> " "%char -> runs_to_blank c s s' -> occurs [x; y] s' -> occurs [x; y] s.
Proof.
  intros Hx Hy. induction 1 as [|z s s' Hz H IH|n s s' Hs H IH]; intros [a [b E]].
  - destruct a; discriminate.
  - destruct a as [|w a]; cbn in E; injection E as -> E.
    + destruct H as [|v s s' Hv H|n s s' Hs H]; [discriminate| |].
      * injection E as -> E. exists [], s. reflexivity.
      * injection E as E _. congruence.
    + destruct IH as [a' [b' ->]]; [exists a, b; exact E|]. exists (w :: a'), b'. reflexivity.
  - destruct a as [|w a]; cbn in E; [injection E as E; congruence | injection E as _ E]. destruct IH as [a' [b' ->]]; [exists a, b; exact E|].
    exists (repeat c (S n) ++ a'), b'. rewrite <- app_assoc. reflexivity.
Qed.

(** ** Lines and what they add *)
Lemma occurs_within p a s b : occurs p s -> occurs p (a ++ s ++ b).
Proof. intros [u [v ->]]. exists (a ++ u), (v ++ b). rewrite <- !app_assoc. reflexivity. Qed.
Lemma in_strip c s : In c (strip s) -> In c s.
Proof. destruct (strip_within s) as [a [b E]]. intros H. rewrite E. apply in_or_app. right. apply in_or_app. left. exact H. Qed.
Lemma raw_no_newline t raws : in_lines t raws -> Forall (fun r => ~ In lf (strip r)) raws.
Proof.
  induction 1 as [|w Hw Hn|w s ls Hn H IH]; constructor; auto.
  - intros Hin. apply Hn, in_strip, Hin.
  - rewrite strip_snoc by reflexivity. intros Hin. apply Hn, in_strip, Hin.
Qed.
Lemma content_chars r l : line_content r l -> ~ In lf (strip r) -> ~ In lf l /\ ~ In (ascii_of_nat 9) l.
Proof.
  intros [m [m' [H1 [H2 H3]]]] N. assert (L : forall c, In c l -> In c m').
  { destruct H3 as [[b [-> _]]|[_ ->]]; [intros; apply in_or_app; left; assumption|auto]. }
  split; intros Hin; apply L in Hin.
  - destruct (runs_chars _ _ _ _ H2 Hin) as [[Hm _]|]; [|discriminate].
    destruct (runs_chars _ _ _ _ H1 Hm) as [[Hs _]|]; [contradiction|discriminate].
  - exact (runs_no (ascii_of_nat 9) _ _ ltac:(discriminate) H2 Hin).
Qed.
Lemma kept_from rs ls : kept_lines rs ls -> forall l, In l ls -> exists r, In r rs /\ line_content r l.
Proof.
  induction 1 as [|raw l rs ls Hl Hn H IH|raw r rs ls Hl H IH]; intros x Hx; [contradiction| |].
  - destruct Hx as [<-|Hx]; [exists raw; split; [left; reflexivity|exact Hl]|]. destruct (IH _ Hx) as [r [Hr C]]. exists r. split; [right; exact Hr|exact C].
  - destruct (IH _ Hx) as [r' [Hr C]]. exists r'. split; [right; exact Hr|exact C].
Qed.
Lemma adds_chars i l x j c : line_adds i l x j -> In c x -> c = " "%char \/ In c l.
Proof.
  destruct 1 as [l H|l a b [E _]|l H|l a b [E _] H|l a b u d [E _] [E' _]]; intros Hc; subst.
  - contradiction.
  - right. apply in_or_app. right. apply in_or_app. right. exact Hc.
  - destruct Hc as [<-|Hc]; auto.
  - right. apply in_or_app. left. exact Hc.
  - right. apply in_app_or in Hc. destruct Hc as [Hc|Hc]; apply in_or_app; [left; exact Hc|right].
    apply in_or_app. right. apply in_or_app. right. apply in_or_app. right. exact Hc.
Qed.
Lemma lines_chars i ls xs j c : lines_add i ls xs j -> In c (concat xs) -> c = " "%char \/ exists l, In l ls /\ In c l.
Proof.
  induction 1 as [|i l x j ls xs k A H IH]; intros Hc; [contradiction|]. cbn [concat] in Hc. apply in_app_or in Hc. destruct Hc as [Hc|Hc].
  - destruct (adds_chars _ _ _ _ _ A Hc) as [->|Hl]; [left; reflexivity|right; exists l; split; [left; reflexivity|exact Hl]].
  - destruct (IH Hc) as [->|[m [Hm Hi]]]; [left; reflexivity|right; exists m; split; [right; exact Hm|exact Hi]].
Qed.
Lemma terminated_within p ps rest : In p ps -> exists a b, terminated ps ++ rest = a ++ p ++ b.
Proof.
  induction ps as [|q ps IH]; [contradiction|]. intros [->|H].
  - exists [], ($";" ++ terminated ps ++ rest). cbn [terminated flat_map app]. rewrite <- !app_assoc. reflexivity.
  - destruct (IH H) as [a [b E]]. exists (q ++ $";" ++ a), b. cbn [terminated flat_map]. fold (terminated ps). rewrite <- !app_assoc, E. reflexivity.
Qed.
Lemma splits_chars text xs ps rest c : splits text xs ps rest -> In c (concat xs) -> c <> lf /\ c <> ascii_of_nat 9.
Proof.
  intros [[t [raws [ls [j [N [L [K A]]]]]]] _ _ _] Hc. destruct (lines_chars _ _ _ _ _ A Hc) as [->|[l [Hl Hi]]]; [split; discriminate|].
  destruct (kept_from _ _ K _ Hl) as [r [Hr C]]. apply raw_no_newline in L. rewrite Forall_forall in L.
  destruct (content_chars _ _ C (L _ Hr)) as [H1 H2]. split; intros ->; contradiction.
Qed.
Lemma statement_from text s : In s (get_statements text) -> exists xs ps rest p,
  splits text xs ps rest /\ In p ps /\ tidy p s.
Proof.
  destruct (get_statements_splits text) as [xs [ps [r [S [E _]]]]]. rewrite E, map_map, in_map_iff. intros [p [<- Hp]].
  exists xs, ps, r, p. split; [exact S|]. split; [exact Hp|]. apply sub_runs_spec.
Qed.
Lemma c38_clean text s : In s (get_statements text) -> clean_statement s.
Proof.
  intros H. destruct (statement_from _ _ H) as [xs [ps [r [p [S [Hp T]]]]]].
  assert (C : forall c, In c s -> c = " "%char \/ In c p).
  { intros c Hc. destruct (runs_chars _ _ _ _ T Hc) as [[Hc' _]|]; [right; apply in_strip, Hc'|left; assumption]. }
  assert (W : forall c, In c p -> In c (concat xs)).
  { intros c Hc. rewrite (sp_text _ _ _ _ S). destruct (terminated_within p ps r Hp) as [a [b ->]].
    apply in_or_app. right. apply in_or_app. left. exact Hc. }
  assert (N : ~ In ";"%char p) by (pose proof (sp_cut _ _ _ _ S) as F; rewrite Forall_forall in F; apply F, Hp).
  split.
  - intros Hc. destruct (C _ Hc); [discriminate|contradiction].
  - intros Hc. destruct (C _ Hc) as [|Hc']; [discriminate|]. apply W in Hc'. destruct (splits_chars _ _ _ _ _ S Hc') as [F _]. apply F. reflexivity.
  - intros Hc. destruct (C _ Hc) as [|Hc']; [discriminate|]. apply W in Hc'. destruct (splits_chars _ _ _ _ _ S Hc') as [_ F]. apply F. reflexivity.
  - eapply runs_trimmed; [exact T|]. apply strip_trimmed.
  - eapply runs_single. exact T.
Qed.

(** ** Comments *)
Lemma occurs_pair_app x y a b : occurs [x; y] (a ++ b) ->
  occurs [x; y] a \/ occurs [x; y] b \/ exists a' b', a = a' ++ [x] /\ b = y :: b'.
Proof.
  revert b. induction a as [|c a IH]; intros b [u [v E]].
  - right. left. exists u, v. exact E.
  - destruct u as [|d u]; cbn in E; injection E as -> E.
    + destruct a as [|d a]; cbn in E; [right; right; exists [], v; auto|]. injection E as -> E. left. exists [], a. reflexivity.
    + destruct (IH b) as [[u' [v' ->]]|[O|[a' [b' [-> ->]]]]]; [exists u, v; exact E| | |].
      * left. exists (d :: u'), v'. reflexivity.
      * right. left. exact O.
      * right. right. exists (d :: a'), b'. auto.
Qed.
Lemma content_no_dashes r l : line_content r l -> ~ occurs ($"--") l.
Proof.
  intros [m [m' [_ [_ H]]]]. destruct H as [[b [E F]]|[N ->]]; [|exact N]. intros [u [v ->]].
  specialize (F u (v ++ $"--" ++ b)). rewrite E, <- !app_assoc in F. specialize (F eq_refl). rewrite !app_length in F. cbn in F. lia.
Qed.
Lemma blank_lines_no_dashes ls : (forall l, In l ls -> ~ occurs ($"--") l) -> ~ occurs ($"--") (concat (map (cons " "%char) ls)).
Proof.
  change ($"--") with ["-"%char; "-"%char]. induction ls as [|l ls IH]; intros H O; cbn [map concat] in O.
  - destruct O as [[|? ?] [? ?]]; discriminate.
  - apply occurs_pair_app in O. destruct O as [O|[O|[a [b [_ E]]]]].
    + destruct O as [[|z a] [b E]]; cbn in E; [discriminate|injection E as _ E]. apply (H l (or_introl eq_refl)). exists a, b. exact E.
    + apply IH; [intros; apply H; right; assumption|exact O].
    + destruct ls; discriminate.
Qed.
Lemma c38_dashes text t raws ls : newlines_read text t -> in_lines t raws -> kept_lines raws ls ->
  (forall l, In l ls -> ~ occurs ($"/*") l) -> forall s, In s (get_statements text) -> ~ occurs ($"--") s.
Proof.
  intros N L K F s Hs. destruct (statement_from _ _ Hs) as [xs [ps [r [p [S [Hp T]]]]]].
  destruct S as [[t' [raws' [ls' [j [N' [L' [K' A]]]]]]] E C _].
  assert (t = t') by (eapply newlines_fun; eassumption). subst t'. assert (raws = raws') by (eapply in_lines_fun; eassumption). subst raws'.
  assert (ls = ls') by (eapply kept_lines_fun; eassumption). subst ls'.
  destruct (c36_plain _ _ _ A F) as [-> _].
  intros O. apply (runs_pair " " "-" "-" _ _ ltac:(discriminate) ltac:(discriminate) T) in O.
  destruct (strip_within p) as [a [b Ep]]. apply (occurs_within _ a _ b) in O. rewrite <- Ep in O.
  destruct (terminated_within p ps r Hp) as [a' [b' Et]]. apply (occurs_within _ a' _ b') in O. rewrite <- Et, <- E in O.
  apply blank_lines_no_dashes in O; [exact O|]. intros l Hl. destruct (kept_from _ _ K _ Hl) as [r' [_ C']]. eapply content_no_dashes. exact C'.
Qed.
Lemma comments_only_adds i ls ls' : comments_only i ls ls' -> forall xs j, lines_add i ls xs j -> lines_add i ls' xs j.
Proof.
  induction 1 as [i|l ls ls' H C IH|l l' ls ls' H H' C IH|l l' a a' b ls ls' H H' C IH
    |l l' a b b' ls ls' H H0 H' H0' C IH|l l' a b b' c c' d ls ls' H H0 H' H0' C IH]; intros xs j A;
    inversion A as [|i0 l0 x j0 ls0 xs0 k B D]; subst.
  - constructor.
  - destruct (line_adds_fun _ _ _ _ _ _ B (la_plain _ H)) as [-> ->]. econstructor; [apply la_plain|]; eauto.
  - destruct (line_adds_fun _ _ _ _ _ _ B (la_inside _ H)) as [-> ->]. econstructor; [apply la_inside|]; eauto.
  - destruct (line_adds_fun _ _ _ _ _ _ B (la_close _ _ _ H)) as [-> ->]. econstructor; [eapply la_close|]; eauto.
  - destruct (line_adds_fun _ _ _ _ _ _ B (la_open _ _ _ H H0)) as [-> ->]. econstructor; [eapply la_open|]; eauto.
  - destruct (line_adds_fun _ _ _ _ _ _ B (la_both _ _ _ _ _ H H0)) as [-> ->]. econstructor; [eapply la_both|]; eauto.
Qed.
Lemma c38_comments text text' t t' raws raws' ls ls' :
  newlines_read text t -> in_lines t raws -> kept_lines raws ls ->
  newlines_read text' t' -> in_lines t' raws' -> kept_lines raws' ls' ->
  comments_only false ls ls' -> get_statements text = get_statements text'.
Proof.
  intros N L K N' L' K' C. destruct (get_statements_splits text) as [xs [ps [r [S [E _]]]]]. rewrite E.
  apply c36. exists xs, ps, r. split.
  - destruct S as [[t0 [raws0 [ls0 [j [N0 [L0 [K0 A]]]]]]] E0 C0 T0].
    assert (t = t0) by (eapply newlines_fun; eassumption). subst t0. assert (raws = raws0) by (eapply in_lines_fun; eassumption). subst raws0.
    assert (ls = ls0) by (eapply kept_lines_fun; eassumption). subst ls0.
    split; try assumption. exists t', raws', ls', j. repeat split; try assumption. eapply comments_only_adds; eassumption.
  - rewrite map_map. clear. induction ps; cbn [map]; constructor; [apply sub_runs_spec|assumption].
Qed.
Lemma c38_refuted : (exists u v, get_statements ($"/* a -- b */" ++ [lf] ++ u) = [] /\ get_statements ($"/* a b */" ++ [lf] ++ u) = [v])
  /\ (exists text s, get_statements text = [s] /\ occurs ($"/*b*/") s).
Proof.
  split; [exists ($"create table t (a int);"), ($"create table t (a int)"); split; vm_compute; reflexivity|].
  exists ($"/*a*/ x /*b*/ y;"), ($"x /*b*/ y"). split; [vm_compute; reflexivity|]. exists ($"x "), ($" y"). reflexivity.
Qed.
(** without block comments: the lines themselves, rejoined *)
Lemma c36_lines text t raws ls : newlines_read text t -> in_lines t raws -> kept_lines raws ls -> (forall l, In l ls -> ~ occurs ($"/*") l) ->
  exists ps rest, flat_map (fun l => " "%char :: l) ls = terminated ps ++ rest /\ Forall (fun p => ~ In ";"%char p) ps
    /\ Forall2 tidy ps (get_statements text) /\ length (get_statements text) <= length ls.
Proof.
  intros N L K F. destruct (proj2 (c36 text _) eq_refl) as [xs [ps [rest [S T]]]]. exists ps, rest. pose proof (proj2 (c37_exact _ _ _ _ S)) as B.
  destruct S as [[t' [raws' [ls' [j [N' [L' [K' A]]]]]]] E C _].
  assert (t = t') by (eapply newlines_fun; eassumption). subst t'. assert (raws = raws') by (eapply in_lines_fun; eassumption). subst raws'.
  assert (ls = ls') by (eapply kept_lines_fun; eassumption). subst ls'. destruct (c36_plain _ _ _ A F) as [-> _].
  rewrite flat_map_concat_map. split; [exact E|]. split; [exact C|]. split; [exact T|]. rewrite map_length in B. exact B.
Qed.
