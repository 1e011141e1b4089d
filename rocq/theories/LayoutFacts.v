(** * Only the words of a statement count: C100 *)
From Verif Require Export SpecLayout CleanFacts.

(** ** Tokens: words and semicolons *)
Definition flush (cur : str) : list str := match cur with [] => [] | _ => [cur] end.
Fixpoint toks (cur s : str) : list str :=
  match s with
  | [] => flush cur
  | c :: s' => if is_space c then flush cur ++ toks [] s'
      else if Ascii.eqb c ";" then flush cur ++ [c] :: toks [] s' else toks (cur ++ [c]) s'
  end.
Lemma toks_space cur a c b : is_space c = true -> toks cur (a ++ c :: b) = toks cur a ++ toks [] b.
Proof.
  intros Hc. revert cur. induction a as [|x a IH]; intros cur; cbn [app toks]; [rewrite Hc; reflexivity|].
  destruct (is_space x); [rewrite IH, app_assoc; reflexivity|]. destruct (Ascii.eqb x ";"); [rewrite IH, <- app_assoc; reflexivity|apply IH].
Qed.
Lemma toks_semi cur a b : toks cur (a ++ ";"%char :: b) = toks cur a ++ [";"%char] :: toks [] b.
Proof.
  revert cur. induction a as [|x a IH]; intros cur; cbn [app toks]; [reflexivity|].
  destruct (is_space x); [rewrite IH, app_assoc; reflexivity|]. destruct (Ascii.eqb x ";"); [rewrite IH, <- app_assoc; reflexivity|apply IH].
Qed.
Lemma toks_before w s : all_space w -> toks [] (w ++ s) = toks [] s.
Proof.
  induction w as [|c w IH]; intros H; [reflexivity|]. cbn [app toks]. rewrite (H c (or_introl eq_refl)). cbn [flush app].
  apply IH. intros d Hd. apply H. right. exact Hd.
Qed.
Lemma toks_blank w : all_space w -> toks [] w = [].
Proof. intros H. rewrite <- (app_nil_r w), toks_before by exact H. reflexivity. Qed.
Lemma toks_after cur s w : all_space w -> toks cur (s ++ w) = toks cur s.
Proof.
  intros H. destruct w as [|c w]; [rewrite app_nil_r; reflexivity|]. rewrite toks_space by (apply H; left; reflexivity).
  rewrite toks_blank; [apply app_nil_r|]. intros d Hd. apply H. right. exact Hd.
Qed.
Lemma toks_runs c s s' : is_space c = true -> runs_to_blank c s s' -> forall cur, toks cur s' = toks cur s.
Proof.
  intros Hc. induction 1 as [|x s s' Hx H IH|n s s' Hs H IH]; intros cur; [reflexivity| |].
  - cbn [toks]. rewrite !IH. reflexivity.
  - cbn [repeat app toks]. rewrite Hc. change (is_space " ") with true. cbn iota. rewrite IH. f_equal.
    symmetry. apply toks_before. intros d Hd. apply repeat_spec in Hd. subst d. exact Hc.
Qed.
Lemma toks_word x cur : no_space x -> ~ In ";"%char x -> toks cur x = flush (cur ++ x).
Proof.
  revert cur. induction x as [|c x IH]; intros cur H N; [rewrite app_nil_r; reflexivity|]. cbn [toks]. rewrite (H c (or_introl eq_refl)).
  destruct (Ascii.eqb c ";") eqn:E; [apply Ascii.eqb_eq in E; subst c; exfalso; apply N; left; reflexivity|].
  rewrite IH; [rewrite <- app_assoc; reflexivity|intros d Hd; apply H; right; exact Hd|intros Hd; apply N; right; exact Hd].
Qed.
Lemma words_toks s ws : in_words s ws -> ~ In ";"%char s -> toks [] s = ws.
Proof.
  induction 1 as [w H|w x H Nx Hx|w x c s ws H Nx Hx Hc Hs IH]; intros N.
  - apply toks_blank, H.
  - rewrite toks_before by exact H. rewrite toks_word; [|exact Hx|intros Hd; apply N, in_or_app; right; exact Hd].
    destruct x; [contradiction|reflexivity].
  - rewrite toks_before by exact H. rewrite toks_space by exact Hc. rewrite toks_word; [|exact Hx|intros Hd; apply N, in_or_app; right; apply in_or_app; left; exact Hd].
    rewrite IH; [destruct x; [contradiction|reflexivity]|intros Hd; apply N, in_or_app; right; apply in_or_app; right; right; exact Hd].
Qed.
Lemma toks_no_semi s : ~ In ";"%char s -> forall cur, ~ In ";"%char cur -> ~ In [";"%char] (toks cur s).
Proof.
  induction s as [|c s IH]; intros N cur Nc; cbn [toks].
  - destruct cur as [|x cur]; [intros []|]. intros [E|[]]. apply Nc. rewrite E. left. reflexivity.
  - assert (Ns : ~ In ";"%char s) by (intros H; apply N; right; exact H).
    assert (F : ~ In [";"%char] (flush cur)) by (destruct cur as [|x cur]; [intros []|intros [E|[]]; apply Nc; rewrite E; left; reflexivity]).
    destruct (is_space c); [intros H; apply in_app_or in H; destruct H as [H|H]; [auto|revert H; apply IH; [exact Ns|intros []]]|].
    destruct (Ascii.eqb c ";") eqn:E; [apply Ascii.eqb_eq in E; subst c; exfalso; apply N; left; reflexivity|].
    apply IH; [exact Ns|]. intros H. apply in_app_or in H. destruct H as [H|[->|[]]]; [auto|]. apply N. left. reflexivity.
Qed.
(** statements with their semicolons *)
Lemma toks_terminated ps rest : toks [] (terminated ps ++ rest) = flat_map (fun p => toks [] p ++ [[";"%char]]) ps ++ toks [] rest.
Proof.
  induction ps as [|p ps IH]; [reflexivity|]. cbn [terminated flat_map]. fold (terminated ps). change ($";") with [";"%char].
  rewrite <- !app_assoc. cbn [app]. rewrite toks_semi, IH. reflexivity.
Qed.
Lemma list_sep_inj {A} (x : A) a b a' b' : ~ In x a -> ~ In x a' -> a ++ x :: b = a' ++ x :: b' -> a = a' /\ b = b'.
Proof.
  revert a'. induction a as [|y a IH]; intros [|z a'] H H' E; cbn [app] in E.
  - injection E as E. auto.
  - exfalso. apply H'. left. congruence.
  - exfalso. apply H. left. congruence.
  - injection E as -> E. destruct (IH a') as [-> ->]; [intros X; apply H; right; exact X|intros X; apply H'; right; exact X|exact E|auto].
Qed.
Lemma terms_inj ps rest : forall qs rest', Forall (fun p => ~ In ";"%char p) ps -> Forall (fun p => ~ In ";"%char p) qs -> ~ In ";"%char rest -> ~ In ";"%char rest' ->
  toks [] (terminated ps ++ rest) = toks [] (terminated qs ++ rest') -> map (toks []) ps = map (toks []) qs.
Proof.
  intros qs rest' H. revert qs. induction H as [|p ps Hp H IH]; intros qs G Nr Nr' E; rewrite !toks_terminated in E.
  - destruct G as [|q qs Hq G]; [reflexivity|]. exfalso. cbn [flat_map app] in E. apply (toks_no_semi rest Nr [] (fun X => X)).
    rewrite E. rewrite <- !app_assoc. apply in_or_app. right. left. reflexivity.
  - destruct G as [|q qs Hq G].
    + exfalso. cbn [flat_map app] in E. apply (toks_no_semi rest' Nr' [] (fun X => X)). rewrite <- E. rewrite <- !app_assoc. apply in_or_app. right. left. reflexivity.
    + cbn [flat_map] in E. rewrite <- !app_assoc in E. cbn [app] in E. apply list_sep_inj in E; [|apply toks_no_semi; [assumption|intros []]..].
      destruct E as [E1 E2]. cbn [map]. f_equal; [exact E1|]. apply IH; try assumption. rewrite !toks_terminated. exact E2.
Qed.

(** ** Lines *)
Lemma toks_lines ls : toks [] (flat_map (fun l => l ++ [lf]) ls) = flat_map (toks []) ls.
Proof. induction ls as [|l ls IH]; [reflexivity|]. cbn [flat_map]. rewrite <- app_assoc. cbn [app]. rewrite toks_space by reflexivity. rewrite IH. reflexivity. Qed.
Lemma toks_blanks ls : toks [] (concat (map (cons " "%char) ls)) = flat_map (toks []) ls.
Proof.
  assert (G : forall ls cur, toks cur (concat (map (cons " "%char) ls)) = flush cur ++ flat_map (toks []) ls).
  { clear. induction ls as [|l ls IH]; intros cur; cbn [map concat flat_map]; [cbn [toks]; symmetry; apply app_nil_r|].
    change ((" "%char :: l) ++ concat (map (cons " "%char) ls)) with (" "%char :: (l ++ concat (map (cons " "%char) ls))). cbn [toks]. change (is_space " ") with true. cbn iota. f_equal.
    destruct ls as [|l' ls]; [cbn [map concat flat_map]; rewrite !app_nil_r; reflexivity|].
    cbn [map concat app]. rewrite toks_space by reflexivity. specialize (IH []). cbn [map concat app] in IH. cbn [toks] in IH. change (is_space " ") with true in IH. cbn iota in IH. cbn [flush app] in IH. rewrite IH. reflexivity. }
  apply G.
Qed.
Lemma runs_split c x b : x <> c -> forall s s', runs_to_blank c s s' -> forall a, s = a ++ x :: b -> exists a' b', s' = a' ++ x :: b' /\ runs_to_blank c a a' /\ runs_to_blank c b b'.
Proof.
  intros Hx. induction 1 as [|y s s' Hy H IH|n s s' Hs H IH]; intros a E.
  - destruct a; discriminate.
  - destruct a as [|z a]; cbn [app] in E; injection E as -> E.
    + subst s. exists [], s'. split; [reflexivity|]. split; [constructor|exact H].
    + destruct (IH _ E) as [a' [b' [-> [R1 R2]]]]. exists (z :: a'), b'. split; [reflexivity|]. split; [constructor; assumption|exact R2].
  - assert (G : exists a0, a = repeat c (S n) ++ a0 /\ s = a0 ++ x :: b).
    { clear - E Hx. remember (S n) as m. clear Heqm. revert a E. induction m as [|m IH]; intros a E; [exists a; auto|].
      destruct a as [|z a]; cbn [repeat app] in E; injection E as E1 E; [congruence|]. subst z. destruct (IH _ E) as [a0 [-> E']]. exists a0. auto. }
    destruct G as [a0 [-> E']]. destruct (IH _ E') as [a' [b' [-> [R1 R2]]]]. exists (" "%char :: a'), b'. split; [reflexivity|]. split; [|exact R2].
    apply rb_run; [|exact R1]. intros y r Y. destruct a0 as [|z a0]; [discriminate|]. injection Y as <- <-. eapply Hs. rewrite E'. reflexivity.
Qed.
Lemma runs_snoc c x s s' : x <> c -> runs_to_blank c s s' -> runs_to_blank c (s ++ [x]) (s' ++ [x]).
Proof.
  intros Hx. induction 1 as [|y s s' Hy H IH|n s s' Hs H IH]; cbn [app].
  - repeat constructor. exact Hx.
  - constructor; assumption.
  - rewrite <- app_assoc. apply rb_run; [|exact IH]. intros y r Y. destruct s as [|z s]; cbn [app] in Y; injection Y as <- _; [exact Hx|eapply Hs; reflexivity].
Qed.
Lemma dash_cut s a b : s = a ++ $"--" ++ b -> ~ occurs ($"--") (a ++ $"-") -> first_cut ($"--") s a b.
Proof.
  intros E N. split; [exact E|]. intros a' b' E'. destruct (Nat.le_gt_cases (length a) (length a')) as [L|L]; [exact L|exfalso].
  apply N. rewrite E in E'. change ($"--") with ["-"%char; "-"%char] in *. change ($"-") with ["-"%char].
  assert (X : exists d, a = a' ++ d /\ d <> []).
  { clear - E' L. revert a' L E'. induction a as [|x a IH]; intros [|y a'] L E'; cbn [length] in L; try lia.
    - exists (x :: a). split; [reflexivity|discriminate].
    - cbn [app] in E'. injection E' as -> E'. destruct (IH a' ltac:(lia) E') as [d [-> Hd]]. exists d. auto. }
  destruct X as [d [-> Hd]]. rewrite <- app_assoc in E'. apply app_inv_head in E'. destruct d as [|x [|y d]]; [contradiction| |].
  - cbn [app] in E'. injection E' as -> _. exists a', []. rewrite <- !app_assoc. reflexivity.
  - cbn [app] in E'. injection E' as -> -> _. exists a', (d ++ ["-"%char]). rewrite <- !app_assoc. reflexivity.
Qed.
Lemma cut_dash s a b : first_cut ($"--") s a b -> s = a ++ $"--" ++ b /\ ~ occurs ($"--") (a ++ $"-").
Proof.
  intros [E F]. split; [exact E|]. intros [u [v X]]. subst s.
  assert (Y : a ++ $"--" ++ b = u ++ $"--" ++ (v ++ $"-" ++ b)).
  { change ($"--" ++ b) with ($"-" ++ $"-" ++ b). rewrite (app_assoc a), X, <- !app_assoc. reflexivity. }
  specialize (F _ _ Y). apply (f_equal (@length ascii)) in X. rewrite !app_length in X. change (length ($"--")) with 2 in X. change (length ($"-")) with 1 in X. lia.
Qed.
Lemma dashes_runs c s s' : c <> "-"%char -> runs_to_blank c s s' ->
  (forall a b, first_cut ($"--") s a b -> exists a' b', first_cut ($"--") s' a' b' /\ runs_to_blank c a a')
  /\ (~ occurs ($"--") s -> ~ occurs ($"--") s').
Proof.
  intros Hc R. change ($"--") with ["-"%char; "-"%char]. split.
  - intros a b C. apply cut_dash in C. destruct C as [E N]. change ($"--" ++ b) with ("-"%char :: "-"%char :: b) in E.
    destruct (runs_split c "-" ("-"%char :: b) (fun X => Hc (eq_sym X)) _ _ R _ E) as [a' [b1 [E' [R1 R2]]]].
    destruct (runs_split c "-" b (fun X => Hc (eq_sym X)) _ _ R2 [] eq_refl) as [a2 [b2 [E2 [R3 _]]]]. apply runs_nil in R3. subst a2. cbn [app] in E2. subst b1.
    exists a', b2. split; [|exact R1]. apply dash_cut; [exact E'|]. intros X. apply N. change ($"--") with ["-"%char; "-"%char] in *. eapply (runs_pair c "-" "-"); [discriminate|discriminate|apply (runs_snoc c "-" _ _ (fun X => Hc (eq_sym X)) R1)|exact X].
  - intros N X. apply N. eapply (runs_pair c "-" "-"); [discriminate|discriminate|exact R|exact X].
Qed.
Lemma occurs_space_before p w s : all_space w -> p <> [] -> no_space p -> occurs p (w ++ s) -> occurs p s.
Proof.
  intros H Np Hp. induction w as [|c w IH]; [auto|]. cbn [app]. intros [a [b E]]. destruct a as [|x a]; cbn [app] in E.
  - exfalso. destruct p as [|y p]; [contradiction|]. cbn [app] in E. injection E as <- _. specialize (H c (or_introl eq_refl)). specialize (Hp c (or_introl eq_refl)). congruence.
  - injection E as _ E. apply IH; [intros d Hd; apply H; right; exact Hd|]. exists a, b. exact E.
Qed.
Lemma occurs_space_after p s w : all_space w -> p <> [] -> no_space p -> occurs p (s ++ w) -> occurs p s.
Proof.
  intros H Np Hp. revert s H. induction w as [|c w IH]; intros s H O; [rewrite app_nil_r in O; exact O|].
  change (s ++ c :: w) with (s ++ [c] ++ w) in O. rewrite app_assoc in O. apply IH in O; [|intros d Hd; apply H; right; exact Hd].
  destruct O as [a [b E]]. destruct b as [|y b _] using rev_ind.
  - exfalso. rewrite app_nil_r in E. destruct p as [|z p _] using rev_ind; [contradiction|]. rewrite app_assoc in E. apply app_inj_tail in E. destruct E as [_ <-].
    specialize (H c (or_introl eq_refl)). specialize (Hp c ltac:(apply in_or_app; right; left; reflexivity)). congruence.
  - rewrite !app_assoc in E. apply app_inj_tail in E. destruct E as [E _]. exists a, b. rewrite E, <- app_assoc. reflexivity.
Qed.
(** what the cleaned content of a line has to do with its text *)
Record cleaned (l l' : str) : Prop := {
  cn_parts : exists w1 m w2 m1, all_space w1 /\ all_space w2 /\ l = w1 ++ m ++ w2 /\ runs_to_blank " " m m1 /\ runs_to_blank (ascii_of_nat 9) m1 l';
  cn_head : forall c r, l' = c :: r -> is_space c = false }.
Lemma dash_free : no_space ($"--").
Proof. intros c [<-|[<-|[]]]; reflexivity. Qed.
Lemma runs_head_back c s s' x r : is_space c = true -> runs_to_blank c s s' -> (forall y t, s = y :: t -> is_space y = false) -> s' = x :: r -> is_space x = false.
Proof.
  intros Hc R H E. destruct R as [|y s s' Hy R|n s s' Hs R]; [discriminate| |].
  - injection E as <- _. eapply H. reflexivity.
  - exfalso. specialize (H c (repeat c n ++ s) eq_refl). rewrite H in Hc. discriminate Hc.
Qed.
Lemma without_fun raw a b : without_comment raw a -> without_comment raw b -> a = b.
Proof.
  intros [[x H]|[N ->]] [[y H']|[N' ->]]; [apply (first_cut_fun _ _ _ _ _ _ H H')|exfalso; apply N', (cut_occurs _ _ _ _ H)|exfalso; apply N, (cut_occurs _ _ _ _ H')|reflexivity].
Qed.
Lemma content_cleaned raw l l' : without_comment raw l -> line_content raw l' -> cleaned l l'.
Proof.
  intros W [m [m' [R1 [R2 C]]]]. pose proof (proj1 (strip_trimmed raw)) as Tr.
  destruct (lstrip_suffix raw) as [w1 [E1 H1]]. destruct (rstrip_prefix (lstrip raw)) as [w2 [E2 H2]]. fold (strip raw) in E2. rewrite E2 in E1. clear E2.
  destruct (dashes_runs " "%char _ _ ltac:(discriminate) R1) as [D1 D1']. destruct (dashes_runs (ascii_of_nat 9) _ _ ltac:(discriminate) R2) as [D2 D2'].
  destruct (contains_spec ($"--") (strip raw)) as [O|O].
  - pose proof (cut_some _ _ O) as K. set (a := before ($"--") (strip raw)) in *. set (b := after ($"--") (strip raw)) in *.
    destruct (D1 _ _ K) as [a1 [b1 [K1 Ra]]]. destruct (D2 _ _ K1) as [a2 [b2 [K2 Rb]]].
    assert (l' = a2) by (destruct C as [[x H]|[N _]]; [apply (first_cut_fun _ _ _ _ _ _ H K2)|exfalso; apply N, (cut_occurs _ _ _ _ K2)]). subst a2.
    assert (l = w1 ++ a).
    { apply (without_fun raw); [exact W|]. left. exists (b ++ w2). apply cut_dash in K. destruct K as [K N]. apply dash_cut.
      - rewrite E1, K, <- !app_assoc. reflexivity.
      - intros X. rewrite <- app_assoc in X. apply occurs_space_before in X; [contradiction|exact H1|discriminate|exact dash_free]. }
    assert (Ha : forall y t, a = y :: t -> is_space y = false).
    { intros y t Ea. destruct K as [K _]. rewrite Ea in K. eapply Tr. exact K. }
    split.
    + exists w1, a, [], a1. split; [exact H1|]. split; [intros ? []|]. split; [rewrite app_nil_r; assumption|]. split; assumption.
    + intros c r E. eapply (runs_head_back (ascii_of_nat 9)); [reflexivity|exact Rb| |exact E]. intros y t Y. eapply (runs_head_back " "); [reflexivity|exact Ra|exact Ha|exact Y].
  - assert (l' = m') by (destruct C as [[x H]|[_ H]]; [exfalso; apply (D2' (D1' O)), (cut_occurs _ _ _ _ H)|exact H]). subst m'.
    assert (l = raw).
    { apply (without_fun raw); [exact W|]. right. split; [|reflexivity]. intros X. rewrite E1 in X. apply occurs_space_before in X; [|exact H1|discriminate|exact dash_free].
      apply occurs_space_after in X; [contradiction|exact H2|discriminate|exact dash_free]. }
    subst l. split.
    + exists w1, (strip raw), w2, m. repeat split; assumption.
    + intros c r E. eapply (runs_head_back (ascii_of_nat 9)); [reflexivity|exact R2| |exact E]. intros y t Y. eapply (runs_head_back " "); [reflexivity|exact R1|exact Tr|exact Y].
Qed.
Lemma cleaned_toks l l' : cleaned l l' -> toks [] l' = toks [] l.
Proof.
  intros [[w1 [m [w2 [m1 [H1 [H2 [-> [R1 R2]]]]]]]] _]. rewrite toks_before by exact H1. rewrite toks_after by exact H2.
  rewrite (toks_runs (ascii_of_nat 9) _ _ ltac:(reflexivity) R2), (toks_runs " "%char _ _ ltac:(reflexivity) R1). reflexivity.
Qed.
Lemma semi_blank w : all_space w -> semicolons w = 0.
Proof. intros H. apply count_occ_not_In. intros X. specialize (H _ X). discriminate H. Qed.
Lemma cleaned_semi l l' : cleaned l l' -> semicolons l' = semicolons l.
Proof.
  intros [[w1 [m [w2 [m1 [H1 [H2 [-> [R1 R2]]]]]]]] _]. apply semi_runs in R1, R2; try discriminate. rewrite !semicolons_app, (semi_blank w1 H1), (semi_blank w2 H2). lia.
Qed.
Lemma cleaned_block l l' : cleaned l l' -> occurs ($"/*") l' -> occurs ($"/*") l.
Proof.
  intros [[w1 [m [w2 [m1 [H1 [H2 [-> [R1 R2]]]]]]]] _] O. apply occurs_within. change ($"/*") with ["/"%char; "*"%char] in *.
  apply (runs_pair _ "/" "*" _ _ ltac:(discriminate) ltac:(discriminate) R1). apply (runs_pair _ "/" "*" _ _ ltac:(discriminate) ltac:(discriminate) R2). exact O.
Qed.
Lemma cleaned_chars l l' c : cleaned l l' -> In c l' -> In c l \/ c = " "%char.
Proof.
  intros [[w1 [m [w2 [m1 [H1 [H2 [-> [R1 R2]]]]]]]] _] O. destruct (runs_chars _ _ _ _ R2 O) as [[O1 _]| ->]; [|right; reflexivity].
  destruct (runs_chars _ _ _ _ R1 O1) as [[O2 _]| ->]; [|right; reflexivity]. left. apply in_or_app. right. apply in_or_app. left. exact O2.
Qed.
(** the first token *)
Lemma toks_first s : forall cur, cur <> [] -> exists x r ts, s = x ++ r /\ toks cur s = (cur ++ x) :: ts.
Proof.
  induction s as [|c s IH]; intros cur N; cbn [toks].
  - exists [], [], []. split; [reflexivity|]. rewrite app_nil_r. destruct cur; [contradiction|reflexivity].
  - assert (F : flush cur = [cur ++ []]) by (rewrite app_nil_r; destruct cur; [contradiction|reflexivity]).
    destruct (is_space c); [exists [], (c :: s), (toks [] s); rewrite F; auto|].
    destruct (Ascii.eqb c ";"); [exists [], (c :: s), ([c] :: toks [] s); rewrite F; auto|].
    destruct (IH (cur ++ [c])) as [x [r [ts [E T]]]]; [destruct cur; discriminate|]. exists (c :: x), r, ts. rewrite E, <- E, T, <- app_assoc. subst s. auto.
Qed.
Lemma toks_head s t ts : toks [] s = t :: ts -> exists w r, all_space w /\ s = w ++ t ++ r.
Proof.
  induction s as [|c s IH]; cbn [toks]; [discriminate|]. destruct (is_space c) eqn:S.
  - cbn [flush app]. intros E. destruct (IH E) as [w [r [H ->]]]. exists (c :: w), r. split; [intros d [<-|Hd]; auto|reflexivity].
  - destruct (Ascii.eqb c ";").
    + cbn [flush app]. intros E. injection E as <- _. exists [], s. split; [intros ? []|reflexivity].
    + cbn [app]. destruct (toks_first s [c]) as [x [r [ts' [-> T]]]]; [discriminate|]. rewrite T. intros E. injection E as <- _. exists [], r. split; [intros ? []|reflexivity].
Qed.
Lemma go_toks l : begins_go l <-> exists x ts, toks [] l = ($"GO" ++ x) :: ts.
Proof.
  split.
  - intros [w [r [H ->]]]. rewrite toks_before by exact H. change ($"GO" ++ r) with ("G"%char :: "O"%char :: r). cbn [toks app]. change (is_space "G") with false. change (is_space "O") with false.
    change (Ascii.eqb "G" ";") with false. change (Ascii.eqb "O" ";") with false. cbn iota. destruct (toks_first r ["G"; "O"]%char) as [x [r' [ts [_ T]]]]; [discriminate|]. exists x, ts. exact T.
  - intros [x [ts E]]. apply toks_head in E. destruct E as [w [r [H ->]]]. exists w, (x ++ r). split; [exact H|]. rewrite <- app_assoc. reflexivity.
Qed.
Lemma cleaned_go l l' : cleaned l l' -> begins_go l <-> exists r, l' = $"GO" ++ r.
Proof.
  intros C. rewrite go_toks, <- (cleaned_toks _ _ C), <- go_toks. split.
  - intros [w [r [H E]]]. destruct w as [|c w]; [exists r; exact E|]. pose proof (cn_head _ _ C _ _ E) as X. specialize (H c (or_introl eq_refl)). congruence.
  - intros [r ->]. exists [], r. split; [intros ? []|reflexivity].
Qed.
Lemma code_kept raws ls : code_lines raws ls -> exists ls', kept_lines raws ls' /\ Forall2 cleaned ls ls'.
Proof.
  induction 1 as [|raw l raws ls W N H [ls' [K F]]|raw l raws ls W G H [ls' [K F]]].
  - exists []. split; constructor.
  - pose proof (line_content_ok raw) as L. pose proof (content_cleaned _ _ _ W L) as C. eexists. split; [apply kl_keep; [exact L| |exact K]|constructor; [exact C|exact F]].
    rewrite <- (cleaned_go _ _ C). exact N.
  - pose proof (line_content_ok raw) as L. pose proof (content_cleaned _ _ _ W L) as C. destruct (proj1 (cleaned_go _ _ C) G) as [r E]. rewrite E in L. exists ls'. split; [eapply kl_skip; eassumption|exact F].
Qed.

(** ** A clean statement is its words *)
Lemma words_of_clean s : trimmed s -> ~ occurs ($"  ") s -> ~ In ";"%char s -> (forall c, In c s -> is_space c = true -> c = " "%char) -> s = join ($" ") (toks [] s).
Proof.
  assert (G : forall s cur, no_space cur -> ~ In ";"%char s -> (forall c, In c s -> is_space c = true -> c = " "%char) -> ~ occurs ($"  ") s ->
    (forall c r, s = r ++ [c] -> is_space c = false) -> (cur = [] -> forall c r, s = c :: r -> is_space c = false) -> cur ++ s = join ($" ") (toks cur s)).
  { clear. induction s as [|c s IH]; intros cur Hc N Hs D L Hd.
    - rewrite app_nil_r. cbn [toks]. destruct cur; reflexivity.
    - assert (D' : ~ occurs ($"  ") s) by (intros [a [b E]]; apply D; exists (c :: a), b; rewrite E; reflexivity).
      assert (L' : forall d r, s = r ++ [d] -> is_space d = false) by (intros d r E; apply (L d (c :: r)); rewrite E; reflexivity).
      assert (N' : ~ In ";"%char s) by (intros X; apply N; right; exact X).
      assert (Hs' : forall d, In d s -> is_space d = true -> d = " "%char) by (intros d X; apply Hs; right; exact X).
      cbn [toks]. destruct (is_space c) eqn:S.
      + assert (c = " "%char) by (apply Hs; [left; reflexivity|exact S]). subst c.
        destruct cur as [|x cur]; [specialize (Hd eq_refl _ _ eq_refl); congruence|]. cbn [flush].
        assert (Hd' : forall d r, s = d :: r -> is_space d = false).
        { intros d r ->. destruct (is_space d) eqn:Sd; [|reflexivity]. exfalso. apply D. rewrite (Hs d (or_intror (or_introl eq_refl)) Sd). exists [], r. reflexivity. }
        specialize (IH [] (fun _ X => match X with end) N' Hs' D' L' (fun _ => Hd')). cbn [app] in IH.
        destruct (toks [] s) as [|t ts] eqn:T.
        * exfalso. cbn [join] in IH. subst s. specialize (L " "%char [] eq_refl). discriminate L.
        * rewrite IH at 1. reflexivity.
      + destruct (Ascii.eqb c ";") eqn:E; [apply Ascii.eqb_eq in E; subst c; exfalso; apply N; left; reflexivity|].
        rewrite <- IH; [rewrite <- app_assoc; reflexivity| |exact N'|exact Hs'|exact D'|exact L'|].
        * intros d X. apply in_app_or in X. destruct X as [X|[<-|[]]]; auto.
        * intros X. destruct cur; discriminate X. }
  intros [T1 T2] D N H. apply (G s [] (fun _ X => match X with end) N H D T2 (fun _ => T1)).
Qed.

(** ** The theorem *)
Lemma in_raws t raws r c : in_lines t raws -> In r raws -> In c r -> In c t.
Proof.
  induction 1 as [|w Hw Hn|w s ls Hn H IH]; intros Hr Hc; [contradiction|destruct Hr as [<-|[]]; exact Hc|].
  destruct Hr as [<-|Hr]; [apply in_app_or in Hc; destruct Hc as [Hc|[<-|[]]]; apply in_or_app; [left; exact Hc|right; left; reflexivity]|].
  apply in_or_app. right. right. apply IH; assumption.
Qed.
Lemma code_chars raws ls l c : code_lines raws ls -> In l ls -> In c l -> exists r, In r raws /\ In c r.
Proof.
  induction 1 as [|raw l0 raws ls W N H IH|raw l0 raws ls W G H IH]; intros Hl Hc; [contradiction| |].
  - destruct Hl as [<-|Hl]; [|destruct (IH Hl Hc) as [r [A B]]; exists r; split; [right|]; assumption]. exists raw. split; [left; reflexivity|].
    destruct W as [[b [-> _]]|[_ <-]]; [apply in_or_app; left|]; exact Hc.
  - destruct (IH Hl Hc) as [r [A B]]; exists r; split; [right|]; assumption.
Qed.
Lemma Forall2_in_r {A B} (R : A -> B -> Prop) l l' y : Forall2 R l l' -> In y l' -> exists x, In x l /\ R x y.
Proof. induction 1 as [|x z l l' H F IH]; intros Hy; [contradiction|]. destruct Hy as [<-|Hy]; [exists x; split; [left; reflexivity|exact H]|destruct (IH Hy) as [u [A1 A2]]; exists u; split; [right|]; assumption]. Qed.
Lemma tidy_in c p q : tidy p q -> In c q -> In c p \/ c = " "%char.
Proof. intros T H. destruct (runs_chars _ _ _ _ T H) as [[X _]| ->]; [left; apply in_strip, X|right; reflexivity]. Qed.
Lemma laid_out_words text wss : laid_out text wss -> get_statements text = map (join ($" ")) wss.
Proof.
  intros [[t [raws [ls [ps [rest [HN [HL [HC [HS [HB [HE [HP [HR HW]]]]]]]]]]]]]].
  destruct (code_kept _ _ HC) as [ls' [K F]].
  destruct (get_statements_splits text) as [xs [ps' [rest' [Sp [Eg Wt]]]]]. pose proof Sp as Sp0. destruct Sp as [[t1 [raws1 [ls1 [j [N1 [L1 [K1 A1]]]]]]] Ex Cx _].
  assert (t = t1) by (eapply newlines_fun; eassumption). subst t1. assert (raws = raws1) by (eapply in_lines_fun; eassumption). subst raws1.
  assert (ls' = ls1) by (eapply kept_lines_fun; eassumption). subst ls1.
  destruct (c36_plain _ _ _ A1) as [-> _].
  { intros l' Hl' O. destruct (Forall2_in_r _ _ _ _ F Hl') as [l [Hl C]]. apply (proj1 (HB l Hl)), (cleaned_block _ _ C), O. }
  assert (Z : left_waiting 0 (map semicolons (map (cons " "%char) ls')) = 0).
  { apply waiting_small. eapply semi_lines; [exact A1|]. apply Forall_forall. intros l' Hl'. destruct (Forall2_in_r _ _ _ _ F Hl') as [l [Hl C]]. rewrite (cleaned_semi _ _ C). apply (HB l Hl). }
  rewrite Z in Wt. assert (Nr : ~ In ";"%char rest') by (apply (count_occ_not_In ascii_dec); exact Wt).
  assert (T : map (toks []) ps = map (toks []) ps').
  { apply (terms_inj ps rest ps' rest' HP Cx HR Nr). rewrite <- HE, <- Ex, toks_lines, toks_blanks. clear - F. induction F as [|l l' ls ls' C F IH]; [reflexivity|]. cbn [flat_map]. rewrite (cleaned_toks _ _ C), IH. reflexivity. }
  assert (Tw : map (toks []) ps = wss).
  { clear - HW HP. induction HW as [|p ws ps wss H F IH]; [reflexivity|]. inversion HP; subst. cbn [map]. f_equal; [apply words_toks; assumption|auto]. }
  rewrite <- Tw, T, Eg, !map_map. apply map_ext_in. intros p Hp.
  assert (Td : tidy p (sub_runs " " (strip p))) by apply sub_runs_spec.
  assert (Hq : In (sub_runs " " (strip p)) (get_statements text)) by (rewrite Eg, map_map; apply in_map_iff; exists p; auto).
  destruct (c38_clean _ _ Hq) as [Q1 Q2 Q3 Q4 Q5]. rewrite (words_of_clean _ Q4 Q5 Q1) at 1.
  - f_equal. rewrite (toks_runs " "%char _ _ ltac:(reflexivity) Td). destruct (lstrip_suffix p) as [w1 [E1 H1]]. destruct (rstrip_prefix (lstrip p)) as [w2 [E2 H2]]. fold (strip p) in E2. rewrite E2 in E1.
    rewrite E1 at 2. rewrite toks_before by exact H1. rewrite toks_after by exact H2. reflexivity.
  - intros c Hc Sc. destruct (tidy_in _ _ _ Td Hc) as [X| ->]; [|reflexivity].
    assert (Y : In c (concat (map (cons " "%char) ls'))) by (rewrite Ex; destruct (terminated_within p ps' rest' Hp) as [a [b ->]]; apply in_or_app; right; apply in_or_app; left; exact X).
    destruct (splits_chars _ _ _ _ _ Sp0 Y) as [Y1 Y2].
    apply in_concat in Y. destruct Y as [y [Hy Y]]. apply in_map_iff in Hy. destruct Hy as [l' [<- Hl']]. destruct Y as [<-|Y]; [reflexivity|].
    destruct (Forall2_in_r _ _ _ _ F Hl') as [l [Hl C]]. destruct (cleaned_chars _ _ _ C Y) as [V| ->]; [|reflexivity].
    destruct (code_chars _ _ _ _ HC Hl V) as [r [Hr V']]. destruct (HS c (in_raws _ _ _ _ HL Hr V') Sc) as [<-|[<-|[<-|[]]]]; [reflexivity|contradiction|contradiction].
Qed.

(** ** Checking the layout of a given text *)
Lemma before_comment raw : without_comment raw (before ($"--") raw).
Proof.
  destruct (contains_spec ($"--") raw) as [O|O]; [left; exists (after ($"--") raw); apply cut_some, O|right; split; [exact O|apply cut_none, O]].
Qed.
Definition is_go (l : str) : bool := match toks [] l with t :: _ => starts_with ($"GO") t | [] => false end.
Lemma is_go_ok l : is_go l = true <-> begins_go l.
Proof.
  rewrite go_toks. unfold is_go. split.
  - destruct (toks [] l) as [|t ts]; [discriminate|]. intros H. apply starts_with_spec in H. destruct H as [x ->]. exists x, ts. reflexivity.
  - intros [x [ts ->]]. apply starts_with_spec. exists x. reflexivity.
Qed.
Definition code_of (raws : list str) : list str := filter (fun l => negb (is_go l)) (map (before ($"--")) raws).
Lemma code_of_ok raws : code_lines raws (code_of raws).
Proof.
  unfold code_of. induction raws as [|r raws IH]; cbn [map filter]; [constructor|]. destruct (is_go (before ($"--") r)) eqn:E; cbn [negb].
  - eapply cl_go; [apply before_comment|apply is_go_ok, E|exact IH].
  - apply cl_code; [apply before_comment|rewrite <- is_go_ok, E; discriminate|exact IH].
Qed.
Lemma toks_words n : forall s, length s <= n -> ~ In ";"%char s -> in_words s (toks [] s).
Proof.
  induction n as [|n IH]; intros s L N.
  - destruct s; [|cbn in L; lia]. constructor. intros ? [].
  - assert (G : forall s cur, no_space cur -> cur <> [] -> length s < S n -> ~ In ";"%char s -> in_words (cur ++ s) (toks cur s)).
    { clear s L N. induction s as [|c s IHs]; intros cur Hc Nc L N; cbn [toks].
      - rewrite app_nil_r. destruct cur as [|x cur]; [contradiction|]. apply (iw_last []); [intros ? []|exact Nc|exact Hc].
      - cbn [length] in L. assert (N' : ~ In ";"%char s) by (intros X; apply N; right; exact X). destruct (is_space c) eqn:S.
        + destruct cur as [|x cur]; [contradiction|]. cbn [flush app]. apply (iw_word [] (x :: cur) c); [intros ? []|exact Nc|exact Hc|exact S|apply IH; [lia|exact N']].
        + destruct (Ascii.eqb c ";") eqn:E; [apply Ascii.eqb_eq in E; subst c; exfalso; apply N; left; reflexivity|].
          change (cur ++ c :: s) with (cur ++ [c] ++ s). rewrite app_assoc. apply IHs; [|destruct cur; discriminate|lia|exact N'].
          intros d X. apply in_app_or in X. destruct X as [X|[<-|[]]]; auto. }
    assert (G2 : forall s w, all_space w -> length s <= S n -> ~ In ";"%char s -> exists r, toks [] s = r /\ in_words (w ++ s) r).
    { clear s L N. induction s as [|c s IHs]; intros w Hw L N; cbn [toks].
      - exists []. split; [reflexivity|]. rewrite app_nil_r. constructor. exact Hw.
      - cbn [length] in L. assert (N' : ~ In ";"%char s) by (intros X; apply N; right; exact X). destruct (is_space c) eqn:S.
        + cbn [flush app]. change (w ++ c :: s) with (w ++ [c] ++ s). rewrite app_assoc. apply IHs; [|lia|exact N']. intros d X. apply in_app_or in X. destruct X as [X|[<-|[]]]; auto.
        + destruct (Ascii.eqb c ";") eqn:E; [apply Ascii.eqb_eq in E; subst c; exfalso; apply N; left; reflexivity|]. cbn [app].
          eexists. split; [reflexivity|]. assert (Gc : in_words ([c] ++ s) (toks [c] s)) by (apply G; [intros d [<-|[]]; exact S|discriminate|lia|exact N']).
          change (w ++ c :: s) with (w ++ [c] ++ s). remember ([c] ++ s) as u. assert (Hu : forall w0 x, u = w0 ++ x -> all_space w0 -> w0 = []).
          { intros [|y w0] x E' H'; [reflexivity|]. subst u. cbn [app] in E'. injection E' as <- _. specialize (H' c (or_introl eq_refl)). congruence. }
          assert (Nu : u <> []) by (subst u; discriminate). clear - Gc Hw Hu Nu. destruct Gc as [w0 H0|w0 x H0 Nx Hx|w0 x d s0 ws H0 Nx Hx Hd Hs].
          * specialize (Hu w0 [] (eq_sym (app_nil_r w0)) H0). contradiction (Nu Hu).
          * rewrite (Hu _ _ eq_refl H0). cbn [app]. apply iw_last; assumption.
          * rewrite (Hu _ _ eq_refl H0). cbn [app]. apply iw_word; assumption. }
    destruct (G2 s [] (fun _ X => match X with end) L N) as [r [<- H]]. exact H.
Qed.
Fixpoint cut_semis (cur s : str) : list str * str :=
  match s with
  | [] => ([], cur)
  | c :: s' => if Ascii.eqb c ";" then let (ps, r) := cut_semis [] s' in (cur :: ps, r) else cut_semis (cur ++ [c]) s'
  end.
Lemma cut_semis_ok s : forall cur, ~ In ";"%char cur -> cur ++ s = terminated (fst (cut_semis cur s)) ++ snd (cut_semis cur s)
  /\ Forall (fun p => ~ In ";"%char p) (fst (cut_semis cur s)) /\ ~ In ";"%char (snd (cut_semis cur s)).
Proof.
  induction s as [|c s IH]; intros cur N; cbn [cut_semis].
  - rewrite app_nil_r. split; [reflexivity|]. split; [constructor|exact N].
  - destruct (Ascii.eqb c ";") eqn:E.
    + apply Ascii.eqb_eq in E. subst c. destruct (IH [] (fun X => X)) as [E1 [E2 E3]]. destruct (cut_semis [] s) as [ps r]. cbn [fst snd] in *. split; [|split; [constructor; assumption|exact E3]].
      cbn [terminated flat_map]. fold (terminated ps). change ($";") with [";"%char]. rewrite <- !app_assoc. cbn [app]. cbn [app] in E1. rewrite E1. reflexivity.
    + change (cur ++ c :: s) with (cur ++ [c] ++ s). rewrite app_assoc. apply IH. intros X. apply in_app_or in X. destruct X as [X|[->|[]]]; [contradiction|]. discriminate E.
Qed.
Definition plain_text (text : str) : bool :=
  let t := universal_newlines text in let ls := code_of (file_lines t) in
  forallb (fun c => negb (is_space c) || existsb (Ascii.eqb c) [" "%char; ascii_of_nat 9; lf]) t
  && forallb (fun l => negb (contains ($"/*") l) && Nat.leb (semicolons l) 1) ls.
Definition words_of (text : str) : list (list str) :=
  map (toks []) (fst (cut_semis [] (flat_map (fun l => l ++ [lf]) (code_of (file_lines (universal_newlines text)))))).
Lemma plain_text_ok text : plain_text text = true -> laid_out text (words_of text).
Proof.
  intros H. apply andb_true_iff in H. destruct H as [H1 H2]. rewrite forallb_forall in H1, H2. set (t := universal_newlines text) in *.
  destruct (cut_semis_ok (flat_map (fun l => l ++ [lf]) (code_of (file_lines t))) [] (fun X => X)) as [E1 [E2 E3]].
  split. exists t, (file_lines t), (code_of (file_lines t)). do 2 eexists. split; [apply (universal_ok _ _ (le_n _))|]. split; [apply file_lines_ok|]. split; [apply code_of_ok|]. split; [|split; [|split; [exact E1|split; [exact E2|split; [exact E3|]]]]].
  - intros c Hc S. specialize (H1 c Hc). rewrite S in H1. cbn [negb orb] in H1. apply existsb_exists in H1. destruct H1 as [x [Hx Ex]]. apply Ascii.eqb_eq in Ex. subst x. exact Hx.
  - intros l Hl. specialize (H2 l Hl). apply andb_true_iff in H2. destruct H2 as [A B]. apply negb_true_iff in A. split; [apply contains_false, A|apply Nat.leb_le, B].
  - unfold words_of. fold t. clear - E2. induction E2 as [|p ps Hp F IH]; cbn [map]; constructor; [|exact IH]. apply (toks_words (length p)); [lia|exact Hp].
Qed.

(** ** Lines that begin with GO are lost *)
Lemma lines_cut a b : file_lines (a ++ lf :: b) = file_lines (a ++ [lf]) ++ file_lines b.
Proof.
  induction a as [|c a IH]; [reflexivity|]. cbn [app file_lines]. rewrite IH. destruct (Ascii.eqb c newline); [reflexivity|].
  destruct (file_lines (a ++ [lf])) as [|w ws] eqn:E; [|reflexivity]. exfalso. destruct a as [|x a]; cbn [app file_lines] in E; [discriminate E|]. destruct (Ascii.eqb x newline); [discriminate E|]. destruct (file_lines (a ++ [lf])); discriminate E.
Qed.
Lemma one_line w : ~ In lf w -> file_lines (w ++ [lf]) = [w ++ [lf]].
Proof.
  induction w as [|c w IH]; intros N; [reflexivity|]. cbn [app file_lines]. rewrite IH by (intros X; apply N; right; exact X).
  destruct (Ascii.eqb c newline) eqn:E; [|reflexivity]. apply Ascii.eqb_eq in E. subst c. exfalso. apply N. left. reflexivity.
Qed.
Lemma universal_id s : ~ In cr s -> universal_newlines s = s.
Proof.
  induction s as [|c s IH]; intros N; [reflexivity|]. cbn [universal_newlines]. change (chr 13) with cr.
  destruct (Ascii.eqb c cr) eqn:E; [apply Ascii.eqb_eq in E; subst c; exfalso; apply N; left; reflexivity|]. rewrite IH; [reflexivity|intros X; apply N; right; exact X].
Qed.
Lemma go_ignored st raw : (exists l, without_comment raw l /\ begins_go l) -> read_line st raw = st.
Proof.
  intros [l [W G]]. pose proof (content_cleaned _ _ _ W (line_content_ok raw)) as C. unfold read_line, should_ignore_line.
  replace (starts_with ($"GO") (before ($"--") (clean_line raw))) with true; [reflexivity|]. symmetry. apply starts_with_spec, (cleaned_go _ _ C), G.
Qed.
Lemma go_lost a w r b : all_space w -> ~ In lf w -> ~ In lf r -> ~ In cr (a ++ w ++ r ++ b) ->
  get_statements (a ++ lf :: w ++ $"GO" ++ r ++ lf :: b) = get_statements (a ++ lf :: b).
Proof.
  intros Hw Nw Nr Nc. assert (X : forall s, In cr s -> s = a \/ s = w \/ s = r \/ s = b -> False).
  { intros s Hs [-> | [-> | [-> | ->]]]; apply Nc; rewrite !in_app_iff; tauto. }
  unfold get_statements. rewrite !universal_id.
  - f_equal. f_equal. unfold read_lines. rewrite (lines_cut a), (lines_cut a b), !fold_left_app.
    replace (w ++ $"GO" ++ r ++ lf :: b) with ((w ++ $"GO" ++ r) ++ lf :: b) by (rewrite <- !app_assoc; reflexivity).
    rewrite lines_cut, fold_left_app. rewrite one_line.
    + cbn [fold_left]. f_equal. rewrite go_ignored; [reflexivity|]. eexists. split; [apply before_comment|]. apply go_toks.
      destruct (contains_spec ($"--") ((w ++ $"GO" ++ r) ++ [lf])) as [O|O]; [|rewrite (proj1 (cut_none _ _ O)), <- !app_assoc; apply go_toks; exists w, (r ++ [lf]); split; [exact Hw|reflexivity]].
      destruct (cut_some _ _ O) as [E F]. set (u := before ($"--") _) in *. set (v := after ($"--") _) in *.
      apply go_toks. clearbody u v. rewrite <- !app_assoc in E. clear - E Hw.
      assert (Y : exists r', u = w ++ $"GO" ++ r').
      { revert u E. induction w as [|c w IH]; intros u E.
        - cbn [app] in E. change ($"GO" ++ r ++ [lf]) with ("G"%char :: "O"%char :: r ++ [lf]) in E. change ($"--" ++ v) with ("-"%char :: "-"%char :: v) in E.
          destruct u as [|x [|y u]]; cbn [app] in E; [discriminate E|discriminate E|]. injection E as <- <- _. exists u. reflexivity.
        - destruct u as [|x u]; cbn [app] in E; [change ($"--" ++ v) with ("-"%char :: "-"%char :: v) in E; injection E as -> _; specialize (Hw _ (or_introl eq_refl)); discriminate Hw|].
          injection E as <- E. destruct (IH (fun d Hd => Hw d (or_intror Hd)) u E) as [r' ->]. exists r'. reflexivity. }
      destruct Y as [r' ->]. exists w, r'. split; [exact Hw|reflexivity].
    + intros H. apply in_app_or in H. destruct H as [H|H]; [contradiction|]. apply in_app_or in H. destruct H as [H|H]; [|contradiction]. destruct H as [H|[H|[]]]; discriminate H.
  - intros H. apply in_app_or in H. destruct H as [H|[H|H]]; [eapply X; [exact H|auto]|discriminate H|eapply X; [exact H|auto]].
  - intros H. apply in_app_or in H. destruct H as [H|[H|H]]; [eapply X; [exact H|auto]|discriminate H|]. apply in_app_or in H. destruct H as [H|H]; [eapply X; [exact H|auto]|].
    apply in_app_or in H. destruct H as [H|H]; [destruct H as [H|[H|[]]]; discriminate H|]. apply in_app_or in H. destruct H as [H|[H|H]]; [eapply X; [exact H|auto]|discriminate H|eapply X; [exact H|auto]].
Qed.

(** ** A line with a block comment is glued to the line before *)
Lemma runs_same c s : ~ In c s -> runs_to_blank c s s.
Proof. induction s as [|x s IH]; intros N; constructor; [intros ->; apply N; left; reflexivity|]. apply IH. intros X. apply N. right. exact X. Qed.
Lemma strip_word s : no_space s -> strip s = s.
Proof.
  intros H. assert (L : forall u, no_space u -> lstrip u = u) by (intros [|c u] Hu; [reflexivity|]; cbn [lstrip]; rewrite (Hu c (or_introl eq_refl)); reflexivity).
  unfold strip, rstrip. rewrite (L s H), L, rev_involutive; [reflexivity|]. intros c Hc. apply H, in_rev, Hc.
Qed.
Lemma no_char s c : no_space s -> is_space c = true -> ~ In c s.
Proof. intros H S X. specialize (H _ X). congruence. Qed.
Lemma content_word s : no_space s -> ~ In "-"%char s -> line_content s s.
Proof.
  intros H N. exists s, s. rewrite strip_word by exact H. split; [apply runs_same, no_char; [exact H|reflexivity]|]. split; [apply runs_same, no_char; [exact H|reflexivity]|].
  right. split; [|reflexivity]. intros [a [b ->]]. apply N, in_or_app. right. left. reflexivity.
Qed.
Lemma cut_first x p a b : ~ In x a -> first_cut (x :: p) (a ++ (x :: p) ++ b) a b.
Proof.
  intros N. split; [reflexivity|]. intros a' b' E. revert a N E. induction a' as [|y a' IH]; intros a N E; cbn [app] in E.
  - destruct a as [|z a]; [cbn; lia|]. cbn [app] in E. injection E as -> _. exfalso. apply N. left. reflexivity.
  - destruct a as [|z a]; [cbn; lia|]. cbn [app] in E. injection E as _ E. cbn [length]. apply le_n_S, IH; [intros X; apply N; right; exact X|exact E].
Qed.
Lemma comment_glues x y c : no_space x -> no_space y -> no_space c -> x <> [] -> y <> [] ->
  free_of [";"; "-"; "/"]%char (x ++ y) -> free_of [";"; "-"; "*"]%char c -> ~ begins_go x -> ~ begins_go y ->
  get_statements (x ++ lf :: y ++ $"/*" ++ c ++ $"*/;") = [x ++ y].
Proof.
  intros Hx Hy Hc Nx Ny Fxy Fc Gx Gy. symmetry. apply c36.
  assert (Ix : forall d, In d [";"; "-"; "/"]%char -> ~ In d x) by (intros d Hd X; apply (Fxy d Hd), in_or_app; left; exact X).
  assert (Iy : forall d, In d [";"; "-"; "/"]%char -> ~ In d y) by (intros d Hd X; apply (Fxy d Hd), in_or_app; right; exact X).
  set (z := y ++ $"/*" ++ c ++ $"*/;").
  assert (Hz : no_space z) by (intros d H; unfold z in H; repeat (apply in_app_or in H; destruct H as [H|H]); [apply Hy, H|destruct H as [<-|[<-|[]]]; reflexivity|apply Hc, H|destruct H as [<-|[<-|[<-|[]]]]; reflexivity]).
  assert (Dz : ~ In "-"%char z).
  { intros H. unfold z in H. repeat (apply in_app_or in H; destruct H as [H|H]); [revert H; apply Iy; cbn; tauto|destruct H as [H|[H|[]]]; discriminate H|revert H; apply Fc; cbn; tauto|destruct H as [H|[H|[H|[]]]]; discriminate H]. }
  exists [" "%char :: x; y ++ $";"], [" "%char :: x ++ y], []. split.
  - split.
    + exists (x ++ lf :: z), [x ++ [lf]; z], [x; z], false. split; [|split; [|split]].
      * pose proof (universal_ok _ (x ++ lf :: z) (le_n _)) as U. rewrite universal_id in U; [exact U|]. intros H. apply in_app_or in H. destruct H as [H|[H|H]]; [revert H; apply no_char; [exact Hx|reflexivity]|discriminate H|revert H; apply no_char; [exact Hz|reflexivity]].
      * apply il_line; [apply no_char; [exact Hx|reflexivity]|]. apply il_last; [destruct y; [contradiction|discriminate]|apply no_char; [exact Hz|reflexivity]].
      * apply kl_keep.
        -- destruct (content_word x Hx) as [m [m' H]]; [apply Ix; cbn; tauto|]. exists m, m'. rewrite strip_snoc by reflexivity. exact H.
        -- intros [r ->]. apply Gx. exists [], r. split; [intros ? []|reflexivity].
        -- apply kl_keep; [apply content_word; assumption| |constructor]. intros [r E]. unfold z in E. change ($"GO" ++ r) with ("G"%char :: "O"%char :: r) in E. destruct y as [|y1 [|y2 y]]; [contradiction| |].
           ++ cbn [app] in E. injection E as _ E. discriminate E.
           ++ cbn [app] in E. injection E as -> -> _. apply Gy. exists [], y. split; [intros ? []|reflexivity].
      * eapply lsa_cons; [apply la_plain; intros [a [b E]]; apply (Ix "/"%char); [cbn; tauto|]; rewrite E; apply in_or_app; right; left; reflexivity|].
        eapply lsa_cons; [|apply lsa_nil]. eapply la_both.
        -- apply (cut_first "/" ["*"%char] y). apply Iy. cbn. tauto.
        -- apply (cut_first "*" ["/"%char] c ($";")). apply Fc. cbn. tauto.
    + cbn [concat terminated flat_map app]. rewrite !app_nil_r. rewrite <- app_assoc. reflexivity.
    + constructor; [|constructor]. intros [H|H]; [discriminate H|]. revert H. apply Fxy. cbn. tauto.
    + assert (S0 : forall u, ~ In ";"%char u -> semicolons u = 0) by (intros u Hu; apply count_occ_not_In, Hu).
      cbn [map]. rewrite semi_cons, semicolons_app, (S0 x), (S0 y); [reflexivity|apply Iy; cbn; tauto|apply Ix; cbn; tauto].
  - constructor; [|constructor]. unfold tidy. assert (Hs : no_space (x ++ y)) by (intros d H; apply in_app_or in H; destruct H; auto).
    assert (E : strip (" "%char :: x ++ y) = x ++ y).
    { unfold strip. cbn [lstrip]. change (is_space " ") with true. cbn iota. fold (strip (x ++ y)). apply strip_word, Hs. }
    rewrite E. apply runs_same, no_char; [exact Hs|reflexivity].
Qed.
