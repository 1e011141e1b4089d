(** * Lemmas: texts made of quoted words; greedy matching (for C45) *)
From Verif Require Export ParsedFacts SpecRound Writer.

(** ** Predicates that can be decided on both sides of a double quote *)
Definition sepable (P : str -> bool) : Prop := forall a b, P (a ++ dquote :: b) = P a && P b.
Definition lacks (p s : str) : bool := negb (contains p s).
Lemma lacks_sepable p : ~ In dquote p -> sepable (lacks p).
Proof. intros H a b. unfold lacks. rewrite occ_sep by exact H. apply negb_orb. Qed.
Definition noch (c : ascii) (s : str) : bool := negb (existsb (Ascii.eqb c) s).
Lemma noch_app c a b : noch c (a ++ b) = noch c a && noch c b.
Proof. unfold noch. rewrite existsb_app. apply negb_orb. Qed.
Lemma noch_sepable c : c <> dquote -> sepable (noch c).
Proof. intros H a b. rewrite noch_app. unfold noch at 2. cbn [existsb]. destruct (Ascii.eqb_spec c dquote); [contradiction|reflexivity]. Qed.
Lemma noch_ok c s : noch c s = true <-> ~ In c s.
Proof.
  unfold noch. rewrite negb_true_iff. split; [apply not_in_b|]. intros H. destruct (existsb (Ascii.eqb c) s) eqn:E; [|reflexivity].
  apply existsb_exists in E. destruct E as [x [Hx E]]. apply Ascii.eqb_eq in E. subst x. contradiction.
Qed.
Lemma and_sepable P Q : sepable P -> sepable Q -> sepable (fun s => P s && Q s).
Proof. intros HP HQ a b. rewrite HP, HQ. destruct (P a), (P b), (Q a), (Q b); reflexivity. Qed.
Lemma lower_sepable P : sepable P -> sepable (fun s => P (lower s)).
Proof. intros H a b. rewrite lower_app. change (lower (dquote :: b)) with (dquote :: lower b). apply H. Qed.

Section Sep.
Variable P : str -> bool.
Hypothesis HP : sepable P.
Lemma sep_quoted a w b : P a = true -> P w = true -> P b = true -> P (a ++ quoted w ++ b) = true.
Proof.
  intros A W B. unfold quoted. change (chr 34) with dquote. cbn [app]. rewrite HP, <- app_assoc. cbn [app]. rewrite HP, A, W, B. reflexivity.
Qed.
Lemma sep_list a l b : P a = true -> P b = true -> P ($", ") = true -> (forall w, In w l -> P w = true) -> (l = [] -> P (a ++ b) = true) ->
  P (a ++ list_to_string l true ++ b) = true.
Proof.
  intros A B C W E. destruct l as [|w l]; [apply E; reflexivity|]. clear E. unfold list_to_string. revert a w A W.
  induction l as [|w' l IH]; intros a w A W.
  - apply sep_quoted; [exact A| |exact B]. apply W. left. reflexivity.
  - cbn [map]. rewrite join_cons by discriminate.
    replace (a ++ (quoted w ++ $", " ++ join ($", ") (quoted w' :: map quoted l)) ++ b)
      with ((a ++ quoted w ++ $", ") ++ join ($", ") (map quoted (w' :: l)) ++ b) by (rewrite <- !app_assoc; reflexivity).
    apply IH; [|intros x Hx; apply W; right; exact Hx]. apply sep_quoted; [exact A| |exact C]. apply W. left. reflexivity.
Qed.
End Sep.

(** ** Words *)
Lemma plain_char w c : plain w -> word_char c = false -> ~ In c w.
Proof. unfold plain. intros H E Hin. rewrite forallb_forall in H. rewrite (H c Hin) in E. discriminate. Qed.
Lemma plain_lower w : plain w -> plain (lower w).
Proof.
  unfold plain. rewrite !forallb_forall. intros H c Hc. unfold lower in Hc. apply in_map_iff in Hc. destruct Hc as [d [<- Hd]].
  specialize (H d Hd). revert H. generalize d. clear. intros d.
  pose proof (all_chars (fun d => implb (word_char d) (word_char (lower_char d))) eq_refl d) as A. cbn beta in A.
  intros H. rewrite H in A. exact A.
Qed.
Lemma plain_lacks w p : plain w -> existsb (fun c => negb (word_char c)) p = true -> lacks p w = true.
Proof.
  intros H E. apply existsb_exists in E. destruct E as [c [Hc N]]. apply negb_true_iff in N. unfold lacks.
  rewrite (nocc_absent p c w Hc); [reflexivity|]. apply plain_char; assumption.
Qed.
Lemma plain_noch w c : plain w -> word_char c = false -> noch c w = true.
Proof. intros H E. apply noch_ok, plain_char; assumption. Qed.
Lemma plain_nospace w : plain w -> forallb (fun c => negb (is_space c)) w = true.
Proof.
  unfold plain. rewrite !forallb_forall. intros H c Hc. specialize (H c Hc). unfold word_char in H. apply andb_true_iff in H. apply H.
Qed.
Lemma replace_absent c x s : ~ In c s -> replace_char c x s = s.
Proof.
  unfold replace_char. induction s as [|y s IH]; [reflexivity|]. intros H. cbn [flat_map].
  destruct (Ascii.eqb_spec y c) as [->|N]; [exfalso; apply H; left; reflexivity|]. cbn [app]. f_equal. apply IH. intros X. apply H. right. exact X.
Qed.
Lemma replace_app c x a b : replace_char c x (a ++ b) = replace_char c x a ++ replace_char c x b.
Proof. unfold replace_char. apply flat_map_app. Qed.

(** ** Stripping *)
Lemma lstrip_spaces w s : forallb is_space w = true -> lstrip (w ++ s) = lstrip s.
Proof. induction w as [|x w IH]; [reflexivity|]. cbn [forallb app lstrip]. destruct (is_space x); [exact IH|discriminate]. Qed.
Lemma forallb_rev {A} (f : A -> bool) l : forallb f (rev l) = forallb f l.
Proof.
  destruct (forallb f l) eqn:E.
  - apply forallb_forall. intros x Hx. rewrite forallb_forall in E. apply E, in_rev, Hx.
  - destruct (forallb f (rev l)) eqn:E'; [|reflexivity]. assert (X : forallb f l = true); [|congruence].
    apply forallb_forall. intros x Hx. rewrite forallb_forall in E'. apply E'. rewrite <- in_rev. exact Hx.
Qed.
Definition ends_hard (s : str) : bool :=
  match s with [] => true | c :: _ => negb (is_space c) end && match rev s with [] => true | c :: _ => negb (is_space c) end.
Lemma strip_hard s : ends_hard s = true -> strip s = s.
Proof.
  unfold ends_hard, strip, rstrip. intros H. apply andb_true_iff in H. destruct H as [A B].
  replace (lstrip s) with s; [|destruct s as [|c s]; [reflexivity|]; cbn [lstrip]; destruct (is_space c); [discriminate|reflexivity]].
  replace (lstrip (rev s)) with (rev s); [apply rev_involutive|].
  destruct (rev s) as [|c r]; [reflexivity|]. cbn [lstrip]. destruct (is_space c); [discriminate|reflexivity].
Qed.
Lemma strip_around w s v : forallb is_space w = true -> forallb is_space v = true -> ends_hard s = true -> strip (w ++ s ++ v) = s.
Proof.
  intros W V H. destruct s as [|c s].
  - cbn [app]. unfold strip. rewrite lstrip_spaces by exact W. replace (lstrip v) with ([] : str); [reflexivity|].
    rewrite <- (app_nil_r v), lstrip_spaces by exact V. reflexivity.
  - unfold strip. rewrite lstrip_spaces by exact W. assert (C : is_space c = false).
    { unfold ends_hard in H. destruct (is_space c); [discriminate|reflexivity]. }
    cbn [app lstrip]. rewrite C. unfold rstrip. change (c :: s ++ v) with ((c :: s) ++ v). rewrite rev_app_distr, lstrip_spaces by (rewrite forallb_rev; exact V).
    unfold ends_hard in H. apply andb_true_iff in H. destruct H as [_ H]. destruct (rev (c :: s)) as [|d r] eqn:R.
    + apply (f_equal (@length _)) in R. rewrite rev_length in R. discriminate R.
    + cbn [lstrip]. destruct (is_space d); [discriminate|]. rewrite <- R. apply rev_involutive.
Qed.
Lemma ends_hard_intro c m d : is_space c = false -> is_space d = false -> ends_hard (c :: m ++ [d]) = true.
Proof.
  intros C D. unfold ends_hard. rewrite C. cbn [negb andb]. change (c :: m ++ [d]) with ((c :: m) ++ [d]). rewrite rev_app_distr. cbn [rev app]. rewrite D. reflexivity.
Qed.
Lemma nospace_hard s : forallb (fun c => negb (is_space c)) s = true -> ends_hard s = true.
Proof.
  intros H. unfold ends_hard. apply andb_true_iff. rewrite <- forallb_rev in H. split; [rewrite forallb_rev in H; destruct s; [reflexivity|]|destruct (rev s); [reflexivity|]];
  cbn [forallb] in H; apply andb_true_iff in H; apply H.
Qed.
(** [s] ends with a hard character and begins with one *)
Lemma ends_hard_app a b : ends_hard a = true -> ends_hard b = true -> a <> [] -> b <> [] -> forall m, ends_hard (a ++ m ++ b) = true.
Proof.
  unfold ends_hard. intros A B Na Nb m. apply andb_true_iff in A, B. destruct A as [A _], B as [_ B]. apply andb_true_iff. split.
  - destruct a as [|c a]; [contradiction|]. exact A.
  - rewrite !rev_app_distr. destruct (rev b) as [|d r] eqn:R; [|exact B]. apply (f_equal (@length _)) in R. rewrite rev_length in R. destruct b; [contradiction|discriminate].
Qed.

(** ** Runs of blanks *)
Lemma sub_runs_blank s : contains ($"  ") s = false -> sub_runs " " s = s.
Proof.
  intros H. unfold sub_runs. assert (G : forall s b, contains ($"  ") s = false -> (b = true -> forall r, s <> " "%char :: r) -> squeeze " " b s = s).
  { clear. induction s as [|x s IH]; intros b H B; [reflexivity|]. cbn [squeeze].
    assert (H' : contains ($"  ") s = false) by (exact (nocc_within _ [x] s [] ltac:(rewrite app_nil_r; exact H))).
    destruct (Ascii.eqb_spec x " ") as [->|N].
    - destruct b; [exfalso; exact (B eq_refl s eq_refl)|]. f_equal. apply IH; [exact H'|]. intros _ r ->.
      apply contains_false in H. apply H. exists [], r. reflexivity.
    - f_equal. apply IH; [exact H'|discriminate]. }
  apply G; [exact H|discriminate].
Qed.
Lemma sub_runs_absent c s : ~ In c s -> sub_runs c s = s.
Proof.
  unfold sub_runs. generalize false. induction s as [|x s IH]; intros b H; [reflexivity|]. cbn [squeeze].
  destruct (Ascii.eqb_spec x c) as [->|N]; [exfalso; apply H; left; reflexivity|]. f_equal. apply IH. intros X. apply H. right. exact X.
Qed.

(** ** Greedy matching *)
Lemma star_last {A} ok (k : str -> option A) w r a : forallb ok w = true -> k r = Some a ->
  (forall w' r', r = w' ++ r' -> w' <> [] -> k r' = None) -> star ok k (w ++ r) = Some (w, a).
Proof.
  intros W K L. induction w as [|c w IH].
  - cbn [app]. assert (N : forall s, (forall w' r', s = w' ++ r' -> k r' = None) -> star ok k s = None).
    { clear. induction s as [|c s IH]; intros H; cbn [star].
      - rewrite (H [] []) by reflexivity. reflexivity.
      - rewrite IH by (intros w' r' ->; apply (H (c :: w') r'); reflexivity). rewrite (H [] (c :: s)) by reflexivity. destruct (ok c); reflexivity. }
    destruct r as [|c r]; cbn [star]; rewrite K; [reflexivity|]. rewrite N; [destruct (ok c); reflexivity|].
    intros w' r' ->. apply (L (c :: w') r'); [reflexivity|discriminate].
  - cbn [forallb] in W. apply andb_true_iff in W. destruct W as [C W]. cbn [app star]. rewrite C, IH by exact W. reflexivity.
Qed.
Lemma star_none {A} ok (k : str -> option A) s : (forall w r, s = w ++ r -> k r = None) -> star ok k s = None.
Proof.
  induction s as [|c s IH]; intros H; cbn [star].
  - rewrite (H [] []) by reflexivity. reflexivity.
  - rewrite IH by (intros w' r' ->; apply (H (c :: w') r'); reflexivity). rewrite (H [] (c :: s)) by reflexivity. destruct (ok c); reflexivity.
Qed.
Lemma lit_prefix_app p p0 s : lower p0 = lower p -> lit_prefix p (p0 ++ s) = Some s.
Proof.
  revert p0. induction p as [|x p IH]; intros [|y p0] H; try discriminate; [reflexivity|]. cbn [app lit_prefix]. unfold lower in H. cbn [map] in H.
  injection H as H1 H2. unfold ci_eqb. rewrite H1, Ascii.eqb_refl. apply IH. exact H2.
Qed.
Lemma lit_prefix_some p s r : lit_prefix p s = Some r -> exists p0, s = p0 ++ r /\ lower p0 = lower p.
Proof.
  revert s. induction p as [|x p IH]; intros s H.
  - injection H as ->. exists []. split; reflexivity.
  - destruct s as [|y s]; [discriminate|]. cbn [lit_prefix] in H. unfold ci_eqb in H. destruct (Ascii.eqb_spec (lower_char x) (lower_char y)) as [E|]; [|discriminate].
    destruct (IH _ H) as [p0 [-> L]]. exists (y :: p0). split; [reflexivity|]. unfold lower in *. cbn [map]. rewrite E, L. reflexivity.
Qed.
Lemma lit_prefix_none p s : contains (lower p) (lower s) = false -> lit_prefix p s = None.
Proof.
  intros H. destruct (lit_prefix p s) as [r|] eqn:E; [|reflexivity]. destruct (lit_prefix_some _ _ _ E) as [p0 [-> L]].
  apply contains_false in H. exfalso. apply H. exists [], (lower r). rewrite lower_app, L. reflexivity.
Qed.
Lemma rmatch_lit p p0 r s : lower p0 = lower p -> rmatch (RLit p :: r) (p0 ++ s) = rmatch r s.
Proof. intros H. cbn [rmatch]. rewrite (lit_prefix_app _ _ _ H). reflexivity. Qed.
Definition dots (s : str) : Prop := forallb dot s = true.
Lemma dots_noch s : noch newline s = true -> dots s.
Proof.
  intros H. apply noch_ok in H. apply forallb_forall. intros c Hc. unfold dot. destruct (Ascii.eqb_spec c (chr 10)) as [->|N]; [contradiction|reflexivity].
Qed.
(** a group up to the last occurrence of the literal that follows it *)
Lemma group_lit p p0 r w q g : noch newline w = true -> lower p0 = lower p -> lacks (lower p) (lower (tl (p0 ++ q))) = true -> p <> [] ->
  rmatch r q = Some g -> rmatch (RGroup :: RLit p :: r) (w ++ p0 ++ q) = Some (w :: g) /\ rmatch (RAny :: RLit p :: r) (w ++ p0 ++ q) = Some g.
Proof.
  intros W L N Np M. assert (S : star dot (rmatch (RLit p :: r)) (w ++ p0 ++ q) = Some (w, g)).
  { apply star_last; [apply dots_noch; exact W|rewrite rmatch_lit by exact L; exact M|].
    intros w' r' E Nw. destruct w' as [|c w']; [contradiction|]. rewrite E in N. cbn [app tl] in N. cbn [rmatch]. rewrite lit_prefix_none; [reflexivity|].
    unfold lacks in N. apply negb_true_iff in N. rewrite lower_app in N. apply (nocc_within _ (lower w') _ []). rewrite app_nil_r. exact N. }
  cbn [rmatch] in *. rewrite S. split; reflexivity.
Qed.
Lemma group_none p r s : contains (lower p) (lower s) = false -> rmatch (RGroup :: RLit p :: r) s = None /\ rmatch (RAny :: RLit p :: r) s = None.
Proof.
  intros N. assert (S : star dot (rmatch (RLit p :: r)) s = None).
  { apply star_none. intros w r' ->. cbn [rmatch]. rewrite lit_prefix_none; [reflexivity|]. rewrite lower_app in N. apply (nocc_within _ (lower w) _ []). rewrite app_nil_r. exact N. }
  cbn [rmatch] in *. rewrite S. split; reflexivity.
Qed.
Lemma group_end w : noch newline w = true -> rmatch [RGroup] w = Some [w].
Proof.
  intros W. assert (S : star dot (rmatch []) (w ++ []) = Some (w, [])).
  { apply star_last; [apply dots_noch; exact W|reflexivity|]. intros w' r' E N. destruct w'; [contradiction|discriminate]. }
  rewrite app_nil_r in S. cbn [rmatch] in *. rewrite S. reflexivity.
Qed.
Lemma any_end w : noch newline w = true -> rmatch [RAny] w = Some [].
Proof.
  intros W. assert (S : star dot (rmatch []) (w ++ []) = Some (w, [])).
  { apply star_last; [apply dots_noch; exact W|reflexivity|]. intros w' r' E N. destruct w'; [contradiction|discriminate]. }
  rewrite app_nil_r in S. cbn [rmatch] in *. rewrite S. reflexivity.
Qed.
Lemma blanks_one r s g : (forall t, s <> " "%char :: t) -> rmatch r s = Some g -> rmatch (RBlanks :: r) (" "%char :: s) = Some g.
Proof.
  intros N M. cbn [rmatch star]. change (blank " ") with true. cbn [negb]. destruct s as [|c s].
  - cbn [star]. rewrite M. reflexivity.
  - cbn [star]. assert (B : blank c = false) by (unfold blank; destruct (Ascii.eqb_spec c " ") as [->|]; [exfalso; apply (N s); reflexivity|reflexivity]).
    rewrite B, M. reflexivity.
Qed.
Lemma lit_prefix_sep p c x y : ~ In (lower_char c) (lower p) -> contains (lower p) (lower x) = false -> lit_prefix p (x ++ c :: y) = None.
Proof.
  intros C N. destruct (lit_prefix p (x ++ c :: y)) as [r|] eqn:E; [|reflexivity]. destruct (lit_prefix_some _ _ _ E) as [p0 [E' L]]. exfalso.
  destruct (le_lt_dec (length p0) (length x)) as [H|H].
  - apply contains_false in N. apply N. exists [], (lower (skipn (length p0) x)). rewrite <- L. cbn [app]. rewrite <- lower_app. f_equal.
    apply (f_equal (firstn (length x))) in E'. rewrite firstn_app, firstn_all, Nat.sub_diag, firstn_O, app_nil_r in E'.
    rewrite firstn_app, (firstn_all2 p0) in E' by exact H. rewrite E' at 1 2. rewrite skipn_app, skipn_all, Nat.sub_diag. reflexivity.
  - apply C. rewrite <- L. unfold lower. apply in_map. assert (X : nth_error (x ++ c :: y) (length x) = Some c) by (rewrite nth_error_app2, Nat.sub_diag by lia; reflexivity).
    rewrite E', nth_error_app1 in X by exact H. eapply nth_error_In. exact X.
Qed.
Lemma resplit_skip p k p1 b : length p1 = k -> resplit_aux p k (p1 ++ b) = resplit_aux p 0 b.
Proof. revert k. induction p1 as [|x p1 IH]; intros k <-; [reflexivity|]. cbn [length app resplit_aux]. apply IH. reflexivity. Qed.
Lemma resplit_none p b : contains (lower p) (lower b) = false -> resplit_aux p 0 b = [b].
Proof.
  induction b as [|x b IH]; intros H; [reflexivity|]. cbn [resplit_aux]. rewrite lit_prefix_none by exact H.
  rewrite IH; [reflexivity|]. apply (nocc_within _ [lower_char x] _ []). rewrite app_nil_r. exact H.
Qed.
Lemma resplit_once p p0 a c b : lower p0 = lower p -> p <> [] -> ~ In (lower_char c) (lower p) ->
  contains (lower p) (lower a) = false -> contains (lower p) (lower b) = false -> resplit p (a ++ c :: p0 ++ b) = [a ++ [c]; b].
Proof.
  intros L Np C A B. unfold resplit. assert (H0 : resplit_aux p 0 (p0 ++ b) = [[]; b]).
  { destruct p0 as [|x p0]; [destruct p; [contradiction|discriminate]|]. cbn [app resplit_aux]. change (x :: p0 ++ b) with ((x :: p0) ++ b). rewrite lit_prefix_app by exact L.
    rewrite resplit_skip; [rewrite resplit_none by exact B; reflexivity|]. apply (f_equal (@length _)) in L. rewrite !lower_length in L. cbn [length] in L. lia. }
  induction a as [|x a IH].
  - cbn [app]. cbn [resplit_aux]. pose proof (lit_prefix_sep p c [] (p0 ++ b) C A) as X. cbn [app] in X. rewrite X, H0. reflexivity.
  - cbn [app resplit_aux]. change (x :: a ++ c :: p0 ++ b) with ((x :: a) ++ c :: p0 ++ b). rewrite (lit_prefix_sep p c (x :: a) (p0 ++ b) C A).
    rewrite IH; [reflexivity|]. apply (nocc_within _ [lower_char x] _ []). rewrite app_nil_r. exact A.
Qed.
