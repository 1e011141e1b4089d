(** * Lemmas: reading ALTER TABLE statements of other databases (for C101) *)
From Verif Require Export SpecAlterDialect DialectFacts RoundAlter SpecMessages MessageFacts.

(** ** What a pattern needs *)
Lemma rmatch_needs p r : In (RLit p) r -> forall s g, rmatch r s = Some g -> occurs (lower p) (lower s).
Proof.
  assert (St : forall A ok (k : str -> option A) s w a, star ok k s = Some (w, a) -> exists t, s = w ++ t /\ k t = Some a).
  { intros A ok k. induction s as [|c s IH]; intros w a H; cbn [star] in H.
    - destruct (k []) as [x|] eqn:E; [|discriminate]. injection H as <- <-. exists []. split; [reflexivity|exact E].
    - assert (K : (match k (c :: s) with Some a => Some ([], a) | None => None end) = Some (w, a) -> exists t, c :: s = w ++ t /\ k t = Some a).
      { intros X. destruct (k (c :: s)) as [x|] eqn:E; [|discriminate]. injection X as <- <-. exists (c :: s). split; [reflexivity|exact E]. }
      destruct (ok c); [|exact (K H)]. destruct (star ok k s) as [[w1 a1]|] eqn:E; [|exact (K H)]. injection H as <- <-.
      destruct (IH _ _ eq_refl) as [t [-> T]]. exists t. split; [reflexivity|exact T]. }
  assert (Oc : forall w t : str, occurs (lower p) (lower t) -> occurs (lower p) (lower (w ++ t))) by (intros w t O; rewrite lower_app; apply occurs_app; right; exact O).
  induction r as [|x r IH]; intros H s g M; [destruct H|]. destruct x as [p'| | |].
  - cbn [rmatch] in M. destruct (lit_prefix p' s) as [s'|] eqn:E; [|discriminate]. destruct (lit_prefix_some _ _ _ E) as [p0 [-> L]]. destruct H as [H|H].
    + injection H as ->. exists [], (lower s'). rewrite lower_app, L. reflexivity.
    + apply Oc. exact (IH H _ _ M).
  - destruct H as [H|H]; [discriminate|]. cbn [rmatch] in M. destruct (star _ _ s) as [[w a]|] eqn:E; [|discriminate]. destruct (St _ _ _ _ _ _ E) as [t [-> T]]. apply Oc. exact (IH H _ _ T).
  - destruct H as [H|H]; [discriminate|]. cbn [rmatch] in M. destruct (star _ _ s) as [[w a]|] eqn:E; [|discriminate]. destruct (St _ _ _ _ _ _ E) as [t [-> T]]. apply Oc. exact (IH H _ _ T).
  - destruct H as [H|H]; [discriminate|]. cbn [rmatch] in M. destruct (star _ _ s) as [[w a]|] eqn:E; [|discriminate]. destruct (St _ _ _ _ _ _ E) as [t [-> T]]. apply Oc. exact (IH H _ _ T).
Qed.
Lemma rmatch_lacks p r s : In (RLit p) r -> ~ occurs (lower p) (lower s) -> rmatch r s = None.
Proof. intros H N. destruct (rmatch r s) as [g|] eqn:E; [|reflexivity]. exfalso. exact (N (rmatch_needs _ _ H _ _ E)). Qed.
(** a literal that is no letter *)
Lemma occurs_lower_char c s : upper_char c = c -> occurs [c] (lower s) -> In c s.
Proof.
  intros U [a [b E]]. assert (H : In c (lower s)) by (rewrite E; apply in_or_app; right; left; reflexivity). unfold lower in H. apply in_map_iff in H. destruct H as [d [L D]].
  assert (F : forall d, (Ascii.eqb (lower_char d) d || Ascii.eqb (upper_char (lower_char d)) d) = true) by (apply all_chars; reflexivity).
  pose proof (F d) as X. apply orb_true_iff in X. destruct X as [X|X]; apply Ascii.eqb_eq in X; [congruence|]. rewrite L in X. congruence.
Qed.
Lemma lit_char c s y : lower_char c = c -> upper_char c = c -> lit_prefix [c] s = Some y -> s = c :: y.
Proof.
  intros L0 U H. destruct (lit_prefix_some _ _ _ H) as [p0 [-> L]]. destruct p0 as [|d [|d' p0]]; try discriminate L. cbn [app]. f_equal.
  change (lower [d]) with [lower_char d] in L. change (lower [c]) with [lower_char c] in L. injection L as L. rewrite L0 in L.
  destruct (occurs_lower_char c [d] U) as [I|[]]; [|exact I]. change (lower [d]) with [lower_char d]. rewrite L. exists [], []. reflexivity.
Qed.
(** the last place where a pattern with a literal can go on *)
Lemma group_at p p0 r w q g : noch newline w = true -> lower p0 = lower p -> p <> [] -> rmatch r q = Some g ->
  (forall x y, tl (p0 ++ q) = x ++ y -> rmatch (RLit p :: r) y = None) ->
  rmatch (RGroup :: RLit p :: r) (w ++ p0 ++ q) = Some (w :: g) /\ rmatch (RAny :: RLit p :: r) (w ++ p0 ++ q) = Some g.
Proof.
  intros W L Np M N. assert (S : star dot (rmatch (RLit p :: r)) (w ++ p0 ++ q) = Some (w, g)).
  { apply star_last; [apply dots_noch; exact W|rewrite rmatch_lit by exact L; exact M|].
    intros w' r' E Nw. destruct w' as [|c w']; [contradiction|]. apply (N w' r'). rewrite E. reflexivity. }
  cbn [rmatch] in *. rewrite S. split; reflexivity.
Qed.
Lemma blanks_gap b r s g : (forall t, s <> " "%char :: t) -> rmatch r s = Some g -> rmatch (RBlanks :: r) (gap b ++ s) = Some g.
Proof.
  intros N M. destruct b; [apply blanks_one; assumption|]. cbn [gap app rmatch]. destruct s as [|c s]; cbn [star]; [rewrite M; reflexivity|].
  assert (B : blank c = false) by (unfold blank; destruct (Ascii.eqb_spec c " ") as [->|]; [exfalso; apply (N s); reflexivity|reflexivity]). rewrite B, M. reflexivity.
Qed.
(** a literal cannot begin in a text without its first character *)
Lemma occurs_from c p a b : ~ In c a -> occurs (c :: p) (a ++ b) -> occurs (c :: p) b.
Proof.
  intros N [x [y E]]. revert x E. induction a as [|d a IH]; intros x E; [exists x, y; exact E|]. destruct x as [|e x].
  - injection E as -> _. exfalso. apply N. left. reflexivity.
  - injection E as -> E. apply (IH (fun X => N (or_intror X)) x E).
Qed.
Lemma suffix_of (a b x y : str) c : a ++ b = x ++ c :: y -> ~ In c a -> exists x', b = x' ++ c :: y.
Proof.
  revert x. induction a as [|d a IH]; intros x E N; [exists x; exact E|]. destruct x as [|e x].
  - injection E as -> _. exfalso. apply N. left. reflexivity.
  - injection E as _ E. apply (IH x E). intros X. apply N. right. exact X.
Qed.

(** ** Names *)
Lemma last_of_path path y : (forall q n, In (q, n) path -> free_of name_marks n) -> ~ In "."%char y ->
  last_of (split_char "." (flat_map (fun x => spelled x ++ $".") path ++ y)) = y.
Proof.
  intros H N. induction path as [|[q n] path IH]; [cbn [flat_map app]; rewrite split_char_none by exact N; reflexivity|].
  cbn [flat_map]. rewrite <- !app_assoc. change ($"." ++ ?z) with ("."%char :: z). rewrite split_char_app by (apply spell_not_in; [apply (H q n); left; reflexivity|cbn; tauto]).
  unfold last_of in *. specialize (IH (fun q n X => H q n (or_intror X))). destruct (split_char "." (flat_map _ path ++ y)) as [|w ws] eqn:E; [apply GenFacts.split_char_nonnil in E; contradiction|].
  cbn [last] in *. exact IH.
Qed.
Lemma unmark q n : free_of name_marks n -> q <> BackQuotes -> ~ In tab n ->
  replace_char "]" [] (replace_char "[" [] (replace_char squote [] (replace_char dquote [] (replace_char tab [] (spell q n))))) = n.
Proof.
  intros F Q T. assert (R : forall c, In c [dquote; squote; "["; "]"]%char -> forall x, replace_char c x n = n) by (intros c Hc x; apply replace_absent, F; cbn in *; tauto).
  assert (R1 := R dquote (or_introl eq_refl) []). assert (R2 := R squote (or_intror (or_introl eq_refl)) []). assert (R3 := R "["%char ltac:(cbn; tauto) []). assert (R4 := R "]"%char ltac:(cbn; tauto) []).
  assert (Rt := replace_absent tab [] n T).
  destruct q; cbn [spell]; try contradiction.
  - rewrite Rt, R1, R2, R3, R4. reflexivity.
  - change (SpecParse.dq :: n ++ [SpecParse.dq]) with ([dquote] ++ n ++ [dquote]). rewrite !replace_app, Rt, R1, R2, R3, R4.
    change (replace_char "]" [] (replace_char "[" [] (replace_char squote [] (replace_char dquote [] (replace_char tab [] [dquote]))))) with ([] : str). apply app_nil_r.
  - change (SpecParse.sq :: n ++ [SpecParse.sq]) with ([squote] ++ n ++ [squote]). rewrite !replace_app, Rt, R1, R2, R3, R4.
    change (replace_char "]" [] (replace_char "[" [] (replace_char squote [] (replace_char dquote [] (replace_char tab [] [squote]))))) with ([] : str). apply app_nil_r.
  - change ("["%char :: n ++ ["]"%char]) with (["["%char] ++ n ++ ["]"%char]). rewrite !replace_app, Rt, R1, R2, R3, R4.
    change (replace_char "]" [] (replace_char "[" [] (replace_char squote [] (replace_char dquote [] (replace_char tab [] ["["%char]))))) with ([] : str).
    change (replace_char "]" [] (replace_char "[" [] (replace_char squote [] (replace_char dquote [] (replace_char tab [] ["]"%char]))))) with ([] : str). apply app_nil_r.
Qed.
Lemma clean_spelled a q n b : good_name q n -> q <> BackQuotes -> ~ In tab n -> clean_name (gap a ++ spell q n ++ gap b) = n.
Proof.
  intros G Q T. unfold clean_name. assert (G' : forall x, ~ In "."%char (gap x)) by (intros []; cbn; [intros [X|[]]; discriminate X|tauto]). rewrite split_char_none.
  2: { intros X. apply in_app_or in X. destruct X as [X|X]; [exact (G' _ X)|]. apply in_app_or in X. destruct X as [X|X]; [|exact (G' _ X)]. revert X. apply spell_not_in; [apply (gn_free _ _ G)|cbn; tauto]. }
  cbn [last_of last]. change (last_of [?x]) with x. rewrite strip_around; [|destruct a; reflexivity|destruct b; reflexivity|apply spell_hard; [apply (gn_some _ _ G)|apply (gn_bare _ _ G)]].
  apply unmark; [apply (gn_free _ _ G)|exact Q|exact T].
Qed.
Lemma clean_qualified path q n : (forall r m, In (r, m) path \/ (r, m) = (q, n) -> good_name r m) -> q <> BackQuotes -> ~ In tab n -> clean_name (qualified path q n) = n.
Proof.
  intros H Q T. assert (G := H q n (or_intror eq_refl)). unfold clean_name, qualified.
  rewrite last_of_path; [|intros r m X; apply (gn_free _ _ (H r m (or_introl X)))|apply spell_not_in; [apply (gn_free _ _ G)|cbn; tauto]].
  rewrite strip_hard by (apply spell_hard; [apply (gn_some _ _ G)|apply (gn_bare _ _ G)]). apply unmark; [apply (gn_free _ _ G)|exact Q|exact T].
Qed.
Lemma clean_plain n : free_of name_marks n -> trimmed n -> ~ In tab n -> clean_name n = n.
Proof.
  intros F T N. unfold clean_name. rewrite split_char_none by (apply F; cbn; tauto). change (last_of [n]) with n. rewrite strip_hard by (apply trimmed_hard, T).
  apply (unmark Bare); [exact F|discriminate|exact N].
Qed.
Lemma extract_qualified path q n x : good_target path q n -> ~ In tab n -> x = [] \/ (exists y, x = " "%char :: y /\ ~ In "."%char y) -> extract_table_name (qualified path q n ++ x) = Ok n.
Proof.
  intros [H Tr [Qb Br]] T X. assert (G := H q n (or_intror eq_refl)). assert (F := gn_free _ _ G). unfold extract_table_name, qualified. rewrite <- app_assoc.
  rewrite last_of_path; [|intros r m Y; apply (gn_free _ _ (H r m (or_introl Y)))|].
  2: { intros Y. apply in_app_or in Y. destruct Y as [Y|Y]; [revert Y; apply spell_not_in; [exact F|cbn; tauto]|]. destruct X as [->|[y [-> Ny]]]; [exact Y|]. destruct Y as [Y|Y]; [discriminate|contradiction]. }
  assert (Bl : forall s, ~ In " "%char s -> hd [] (split_char " " (s ++ x)) = s).
  { intros s Ns. destruct X as [->|[y [-> _]]]; [rewrite app_nil_r, split_char_none by exact Ns; reflexivity|rewrite split_char_app by exact Ns; reflexivity]. }
  assert (Nb : blank_free n -> ~ In " "%char n) by (intros B Y; pose proof (B _ Y); discriminate).
  assert (E : extract_name (spell q n ++ x) = Ok n \/ (q = Brackets /\ extract_name (spell q n ++ x) = Ok (spell q n))).
  { destruct q; cbn [spell]; try contradiction.
    - left. destruct n as [|c n]; [exfalso; exact (gn_some _ _ G eq_refl)|]. assert (D : c <> dquote) by (intros ->; apply (F dquote); [cbn; tauto|left; reflexivity]).
      assert (S : c <> squote) by (intros ->; apply (F squote); [cbn; tauto|left; reflexivity]). unfold extract_name. cbn [app].
      destruct (Ascii.eqb_spec c dquote); [contradiction|]. destruct (Ascii.eqb_spec c squote); [contradiction|]. change (c :: n ++ x) with ((c :: n) ++ x). rewrite Bl; [reflexivity|apply Nb, (gn_bare _ _ G eq_refl)].
    - left. cbn [app extract_name]. rewrite Ascii.eqb_refl. rewrite <- app_assoc. cbn [app]. rewrite split_char_app by (apply F; cbn; tauto). reflexivity.
    - left. cbn [app extract_name]. change (Ascii.eqb SpecParse.sq dquote) with false. change (Ascii.eqb SpecParse.sq squote) with true. cbn iota. rewrite <- app_assoc. cbn [app]. change SpecParse.sq with squote. rewrite split_char_app by (apply F; cbn; tauto). reflexivity.
    - right. split; [reflexivity|]. unfold extract_name. cbn [app]. change (Ascii.eqb "[" dquote) with false. change (Ascii.eqb "[" squote) with false. cbn iota.
      change ("["%char :: (n ++ ["]"%char]) ++ x) with (("["%char :: n ++ ["]"%char]) ++ x). rewrite Bl; [reflexivity|].
      intros [Y|Y]; [discriminate|]. apply in_app_or in Y. destruct Y as [Y|[Y|[]]]; [|discriminate]. exact (Nb (Br eq_refl) Y). }
  destruct E as [->|[-> ->]]; cbn [bind].
  - rewrite clean_plain; [reflexivity|exact F|exact Tr|exact T].
  - f_equal. rewrite <- (app_nil_r (spell Brackets n)). apply (clean_spelled false Brackets n false); [exact G|discriminate|exact T].
Qed.
Lemma key_columns_read l : good_columns l -> ~ In tab (columns_text l) -> key_columns_of (columns_text l) = columns_names l.
Proof.
  intros [N H] T. unfold key_columns_of, columns_text, columns_names in *. revert N H T. induction l as [|[[a [q n]] b] l IH]; intros N H T; [contradiction|].
  destruct (H a q n b (or_introl eq_refl)) as [G Q]. assert (P : ~ In ","%char (padded spelled (a, (q, n), b))) by (apply padded_not_in; [apply (gn_free _ _ G)|cbn; tauto]).
  assert (Tn : forall s, ~ In tab (padded spelled (a, (q, n), b) ++ s) -> ~ In tab n).
  { intros s X Y. apply X. unfold padded, spelled. cbn [fst snd]. do 1 (apply in_or_app; left). apply in_or_app. right. apply in_or_app. left. destruct q; cbn [spell]; [exact Y| | | |]; right; apply in_or_app; left; exact Y. }
  destruct l as [|y l].
  - cbn [map join fst snd] in *. rewrite split_char_none by exact P. cbn [map]. f_equal. apply clean_spelled; [exact G|exact Q|]. apply (Tn []). rewrite app_nil_r. exact T.
  - change (map (padded spelled) ((a, (q, n), b) :: y :: l)) with (padded spelled (a, (q, n), b) :: map (padded spelled) (y :: l)) in *. rewrite join_cons in * by discriminate.
    change ($"," ++ ?z) with (","%char :: z) in *. rewrite split_char_app by exact P. cbn [map fst snd]. f_equal.
    + apply clean_spelled; [exact G|exact Q|]. exact (Tn _ T).
    + apply IH; [discriminate|intros a' q' n' b' X; apply (H a' q' n' b'); right; exact X|]. intros X. apply T. apply in_or_app. right. right. exact X.
Qed.
Lemma columns_paren l c : good_columns l -> In c ["("; ")"]%char -> ~ In c (columns_text l).
Proof. intros [_ H]. apply columns_not_in. intros a q n b X. apply (gn_free _ _ (proj1 (H a q n b X))). Qed.
Lemma noch_in c s : ~ In c s -> noch c s = true. Proof. apply noch_ok. Qed.
Ltac inside := let X := fresh in intros X; match goal with H : ~ In ?c _ |- False => apply H end; repeat (apply in_or_app; first [left; exact X | right]); try exact X.

(** ** Primary keys *)
Lemma last_place (c : ascii) s : In c s -> exists a b, s = a ++ c :: b /\ ~ In c b.
Proof.
  intros H. induction s as [|x s IH]; [destruct H|]. destruct (in_dec ascii_dec c s) as [I|I].
  - destruct (IH I) as (a & b & -> & N). exists (x :: a), b. split; [reflexivity|exact N].
  - destruct H as [->|H]; [|contradiction]. exists [], s. split; [reflexivity|exact I].
Qed.
Lemma says_eq w s : says ($w) s -> lower ($w) = $w -> lower s = lower ($w).
Proof. intros H ->. exact H. Qed.
Lemma not_in_app (c : ascii) a b : ~ In c a -> ~ In c b -> ~ In c (a ++ b).
Proof. intros A B X. apply in_app_or in X. tauto. Qed.
Lemma pk_match head T words key kind opts more : says ($"alter table ") head -> says ($"primary key") key ->
  ~ In newline (T ++ $" " ++ words ++ key ++ kind ++ $"(" ++ opts ++ $")" ++ more) ->
  ~ occurs ($"primary key") (lower (kind ++ $"(" ++ opts ++ $")" ++ more)) -> ~ In "("%char opts -> ~ In ")"%char more ->
  exists x, (x = [] \/ exists y, x = " "%char :: y /\ incl y words)
    /\ rmatch pk_pattern (head ++ T ++ $" " ++ words ++ key ++ kind ++ $"(" ++ opts ++ $")" ++ more) = Some [T ++ x; opts].
Proof.
  intros Hh Hk NL Once Op Cl. set (tail := kind ++ $"(" ++ opts ++ $")" ++ more) in *.
  assert (Nt : ~ In newline tail) by (intros X; apply NL; do 4 (apply in_or_app; right); exact X).
  assert (Tail : ~ occurs ($"primary key") (lower (tl (key ++ tail)))).
  { intros O. apply Once. unfold says in Hk. destruct key as [|k key]; [discriminate Hk|]. cbn [app tl] in O. rewrite lower_app in O.
    change (lower (k :: key)) with (lower_char k :: lower key) in Hk. change ($"primary key") with ("p"%char :: $"rimary key") in Hk. injection Hk as _ Hk.
    change ($"primary key") with ("p"%char :: $"rimary key") in *. apply (occurs_from _ _ (lower key)); [|exact O]. rewrite Hk. apply not_in_b. reflexivity. }
  assert (M1 : rmatch [RGroup; RLit ($")")] (opts ++ $")" ++ more) = Some [opts]).
  { apply group_at; [apply noch_in|reflexivity|discriminate|reflexivity|].
    - intros X. apply Nt. unfold tail. rewrite !in_app_iff. tauto.
    - intros x y E. change (tl ($")" ++ more)) with more in E. apply (rmatch_lacks ($")")); [left; reflexivity|]. intros O. apply Cl. apply (occurs_lower_char ")" y eq_refl) in O. rewrite E. apply in_or_app. right. exact O. }
  assert (M2 : rmatch [RAny; RLit ($"("); RGroup; RLit ($")")] tail = Some [opts]).
  { unfold tail. apply group_at; [apply noch_in|reflexivity|discriminate|exact M1|].
    - intros X. apply Nt. unfold tail. apply in_or_app. left. exact X.
    - intros x y E. change (tl ($"(" ++ opts ++ $")" ++ more)) with (opts ++ $")" ++ more) in E. destruct (rmatch _ y) as [g|] eqn:M; [|reflexivity]. exfalso.
      cbn [rmatch] in M. destruct (lit_prefix ($"(") y) as [z|] eqn:L; [|discriminate M]. apply (lit_char "(" y z eq_refl eq_refl) in L. subst y.
      assert (E' : (opts ++ $")") ++ more = x ++ "("%char :: z) by (rewrite <- app_assoc; exact E). destruct (suffix_of _ _ _ _ _ E') as [x' ->]; [apply not_in_app; [exact Op|apply not_in_b; reflexivity]|].
      assert (O' : occurs (lower ($")")) (lower z)) by (apply (rmatch_needs ($")") [RGroup; RLit ($")")] (or_intror (or_introl eq_refl)) z g); exact M).
      apply Cl. apply in_or_app. right. right. apply (occurs_lower_char ")" z eq_refl O'). }
  assert (G : forall G R, ~ In " "%char R -> ~ In newline (G ++ " "%char :: R) -> rmatch pk_pattern (head ++ G ++ $" " ++ R ++ key ++ tail) = Some [G; opts]).
  { intros G R NR NG. unfold pk_pattern. rewrite rmatch_lit by exact Hh. apply group_at; [apply noch_in|reflexivity|discriminate| |].
    - intros X. apply NG. apply in_or_app. left. exact X.
    - apply group_at; [apply noch_in|exact Hk|discriminate|exact M2|].
      + intros X. apply NG. apply in_or_app. right. right. exact X.
      + intros x y E. apply (rmatch_lacks ($"primary key")); [left; reflexivity|]. intros O. apply Tail. rewrite E, lower_app. apply occurs_app. right. exact O.
    - intros x y E. change (tl ($" " ++ R ++ key ++ tail)) with (R ++ key ++ tail) in E. destruct (rmatch _ y) as [g|] eqn:M; [|reflexivity]. exfalso.
      cbn [rmatch] in M. destruct (lit_prefix ($" ") y) as [z|] eqn:L; [|discriminate M]. apply (lit_char " " y z eq_refl eq_refl) in L. subst y.
      destruct (suffix_of _ _ _ _ _ E NR) as [x' E'].
      assert (O : occurs ($"primary key") (lower z)) by (apply (rmatch_needs ($"primary key") [RAny; RLit ($"primary key"); RAny; RLit ($"("); RGroup; RLit ($")")] (or_intror (or_introl eq_refl)) z g); exact M).
      apply Tail. rewrite E'. destruct x' as [|d x'].
      + exfalso. unfold says in Hk. destruct key as [|k key]; [discriminate Hk|]. injection E' as Ek _. rewrite Ek in Hk. discriminate Hk.
      + cbn [app tl]. rewrite lower_app. apply occurs_app. right. change (" "%char :: z) with ([" "%char] ++ z). rewrite lower_app. apply occurs_app. right. exact O. }
  destruct (in_dec ascii_dec " "%char words) as [I|I].
  - destruct (last_place _ _ I) as (a & b & -> & Nb). exists (" "%char :: a). split; [right; exists a; split; [reflexivity|intros c X; apply in_or_app; left; exact X]|].
    specialize (G (T ++ " "%char :: a) b Nb). rewrite <- ?app_assoc in G. rewrite <- ?app_assoc. apply G. intros X. apply NL. assert (Bn : " "%char <> newline) by discriminate. rewrite ?in_app_iff in *. cbn [In] in *. rewrite ?in_app_iff in *. cbn [In] in *. tauto.
  - exists []. split; [left; reflexivity|]. rewrite app_nil_r. apply G; [exact I|]. intros X. apply NL. assert (Bn : " "%char <> newline) by discriminate. rewrite ?in_app_iff in *. cbn [In] in *. rewrite ?in_app_iff in *. cbn [In] in *. tauto.
Qed.
Lemma heard_key s d n t opts x T : about_primary_key s -> rmatch pk_pattern s = Some [T ++ x; opts] -> extract_table_name (T ++ x) = Ok n -> get_table d n = Some t ->
  forall schema id, heard_statement schema id d s = (Ok (with_table d n (with_pk t (key_columns_of opts))), []).
Proof. intros A M E G schema id. rewrite heard_pk by exact A. unfold heard_primary_key. rewrite M, E, G. reflexivity. Qed.
Lemma alters_about s head x : alters_only s -> says ($"alter table ") head -> s = head ++ x -> alters s.
Proof.
  intros (A & B & C) H ->. constructor; try assumption. rewrite lower_app. apply occurs_app. left. rewrite H. exists [], ($" "). reflexivity.
Qed.
Lemma key_statement_heard schema id d k t : good_key_statement k -> get_table d (ka_table k) = Some t ->
  heard_statement schema id d (key_statement_text k) = (Ok (with_table d (ka_table k) (with_pk t (columns_names (ka_columns k)))), []).
Proof.
  intros [Cl On Hh Ta Wo Ke Nc Co Mo] G. assert (Nl := cs_newline _ Cl). assert (Tb := cs_tab _ Cl). change (ascii_of_nat 9) with tab in Tb. change (ascii_of_nat 10) with newline in Nl.
  unfold key_statement_text in *.
  assert (Nl' : ~ In newline (qualified (ka_path k) (ka_quoting k) (ka_table k) ++ $" " ++ ka_words k ++ ka_key k ++ ka_kind k ++ $"(" ++ columns_text (ka_columns k) ++ $")" ++ ka_more k)) by (intros X; apply Nl, in_or_app; right; exact X).
  destruct (pk_match (ka_head k) _ _ _ _ _ _ Hh Ke Nl' Nc (columns_paren _ "("%char Co ltac:(cbn; tauto)) Mo) as (x & X & M).
  rewrite <- (key_columns_read (ka_columns k) Co).
  2: { intros Y. apply Tb. rewrite !in_app_iff. cbn [In]. tauto. }
  apply (heard_key _ d (ka_table k) t _ x (qualified (ka_path k) (ka_quoting k) (ka_table k))); [|exact M| |exact G].
  - split; [eapply alters_about; [exact On|exact Hh|reflexivity]|]. rewrite !lower_app, Ke. do 4 (apply occurs_app; right). apply occurs_app. left. exists [], []. reflexivity.
  - apply extract_qualified; [exact Ta| |].
    + intros Y. apply Tb. apply in_or_app. right. apply in_or_app. left. unfold qualified. apply in_or_app. right. destruct (ka_quoting k); cbn [spell]; [exact Y| | | |]; right; apply in_or_app; left; exact Y.
    + destruct X as [->|[y [-> I]]]; [left; reflexivity|right]. exists y. split; [reflexivity|]. intros Y. apply Wo, I, Y.
Qed.

(** ** Foreign keys *)
From Verif Require ExcelRound.
Definition name_part (r : reference) : str := match rf_name r with Some x => spelled x ++ $" " | None => [] end.
Definition target_part (r : reference) : str := qualified (rf_path r) (rf_quoting r) (rf_table r).
Definition after_key (r : reference) (more : str) : str :=
  gap (rf_gap r) ++ $"(" ++ columns_text (rf_from r) ++ $") " ++ rf_references r ++ gap (rf_gap2 r)
  ++ target_part r ++ $" (" ++ columns_text (rf_to r) ++ $")" ++ more.
Lemma reference_split r : reference_text r = name_part r ++ rf_key r ++ after_key r (rf_more r).
Proof. reflexivity. Qed.
Lemma qualified_head path q n : (forall r m, In (r, m) path \/ (r, m) = (q, n) -> good_name r m) -> exists c s, qualified path q n = c :: s /\ is_space c = false.
Proof.
  intros H. assert (S : forall r m, good_name r m -> exists c s, spell r m = c :: s /\ is_space c = false).
  { intros r m G. pose proof (spell_hard r m (gn_some _ _ G) (gn_bare _ _ G)) as E. destruct (spell r m) as [|c s] eqn:F; [exfalso; exact (spell_nonnil r m (gn_some _ _ G) F)|].
    exists c, s. split; [reflexivity|]. rewrite ends_hard_eq in E. apply andb_true_iff in E. apply negb_true_iff, (proj1 E). }
  unfold qualified. destruct path as [|[r m] path].
  - apply S, H. right. reflexivity.
  - destruct (S r m (H r m (or_introl (or_introl eq_refl)))) as (c & s & E & B). unfold spelled at 1. cbn [flat_map fst snd]. rewrite E. cbn [app]. eauto.
Qed.
Lemma qualified_paren c path q n : (forall r m, In (r, m) path \/ (r, m) = (q, n) -> good_name r m) -> In c ["("; ")"; ","]%char -> ~ In c (qualified path q n).
Proof.
  intros H C. unfold qualified. apply not_in_app; [|apply spell_not_in; [apply (gn_free _ _ (H q n (or_intror eq_refl)))|cbn in *; tauto]].
  intros X. apply in_flat_map in X. destruct X as [[r0 m0] [X Y]]. apply in_app_or in Y. destruct Y as [Y|Y].
  - revert Y. apply spell_not_in; [apply (gn_free _ _ (H r0 m0 (or_introl X)))|cbn in *; tauto].
  - destruct Y as [Y|[]]. subst c. repeat (destruct C as [C|C]; [discriminate|]). destruct C.
Qed.
Lemma hard_not_blank c s t : is_space c = false -> c :: s <> " "%char :: t.
Proof. intros H E. injection E as -> _. discriminate H. Qed.
Definition fk_tail : regex := [RBlanks; RLit ($"("); RGroup; RLit ($") references"); RBlanks; RGroup; RLit ($" ("); RGroup; RLit ($")")].
Lemma tail_matches r more : good_columns (rf_from r) -> good_columns (rf_to r) -> good_target (rf_path r) (rf_quoting r) (rf_table r) -> says ($"references") (rf_references r) ->
  ~ In ")"%char more -> ~ In newline (after_key r more) ->
  rmatch fk_tail (after_key r more) = Some [columns_text (rf_from r); target_part r; columns_text (rf_to r)].
Proof.
  intros F T Ta Re Mo NL. unfold after_key in *.
  assert (NL' : ~ In newline (columns_text (rf_from r)) /\ ~ In newline (target_part r) /\ ~ In newline (columns_text (rf_to r))) by (rewrite !in_app_iff in NL; tauto). clear NL. destruct NL' as (N1 & N2 & N3).
  assert (Close : forall y, In ")"%char y <-> occurs (lower ($")")) (lower y)).
  { intros y. split; [intros X; apply in_split in X; destruct X as (a & b & ->); rewrite lower_app; apply occurs_app; right; exists [], (lower b); reflexivity|apply occurs_lower_char; reflexivity]. }
  assert (M1 : rmatch [RGroup; RLit ($")")] (columns_text (rf_to r) ++ $")" ++ more) = Some [columns_text (rf_to r)]).
  { apply group_at; [apply noch_in, N3|reflexivity|discriminate|reflexivity|]. intros x y E. change (tl ($")" ++ more)) with more in E. apply (rmatch_lacks ($")")); [left; reflexivity|]. rewrite <- Close. intros I. apply Mo. rewrite E. apply in_or_app. right. exact I. }
  set (rest := columns_text (rf_to r) ++ $")" ++ more) in *.
  assert (Late : forall z x (y : str), rest = x ++ z :: y -> z = "("%char -> ~ In ")"%char y).
  { intros z x y E ->. unfold rest in E. rewrite app_assoc in E. destruct (suffix_of _ _ _ _ _ E) as [x' Ex]; [apply not_in_app; [apply columns_paren; [exact T|cbn; tauto]|apply not_in_b; reflexivity]|].
    intros I. apply Mo. rewrite Ex. apply in_or_app. right. right. exact I. }
  assert (M2 : rmatch [RGroup; RLit ($" ("); RGroup; RLit ($")")] (target_part r ++ $" (" ++ rest) = Some [target_part r; columns_text (rf_to r)]).
  { apply group_at; [apply noch_in, N2|reflexivity|discriminate|exact M1|]. intros x y E. change (tl ($" (" ++ rest)) with ("("%char :: rest) in E.
    destruct (rmatch _ y) as [g|] eqn:M; [|reflexivity]. exfalso. cbn [rmatch] in M. destruct (lit_prefix ($" (") y) as [z|] eqn:L; [|discriminate M].
    change ($" (") with ([" "%char] ++ ["("%char]) in L. destruct (lit_prefix_some _ _ _ L) as [p0 [-> Lp]]. destruct p0 as [|c1 [|c2 [|c3 p0]]]; try discriminate Lp.
    assert (C2 : In "("%char [c2]).
    { apply occurs_lower_char; [reflexivity|]. change (lower [c1; c2]) with (lower_char c1 :: lower [c2]) in Lp. injection Lp as _ Lp. change (lower [c2]) with [lower_char c2]. rewrite Lp. exists [], []. reflexivity. }
    destruct C2 as [->|[]]. assert (O : In ")"%char z) by (apply Close, (rmatch_needs ($")") [RGroup; RLit ($")")] (or_intror (or_introl eq_refl)) z g); exact M).
    destruct x as [|e x]; cbn [app] in E.
    - injection E as E1 E2. apply (f_equal (@length _)) in Lp. clear Lp. destruct rest as [|d rest'] eqn:R; [discriminate E2|]. injection E2 as Ed E2. apply (Late d [] rest'); [reflexivity|exact Ed|rewrite E2; exact O].
    - injection E as _ E. apply (Late "("%char (x ++ [c1]) z); [rewrite E, <- app_assoc; reflexivity|reflexivity|exact O]. }
  destruct (qualified_head _ _ _ (gr_names _ _ _ Ta)) as (c & s & Ec & Bc).
  assert (M3 : rmatch [RGroup; RLit ($") references"); RBlanks; RGroup; RLit ($" ("); RGroup; RLit ($")")] (columns_text (rf_from r) ++ ($") " ++ rf_references r) ++ gap (rf_gap2 r) ++ target_part r ++ $" (" ++ rest)
    = Some [columns_text (rf_from r); target_part r; columns_text (rf_to r)]).
  { apply group_at; [apply noch_in, N1| |discriminate| |].
    - rewrite lower_app, Re. reflexivity.
    - apply blanks_gap; [|exact M2]. intros t. unfold target_part. rewrite Ec. apply hard_not_blank, Bc.
    - intros x y E. destruct (rmatch _ y) as [g|] eqn:M; [|reflexivity]. exfalso. cbn [rmatch] in M. destruct (lit_prefix ($") references") y) as [z|] eqn:L; [|discriminate M].
      destruct (lit_prefix_some _ _ _ L) as [p0 [-> Lp]]. destruct p0 as [|c1 p0]; [discriminate Lp|].
      assert (C1 : In ")"%char [c1]).
      { apply occurs_lower_char; [reflexivity|]. change (lower (c1 :: p0)) with (lower_char c1 :: lower p0) in Lp. change (lower ($") references")) with (")"%char :: $" references") in Lp. injection Lp as L1 _. change (lower [c1]) with [lower_char c1]. rewrite L1. exists [], []. reflexivity. }
      destruct C1 as [->|[]]. assert (O : In ")"%char z) by (apply Close, (rmatch_needs ($")") [RBlanks; RGroup; RLit ($" ("); RGroup; RLit ($")")] ltac:(cbn [In]; tauto) z g); exact M).
      assert (E' : ($" " ++ rf_references r ++ gap (rf_gap2 r) ++ target_part r ++ $" (" ++ columns_text (rf_to r)) ++ ")"%char :: more = x ++ ")"%char :: p0 ++ z).
      { etransitivity; [|exact E]. unfold rest. rewrite <- !app_assoc. reflexivity. }
      destruct (suffix_of _ _ _ _ _ E') as [x' Ex].
      + apply not_in_app; [apply not_in_b; reflexivity|]. apply not_in_app; [|apply not_in_app; [|apply not_in_app; [|apply not_in_app; [apply not_in_b; reflexivity|]]]].
        * intros X. assert (Y : In ")"%char ($"references")) by (rewrite <- Re; unfold lower; change (")"%char) with (lower_char ")"); apply in_map; exact X). revert Y. apply not_in_b. reflexivity.
        * destruct (rf_gap2 r); apply not_in_b; reflexivity.
        * apply qualified_paren; [apply (gr_names _ _ _ Ta)|cbn; tauto].
        * apply columns_paren; [exact T|cbn; tauto].
      + destruct x' as [|e x']; injection Ex as Ex.
        * apply Mo. rewrite Ex. apply in_or_app. right. exact O.
        * subst. apply Mo. rewrite !in_app_iff. cbn [In]. tauto. }
  unfold fk_tail. apply blanks_gap; [intros t; change ($"(" ++ ?z) with ("("%char :: z); discriminate|].
  change ($"(" ++ ?z) with (["("%char] ++ z) at 1. refine (eq_trans (rmatch_lit ($"(") ["("%char] _ _ eq_refl) _). rewrite <- M3. f_equal.
Qed.
Lemma tab_parts path q n c : In c n -> In c (qualified path q n).
Proof. intros Y. unfold qualified. apply in_or_app. right. destruct q; cbn [spell]; [exact Y| | | |]; right; apply in_or_app; left; exact Y. Qed.
Lemma reference_parts r more : good_reference r -> ~ In ")"%char more -> (forall x y, lower (name_part r ++ rf_key r ++ after_key r more) = x ++ $"foreign key" ++ y -> x = lower (name_part r)) ->
  ~ In newline (name_part r ++ rf_key r ++ after_key r more) -> ~ In tab (name_part r ++ rf_key r ++ after_key r more) ->
  fk_parts (name_part r ++ rf_key r ++ after_key r more)
  = Some (match rf_name r with Some (_, n) => Some n | None => None end, columns_names (rf_from r), Ok (rf_table r), columns_names (rf_to r)).
Proof.
  intros [(Wo & Ke & Re) Na Fr Ta To Pa Mo On] Cl Once NL TB.
  assert (M : rmatch fk_tail (after_key r more) = Some [columns_text (rf_from r); target_part r; columns_text (rf_to r)]) by (apply tail_matches; try assumption; rewrite !in_app_iff in NL; tauto).
  assert (TB' : ~ In tab (columns_text (rf_from r)) /\ ~ In tab (rf_table r) /\ ~ In tab (columns_text (rf_to r))).
  { unfold after_key in TB. rewrite !in_app_iff in TB. assert (X := tab_parts (rf_path r) (rf_quoting r) (rf_table r) tab). fold (target_part r) in X. tauto. }
  destruct TB' as (T1 & T2 & T3).
  assert (EX : extract_table_name (target_part r) = Ok (rf_table r)) by (rewrite <- (app_nil_r (target_part r)); apply extract_qualified; [exact Ta|exact T2|left; reflexivity]).
  unfold fk_parts. destruct (rf_name r) as [[q n]|] eqn:En.
  - destruct (Na q n eq_refl) as [Gn Qn]. assert (Np : name_part r = spell q n ++ $" ") by (unfold name_part; rewrite En; reflexivity). rewrite Np in *.
    assert (M' : rmatch named_fk_pattern ((spell q n ++ $" ") ++ rf_key r ++ after_key r more) = Some [spell q n; columns_text (rf_from r); target_part r; columns_text (rf_to r)]).
    { replace ((spell q n ++ $" ") ++ rf_key r ++ after_key r more) with (spell q n ++ ($" " ++ rf_key r) ++ after_key r more) by (rewrite <- !app_assoc; reflexivity).
      unfold named_fk_pattern. fold fk_tail. apply group_at; [apply noch_in; rewrite !in_app_iff in NL; tauto|rewrite lower_app, Ke; reflexivity|discriminate|exact M|].
      intros x y E. apply (rmatch_lacks ($" foreign key")); [left; reflexivity|]. intros (a & b & O). change (tl (($" " ++ rf_key r) ++ after_key r more)) with (rf_key r ++ after_key r more) in E.
      assert (X : lower (spell q n ++ $" ") ++ lower x ++ a ++ $" " = lower (spell q n ++ $" ")).
      { apply (Once _ b). rewrite E, !lower_app, O. rewrite <- !app_assoc. reflexivity. }
      apply (f_equal (@length _)) in X. rewrite !app_length in X. cbn [length] in X. change (length ($" ")) with 1 in X. lia. }
    rewrite M'. rewrite EX, !key_columns_read by assumption. f_equal. f_equal. f_equal. f_equal. f_equal. rewrite <- (app_nil_r (spell q n)). apply (clean_spelled false q n false); [exact Gn|exact Qn|].
    intros X. apply TB. rewrite !in_app_iff. left. left. destruct q; cbn [spell]; [exact X| | | |]; right; apply in_or_app; left; exact X.
  - assert (Np : name_part r = []) by (unfold name_part; rewrite En; reflexivity). rewrite Np in *. cbn [app] in *.
    rewrite (rmatch_lacks ($" foreign key") named_fk_pattern); [|right; left; reflexivity|].
    2: { intros (a & b & O). assert (X : a ++ $" " = lower []) by (apply (Once _ b); rewrite O, <- app_assoc; reflexivity). destruct a; discriminate X. }
    unfold unnamed_fk_pattern. fold fk_tail. rewrite (rmatch_lit ($"foreign key") (rf_key r)) by exact Ke. rewrite M. rewrite EX, !key_columns_read by assumption. reflexivity.
Qed.
(** stripping the end *)
Lemma lstrip_keeps {A} (f : A -> bool) (dropw : list A -> list A) : (forall l, dropw l = match l with [] => [] | x :: l' => if f x then dropw l' else l end) ->
  forall b a x, f x = false -> exists b' z, dropw (b ++ x :: a) = b' ++ x :: a /\ b = z ++ b'.
Proof.
  intros D b a x F. induction b as [|y b IH]; cbn [app]; rewrite D.
  - rewrite F. exists [], []. split; reflexivity.
  - destruct (f y).
    + destruct IH as (b' & z & -> & E). exists b', (y :: z). split; [reflexivity|]. rewrite E. reflexivity.
    + exists (y :: b), []. split; reflexivity.
Qed.
Definition strips (f : ascii -> bool) (op : str -> str) : Prop :=
  forall a x m y b, f x = false -> f y = false -> forallb f a = true -> exists b' z, op (a ++ x :: m ++ y :: b) = x :: m ++ y :: b' /\ b = b' ++ z.
Lemma strips_by (f : ascii -> bool) (dropw : str -> str) : (forall l, dropw l = match l with [] => [] | x :: l' => if f x then dropw l' else l end) -> strips f (fun s => rev (dropw (rev (dropw s)))).
Proof.
  intros D a x m y b Fx Fy Fa. assert (E : dropw (a ++ x :: m ++ y :: b) = x :: m ++ y :: b).
  { induction a as [|z a IH]; cbn [app]; rewrite D; [rewrite Fx; reflexivity|]. cbn [forallb] in Fa. apply andb_true_iff in Fa. destruct Fa as [-> Fa]. apply IH, Fa. }
  rewrite E. replace (rev (x :: m ++ y :: b)) with (rev b ++ y :: rev (x :: m)).
  2: { change (x :: m ++ y :: b) with ((x :: m) ++ y :: b). rewrite rev_app_distr. cbn [rev]. rewrite <- !app_assoc. reflexivity. }
  destruct (lstrip_keeps f dropw D (rev b) (rev (x :: m)) y Fy) as (b' & z & -> & I). exists (rev b'), (rev z). split.
  - rewrite rev_app_distr. change (rev (y :: rev (x :: m))) with (rev (rev (x :: m)) ++ [y]). rewrite rev_involutive, <- app_assoc. reflexivity.
  - rewrite <- (rev_involutive b), I, rev_app_distr. reflexivity.
Qed.
Lemma strip_strips : strips is_space strip.
Proof. apply (strips_by is_space lstrip). intros [|x l]; reflexivity. Qed.
Lemma strip_char_strips c : strips (fun x => Ascii.eqb x c) (strip_char c).
Proof. apply (strips_by (fun x => Ascii.eqb x c) (lstrip_char c)). intros [|x l]; reflexivity. Qed.
Lemma all_stripped x m y b : is_space x = false -> is_space y = false -> x <> ","%char -> y <> ","%char -> x <> ";"%char -> y <> ";"%char ->
  exists b' z, strip (strip_char ";" (strip_char "," (strip ($" " ++ x :: m ++ y :: b)))) = x :: m ++ y :: b' /\ b = b' ++ z.
Proof.
  intros Sx Sy Cx Cy Ex Ey. destruct (strip_strips ($" ") x m y b Sx Sy eq_refl) as (b1 & z1 & -> & I1).
  destruct (strip_char_strips "," [] x m y b1) as (b2 & z2 & E2 & I2); [apply Ascii.eqb_neq, Cx|apply Ascii.eqb_neq, Cy|reflexivity|]. cbn [app] in E2. rewrite E2.
  destruct (strip_char_strips ";" [] x m y b2) as (b3 & z3 & E3 & I3); [apply Ascii.eqb_neq, Ex|apply Ascii.eqb_neq, Ey|reflexivity|]. cbn [app] in E3. rewrite E3.
  destruct (strip_strips [] x m y b3 Sx Sy eq_refl) as (b4 & z4 & E4 & I4). cbn [app] in E4. rewrite E4. exists b4, (z4 ++ z3 ++ z2 ++ z1). split; [reflexivity|]. rewrite I1, I2, I3, I4, <- !app_assoc. reflexivity.
Qed.
(** one piece between the keywords, with what follows it *)
Lemma occurs_before (p : str) c a b x y : ~ In c p -> x ++ p ++ y = a ++ c :: b -> (exists y', a = x ++ p ++ y') \/ exists x', x = a ++ c :: x'.
Proof.
  intros N E. destruct (le_lt_dec (length (x ++ p)) (length a)) as [L|L].
  - left. exists (skipn (length (x ++ p)) a). assert (F : x ++ p = firstn (length (x ++ p)) a).
    { apply (f_equal (firstn (length (x ++ p)))) in E. rewrite app_assoc, firstn_app, firstn_all, Nat.sub_diag, firstn_O, app_nil_r in E. rewrite firstn_app in E.
      replace (length (x ++ p) - length a) with 0 in E by lia. rewrite firstn_O, app_nil_r in E. exact E. }
    rewrite app_assoc. rewrite F at 1. symmetry. apply firstn_skipn.
  - right. destruct (le_lt_dec (length x) (length a)) as [M|M].
    + exfalso. apply N. assert (X : nth_error (a ++ c :: b) (length a) = Some c) by (rewrite nth_error_app2, Nat.sub_diag by lia; reflexivity).
      rewrite <- E, nth_error_app2, nth_error_app1 in X by (rewrite ?app_length in L; lia). eapply nth_error_In. exact X.
    + exists (skipn (S (length a)) x). assert (F : firstn (S (length a)) x = a ++ [c]).
      { apply (f_equal (firstn (S (length a)))) in E. rewrite firstn_app in E. replace (S (length a) - length x) with 0 in E by lia. rewrite firstn_O, app_nil_r in E. rewrite E, firstn_app.
        rewrite firstn_all2 by lia. replace (S (length a) - length a) with 1 by lia. reflexivity. }
      change (a ++ c :: skipn (S (length a)) x) with (a ++ [c] ++ skipn (S (length a)) x). rewrite app_assoc, <- F. symmetry. apply firstn_skipn.
Qed.
Lemma piece_parts r rest : good_reference r -> rest = [] \/ rest = $", " -> ~ In newline (reference_text r) -> ~ In tab (reference_text r) -> ~ In ";"%char (reference_text r) ->
  fk_parts (strip (strip_char ";" (strip_char "," (strip ($" " ++ reference_text r ++ rest)))))
  = Some (match rf_name r with Some (_, n) => Some n | None => None end, columns_names (rf_from r), Ok (rf_table r), columns_names (rf_to r)).
Proof.
  intros G R NL TB SE. assert (G' := G). destruct G' as [(Wo & Ke & Re) Na Fr Ta To Pa Mo [On1 On2]]. rewrite reference_split in *.
  set (core := name_part r ++ rf_key r ++ gap (rf_gap r) ++ $"(" ++ columns_text (rf_from r) ++ $") " ++ rf_references r ++ gap (rf_gap2 r) ++ target_part r ++ $" (" ++ columns_text (rf_to r)).
  assert (Sp : forall m, name_part r ++ rf_key r ++ after_key r m = core ++ ")"%char :: m) by (intros m; unfold core, after_key; rewrite <- !app_assoc; reflexivity).
  assert (Hx : exists x m, core = x :: m /\ is_space x = false /\ x <> ","%char).
  { unfold core, name_part. destruct (rf_name r) as [[q n]|] eqn:En.
    - destruct (Na q n eq_refl) as [Gn _]. assert (S := spell_hard q n (gn_some _ _ Gn) (gn_bare _ _ Gn)). assert (C := spell_not_in q n ","%char (gn_free _ _ Gn) ltac:(cbn; tauto)). unfold spelled. cbn [fst snd].
      destruct (spell q n) as [|x m] eqn:F; [exfalso; exact (spell_nonnil q n (gn_some _ _ Gn) F)|]. cbn [app]. exists x. eexists. split; [reflexivity|]. rewrite ends_hard_eq in S. apply andb_true_iff in S.
      split; [apply negb_true_iff, (proj1 S)|]. intros ->. apply C. left. reflexivity.
    - unfold says in Ke. destruct (rf_key r) as [|x m]; [discriminate Ke|]. cbn [app]. exists x. eexists. split; [reflexivity|].
      change (lower (x :: m)) with (lower_char x :: lower m) in Ke. change ($"foreign key") with ("f"%char :: $"oreign key") in Ke. injection Ke as Ke _. split.
      + assert (F : forall c, (negb (Ascii.eqb (lower_char c) "f") || negb (is_space c)) = true) by (apply all_chars; reflexivity). pose proof (F x) as X. rewrite Ke in X. apply negb_true_iff, X.
      + intros ->. discriminate Ke. }
  destruct Hx as (x & m & Ec & Sx & Cx). rewrite Sp in *. rewrite <- app_assoc. cbn [app]. rewrite Ec in *.
  assert (Ex : x <> ";"%char) by (intros ->; apply SE; left; reflexivity).
  destruct (all_stripped x m ")"%char (rf_more r ++ rest) Sx eq_refl Cx) as (b' & z & E & I); [discriminate|exact Ex|discriminate|]. cbn [app]. rewrite E.
  change (x :: m ++ ")"%char :: b') with ((x :: m) ++ ")"%char :: b'). rewrite <- Ec in *. rewrite <- Sp.
  assert (Ib : forall c, In c b' -> In c (rf_more r) \/ In c rest) by (intros c Hc; apply in_app_or; rewrite I; apply in_or_app; left; exact Hc).
  assert (Rc : forall c, In c rest -> c = ","%char \/ c = " "%char) by (intros c Hc; destruct R as [-> | ->]; [destruct Hc|destruct Hc as [<-|[<-|[]]]; tauto]).
  apply reference_parts; [exact G| | | |].
  - intros X. apply Ib in X. destruct X as [X|X]; [contradiction|]. apply Rc in X. destruct X; discriminate.
  - intros u v O. rewrite Sp in O. assert (O' : u ++ $"foreign key" ++ (v ++ lower z) = lower ((core ++ ")"%char :: rf_more r) ++ rest)).
    { replace ((core ++ ")"%char :: rf_more r) ++ rest) with ((core ++ ")"%char :: b') ++ z) by (rewrite <- !app_assoc; cbn [app]; rewrite I; reflexivity).
      rewrite (lower_app _ z), O, <- !app_assoc. reflexivity. }
    destruct R as [-> | ->]; [rewrite app_nil_r in O'; apply (On2 u (v ++ lower z)); symmetry; exact O'|].
    rewrite (lower_app _ ($", ")) in O'. change (lower ($", ")) with [","; " "]%char in O'. destruct (occurs_before _ ","%char _ _ _ _ (not_in_b ","%char ($"foreign key") eq_refl) O') as [[y' Y]|[x' X]].
    + apply (On2 u y'). exact Y.
    + exfalso. apply (f_equal (@length _)) in O'. rewrite X, !app_length in O'. cbn [length] in O'. change (length ($"foreign key")) with 11 in O'. lia.
  - intros X. apply NL. rewrite Sp in X. rewrite !in_app_iff in *. cbn [In] in *. destruct X as [X|[X|X]]; [tauto|tauto|]. apply Ib in X. destruct X as [X|X]; [tauto|]. apply Rc in X. destruct X; discriminate.
  - intros X. apply TB. rewrite Sp in X. rewrite !in_app_iff in *. cbn [In] in *. destruct X as [X|[X|X]]; [tauto|tauto|]. apply Ib in X. destruct X as [X|X]; [tauto|]. apply Rc in X. destruct X; discriminate.
Qed.
Lemma resplit_cons p p0 a c b : lower p0 = lower p -> p <> [] -> ~ In (lower_char c) (lower p) -> contains (lower p) (lower a) = false ->
  resplit p (a ++ c :: p0 ++ b) = (a ++ [c]) :: resplit p b.
Proof.
  intros L Np C A. unfold resplit. assert (H0 : resplit_aux p 0 (p0 ++ b) = [] :: resplit_aux p 0 b).
  { destruct p0 as [|x p0]; [destruct p; [contradiction|discriminate]|]. cbn [app resplit_aux]. change (x :: p0 ++ b) with ((x :: p0) ++ b). rewrite lit_prefix_app by exact L.
    rewrite resplit_skip; [reflexivity|]. apply (f_equal (@length _)) in L. rewrite !lower_length in L. cbn [length] in L. lia. }
  induction a as [|x a IH].
  - cbn [app resplit_aux]. assert (Q : lit_prefix p (c :: p0 ++ b) = None) by (apply (lit_prefix_sep p c [] (p0 ++ b) C A)). rewrite Q, H0. reflexivity.
  - cbn [app resplit_aux]. change (x :: a ++ c :: p0 ++ b) with ((x :: a) ++ c :: p0 ++ b). rewrite lit_prefix_sep by assumption. cbn [app]. rewrite IH; [reflexivity|]. apply (nocc_within _ [lower_char x] _ []). rewrite app_nil_r. exact A.
Qed.
Fixpoint pieces (l : list reference) : list str :=
  match l with
  | [] => []
  | [r] => [$" " ++ reference_text r ++ []]
  | r :: l' => ($" " ++ reference_text r ++ $", ") :: pieces l'
  end.
Lemma resplit_references pre l : l <> [] -> contains ($"constraint") (lower pre) = false -> (forall r, In r l -> says ($"constraint") (rf_word r) /\ ~ occurs ($"constraint") (lower (reference_text r))) ->
  resplit ($"constraint") (pre ++ references_text l) = (pre ++ $" ") :: pieces l.
Proof.
  unfold references_text. revert pre. induction l as [|r l IH]; intros pre N P H; [contradiction|]. destruct (H r (or_introl eq_refl)) as [W O]. assert (O' : contains ($"constraint") (lower ($" " ++ reference_text r)) = false).
  { rewrite lower_app. change (lower ($" ")) with ([] ++ [" "%char]). rewrite <- app_assoc. apply nocc_sep; [apply not_in_b; reflexivity|reflexivity|apply contains_false, O]. }
  destruct l as [|r' l].
  - cbn [map join pieces]. change ($" " ++ rf_word r ++ $" " ++ reference_text r) with (" "%char :: rf_word r ++ ($" " ++ reference_text r)).
    rewrite resplit_cons; [|exact W|discriminate|apply not_in_b; reflexivity|exact P]. unfold resplit. rewrite resplit_none by exact O'. rewrite app_nil_r. reflexivity.
  - change (map ?f (r :: r' :: l)) with (f r :: map f (r' :: l)). rewrite join_cons by discriminate. cbn beta.
    replace (pre ++ ($" " ++ rf_word r ++ $" " ++ reference_text r) ++ $"," ++ join ($",") (map (fun r0 => $" " ++ rf_word r0 ++ $" " ++ reference_text r0) (r' :: l)))
      with (pre ++ " "%char :: rf_word r ++ (($" " ++ reference_text r ++ $",") ++ join ($",") (map (fun r0 => $" " ++ rf_word r0 ++ $" " ++ reference_text r0) (r' :: l)))) by (rewrite <- ?app_assoc; cbn [app]; rewrite <- ?app_assoc; reflexivity).
    rewrite resplit_cons; [|exact W|discriminate|apply not_in_b; reflexivity|exact P]. f_equal. rewrite IH.
    + change (pieces (r :: r' :: l)) with (($" " ++ reference_text r ++ $", ") :: pieces (r' :: l)). f_equal. rewrite <- !app_assoc. reflexivity.
    + discriminate.
    + rewrite app_assoc, lower_app. apply (nocc_sep _ ","%char _ []); [apply not_in_b; reflexivity|exact O'|reflexivity].
    + intros x X. apply H. right. exact X.
Qed.
Lemma references_loop s n l : forall d t, get_table d n = Some t -> (forall r, In r l -> good_reference r /\ ~ In newline (reference_text r) /\ ~ In tab (reference_text r) /\ ~ In ";"%char (reference_text r)) ->
  heard_fk_loop s n (pieces l) d = (with_table d n (with_references t l), []).
Proof.
  induction l as [|r l IH]; intros d t G H.
  - cbn [pieces heard_fk_loop]. unfold with_references. cbn [map fold_left]. replace (with_fks t (t_fks t)) with t by (destruct t; reflexivity). f_equal. symmetry. apply (ExcelRound.store_same d n t G).
  - destruct (H r (or_introl eq_refl)) as (Gr & N1 & N2 & N3).
    assert (E : heard_fk_loop s n (pieces (r :: l)) d = heard_fk_loop s n (pieces l) (store_table d n (add_fk_obj t (reference_key (t_name t) r)))).
    { assert (Go : forall rest cs, rest = [] \/ rest = $", " -> heard_fk_loop s n (($" " ++ reference_text r ++ rest) :: cs) d = heard_fk_loop s n cs (store_table d n (add_fk_obj t (reference_key (t_name t) r)))).
      { intros rest cs R. cbn [heard_fk_loop]. cbn zeta. rewrite (piece_parts r rest Gr R N1 N2 N3). rewrite G. unfold add_fk_parts, mk_foreign_key. cbn [keys_list bind].
        assert (Len : length (columns_names (rf_from r)) = length (columns_names (rf_to r))) by (unfold columns_names; rewrite !map_length; apply (gf_pairs _ Gr)). rewrite Len, Nat.eqb_refl. cbn [negb bind].
        f_equal. f_equal. f_equal. unfold reference_key, default_fk_name. destruct (rf_name r) as [[q m]|]; reflexivity. }
      destruct l as [|r' l]; [apply (Go [] []); left; reflexivity|]. apply (Go ($", ") (pieces (r' :: l))). right. reflexivity. }
    rewrite E, (IH _ (add_fk_obj t (reference_key (t_name t) r))); [|apply ExcelRound.get_store|intros x X; apply H; right; exact X].
    f_equal. unfold with_table. cbn [db_name db_tables db_schemas store_table]. rewrite ExcelRound.dset_twice. reflexivity.
Qed.
Lemma reference_within r l c : In r l -> In c (reference_text r) -> In c (references_text l).
Proof.
  unfold references_text. intros H C. induction l as [|x l IH]; [destruct H|]. assert (P : x = r -> In c ($" " ++ rf_word x ++ $" " ++ reference_text x)) by (intros ->; rewrite !in_app_iff; tauto).
  destruct l as [|y l].
  - destruct H as [H|[]]. apply P, H.
  - change (map ?f (x :: y :: l)) with (f x :: map f (y :: l)). rewrite join_cons by discriminate. rewrite !in_app_iff. destruct H as [H|H]; [left; rewrite <- !in_app_iff; apply P, H|right; right; apply IH, H].
Qed.
Lemma references_heard schema id d head T add l : says ($"alter table ") head -> says ($"add") add -> l <> [] -> (forall r, In r l -> good_reference r) ->
  clean_statement (head ++ T ++ $" " ++ add ++ references_text l) -> alters_only (head ++ T ++ $" " ++ add ++ references_text l) -> ~ occurs ($"primary key") (lower (head ++ T ++ $" " ++ add ++ references_text l)) ->
  ~ occurs ($" add") (lower (references_text l)) -> ~ occurs ($"constraint") (lower T) ->
  heard_statement schema id d (head ++ T ++ $" " ++ add ++ references_text l)
  = (let '(d', ms) := heard_fk_loop (head ++ T ++ $" " ++ add ++ references_text l) (clean_name T) (pieces l) d in (Ok d', ms))
  /\ forall r, In r l -> good_reference r /\ ~ In newline (reference_text r) /\ ~ In tab (reference_text r) /\ ~ In ";"%char (reference_text r).
Proof.
  intros Hh Ha So Re Cl On Np O1 O2. assert (NL := cs_newline _ Cl). assert (TB := cs_tab _ Cl). assert (SE := cs_semi _ Cl). change (ascii_of_nat 9) with tab in TB. change (ascii_of_nat 10) with newline in NL.
  assert (W : forall r c, In r l -> ~ In c (head ++ T ++ $" " ++ add ++ references_text l) -> ~ In c (reference_text r)).
  { intros r c I X Y. apply X. rewrite !in_app_iff. pose proof (reference_within _ _ _ I Y). tauto. }
  split; [|intros r I; split; [apply Re, I|]; split; [apply (W r _ I NL)|]; split; [apply (W r _ I TB)|apply (W r _ I SE)]].
  rewrite heard_fk.
  2: { split; [eapply alters_about; [exact On|exact Hh|reflexivity]|]. split; [exact Np|]. destruct l as [|r l]; [contradiction|]. rewrite !lower_app. do 4 (apply occurs_app; right).
       assert (I : occurs ($"foreign") (lower ($" " ++ rf_word r ++ $" " ++ reference_text r))).
       { rewrite !lower_app. do 3 (apply occurs_app; right). rewrite reference_split, !lower_app. apply occurs_app. right. apply occurs_app. left. rewrite (proj1 (proj2 (gf_word _ (Re r (or_introl eq_refl))))). exists [], ($" key"). reflexivity. }
       unfold references_text. destruct l as [|y l]; [exact I|]. change (map ?f (r :: y :: l)) with (f r :: map f (y :: l)). rewrite join_cons by discriminate. rewrite lower_app. apply occurs_app. left. exact I. }
  unfold heard_foreign_key.
  assert (M : rmatch add_pattern (head ++ T ++ $" " ++ add ++ references_text l) = Some [T]).
  { unfold add_pattern. rewrite rmatch_lit by exact Hh. rewrite (app_assoc ($" ")). apply group_at; [apply noch_in|rewrite lower_app, Ha; reflexivity|discriminate| |].
    - rewrite !in_app_iff in NL. tauto.
    - apply any_end, noch_in. rewrite !in_app_iff in NL. tauto.
    - intros x y E. apply (rmatch_lacks ($" add")); [left; reflexivity|]. intros O. apply O1. change (tl (($" " ++ add) ++ references_text l)) with (add ++ references_text l) in E.
      assert (O' : occurs ($" add") (lower (add ++ references_text l))) by (rewrite E, lower_app; apply occurs_app; right; exact O).
      rewrite lower_app, Ha in O'. change ($" add") with (" "%char :: $"add") in O' |- *. apply occurs_from in O'; [exact O'|apply not_in_b; reflexivity]. }
  assert (R : resplit ($"constraint") (head ++ T ++ $" " ++ add ++ references_text l) = ((head ++ T ++ $" " ++ add) ++ $" ") :: pieces l).
  { replace (head ++ T ++ $" " ++ add ++ references_text l) with ((head ++ T ++ $" " ++ add) ++ references_text l) by (rewrite <- !app_assoc; reflexivity).
    apply resplit_references; [exact So| |intros r I; split; [apply (proj1 (gf_word _ (Re r I)))|apply (proj1 (gf_once _ (Re r I)))]].
    rewrite !lower_app, Hh, Ha. change ($"alter table ") with (($"alter table") ++ [" "%char]). rewrite <- app_assoc. apply (nocc_sep _ " "%char ($"alter table")); [apply not_in_b; reflexivity|reflexivity|].
    apply (nocc_sep _ " "%char); [apply not_in_b; reflexivity|apply contains_false, O2|reflexivity]. }
  rewrite M, R. cbn [tl]. reflexivity.
Qed.
Lemma reference_statement_heard schema id d s t : good_reference_statement s -> get_table d (ra_table s) = Some t ->
  heard_statement schema id d (reference_statement_text s) = (Ok (with_table d (ra_table s) (with_references t (ra_references s))), []).
Proof.
  intros [Cl [On Np] [Hh Ha] Nm Qu So Re [O1 O2]] G. destruct (references_heard schema id d _ _ _ _ Hh Ha So Re Cl On Np O1 O2) as [H K]. unfold reference_statement_text. rewrite H.
  rewrite clean_qualified; [|exact Nm|exact Qu|]. 2: { intros X. apply (cs_tab _ Cl). unfold reference_statement_text. rewrite !in_app_iff. right. left. apply tab_parts, X. }
  rewrite (references_loop _ _ _ d t G K). reflexivity.
Qed.

(** ** Relationships *)
Lemma prefix_of (a b c d : str) : a ++ b = c ++ d -> length c <= length a -> exists y, a = c ++ y.
Proof.
  revert a. induction c as [|x c IH]; intros a E L; [exists a; reflexivity|]. destruct a as [|z a]; [cbn in L; lia|]. injection E as -> E.
  destruct (IH a E) as [y ->]; [cbn in L; lia|]. exists y. reflexivity.
Qed.
Lemma same_cut (a b c d : str) : a ++ b = c ++ d -> length a = length c -> b = d.
Proof.
  revert c. induction a as [|x a IH]; intros [|y c] E L; try discriminate; [exact E|]. injection E as _ E. apply (IH c E). cbn in L. lia.
Qed.
Lemma relation_statement_heard schema id d s t : good_relation_statement s -> get_table d (la_table s) = Some t ->
  heard_statement schema id d (relation_statement_text s)
  = (Ok (with_table d (la_table s) (with_rels t (dset (rel_name (statement_relation (t_name t) s)) (statement_relation (t_name t) s) (t_rels t)))), []).
Proof.
  intros [Cl (On & Np & Nf) (Hh & Ha & Hw & Has) Ta Na To (U1 & U2 & U3 & U4)] G. assert (NL := cs_newline _ Cl). assert (TB := cs_tab _ Cl). change (ascii_of_nat 9) with tab in TB. change (ascii_of_nat 10) with newline in NL.
  rewrite heard_rel.
  2: { split; [eapply alters_about; [exact On|exact Hh|reflexivity]|]. split; [exact Np|]. split; [exact Nf|]. unfold relation_statement_text, relation_rest. rewrite !lower_app. do 3 (apply occurs_app; right). apply occurs_app. left. rewrite Ha. exists ($"add "), []. reflexivity. }
  set (T := relation_target s) in *. set (To' := qualified (la_to_path s) (la_to_quoting s) (la_to_table s)) in *.
  assert (T1 : extract_table_name T = Ok (la_table s)).
  { rewrite <- (app_nil_r T). apply extract_qualified; [exact Ta| |left; reflexivity]. intros X. apply TB. unfold relation_statement_text. apply in_or_app. right. apply in_or_app. left. apply tab_parts, X. }
  assert (T2 : extract_table_name To' = Ok (la_to_table s)).
  { rewrite <- (app_nil_r To'). apply extract_qualified; [exact To| |left; reflexivity]. intros X. apply TB. unfold relation_statement_text, relation_rest, relation_tail. rewrite !in_app_iff. pose proof (tab_parts (la_to_path s) (la_to_quoting s) (la_to_table s) _ X). tauto. }
  assert (NLs : ~ In newline T /\ ~ In newline (relation_rest s) /\ ~ In newline To' /\ ~ In newline (la_condition s)).
  { unfold relation_statement_text in NL. fold T in NL. rewrite !in_app_iff in NL. unfold relation_rest, relation_tail in *. fold To' in NL. rewrite !in_app_iff in *. tauto. }
  destruct NLs as (N1 & N2 & N3 & N4).
  assert (M4 : rmatch [RGroup; RLit ($" as "); RGroup] (relation_tail s) = Some [To'; la_condition s]).
  { unfold relation_tail. fold To'. replace (To' ++ $" " ++ la_as s ++ $" " ++ la_condition s) with (To' ++ ($" " ++ la_as s ++ $" ") ++ la_condition s) by (rewrite <- !app_assoc; reflexivity).
    apply group_at; [apply noch_in, N3|rewrite !lower_app, Has; reflexivity|discriminate|apply group_end, noch_in, N4|]. intros x y E. apply (rmatch_lacks ($" as ")); [left; reflexivity|]. intros O. apply U4.
    change (tl (($" " ++ la_as s ++ $" ") ++ la_condition s)) with ((la_as s ++ $" ") ++ la_condition s) in E. rewrite app_assoc, E, lower_app. apply occurs_app. right. exact O. }
  unfold heard_relationship.
  assert (P : rel_parts (relation_statement_text s) = Some (Ok (la_table s), match la_name s with Some (_, n) => Some n | None => None end, Ok (la_to_table s), la_condition s)).
  { unfold rel_parts, relation_statement_text. fold T. destruct (la_name s) as [[q n]|] eqn:En.
    - destruct (Na q n eq_refl) as [Gn Qn]. assert (Er : relation_rest s = (la_add s ++ $" ") ++ spell q n ++ ($" " ++ la_with s ++ $" ") ++ relation_tail s) by (unfold relation_rest; rewrite En; unfold spelled; cbn [fst snd]; rewrite <- !app_assoc; reflexivity).
      assert (M : rmatch named_rel_pattern (la_head s ++ T ++ $" " ++ relation_rest s) = Some [T; spell q n; To'; la_condition s]).
      { unfold named_rel_pattern. rewrite rmatch_lit by exact Hh. rewrite Er.
        replace (T ++ $" " ++ (la_add s ++ $" ") ++ spell q n ++ ($" " ++ la_with s ++ $" ") ++ relation_tail s) with (T ++ ($" " ++ la_add s ++ $" ") ++ spell q n ++ ($" " ++ la_with s ++ $" ") ++ relation_tail s) by (rewrite <- !app_assoc; reflexivity).
        apply group_at; [apply noch_in, N1|rewrite !lower_app, Ha; reflexivity|discriminate| |].
        - apply group_at; [apply noch_in; rewrite Er, !in_app_iff in N2; tauto|rewrite !lower_app, Hw; reflexivity|discriminate|exact M4|]. intros x y E. apply (rmatch_lacks ($" with ")); [left; reflexivity|]. intros O. apply U3.
          change (tl (($" " ++ la_with s ++ $" ") ++ relation_tail s)) with ((la_with s ++ $" ") ++ relation_tail s) in E. rewrite app_assoc, E, lower_app. apply occurs_app. right. exact O.
        - intros x y E. apply (rmatch_lacks ($" add relationship ")); [left; reflexivity|]. intros O. apply U2.
          assert (E' : relation_rest s = x ++ y) by (rewrite Er; etransitivity; [|exact E]; rewrite <- !app_assoc; reflexivity). rewrite E', lower_app. apply occurs_app. right. exact O. }
      rewrite M, T1, T2. f_equal. f_equal. f_equal. f_equal. f_equal. rewrite <- (app_nil_r (spell q n)). apply (clean_spelled false q n false); [exact Gn|exact Qn|]. intros X. apply TB. unfold relation_statement_text. rewrite Er, !in_app_iff.
      do 2 right. right. right. left. destruct q; cbn [spell]; [exact X| | | |]; right; apply in_or_app; left; exact X.
    - assert (Er : relation_rest s = (la_add s ++ $" ") ++ la_with s ++ $" " ++ relation_tail s) by (unfold relation_rest; rewrite En, <- !app_assoc; reflexivity).
      assert (M : rmatch named_rel_pattern (la_head s ++ T ++ $" " ++ relation_rest s) = None).
      { unfold named_rel_pattern. rewrite rmatch_lit by exact Hh. cbn [rmatch]. rewrite star_none; [reflexivity|]. intros w r' E.
        destruct (lit_prefix ($" add relationship ") r') as [x|] eqn:L; [|reflexivity]. destruct (lit_prefix_some _ _ _ L) as [p0 [-> Lp]].
        assert (Lw : length p0 = length (la_add s ++ $"  ")) by (apply (f_equal (@length _)) in Lp; rewrite !lower_length in Lp; rewrite Lp; unfold says in Ha; apply (f_equal (@length _)) in Ha; rewrite lower_length in Ha; rewrite app_length, Ha; reflexivity).
        destruct (lt_eq_lt_dec (length w) (length T)) as [[H|H]|H].
        - exfalso. apply U1. assert (X : exists y, lower (T ++ $" " ++ la_add s) = lower (w ++ p0) ++ y).
          { destruct (prefix_of (T ++ $" " ++ la_add s) ($" " ++ la_with s ++ $" " ++ relation_tail s) (w ++ p0) x) as [y Y].
            - rewrite <- (app_assoc w), <- E, Er, <- !app_assoc. reflexivity.
            - rewrite !app_length, Lw, app_length. change (length ($"  ")) with 2. change (length ($" ")) with 1. lia.
            - exists (lower y). rewrite <- lower_app, Y. reflexivity. }
          destruct X as [y X]. replace (lower (T ++ $" add relationship")) with (lower (T ++ $" " ++ la_add s)) by (rewrite !lower_app, Ha; reflexivity). rewrite X, lower_app, Lp. exists (lower w), y. rewrite <- app_assoc. reflexivity.
        - assert (Ex : x = la_with s ++ $" " ++ relation_tail s).
          { assert (E' : (T ++ $" " ++ la_add s ++ $" ") ++ la_with s ++ $" " ++ relation_tail s = (w ++ p0) ++ x) by (rewrite <- (app_assoc w), <- E, Er, <- !app_assoc; reflexivity).
            symmetry. apply (same_cut _ _ _ _ E'). rewrite !app_length, Lw, app_length, H. change (length ($"  ")) with 2. change (length ($" ")) with 1. lia. }
          change (rmatch [RGroup; RLit ($" with "); RGroup; RLit ($" as "); RGroup] x = None). apply (rmatch_lacks ($" with ")); [right; left; reflexivity|]. rewrite Ex. exact U3.
        - exfalso. apply U2. assert (Ex : exists y, relation_rest s = y ++ p0 ++ x).
          { rewrite (app_assoc T) in E. destruct (prefix_of w (p0 ++ x) (T ++ $" ") (relation_rest s)) as [y Y]; [symmetry; exact E|rewrite app_length; change (length ($" ")) with 1; lia|].
            exists y. rewrite Y, <- (app_assoc (T ++ $" ")) in E. apply app_inv_head in E. exact E. }
          destruct Ex as [y Ex].
          rewrite Ex, !lower_app. apply occurs_app. right. apply occurs_app. left. rewrite Lp. exists [], []. reflexivity. }
      rewrite M. assert (M' : rmatch unnamed_rel_pattern (la_head s ++ T ++ $" " ++ relation_rest s) = Some [T; To'; la_condition s]).
      { unfold unnamed_rel_pattern. rewrite rmatch_lit by exact Hh. rewrite Er.
        replace (T ++ $" " ++ (la_add s ++ $" ") ++ la_with s ++ $" " ++ relation_tail s) with (T ++ ($" " ++ la_add s ++ $" " ++ la_with s ++ $" ") ++ relation_tail s) by (rewrite <- !app_assoc; reflexivity).
        apply group_at; [apply noch_in, N1|rewrite !lower_app, Ha, Hw; reflexivity|discriminate|exact M4|].
        intros x y E. apply (rmatch_lacks ($" add relationship with ")); [left; reflexivity|]. intros O. apply U2.
        assert (E' : relation_rest s = x ++ y) by (rewrite Er; etransitivity; [|exact E]; rewrite <- !app_assoc; reflexivity). rewrite E', lower_app. apply occurs_app. right.
        destruct O as (a & b & ->). exists a, ($"with " ++ b). reflexivity. }
      rewrite M', T1, T2. reflexivity. }
  rewrite P, G. unfold add_rel_parts, mk_relationship. cbn [bind]. unfold statement_relation, default_rel_name, with_table, store_table, add_rel_obj. destruct (la_name s) as [[q n]|]; reflexivity.
Qed.

(** ** What is not understood *)
Lemma lost_loop s n l d : get_table d n = None -> (forall r, In r l -> good_reference r /\ ~ In newline (reference_text r) /\ ~ In tab (reference_text r) /\ ~ In ";"%char (reference_text r)) ->
  heard_fk_loop s n (pieces l) d = (d, map (fun _ => NoTable ForeignKey n) l).
Proof.
  intros G. induction l as [|r l IH]; intros H; [reflexivity|]. destruct (H r (or_introl eq_refl)) as (Gr & N1 & N2 & N3).
  assert (Go : forall rest cs ms, rest = [] \/ rest = $", " -> heard_fk_loop s n cs d = (d, ms) -> heard_fk_loop s n (($" " ++ reference_text r ++ rest) :: cs) d = (d, NoTable ForeignKey n :: ms)).
  { intros rest cs ms R E. cbn [heard_fk_loop]. cbn zeta. rewrite (piece_parts r rest Gr R N1 N2 N3), G, E. reflexivity. }
  destruct l as [|r' l]; [apply (Go [] []); [left|]; reflexivity|]. apply (Go ($", ") (pieces (r' :: l)) (map (fun _ => NoTable ForeignKey n) (r' :: l))); [right; reflexivity|]. apply IH. intros x X. apply H. right. exact X.
Qed.
(** the name read when words stand between the table and ADD *)
Lemma clean_words path q n words : (forall r m, In (r, m) path \/ (r, m) = (q, n) -> good_name r m) -> q <> BackQuotes -> free_of name_marks words -> words <> [] -> trimmed words ->
  ~ In tab n -> ~ In tab words -> clean_name (qualified path q n ++ $" " ++ words) = n ++ $" " ++ words.
Proof.
  intros H Q F W Tr T1 T2. assert (G := H q n (or_intror eq_refl)). unfold clean_name, qualified. rewrite <- app_assoc. rewrite last_of_path; [|intros r m X; apply (gn_free _ _ (H r m (or_introl X)))|].
  2: { apply not_in_app; [apply spell_not_in; [apply (gn_free _ _ G)|cbn; tauto]|]. apply not_in_app; [apply not_in_b; reflexivity|apply F; cbn; tauto]. }
  assert (S := spell_hard q n (gn_some _ _ G) (gn_bare _ _ G)). assert (S' := trimmed_hard _ Tr). rewrite ends_hard_eq in S, S'. apply andb_true_iff in S. apply andb_true_iff in S'.
  rewrite strip_hard. 2: { apply hard_join; [apply S|apply spell_nonnil, (gn_some _ _ G)|apply S'|exact W]. }
  rewrite !replace_app. rewrite (unmark q n (gn_free _ _ G) Q T1). f_equal. f_equal. apply (unmark Bare words F); [discriminate|exact T2].
Qed.
Lemma with_words_lost schema id d s words : words <> [] -> trimmed words -> free_of name_marks words ->
  says ($"alter table ") (ra_head s) -> says ($"add") (ra_add s) -> (forall q n, In (q, n) (ra_path s) \/ (q, n) = (ra_quoting s, ra_table s) -> good_name q n) -> ra_quoting s <> BackQuotes ->
  ra_references s <> [] -> (forall r, In r (ra_references s) -> good_reference r) ->
  let T := qualified (ra_path s) (ra_quoting s) (ra_table s) ++ $" " ++ words in
  let text := ra_head s ++ T ++ $" " ++ ra_add s ++ references_text (ra_references s) in
  clean_statement text -> alters_only text -> ~ occurs ($"primary key") (lower text) -> ~ occurs ($" add") (lower (references_text (ra_references s))) -> ~ occurs ($"constraint") (lower T) ->
  get_table d (ra_table s ++ $" " ++ words) = None ->
  heard_statement schema id d text = (Ok d, map (fun _ => NoTable ForeignKey (ra_table s ++ $" " ++ words)) (ra_references s)).
Proof.
  intros W Tr F Hh Ha Nm Qu So Re T text Cl On Np O1 O2 G. destruct (references_heard schema id d _ _ _ _ Hh Ha So Re Cl On Np O1 O2) as [H K]. unfold text. rewrite H.
  assert (C : clean_name T = ra_table s ++ $" " ++ words).
  { assert (TB := cs_tab _ Cl). change (ascii_of_nat 9) with tab in TB. apply clean_words; try assumption; intros X; apply TB; unfold text, T; rewrite !in_app_iff; [pose proof (tab_parts (ra_path s) (ra_quoting s) (ra_table s) _ X)|]; tauto. }
  rewrite C, (lost_loop _ _ _ d G K). reflexivity.
Qed.
(** a pattern that goes on after a literal *)
Lemma rmatch_after p r2 : forall r1 s g, rmatch (r1 ++ RLit p :: r2) s = Some g -> exists a p0 z g', s = a ++ p0 ++ z /\ lower p0 = lower p /\ rmatch r2 z = Some g'.
Proof.
  assert (St : forall A ok (k : str -> option A) s w a, star ok k s = Some (w, a) -> exists t, s = w ++ t /\ k t = Some a).
  { intros A ok k. induction s as [|c s IH]; intros w a H; cbn [star] in H.
    - destruct (k []) as [x|] eqn:E; [|discriminate]. injection H as <- <-. exists []. split; [reflexivity|exact E].
    - assert (K : (match k (c :: s) with Some a => Some ([], a) | None => None end) = Some (w, a) -> exists t, c :: s = w ++ t /\ k t = Some a).
      { intros X. destruct (k (c :: s)) as [x|] eqn:E; [|discriminate]. injection X as <- <-. exists (c :: s). split; [reflexivity|exact E]. }
      destruct (ok c); [|exact (K H)]. destruct (star ok k s) as [[w1 a1]|] eqn:E; [|exact (K H)]. injection H as <- <-.
      destruct (IH _ _ eq_refl) as [t [-> T]]. exists t. split; [reflexivity|exact T]. }
  assert (Add : forall (w t : str), (exists a p0 z g', t = a ++ p0 ++ z /\ lower p0 = lower p /\ rmatch r2 z = Some g') -> exists a p0 z g', w ++ t = a ++ p0 ++ z /\ lower p0 = lower p /\ rmatch r2 z = Some g').
  { intros w t (a & p0 & z & g' & -> & L & M). exists (w ++ a), p0, z, g'. split; [rewrite <- app_assoc; reflexivity|]. split; assumption. }
  induction r1 as [|x r1 IH]; intros s g M.
  - cbn [app rmatch] in M. destruct (lit_prefix p s) as [z|] eqn:E; [|discriminate]. destruct (lit_prefix_some _ _ _ E) as [p0 [-> L]]. exists [], p0, z, g. split; [reflexivity|]. split; assumption.
  - destruct x as [p'| | |]; cbn [app rmatch] in M.
    + destruct (lit_prefix p' s) as [z|] eqn:E; [|discriminate]. destruct (lit_prefix_some _ _ _ E) as [p0 [-> L]]. apply Add. exact (IH _ _ M).
    + destruct (star _ _ s) as [[w a]|] eqn:E; [|discriminate]. destruct (St _ _ _ _ _ _ E) as [t [-> T]]. apply Add. exact (IH _ _ T).
    + destruct (star _ _ s) as [[w a]|] eqn:E; [|discriminate]. destruct (St _ _ _ _ _ _ E) as [t [-> T]]. apply Add. exact (IH _ _ T).
    + destruct (star _ _ s) as [[w a]|] eqn:E; [|discriminate]. destruct (St _ _ _ _ _ _ E) as [t [-> T]]. apply Add. exact (IH _ _ T).
Qed.
Lemma no_parts s a b : s = a ++ ")"%char :: b -> ~ In ")"%char a -> ~ occurs ($" (") b -> fk_parts s = None.
Proof.
  intros -> Na Nb. assert (K : forall r1 g, rmatch (r1 ++ RLit ($") references") :: [RBlanks; RGroup; RLit ($" ("); RGroup; RLit ($")")]) (a ++ ")"%char :: b) = Some g -> False).
  { intros r1 g M. destruct (rmatch_after _ _ _ _ _ M) as (x & p0 & z & g' & E & L & M'). destruct p0 as [|c p0]; [discriminate L|].
    assert (C : In ")"%char [c]).
    { apply occurs_lower_char; [reflexivity|]. change (lower (c :: p0)) with (lower_char c :: lower p0) in L. change (lower ($") references")) with (")"%char :: $" references") in L. injection L as L1 _. change (lower [c]) with [lower_char c]. rewrite L1. exists [], []. reflexivity. }
    destruct C as [->|[]]. cbn [app] in E. destruct (suffix_of _ _ _ _ _ E Na) as [x' Ex].
    destruct (rmatch_after ($" (") [RGroup; RLit ($")")] [RBlanks; RGroup] z g' M') as (y & q0 & u & g'' & Ez & Lq & _). assert (Q : q0 = $" (").
    { destruct q0 as [|c1 [|c2 [|c3 q0]]]; try discriminate Lq. change (lower [c1; c2]) with [lower_char c1; lower_char c2] in Lq. change (lower ($" (")) with [" "; "("]%char in Lq. injection Lq as L1 L2.
      assert (F : forall c, (negb (Ascii.eqb (lower_char c) " ") || Ascii.eqb c " ") = true) by (apply all_chars; reflexivity). assert (F' : forall c, (negb (Ascii.eqb (lower_char c) "(") || Ascii.eqb c "(") = true) by (apply all_chars; reflexivity).
      pose proof (F c1) as X. pose proof (F' c2) as Y. rewrite L1 in X. rewrite L2 in Y. apply Ascii.eqb_eq in X. apply Ascii.eqb_eq in Y. subst. reflexivity. }
    apply Nb. subst q0 z. destruct x' as [|e x']; injection Ex as Ex.
    - exists (p0 ++ y), u. rewrite Ex, <- app_assoc. reflexivity.
    - subst b. exists (x' ++ ")"%char :: p0 ++ y), u. rewrite <- !app_assoc. cbn [app]. rewrite <- !app_assoc. reflexivity. }
  unfold fk_parts. destruct (rmatch named_fk_pattern _) as [g|] eqn:M1; [exfalso; exact (K [RGroup; RLit ($" foreign key"); RBlanks; RLit ($"("); RGroup] g M1)|].
  destruct (rmatch unnamed_fk_pattern _) as [g|] eqn:M2; [exfalso; exact (K [RLit ($"foreign key"); RBlanks; RLit ($"("); RGroup] g M2)|]. reflexivity.
Qed.
(** a later " add" *)
Lemma later_add schema id d head t a0 x a y : says ($"alter table ") head -> says ($" add") a0 -> says ($" add") a -> let text := head ++ t ++ a0 ++ x ++ a ++ y in
  clean_statement text -> about_foreign_key text -> ~ occurs ($" add") (lower y) -> free_of [dq; sq; "["; "]"; "."]%char (t ++ x) -> (forall n tb, get_table d n = Some tb -> ~ occurs ($" add") (lower n)) -> (exists c t', t = c :: t' /\ is_space c = false) ->
  fst (heard_statement schema id d text) = Ok d.
Proof.
  intros Hh Ha0 Ha text Cl Ab Ny F Nd (c0 & t0 & Et & Hard). rewrite heard_fk by exact Ab. unfold heard_foreign_key. assert (NL := cs_newline _ Cl). assert (TB := cs_tab _ Cl). change (ascii_of_nat 9) with tab in TB. change (ascii_of_nat 10) with newline in NL.
  assert (M : rmatch add_pattern text = Some [t ++ a0 ++ x]).
  { unfold add_pattern, text. rewrite rmatch_lit by exact Hh. replace (t ++ a0 ++ x ++ a ++ y) with ((t ++ a0 ++ x) ++ a ++ y) by (rewrite <- !app_assoc; reflexivity).
    unfold text in NL. rewrite !in_app_iff in NL. apply group_at; [apply noch_in; rewrite !in_app_iff; tauto|exact Ha|discriminate|apply any_end, noch_in; tauto|].
    intros u v E. apply (rmatch_lacks ($" add")); [left; reflexivity|]. intros O. apply Ny. unfold says in Ha. destruct a as [|c a]; [discriminate Ha|]. cbn [app tl] in E.
    assert (O' : occurs ($" add") (lower (a ++ y))) by (rewrite E, lower_app; apply occurs_app; right; exact O). rewrite lower_app in O'. change (lower (c :: a)) with (lower_char c :: lower a) in Ha. change ($" add") with (" "%char :: $"add") in Ha, O' |- *. injection Ha as _ Ha.
    apply occurs_from in O'; [exact O'|]. rewrite Ha. apply not_in_b. reflexivity. }
  rewrite M. assert (N : get_table d (clean_name (t ++ a0 ++ x)) = None).
  { destruct (get_table d (clean_name (t ++ a0 ++ x))) as [tb|] eqn:G; [|reflexivity]. exfalso. apply (Nd _ _ G).
    assert (Fr : free_of [dq; sq; "["; "]"; "."]%char (t ++ a0 ++ x)).
    { intros c Hc X. apply (F c Hc). rewrite !in_app_iff in *. destruct X as [X|[X|X]]; [tauto| |tauto]. exfalso.
      assert (L : In (lower_char c) ($" add")) by (rewrite <- Ha0; unfold lower; apply in_map, X). repeat (destruct Hc as [<-|Hc]; [revert L; apply not_in_b; reflexivity|]). destruct Hc. }
    assert (P : exists w, clean_name (t ++ a0 ++ x) = t ++ a0 ++ w).
    { unfold clean_name. rewrite split_char_none by (apply Fr; cbn; tauto). change (last_of [?z]) with z.
      assert (A0 : exists i j, a0 = i ++ [j] /\ is_space j = false).
      { unfold says in Ha0. destruct a0 as [|e1 [|e2 [|e3 [|e4 [|e5 a0]]]]]; try discriminate Ha0. exists [e1; e2; e3], e4. split; [reflexivity|].
        change (lower [e1; e2; e3; e4]) with [lower_char e1; lower_char e2; lower_char e3; lower_char e4] in Ha0. change ($" add") with [" "; "a"; "d"; "d"]%char in Ha0. injection Ha0 as _ _ _ L4.
        assert (Q : forall c, (negb (Ascii.eqb (lower_char c) "d") || negb (is_space c)) = true) by (apply all_chars; reflexivity). pose proof (Q e4) as X. rewrite L4 in X. apply negb_true_iff, X. }
      destruct A0 as (i & j & Ea & Hj).
      destruct (strip_strips [] c0 (t0 ++ i) j x Hard Hj eq_refl) as (w & z & Es & Ez). cbn [app] in Es. replace (t ++ a0 ++ x) with (c0 :: (t0 ++ i) ++ j :: x) by (rewrite Et, Ea; cbn [app]; rewrite <- !app_assoc; reflexivity).
      rewrite Es. exists w. replace (c0 :: (t0 ++ i) ++ j :: w) with (t ++ a0 ++ w) by (rewrite Et, Ea; cbn [app]; rewrite <- !app_assoc; reflexivity).
      assert (Q : forall c, In c [dquote; squote; "["; "]"]%char -> replace_char c [] (t ++ a0 ++ w) = t ++ a0 ++ w).
      { intros c Hc. apply replace_absent. intros X. apply (Fr c); [cbn in *; tauto|]. rewrite Ez. rewrite !in_app_iff in *. tauto. }
      rewrite (replace_absent tab) by (intros X; apply TB; unfold text; rewrite Ez; rewrite !in_app_iff in *; tauto). rewrite !Q by (cbn; tauto). reflexivity. }
    destruct P as [w ->]. rewrite !lower_app, Ha0. exists (lower t), (lower w). reflexivity. }
  destruct (heard_fk_loop text (clean_name (t ++ a0 ++ x)) (tl (resplit ($"constraint") text)) d) as [d' ms] eqn:E. destruct (loop_missing _ _ _ _ _ _ N E) as (-> & _ & _). reflexivity.
Qed.
(** back quotes stay *)
Lemma extract_back path n x : (forall r m, In (r, m) path \/ (r, m) = (BackQuotes, n) -> good_name r m) -> ~ In " "%char n -> ~ In tab n -> x = [] \/ (exists y, x = " "%char :: y /\ ~ In "."%char y) ->
  extract_table_name (qualified path BackQuotes n ++ x) = Ok (spell BackQuotes n).
Proof.
  intros H B T X. assert (G := H BackQuotes n (or_intror eq_refl)). assert (F := gn_free _ _ G). unfold extract_table_name, qualified. rewrite <- app_assoc.
  rewrite last_of_path; [|intros r m Y; apply (gn_free _ _ (H r m (or_introl Y)))|].
  2: { intros Y. apply in_app_or in Y. destruct Y as [Y|Y]; [revert Y; apply spell_not_in; [exact F|cbn; tauto]|]. destruct X as [->|[y [-> Ny]]]; [exact Y|]. destruct Y as [Y|Y]; [discriminate|contradiction]. }
  assert (Ns : ~ In " "%char (spell BackQuotes n)) by (cbn [spell]; intros [Y|Y]; [discriminate|]; apply in_app_or in Y; destruct Y as [Y|[Y|[]]]; [contradiction|discriminate]).
  assert (E : extract_name (spell BackQuotes n ++ x) = Ok (spell BackQuotes n)).
  { unfold extract_name. cbn [spell app]. change (Ascii.eqb SpecParse.bq dquote) with false. change (Ascii.eqb SpecParse.bq squote) with false. cbn iota. f_equal.
    change (hd [] (split_char " " (spell BackQuotes n ++ x)) = spell BackQuotes n). destruct X as [->|[y [-> _]]]; [rewrite app_nil_r, split_char_none by exact Ns; reflexivity|rewrite split_char_app by exact Ns; reflexivity]. }
  rewrite E. cbn [bind]. f_equal. unfold clean_name. rewrite split_char_none by (apply spell_not_in; [exact F|cbn; tauto]). change (last_of [?z]) with z.
  rewrite strip_hard by (apply spell_hard; [apply (gn_some _ _ G)|discriminate]).
  assert (R : forall c, In c [tab; dquote; squote; "["; "]"]%char -> replace_char c [] (spell BackQuotes n) = spell BackQuotes n).
  { intros c Hc. apply replace_absent. cbn [spell]. assert (Nc : ~ In c n) by (repeat (destruct Hc as [<-|Hc]; [first [exact T | apply F; cbn; tauto]|]); destruct Hc).
    intros [Y|Y]; [subst c; repeat (destruct Hc as [Hc|Hc]; [discriminate|]); destruct Hc|]. apply in_app_or in Y. destruct Y as [Y|[Y|[]]]; [contradiction|]. subst c. repeat (destruct Hc as [Hc|Hc]; [discriminate|]); destruct Hc. }
  rewrite !R by (cbn; tauto). reflexivity.
Qed.

(** ** Checking concrete statements *)
Definition good_nameb (q : quoting) (n : str) : bool :=
  negb (Nat.eqb (length n) 0) && forallb (fun c => noch c n) name_marks && match q with Bare => forallb (fun c => negb (is_space c)) n | _ => true end.
Lemma good_name_ok q n : good_nameb q n = true -> good_name q n.
Proof.
  unfold good_nameb. rewrite !andb_true_iff. intros [[A B] C]. rewrite forallb_forall in B. split.
  - intros ->. discriminate A.
  - intros c Hc. apply noch_ok, B, Hc.
  - intros ->. rewrite forallb_forall in C. intros c Hc. apply negb_true_iff, C, Hc.
Qed.
Definition notbq (q : quoting) : bool := match q with BackQuotes => false | _ => true end.
Definition good_targetb (path : list (quoting * str)) (q : quoting) (n : str) : bool :=
  forallb (fun x => good_nameb (fst x) (snd x)) ((q, n) :: path) && ends_hard n && notbq q && match q with Brackets => forallb (fun c => negb (is_space c)) n | _ => true end.
Lemma good_target_ok path q n : good_targetb path q n = true -> good_target path q n.
Proof.
  unfold good_targetb. rewrite !andb_true_iff, forallb_forall. intros [[[A B] C] D]. split.
  - intros r m H. apply good_name_ok. apply (A (r, m)). destruct H as [H|H]; [right; exact H|left; symmetry; exact H].
  - apply hard_trimmed, B.
  - split; [intros ->; discriminate C|]. intros ->. rewrite forallb_forall in D. intros c Hc. apply negb_true_iff, D, Hc.
Qed.
Definition good_columnsb (l : list (bool * (quoting * str) * bool)) : bool :=
  negb (Nat.eqb (length l) 0) && forallb (fun x => good_nameb (fst (snd (fst x))) (snd (snd (fst x))) && notbq (fst (snd (fst x)))) l.
Lemma good_columns_ok l : good_columnsb l = true -> good_columns l.
Proof.
  unfold good_columnsb. rewrite andb_true_iff, forallb_forall. intros [A B]. split; [intros ->; discriminate A|]. intros a q n b H. apply B in H. cbn [fst snd] in H. apply andb_true_iff in H. destruct H as [H K].
  split; [apply good_name_ok, H|]. intros ->. discriminate K.
Qed.
Definition clean_statementb (s : str) : bool := noch ";" s && noch (ascii_of_nat 10) s && noch (ascii_of_nat 9) s && ends_hard s && negb (contains ($"  ") s).
Lemma clean_statement_ok s : clean_statementb s = true -> clean_statement s.
Proof.
  unfold clean_statementb. rewrite !andb_true_iff, negb_true_iff. intros [[[[A B] C] D] E]. split; try (apply noch_ok; assumption); [apply hard_trimmed, D|apply contains_false, E].
Qed.
Definition alters_onlyb (s : str) : bool := negb (contains ($"create database") (lower s)) && negb (contains ($"create table") (lower s)) && negb (contains ($"create or replace table") (lower s)).
Lemma alters_only_ok s : alters_onlyb s = true -> alters_only s.
Proof. unfold alters_onlyb. rewrite !andb_true_iff, !negb_true_iff. intros [[A B] C]. repeat split; apply contains_false; assumption. Qed.
Definition lacksb (p s : str) : bool := negb (contains p (lower s)).
Lemma lacks_ok p s : lacksb p s = true -> ~ occurs p (lower s).
Proof. unfold lacksb. rewrite negb_true_iff. apply contains_false. Qed.
Definition saysb (w s : str) : bool := str_eqb (lower s) w.
Lemma says_ok w s : saysb w s = true -> says w s.
Proof. unfold saysb. apply str_eqb_eq. Qed.
Definition only_at (p s : str) (k : nat) : bool := forallb (fun i => Nat.eqb i k || negb (starts_with p (skipn i s))) (seq 0 (S (length s))).
Lemma only_at_ok p s k : only_at p s k = true -> forall x y, s = x ++ p ++ y -> length x = k.
Proof.
  unfold only_at. rewrite forallb_forall. intros H x y ->. specialize (H (length x)). rewrite in_seq, !app_length in H. specialize (H ltac:(lia)). apply orb_true_iff in H. destruct H as [H|H]; [apply Nat.eqb_eq, H|].
  rewrite skipn_app, skipn_all, Nat.sub_diag in H. cbn [skipn app] in H. exfalso. clear -H. apply negb_true_iff in H. revert H. induction p as [|c p IH]; [destruct y; discriminate|]. cbn [app starts_with]. rewrite Ascii.eqb_refl. exact IH.
Qed.
Definition good_referenceb (r : reference) : bool :=
  saysb ($"constraint") (rf_word r) && saysb ($"foreign key") (rf_key r) && saysb ($"references") (rf_references r)
  && match rf_name r with Some (q, n) => good_nameb q n && notbq q | None => true end
  && good_columnsb (rf_from r) && good_targetb (rf_path r) (rf_quoting r) (rf_table r) && good_columnsb (rf_to r)
  && Nat.eqb (length (rf_from r)) (length (rf_to r)) && noch ")" (rf_more r) && lacksb ($"constraint") (reference_text r)
  && only_at ($"foreign key") (lower (reference_text r)) (length (name_part r)).
Lemma good_reference_ok r : good_referenceb r = true -> good_reference r.
Proof.
  unfold good_referenceb. rewrite !andb_true_iff. intros [[[[[[[[[[A B] C] D] E] F] G] H] I] J] K]. split.
  - repeat split; apply says_ok; assumption.
  - intros q n En. rewrite En in D. apply andb_true_iff in D. destruct D as [D D']. split; [apply good_name_ok, D|]. intros ->. discriminate D'.
  - apply good_columns_ok, E.
  - apply good_target_ok, F.
  - apply good_columns_ok, G.
  - apply Nat.eqb_eq, H.
  - apply noch_ok, I.
  - split; [apply lacks_ok, J|]. intros x y O. pose proof (only_at_ok _ _ _ K x y O) as L. fold (name_part r). rewrite reference_split, lower_app in O.
    destruct (prefix_of (lower (name_part r)) _ x _ O) as [z Z]; [rewrite lower_length; lia|]. assert (z = []) by (apply (f_equal (@length _)) in Z; rewrite app_length, lower_length in Z; destruct z; [reflexivity|cbn in Z; lia]). subst z. rewrite app_nil_r in Z. symmetry. exact Z.
Qed.

(** ** Limits *)
Lemma options_read schema id d k t m1 o m2 : says ($"alter table ") (ka_head k) -> says ($"primary key") (ka_key k) -> good_target (ka_path k) (ka_quoting k) (ka_table k) -> ~ In "."%char (ka_words k) ->
  clean_statement (key_statement_text k) -> alters_only (key_statement_text k) ->
  ~ occurs ($"primary key") (lower (ka_kind k ++ $"(" ++ columns_text (ka_columns k) ++ $")" ++ ka_more k)) ->
  ka_more k = m1 ++ $"(" ++ o ++ $")" ++ m2 -> free_of name_marks o -> trimmed o -> ~ In ")"%char m2 -> get_table d (ka_table k) = Some t ->
  heard_statement schema id d (key_statement_text k) = (Ok (with_table d (ka_table k) (with_pk t [o])), []).
Proof.
  intros Hh Ke Ta Wo Cl On Nc Em Fo Tr Cm G. assert (NL := cs_newline _ Cl). assert (TB := cs_tab _ Cl). change (ascii_of_nat 9) with tab in TB. change (ascii_of_nat 10) with newline in NL.
  set (kind := ka_kind k ++ $"(" ++ columns_text (ka_columns k) ++ $")" ++ m1). set (T := qualified (ka_path k) (ka_quoting k) (ka_table k)).
  assert (Et : key_statement_text k = ka_head k ++ T ++ $" " ++ ka_words k ++ ka_key k ++ kind ++ $"(" ++ o ++ $")" ++ m2).
  { unfold key_statement_text, kind. fold T. rewrite Em, <- !app_assoc. reflexivity. }
  assert (Nk : ~ occurs ($"primary key") (lower (kind ++ $"(" ++ o ++ $")" ++ m2))) by (unfold kind; rewrite Em in Nc; rewrite <- !app_assoc; exact Nc).
  rewrite Et in *. destruct (pk_match (ka_head k) T (ka_words k) (ka_key k) kind o m2 Hh Ke) as (x & X & M); [intros Y; apply NL, in_or_app; right; exact Y|exact Nk|apply Fo; cbn; tauto|exact Cm|].
  replace [o] with (key_columns_of o).
  2: { unfold key_columns_of. rewrite split_char_none by (apply Fo; cbn; tauto). cbn [map]. rewrite clean_plain; [reflexivity|exact Fo|exact Tr|]. intros Y. apply TB. rewrite !in_app_iff. tauto. }
  apply (heard_key _ d (ka_table k) t o x T); [|exact M| |exact G].
  - split; [eapply alters_about; [exact On|exact Hh|reflexivity]|]. rewrite !lower_app, Ke. do 4 (apply occurs_app; right). apply occurs_app. left. exists [], []. reflexivity.
  - apply extract_qualified; [exact Ta| |].
    + intros Y. apply TB. apply in_or_app. right. apply in_or_app. left. apply tab_parts, Y.
    + destruct X as [->|[y [-> I]]]; [left; reflexivity|right]. exists y. split; [reflexivity|]. intros Y. apply Wo, I, Y.
Qed.
Lemma back_key schema id d k : ka_quoting k = BackQuotes -> ~ In " "%char (ka_table k) -> (forall r m, In (r, m) (ka_path k) \/ (r, m) = (BackQuotes, ka_table k) -> good_name r m) ->
  says ($"alter table ") (ka_head k) -> says ($"primary key") (ka_key k) -> ~ In "."%char (ka_words k) -> clean_statement (key_statement_text k) -> alters_only (key_statement_text k) ->
  ~ occurs ($"primary key") (lower (ka_kind k ++ $"(" ++ columns_text (ka_columns k) ++ $")" ++ ka_more k)) -> ~ In "("%char (columns_text (ka_columns k)) -> ~ In ")"%char (ka_more k) ->
  get_table d (spell BackQuotes (ka_table k)) = None ->
  heard_statement schema id d (key_statement_text k) = (Ok d, [NoTable PrimaryKey (spell BackQuotes (ka_table k))]).
Proof.
  intros Eq Nb Nm Hh Ke Wo Cl On Nc Pc Mo G. assert (NL := cs_newline _ Cl). assert (TB := cs_tab _ Cl). change (ascii_of_nat 9) with tab in TB. change (ascii_of_nat 10) with newline in NL.
  unfold key_statement_text in *. rewrite Eq in *. set (T := qualified (ka_path k) BackQuotes (ka_table k)) in *.
  destruct (pk_match (ka_head k) T (ka_words k) (ka_key k) (ka_kind k) (columns_text (ka_columns k)) (ka_more k) Hh Ke) as (x & X & M); [intros Y; apply NL, in_or_app; right; exact Y|exact Nc|exact Pc|exact Mo|].
  rewrite heard_pk.
  2: { split; [eapply alters_about; [exact On|exact Hh|reflexivity]|]. rewrite !lower_app, Ke. do 4 (apply occurs_app; right). apply occurs_app. left. exists [], []. reflexivity. }
  unfold heard_primary_key. rewrite M. unfold T. rewrite extract_back; [rewrite G; reflexivity|exact Nm|exact Nb| |].
  - intros Y. apply TB. apply in_or_app. right. apply in_or_app. left. apply tab_parts, Y.
  - destruct X as [->|[y [-> I]]]; [left; reflexivity|right]. exists y. split; [reflexivity|]. intros Y. apply Wo, I, Y.
Qed.
Lemma no_blank_lost schema id d head T add w c x y : says ($"alter table ") head -> says ($"add") add -> says ($"constraint") w ->
  let body := c :: x ++ $")" ++ y in let text := head ++ T ++ $" " ++ add ++ $" " ++ w ++ $" " ++ body in
  clean_statement text -> about_foreign_key text -> ~ occurs ($" add") (lower ($" " ++ w ++ $" " ++ body)) -> ~ occurs ($"constraint") (lower T) -> ~ occurs ($"constraint") (lower body) ->
  is_space c = false -> c <> ","%char -> ~ In ")"%char (c :: x) -> ~ occurs ($" (") y ->
  heard_statement schema id d text = (Ok d, [Unable ForeignKey text]).
Proof.
  intros Hh Ha Hw body text Cl Ab O1 O2 O3 Sc Cc Nx Ny. assert (NL := cs_newline _ Cl). change (ascii_of_nat 10) with newline in NL. rewrite heard_fk by exact Ab. unfold heard_foreign_key.
  assert (M : rmatch add_pattern text = Some [T]).
  { unfold add_pattern, text. rewrite rmatch_lit by exact Hh. rewrite (app_assoc ($" ") add). unfold text in NL. rewrite !in_app_iff in NL. apply group_at; [apply noch_in; tauto|rewrite lower_app, Ha; reflexivity|discriminate|apply any_end, noch_in; rewrite !in_app_iff; tauto|].
    intros u v E. apply (rmatch_lacks ($" add")); [left; reflexivity|]. intros O. apply O1. change (tl (($" " ++ add) ++ $" " ++ w ++ $" " ++ body)) with (add ++ $" " ++ w ++ $" " ++ body) in E.
    assert (O' : occurs ($" add") (lower (add ++ $" " ++ w ++ $" " ++ body))) by (rewrite E, lower_app; apply occurs_app; right; exact O).
    rewrite lower_app, Ha in O'. change ($" add") with (" "%char :: $"add") in O' |- *. apply occurs_from in O'; [exact O'|apply not_in_b; reflexivity]. }
  assert (R : resplit ($"constraint") text = [(head ++ T ++ $" " ++ add) ++ [" "%char]; $" " ++ body]).
  { replace text with ((head ++ T ++ $" " ++ add) ++ " "%char :: w ++ ($" " ++ body)) by (unfold text; rewrite <- !app_assoc; reflexivity). apply resplit_once; [exact Hw|discriminate|apply not_in_b; reflexivity| |].
    - rewrite !lower_app, Hh, Ha. change ($"alter table ") with (($"alter table") ++ [" "%char]). rewrite <- app_assoc. apply (nocc_sep _ " "%char ($"alter table")); [apply not_in_b; reflexivity|reflexivity|].
      apply (nocc_sep _ " "%char); [apply not_in_b; reflexivity|apply contains_false, O2|reflexivity].
    - rewrite lower_app. apply (nocc_sep _ " "%char []); [apply not_in_b; reflexivity|reflexivity|apply contains_false, O3]. }
  rewrite M, R. cbn [tl heard_fk_loop]. cbn zeta. assert (Ex : c <> ";"%char) by (intros ->; apply (cs_semi _ Cl); unfold text, body; rewrite !in_app_iff; do 7 right; left; reflexivity).
  unfold body. destruct (all_stripped c x ")"%char y Sc eq_refl Cc) as (y' & z & E & I); [discriminate|exact Ex|discriminate|]. change ($")" ++ y) with (")"%char :: y). rewrite E.
  rewrite (no_parts (c :: x ++ ")"%char :: y') (c :: x) y'); [reflexivity|reflexivity|exact Nx|]. intros (a & b & O). apply Ny. exists a, (b ++ z). rewrite I, O, <- !app_assoc. reflexivity.
Qed.
