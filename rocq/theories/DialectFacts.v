(** * Lemmas: reading CREATE TABLE statements of other databases (for C99) *)
From Verif Require Export SpecDialect RoundParse.

(** ** Square brackets become double quotes *)
Definition unb (c : ascii) : ascii := if Ascii.eqb c "["%char then dquote else if Ascii.eqb c "]"%char then dquote else c.
Lemma unbracket s : replace_char "]" [dquote] (replace_char "[" [dquote] s) = map unb s.
Proof.
  induction s as [|c s IH]; [reflexivity|]. change (c :: s) with ([c] ++ s). rewrite !replace_app, map_app, IH. f_equal. clear.
  unfold replace_char, unb. cbn [flat_map map app]. destruct (Ascii.eqb_spec c "[") as [->|H]; [reflexivity|]. cbn [flat_map app].
  destruct (Ascii.eqb c "]"); reflexivity.
Qed.
Lemma unb_id s : free_of ["["; "]"]%char s -> map unb s = s.
Proof.
  intros H. induction s as [|c s IH]; [reflexivity|]. cbn [map]. rewrite IH by (intros d Hd X; apply (H d Hd); right; exact X). f_equal. unfold unb.
  destruct (Ascii.eqb_spec c "[") as [->|_]; [exfalso; apply (H "["%char); left; reflexivity|].
  destruct (Ascii.eqb_spec c "]") as [->|_]; [exfalso; apply (H "]"%char); [right; left|left]; reflexivity|]. reflexivity.
Qed.
Lemma unb_space c : is_space (unb c) = is_space c.
Proof. revert c. assert (F : forall c, Bool.eqb (is_space (unb c)) (is_space c) = true) by (apply all_chars; reflexivity). intros c. apply Bool.eqb_prop, F. Qed.
Lemma unb_lower s : lower (map unb s) = map unb (lower s).
Proof.
  unfold lower. rewrite !map_map. apply map_ext. intros c. assert (F : forall c, Ascii.eqb (lower_char (unb c)) (unb (lower_char c)) = true) by (apply all_chars; reflexivity).
  apply Ascii.eqb_eq, F.
Qed.
Lemma unb_in c s : c <> dquote -> c <> "["%char -> c <> "]"%char -> In c (map unb s) <-> In c s.
Proof.
  intros A B C. split; intros H.
  - apply in_map_iff in H. destruct H as [d [E H]]. unfold unb in E. destruct (Ascii.eqb d "["); [congruence|]. destruct (Ascii.eqb d "]"); congruence.
  - apply in_map_iff. exists c. split; [|exact H]. unfold unb. destruct (Ascii.eqb_spec c "["); [contradiction|]. destruct (Ascii.eqb_spec c "]"); [contradiction|]. reflexivity.
Qed.
Definition unmarked (p : str) : bool := noch dquote p && noch "[" p && noch "]" p.
Lemma starts_unb p s : unmarked p = true -> starts_with p (map unb s) = starts_with p s.
Proof.
  unfold unmarked, noch. revert s. induction p as [|x p IH]; intros s H; [destruct s; reflexivity|]. destruct s as [|y s]; [reflexivity|]. cbn [map starts_with].
  cbn [existsb] in H. rewrite !andb_true_iff, !negb_true_iff, !orb_false_iff in H. destruct H as [[[H1 G1] [H2 G2]] [H3 G3]]. rewrite IH by (rewrite G1, G2, G3; reflexivity). f_equal.
  unfold unb. destruct (Ascii.eqb_spec y "[") as [->|_]; [rewrite Ascii.eqb_sym, H1, Ascii.eqb_sym, H2; reflexivity|].
  destruct (Ascii.eqb_spec y "]") as [->|_]; [rewrite Ascii.eqb_sym, H1, Ascii.eqb_sym, H3; reflexivity|reflexivity].
Qed.
Lemma contains_unb p s : unmarked p = true -> contains p (lower (map unb s)) = contains p (lower s).
Proof.
  intros H. rewrite unb_lower. generalize (lower s). clear s. intros s. unfold contains. assert (E : find_opt p (map unb s) = find_opt p s); [|rewrite E; reflexivity].
  induction s as [|c s IH]; cbn [map find_opt].
  - reflexivity.
  - change (unb c :: map unb s) with (map unb (c :: s)). rewrite starts_unb, IH by exact H. reflexivity.
Qed.
Definition uq (q : quoting) : quoting := match q with Brackets => DoubleQuotes | q => q end.
Lemma unb_spell q n : free_of name_marks n -> map unb (spell q n) = spell (uq q) n.
Proof.
  intros H. assert (E : map unb n = n) by (apply unb_id; intros c Hc; apply H; repeat (destruct Hc as [<-|Hc]; [cbn; tauto|]); destruct Hc).
  destruct q; cbn [spell uq map]; rewrite ?map_app, E; reflexivity.
Qed.
Lemma unb_hard s : ends_hard (map unb s) = ends_hard s.
Proof.
  unfold ends_hard. f_equal; [destruct s; cbn [map]; rewrite ?unb_space; reflexivity|]. rewrite <- map_rev. destruct (rev s); cbn [map]; rewrite ?unb_space; reflexivity.
Qed.
Lemma closed_unb s : commas_inside s -> closed (map unb s).
Proof.
  induction 1 as [|c s H1 H2 _ IH|x s H _ IH].
  - intros rest field acc. rewrite app_nil_r. reflexivity.
  - change (map unb (c :: s)) with ([unb c] ++ map unb s). apply closed_app; [|exact IH]. apply closed_flat; change [unb c] with (map unb [c]); (rewrite unb_in by discriminate); intros [X|[]]; congruence.
  - rewrite !map_app. change (map unb ($"(")) with ($"("). change (map unb ($")")) with ($")").
    replace ($"(" ++ map unb x ++ $")" ++ map unb s) with (($"(" ++ map unb x ++ $")") ++ map unb s) by (rewrite <- !app_assoc; reflexivity).
    apply closed_app; [|exact IH]. apply closed_paren. rewrite unb_in by discriminate. exact H.
Qed.
Lemma unb_gap b : map unb (gap b) = gap b.
Proof. destruct b; reflexivity. Qed.

(** ** Trimmed texts *)
Lemma trimmed_hard s : trimmed s -> ends_hard s = true.
Proof.
  intros [A B]. unfold ends_hard. apply andb_true_iff. split.
  - destruct s as [|c s]; [reflexivity|]. rewrite (A c s eq_refl). reflexivity.
  - destruct (rev s) as [|c r] eqn:E; [reflexivity|]. rewrite (B c (rev r)); [reflexivity|]. apply (f_equal (@rev _)) in E. rewrite rev_involutive in E. exact E.
Qed.
Lemma hard_trimmed s : ends_hard s = true -> trimmed s.
Proof.
  unfold ends_hard. rewrite andb_true_iff. intros [A B]. split; intros c r ->.
  - apply negb_true_iff, A.
  - rewrite rev_app_distr in B. cbn [rev app] in B. apply negb_true_iff, B.
Qed.
Lemma hard_join a m b : head_hard a = true -> a <> [] -> last_hard b = true -> b <> [] -> ends_hard (a ++ m ++ b) = true.
Proof.
  intros A Na B Nb. rewrite ends_hard_eq. rewrite app_assoc, last_hard_app, B by exact Nb. destruct a; [contradiction|]. cbn [app head_hard] in *. rewrite A. reflexivity.
Qed.

(** ** Names *)
Lemma name_not_in q n c : good_name q n -> In c name_marks -> ~ In c n.
Proof. intros H Hc. apply (gn_free _ _ H), Hc. Qed.
Lemma spell_not_in q n c : free_of name_marks n -> In c ["("; ")"; ","; "."]%char -> ~ In c (spell q n).
Proof.
  intros H Hc. assert (N : ~ In c n) by (apply H; repeat (destruct Hc as [<-|Hc]; [cbn; tauto|]); destruct Hc).
  assert (G : forall x y, c <> x -> c <> y -> ~ In c (x :: n ++ [y])). { intros x y X Y [E|E]; [congruence|]. apply in_app_or in E. destruct E as [E|[E|[]]]; [contradiction|congruence]. }
  destruct q; cbn [spell]; [exact N| | | |]; apply G; repeat (destruct Hc as [<-|Hc]; [discriminate|]); destruct Hc.
Qed.
Lemma spell_nonnil q n : n <> [] -> spell q n <> [].
Proof. destruct q; cbn [spell]; [tauto|discriminate..]. Qed.
Lemma spell_hard q n : n <> [] -> (q = Bare -> blank_free n) -> ends_hard (spell q n) = true.
Proof.
  intros N B. destruct q; cbn [spell]; try (apply ends_hard_intro; reflexivity).
  apply nospace_hard, forallb_forall. intros c Hc. rewrite (B eq_refl c Hc). reflexivity.
Qed.
Lemma lower_spell q n : lower (spell q n) = spell q (lower n).
Proof. destruct q; cbn [spell]; [reflexivity|..]; change (lower (?x :: n ++ [?y])) with (lower_char x :: lower (n ++ [y])); rewrite lower_app; reflexivity. Qed.

(** ** One column *)
Lemma find_from_pre_lower p P x : find_from p (length P) (lower (P ++ x)) = match find_opt p (lower x) with Some n => Z.of_nat (length P + n) | None => (-1)%Z end.
Proof. rewrite lower_app. rewrite <- (lower_length P). apply find_from_pre. Qed.
Lemma field_type_closed P a b name hq : length P = length name + (if hq : bool then 3 else 1) -> ~ In ")"%char a -> field_type (P ++ a ++ ")"%char :: b) name hq = a ++ $")".
Proof.
  intros L H. unfold field_type. rewrite <- L. rewrite find_from_pre_lower, lower_app. change (lower (")"%char :: b)) with (")"%char :: lower b). change ($")") with [")"%char].
  rewrite find_opt_char by (apply close_lower, H). rewrite lower_length.
  destruct (Z.gtb_spec (Z.of_nat (length P + length a)) 0) as [G|G]; [|destruct hq; lia].
  replace (Z.of_nat (length P + length a) + 1)%Z with (Z.of_nat (length P + length (a ++ [")"%char]))) by (rewrite app_length; cbn [length]; lia).
  apply slice_mid with (c := b). rewrite <- !app_assoc. reflexivity.
Qed.
Lemma field_type_open P a more name hq : length P = length name + (if hq : bool then 3 else 1) -> ~ In ")"%char (a ++ more) -> ~ In " "%char a -> ~ In ","%char (a ++ more) ->
  (more = [] \/ exists r, more = " "%char :: r) -> field_type (P ++ a ++ more) name hq = a.
Proof.
  intros L H B C M. unfold field_type. rewrite <- L. rewrite find_from_pre_lower, !find_from_pre. change ($")") with [")"%char]. change ($",") with [","%char]. change ($" ") with [" "%char].
  rewrite (find_opt_nochar ")" (lower (a ++ more))) by (apply close_lower, H). rewrite (find_opt_nochar "," (a ++ more)) by exact C. cbn [Z.gtb Z.compare Z.eqb].
  destruct M as [->|[r ->]].
  - rewrite app_nil_r. rewrite find_opt_nochar by exact B. cbn [Z.eqb]. rewrite app_length. apply slice_mid with (c := []). rewrite app_nil_r. reflexivity.
  - rewrite find_opt_char by exact B. destruct (Z.eqb_spec (Z.of_nat (length P + length a)) (-1)) as [E|_]; [lia|]. apply slice_mid with (c := " "%char :: r). reflexivity.
Qed.
Definition is_quoted (q : quoting) : bool := match q with Bare => false | _ => true end.
Lemma field_name_spelled q n x : good_name q n -> q <> Brackets -> field_name (spell q n ++ $" " ++ x) = Ok (n, is_quoted q).
Proof.
  intros G NB. assert (Q : forall m, In m [dquote; squote; backquote] -> ~ In m n -> field_name ((m :: n ++ [m]) ++ $" " ++ x) = Ok (n, true)).
  { intros m Hm Nm. cbn [app]. unfold field_name. replace (existsb (Ascii.eqb m) [dquote; squote; backquote]) with true by (repeat (destruct Hm as [<-|Hm]; [reflexivity|]); destruct Hm). cbn match.
    f_equal. f_equal. rewrite <- app_assoc. cbn [app].
    pose proof (find_from_pre [m] [m] (n ++ m :: $" " ++ x)) as F. rewrite find_opt_char in F by exact Nm. cbn [length app] in F. cbn [app] in F. rewrite F.
    exact (slice_mid [m] n (m :: $" " ++ x) _ eq_refl). }
  destruct q; [|apply Q; [cbn; tauto|apply (name_not_in _ _ _ G); cbn; tauto]..|contradiction].
  cbn [spell is_quoted]. pose proof (gn_bare _ _ G eq_refl) as B. destruct n as [|c n]; [exfalso; exact (gn_some _ _ G eq_refl)|].
  cbn [app]. unfold field_name. replace (existsb (Ascii.eqb c) [dquote; squote; backquote]) with false.
  - f_equal. f_equal. change (c :: n ++ $" " ++ x) with ((c :: n) ++ " "%char :: x). change ($" ") with [" "%char].
    rewrite find_char by (intros X; apply B in X; discriminate X). apply slice_prefix with (b := " "%char :: x). reflexivity.
  - symmetry. apply not_true_iff_false. intros E. apply existsb_exists in E. destruct E as [m [Hm E]]. apply Ascii.eqb_eq in E. subst m.
    apply (gn_free _ _ G c); [|left; reflexivity]. repeat (destruct Hm as [<-|Hm]; [cbn; tauto|]). destruct Hm.
Qed.

(** *** Its type *)
Definition type_words : list str :=
  [$"int"; $"rowversion"; $"uniqueidentifier"; $"sysname"; $"serial"; $"bit"; $"blob"; $"binary"; $"number"; $"decimal"; $"numeric"; $"float"; $"double"; $"money"; $"real";
   $"datetime"; $"timestamp"; $"time"; $"date"; $"bool"; $"text"; $"long"; $"enum"; $"xml"; $"char"].
Lemma convert_same s s' : (forall p, In p type_words -> contains p (type_text s) = contains p (type_text s')) -> convert_number (type_text s) = convert_number (type_text s') -> convert_type s = convert_type s'.
Proof.
  intros H N. unfold convert_type. rewrite N. unfold type_words in H. cbn [In] in H.
  repeat match goal with |- context [contains ?p (type_text s)] => rewrite (H p) by tauto end. reflexivity.
Qed.
Lemma type_word_free p c : In p type_words -> In c [dq; sq; bq; "("; ")"; "["; "]"]%char -> ~ In c p.
Proof.
  intros H C. assert (F : forallb (fun p => forallb (fun c => noch c p) [dq; sq; bq; "("; ")"; "["; "]"]%char) type_words = true) by reflexivity.
  rewrite forallb_forall in F. specialize (F p H). rewrite forallb_forall in F. apply noch_ok, F, C.
Qed.
Lemma word_nonnil p : In p type_words -> contains p [] = false.
Proof. intros H. repeat (destruct H as [<-|H]; [reflexivity|]). destruct H. Qed.
Lemma contains_spelled p q w x : In p type_words ->
  (x = [] \/ exists y, x = "("%char :: y) -> contains p (spell q w ++ x) = contains p w || contains p x.
Proof.
  intros Hp Hx. assert (T : contains p (w ++ x) = contains p w || contains p x).
  { destruct Hx as [->|[y ->]]; [rewrite app_nil_r, word_nonnil by exact Hp; symmetry; apply orb_false_r|].
    assert (N : ~ In "("%char p) by (apply type_word_free; [exact Hp|cbn; tauto]).
    rewrite occ_sep by exact N. f_equal. pose proof (occ_sep p "(" [] y N) as E. cbn [app] in E. rewrite E, word_nonnil by exact Hp. reflexivity. }
  assert (Q : forall m m', In m [dq; sq; bq; "["]%char -> In m' [dq; sq; bq; "]"]%char -> contains p ((m :: w ++ [m']) ++ x) = contains p w || contains p x).
  { intros m m' Hm Hm'. assert (N : ~ In m p) by (apply type_word_free; [exact Hp|cbn in *; tauto]). assert (N' : ~ In m' p) by (apply type_word_free; [exact Hp|cbn in *; tauto]).
    cbn [app]. rewrite <- app_assoc. cbn [app]. pose proof (occ_sep p m [] (w ++ m' :: x) N) as E. cbn [app] in E. rewrite E, word_nonnil by exact Hp. cbn [orb]. apply occ_sep, N'. }
  destruct q; cbn [spell]; [exact T|apply Q; cbn; tauto..].
Qed.
Lemma type_text_args s a : ~ In ")"%char s -> ~ In ")"%char a -> type_text (s ++ $"(" ++ a ++ $")") = lower (s ++ $"(" ++ a ++ $")").
Proof.
  intros H A. apply type_text_spec. left. exists (s ++ $"(" ++ a), []. split; [|rewrite <- !app_assoc; reflexivity].
  apply cut_char; [rewrite <- !app_assoc; reflexivity|]. intros X. apply in_app_or in X. destruct X as [X|X]; [contradiction|]. destruct X as [X|X]; [discriminate|contradiction].
Qed.
Lemma type_text_word s : ~ In ")"%char s -> ~ In " "%char s -> type_text s = lower s.
Proof. intros H B. apply type_text_spec. right. right. change ($")") with [")"%char]. change ($" ") with [" "%char]. rewrite !occurs_char. repeat split; assumption. Qed.
Lemma number_of s a : ~ In "("%char s -> ~ In ")"%char s -> ~ In ")"%char a -> slice (find ($"(") (lower (s ++ $"(" ++ a ++ $")")) + 1) (find ($")") (lower (s ++ $"(" ++ a ++ $")"))) (lower (s ++ $"(" ++ a ++ $")")) = lower a.
Proof.
  intros O H A. rewrite !lower_app. change (lower ($"(")) with ($"("). change (lower ($")")) with ($")").
  assert (O' : ~ In "("%char (lower s)) by (rewrite in_lower by reflexivity; exact O). assert (H' : ~ In ")"%char (lower s)) by (apply close_lower, H). assert (A' : ~ In ")"%char (lower a)) by (apply close_lower, A).
  revert O' H' A'. generalize (lower s) (lower a). clear. intros s a O H A. change ($"(") with ["("%char] at 1. change (s ++ $"(" ++ a ++ $")") with (s ++ "("%char :: a ++ $")") at 1. rewrite find_char by exact O.
  replace (s ++ $"(" ++ a ++ $")") with ((s ++ $"(" ++ a) ++ ")"%char :: []) at 1 by (rewrite <- !app_assoc; reflexivity). change ($")") with [")"%char] at 1.
  rewrite find_char.
  - replace (Z.of_nat (length s) + 1)%Z with (Z.of_nat (length (s ++ $"("))) by (rewrite app_length; cbn; lia). replace (length (s ++ $"(" ++ a)) with (length (s ++ $"(") + length a) by (rewrite !app_length; lia).
    apply slice_mid with (c := $")"). rewrite <- !app_assoc. reflexivity.
  - intros X. apply in_app_or in X. destruct X as [X|[X|X]]; [contradiction|discriminate|contradiction].
Qed.
Lemma convert_spelled q w a : free_of name_marks w -> (forall x, a = Some x -> free_of ["("; ")"; "["; "]"]%char x) -> (a = None -> blank_free w) ->
  convert_type (spell q w ++ args_text a) = convert_type (w ++ args_text a).
Proof.
  intros H A B. assert (No : ~ In "("%char w) by (apply H; cbn; tauto). assert (Nc : ~ In ")"%char w) by (apply H; cbn; tauto).
  assert (So : ~ In "("%char (spell q w)) by (apply spell_not_in; [exact H|cbn; tauto]). assert (Sc : ~ In ")"%char (spell q w)) by (apply spell_not_in; [exact H|cbn; tauto]).
  destruct a as [a|]; cbn [args_text].
  - assert (Ac : ~ In ")"%char a) by (apply (A a eq_refl); cbn; tauto). apply convert_same.
    + intros p Hp. rewrite !type_text_args by assumption. rewrite !lower_app, lower_spell. change (lower ($"(") ++ lower a ++ lower ($")")) with ("("%char :: lower a ++ $")").
      assert (X : forall q, contains p (spell q (lower w) ++ "("%char :: lower a ++ $")") = contains p (lower w) || contains p ("("%char :: lower a ++ $")")) by (intros q'; apply contains_spelled; [exact Hp|right; eexists; reflexivity]).
      rewrite X. symmetry. exact (X Bare).
    + rewrite !type_text_args by assumption. unfold convert_number. rewrite !number_of by assumption.
      assert (C : forall s, contains ($")") (lower (s ++ $"(" ++ a ++ $")")) = true).
      { intros s. apply contains_true, occurs_char. rewrite in_lower by reflexivity. apply in_or_app. right. apply in_or_app. right. apply in_or_app. right. left. reflexivity. }
      rewrite !C. reflexivity.
  - rewrite !app_nil_r. specialize (B eq_refl). assert (Nb : ~ In " "%char w) by (intros X; apply B in X; discriminate X).
    assert (Sb : ~ In " "%char (spell q w)). { destruct q; cbn [spell]; [exact Nb|..]; (intros [X|X]; [discriminate|]; apply in_app_or in X; destruct X as [X|[X|[]]]; [contradiction|discriminate]). }
    apply convert_same; rewrite !type_text_word by assumption.
    + intros p Hp. rewrite lower_spell. pose proof (contains_spelled p q (lower w) [] Hp (or_introl eq_refl)) as E. rewrite app_nil_r, word_nonnil, orb_false_r in E by exact Hp. exact E.
    + unfold convert_number. assert (C : forall s, ~ In ")"%char s -> contains ($")") (lower s) = false). { intros s Hs. apply contains_false. change ($")") with [")"%char]. rewrite occurs_char. apply close_lower, Hs. } rewrite !C by assumption. reflexivity.
Qed.

(** ** The items *)
Lemma unb_column c : good_column_decl c -> map unb (column_decl_text c)
  = spell (uq (dc_quoting c)) (dc_name c) ++ $" " ++ spell (uq (dc_type_quoting c)) (dc_type c) ++ args_text (dc_args c) ++ map unb (dc_more c).
Proof.
  intros G. unfold column_decl_text. rewrite !map_app. rewrite unb_spell by (apply (gn_free _ _ (gc_name _ G))). rewrite unb_spell by apply (gc_type _ G).
  change (map unb ($" ")) with ($" "). do 3 f_equal. f_equal. destruct (dc_args c) as [a|] eqn:E; [|reflexivity]. cbn [args_text]. rewrite !map_app. rewrite (unb_id a); [reflexivity|].
  intros d Hd. apply (gc_args _ G a E). cbn in *. tauto.
Qed.
Lemma uq_brackets q : uq q <> Brackets. Proof. destruct q; discriminate. Qed.
Lemma uq_bare q : uq q = Bare -> q = Bare. Proof. destruct q; try discriminate. reflexivity. Qed.
Lemma good_uq q n : good_name q n -> good_name (uq q) n.
Proof. intros [A B C]. split; [exact A|exact B|]. intros E. apply C, uq_bare, E. Qed.
Lemma no_commas s : commas_inside s -> ~ In ")"%char s -> ~ In ","%char s.
Proof.
  induction 1 as [|c s H1 H2 _ IH|x s H _ IH]; intros N.
  - intros [].
  - intros [X|X]; [congruence|]. apply IH; [|exact X]. intros Y. apply N. right. exact Y.
  - exfalso. apply N. apply in_or_app. right. apply in_or_app. right. left. reflexivity.
Qed.
Lemma spelled_length q n : length (spell q n ++ $" ") = length n + (if is_quoted q then 3 else 1).
Proof. destruct q; cbn [spell is_quoted length]; rewrite ?app_length; cbn [length list_ascii_of_string]; rewrite ?app_length; cbn [length]; lia. Qed.
Lemma column_item_reads c ty rest T cols : good_column_decl c -> convert_type (written_type c) = Ok ty ->
  fields_loop (map unb (column_decl_text c) :: rest) T cols = fields_loop rest T (cols ++ [{| column_name := dc_name c; column_type := ty |}]).
Proof.
  intros G E. cbn [fields_loop]. rewrite contains_unb by reflexivity. replace (contains ($"key ") (lower (column_decl_text c))) with false by (symmetry; apply contains_false, (gc_no_key _ G)).
  rewrite (unb_column c G). rewrite field_name_spelled by (apply good_uq, (gc_name _ G) || apply uq_brackets). cbn [bind].
  destruct (gc_type _ G) as [N [F Tr]].
  assert (R : convert_type (field_type (spell (uq (dc_quoting c)) (dc_name c) ++ $" " ++ spell (uq (dc_type_quoting c)) (dc_type c) ++ args_text (dc_args c) ++ map unb (dc_more c)) (dc_name c) (is_quoted (uq (dc_quoting c)))) = Ok ty).
  { rewrite <- E. unfold written_type. rewrite <- (convert_spelled (uq (dc_type_quoting c)) (dc_type c) (dc_args c)); [|exact F|exact (gc_args _ G)|intros X; apply (gc_bare _ G X)]. f_equal.
    rewrite app_assoc. destruct (dc_args c) as [a|] eqn:Ea; cbn [args_text].
    - replace (spell (uq (dc_type_quoting c)) (dc_type c) ++ ($"(" ++ a ++ $")") ++ map unb (dc_more c)) with ((spell (uq (dc_type_quoting c)) (dc_type c) ++ $"(" ++ a) ++ ")"%char :: map unb (dc_more c)) by (rewrite <- !app_assoc; reflexivity).
      rewrite field_type_closed; [rewrite <- !app_assoc; reflexivity|apply spelled_length|]. intros X. apply in_app_or in X. destruct X as [X|[X|X]].
      + revert X. apply spell_not_in; [exact F|cbn; tauto].
      + discriminate.
      + revert X. apply (gc_args _ G a Ea). cbn. tauto.
    - rewrite app_nil_r. cbn [app]. destruct (gc_bare _ G Ea) as [B M]. destruct (gc_more _ G) as [_ Ci].
      assert (Nc : forall x, In x ["("; ")"; ","]%char -> ~ In x (spell (uq (dc_type_quoting c)) (dc_type c))) by (intros x Hx; apply spell_not_in; [exact F|cbn in *; tauto]).
      apply field_type_open.
      + apply spelled_length.
      + intros X. apply in_app_or in X. destruct X as [X|X]; [apply (Nc ")"%char); [cbn; tauto|exact X]|]. rewrite unb_in in X by discriminate. contradiction.
      + assert (Nb : ~ In " "%char (dc_type c)) by (intros X; apply B in X; discriminate X). destruct (uq (dc_type_quoting c)); cbn [spell]; [exact Nb|..]; (intros [X|X]; [discriminate|]; apply in_app_or in X; destruct X as [X|[X|[]]]; [contradiction|discriminate]).
      + intros X. apply in_app_or in X. destruct X as [X|X]; [apply (Nc ","%char); [cbn; tauto|exact X]|]. rewrite unb_in in X by discriminate. exact (no_commas _ Ci M X).
      + destruct (gc_apart _ G) as [->|[r ->]]; [left; reflexivity|right; eexists; reflexivity]. }
  rewrite R. cbn [bind]. destruct (convert_cases (written_type c)) as [[ty' [E' V]]|E']; rewrite E in E'; [|discriminate]. apply ok_inj in E'. subst ty'.
  rewrite target_accepted by exact V. reflexivity.
Qed.

(** *** keys *)
Definition key_names (k : key_decl) : list str := map (fun x => snd (snd (fst x))) (kd_columns k).
Definition uqn (x : bool * (quoting * str) * bool) : bool * (quoting * str) * bool := let '(a, (q, n), b) := x in (a, (uq q, n), b).
Lemma unb_key_columns l : (forall a q n b, In (a, (q, n), b) l -> good_name q n) -> map unb (join ($",") (map (padded spelled) l)) = join ($",") (map (padded spelled) (map uqn l)).
Proof.
  intros H. assert (P : forall x, In x l -> map unb (padded spelled x) = padded spelled (uqn x)).
  { intros [[a [q n]] b] Hx. unfold padded, spelled. cbn [fst snd uqn]. rewrite !map_app, !unb_gap, unb_spell; [reflexivity|]. apply (gn_free _ _ (H _ _ _ _ Hx)). }
  clear H. induction l as [|x l IH]; [reflexivity|]. destruct l as [|y l].
  - cbn [map join]. apply P. left. reflexivity.
  - cbn [map]. rewrite (join_cons ($",") (padded spelled x)) by discriminate. rewrite (join_cons ($",") (padded spelled (uqn x))) by discriminate. rewrite !map_app, P by (left; reflexivity). change (map unb ($",")) with ($","). f_equal. f_equal. apply IH. intros z Hz. apply P. right. exact Hz.
Qed.
Lemma padded_not_in c a q n b : free_of name_marks n -> In c ["("; ")"; ","]%char -> ~ In c (padded spelled (a, (q, n), b)).
Proof.
  intros H Hc X. unfold padded, spelled in X. cbn [fst snd] in X. assert (G : forall g, ~ In c (gap g)) by (intros []; cbn; [intros [Y|[]]; subst c; repeat (destruct Hc as [Hc|Hc]; [discriminate|]); destruct Hc|tauto]).
  apply in_app_or in X. destruct X as [X|X]; [exact (G _ X)|]. apply in_app_or in X. destruct X as [X|X]; [|exact (G _ X)]. revert X. apply spell_not_in; [exact H|cbn in *; tauto].
Qed.
Lemma columns_not_in c l : (forall a q n b, In (a, (q, n), b) l -> free_of name_marks n) -> In c ["("; ")"]%char -> ~ In c (join ($",") (map (padded spelled) l)).
Proof.
  intros H Hc. induction l as [|[[a [q n]] b] l IH]; [intros []|]. assert (P : ~ In c (padded spelled (a, (q, n), b))) by (apply padded_not_in; [apply (H a q n b); left; reflexivity|cbn in *; tauto]).
  destruct l as [|y l]; [exact P|]. change (map (padded spelled) ((a, (q, n), b) :: y :: l)) with (padded spelled (a, (q, n), b) :: map (padded spelled) (y :: l)). rewrite join_cons by discriminate.
  intros X. apply in_app_or in X. destruct X as [X|[X|X]]; [exact (P X)|subst c; repeat (destruct Hc as [Hc|Hc]; [discriminate|]); destruct Hc|].
  revert X. apply IH. intros a' q' n' b' Hx. apply (H a' q' n' b'). right. exact Hx.
Qed.
Lemma strip_key_column a q n b : good_name q n -> ~ In " "%char n -> q = Bare \/ q = DoubleQuotes -> replace_char dquote [] (replace_char " " [] (padded spelled (a, (q, n), b))) = n.
Proof.
  intros G B Q. unfold padded, spelled. cbn [fst snd]. rewrite !replace_app. assert (Eg : forall g, replace_char " " [] (gap g) = []) by (intros []; reflexivity). rewrite !Eg. cbn [app].
  change (replace_char dquote [] []) with ([] : str). rewrite app_nil_r. assert (D : ~ In dquote n) by (apply (name_not_in _ _ _ G); cbn; tauto).
  destruct Q as [->| ->]; cbn [spell].
  - rewrite (replace_absent " ") by exact B. apply replace_absent, D.
  - change (SpecParse.dq :: n ++ [SpecParse.dq]) with ([dquote] ++ n ++ [dquote]). rewrite !replace_app. rewrite (replace_absent " " [] n) by exact B. rewrite (replace_absent dquote [] n) by exact D.
    change (replace_char dquote [] (replace_char " " [] [dquote])) with ([] : str). apply app_nil_r.
Qed.
Lemma split_key_columns l : l <> [] -> (forall a q n b, In (a, (q, n), b) l -> good_name q n /\ ~ In " "%char n /\ (q = Bare \/ q = DoubleQuotes)) ->
  split_char "," (replace_char dquote [] (replace_char " " [] (join ($",") (map (padded spelled) l)))) = map (fun x => snd (snd (fst x))) l.
Proof.
  induction l as [|[[a [q n]] b] l IH]; intros N H; [contradiction|]. destruct (H a q n b (or_introl eq_refl)) as [G [B Q]].
  assert (C : ~ In ","%char n) by (apply (name_not_in _ _ _ G); cbn; tauto). destruct l as [|y l].
  - cbn [map join fst snd]. rewrite strip_key_column by assumption. apply split_char_none, C.
  - change (map (padded spelled) ((a, (q, n), b) :: y :: l)) with (padded spelled (a, (q, n), b) :: map (padded spelled) (y :: l)). rewrite join_cons by discriminate. rewrite !replace_app.
    rewrite strip_key_column by assumption. change (replace_char dquote [] (replace_char " " [] ($","))) with [","%char]. cbn [app]. rewrite split_char_app by exact C.
    rewrite IH; [reflexivity|discriminate|]. intros a' q' n' b' Hx. apply (H a' q' n' b'). right. exact Hx.
Qed.
Lemma cut_at c a b : ~ In c a -> before [c] (a ++ c :: b) = a /\ after [c] (a ++ c :: b) = b.
Proof.
  intros Na. assert (O : occurs [c] (a ++ c :: b)) by (exists a, b; reflexivity). pose proof (cut_some _ _ O) as C1. pose proof (cut_char c (a ++ c :: b) a b eq_refl Na) as C2.
  destruct (first_cut_fun _ _ _ _ _ _ C2 C1) as [E1 E2]. split; congruence.
Qed.
Lemma unb_key k : good_key_decl k -> map unb (key_decl_text k) = map unb (kd_head k) ++ "("%char :: join ($",") (map (padded spelled) (map uqn (kd_columns k))) ++ ")"%char :: map unb (kd_more k).
Proof.
  intros G. unfold key_decl_text. rewrite !map_app, unb_key_columns by (intros a q n b Hx; apply (gk_columns _ G a q n b Hx)). reflexivity.
Qed.
Lemma uqn_good k a q n b : good_key_decl k -> In (a, (q, n), b) (map uqn (kd_columns k)) -> good_name q n /\ ~ In " "%char n /\ (q = Bare \/ q = DoubleQuotes).
Proof.
  intros G H. apply in_map_iff in H. destruct H as [[[a' [q' n']] b'] [E H]]. cbn [uqn] in E. injection E as <- <- <- <-. destruct (gk_columns _ G _ _ _ _ H) as [A [B [C D]]].
  split; [apply good_uq, A|split; [exact B|]]. destruct q'; cbn [uq]; tauto.
Qed.
Lemma occurs_left p a b : occurs p a -> occurs p (a ++ b).
Proof. intros H. apply occurs_app. left. exact H. Qed.
Lemma key_item_reads k rest T cols : good_key_decl k -> fields_loop (map unb (key_decl_text k) :: rest) T cols = fields_loop rest (with_pk T (key_names k)) cols.
Proof.
  intros G. cbn [fields_loop]. rewrite !contains_unb by reflexivity. destruct (gk_words _ G) as [K P].
  assert (O : forall p, occurs p (lower (kd_head k)) -> contains p (lower (key_decl_text k)) = true) by (intros p Hp; apply contains_true; unfold key_decl_text; rewrite lower_app; apply occurs_left, Hp).
  rewrite (O _ K), (O _ P). cbn [set_primary_key bind keys_list]. f_equal. f_equal. unfold field_pk. rewrite (unb_key k G). change ($"(") with ["("%char]. change ($")") with [")"%char].
  rewrite (proj2 (cut_at "("%char _ _ ltac:(rewrite unb_in by discriminate; apply (proj1 (gk_head _ G)); cbn; tauto))).
  assert (F : ~ In ")"%char (join ($",") (map (padded spelled) (map uqn (kd_columns k))))).
  { apply columns_not_in; [|cbn; tauto]. intros a q n b Hx. apply (gn_free q). apply (uqn_good k a q n b G Hx). }
  rewrite (proj1 (cut_at ")"%char _ _ F)). rewrite split_key_columns.
  - unfold key_names. rewrite map_map. apply map_ext. intros [[a [q n]] b]. reflexivity.
  - intros E. apply map_eq_nil in E. exact (gk_some _ G E).
  - intros a q n b Hx. apply (uqn_good k a q n b G Hx).
Qed.
Lemma other_item_reads s rest T cols : good_other s -> fields_loop (map unb s :: rest) T cols = fields_loop rest T cols.
Proof.
  intros G. cbn [fields_loop]. rewrite !contains_unb by reflexivity. destruct (go_words _ G) as [K P].
  rewrite (proj2 (contains_true _ _) K), (proj2 (contains_false _ _) P). reflexivity.
Qed.

(** *** all items *)
Definition typed (c : column_decl) (ty : str) : column := {| column_name := dc_name c; column_type := ty |}.
Lemma items_read l : (forall i, In i l -> good_item i) -> forall types, Forall2 (fun c ty => convert_type (written_type c) = Ok ty) (columns_of l) types -> forall T cols,
  fields_loop (map (fun i => map unb (item_text i)) l) T cols = Ok (with_pk T (declared_key l (t_pk T)), cols ++ map (fun x => typed (fst x) (snd x)) (combine (columns_of l) types)).
Proof.
  induction l as [|i l IH]; intros H types Ty T cols.
  - cbn [columns_of flat_map] in Ty. inversion Ty. subst. cbn [map combine fields_loop columns_of flat_map declared_key]. rewrite app_nil_r. destruct T; reflexivity.
  - assert (Hl : forall j, In j l -> good_item j) by (intros j Hj; apply H; right; exact Hj). pose proof (H i (or_introl eq_refl)) as G. destruct i as [c|k|s]; cbn [map item_text good_item] in *.
    + cbn [columns_of flat_map app] in Ty. fold (columns_of l) in Ty. inversion Ty as [|x ty xs tys E Es]. subst. rewrite (column_item_reads c ty) by assumption. rewrite (IH Hl tys Es).
      cbn [columns_of flat_map app declared_key]. fold (columns_of l). cbn [combine map fst snd]. rewrite <- app_assoc. reflexivity.
    + rewrite (key_item_reads k) by exact G. rewrite (IH Hl types Ty). cbn [declared_key]. destruct T; reflexivity.
    + rewrite (other_item_reads s) by exact G. rewrite (IH Hl types Ty). reflexivity.
Qed.

(** ** The list of items in its text *)
Lemma commas_app a b : commas_inside a -> commas_inside b -> commas_inside (a ++ b).
Proof. intros A B. induction A as [|c s H1 H2 _ IH|x s H _ IH]; [exact B|apply ci_char; assumption|]. rewrite <- !app_assoc. apply ci_paren; assumption. Qed.
Lemma commas_flat s : ~ In "("%char s -> ~ In ","%char s -> commas_inside s.
Proof.
  induction s as [|c s IH]; intros A B; [apply ci_nil|]. apply ci_char; [intros ->; apply A; left; reflexivity|intros ->; apply B; left; reflexivity|].
  apply IH; intros X; [apply A|apply B]; right; exact X.
Qed.
Lemma item_ok i : good_item i -> commas_inside (item_text i) /\ ends_hard (item_text i) = true /\ item_text i <> [].
Proof.
  destruct i as [c|k|s]; cbn [good_item item_text]; intros G.
  - destruct (gc_type _ G) as [N [F Tr]]. destruct (gc_more _ G) as [Tm Ci]. pose proof (gc_name _ G) as Gn. unfold column_decl_text. split; [|split].
    + repeat apply commas_app; try exact Ci.
      * apply commas_flat; (apply spell_not_in; [apply (gn_free _ _ Gn)|cbn; tauto]).
      * apply commas_flat; intros [X|[]]; discriminate.
      * apply commas_flat; (apply spell_not_in; [exact F|cbn; tauto]).
      * destruct (dc_args c) as [a|] eqn:Ea; cbn [args_text]; [|apply ci_nil]. rewrite <- (app_nil_r ($")")). apply ci_paren; [|apply ci_nil]. apply (gc_args _ G a Ea). cbn. tauto.
    + assert (L : last_hard (spell (dc_type_quoting c) (dc_type c) ++ args_text (dc_args c) ++ dc_more c) = true).
      { destruct (dc_more c) as [|m ms] eqn:Em.
        - rewrite app_nil_r. destruct (dc_args c) as [a|]; cbn [args_text].
          + rewrite !app_assoc, last_hard_app by discriminate. reflexivity.
          + rewrite app_nil_r. apply trimmed_hard in Tr. destruct (dc_type_quoting c); cbn [spell]; [rewrite ends_hard_eq in Tr; apply andb_true_iff in Tr; apply Tr|..];
              (match goal with |- last_hard (?x :: ?n ++ [?y]) = true => change (x :: n ++ [y]) with ((x :: n) ++ [y]); rewrite last_hard_app by discriminate; reflexivity end).
        - rewrite app_assoc, last_hard_app by discriminate. apply trimmed_hard in Tm. rewrite ends_hard_eq in Tm. apply andb_true_iff in Tm. destruct Tm as [_ Tm]. rewrite last_hard_app in Tm by discriminate. exact Tm. }
      apply hard_join; [|apply spell_nonnil, (gn_some _ _ Gn)|exact L|].
      * pose proof (spell_hard _ _ (gn_some _ _ Gn) (gn_bare _ _ Gn)) as X. rewrite ends_hard_eq in X. apply andb_true_iff in X. apply X.
      * intros X. apply app_eq_nil in X. destruct X as [X _]. revert X. apply spell_nonnil, N.
    + intros X. apply app_eq_nil in X. destruct X as [X _]. revert X. apply spell_nonnil, (gn_some _ _ Gn).
  - destruct (gk_head _ G) as [Fh Th]. destruct (gk_more _ G) as [Tm Ci]. unfold key_decl_text. assert (Nh : kd_head k <> []). { intros E. destruct (gk_words _ G) as [_ [x [y X]]]. rewrite E in X. destruct x; discriminate X. }
    split; [|split].
    + apply commas_app; [apply commas_flat; apply Fh; cbn; tauto|]. apply ci_paren; [|exact Ci]. apply columns_not_in; [|cbn; tauto]. intros a q n b Hx. apply (gn_free q). apply (gk_columns _ G a q n b Hx).
    + apply trimmed_hard in Th, Tm. rewrite ends_hard_eq in Th, Tm. apply andb_true_iff in Th, Tm. destruct Th as [Th _]. destruct Tm as [_ Tm]. rewrite (app_assoc ($"(")). apply hard_join; [|exact Nh|exact Tm|discriminate].
      destruct (kd_head k); [contradiction|exact Th].
    + intros X. apply app_eq_nil in X. apply Nh, X.
  - destruct (go_text _ G) as [N [T C]]. split; [exact C|split; [apply trimmed_hard, T|exact N]].
Qed.

Section Raw.
Context {A : Type} (text : A -> str).
Fixpoint body (x : A) (b : bool) (l : list (bool * A * bool)) : str :=
  match l with [] => text x | (a, y, b') :: l' => text x ++ gap b ++ $"," ++ gap a ++ body y b' l' end.
Fixpoint last_gap (b : bool) (l : list (bool * A * bool)) : bool := match l with [] => b | (_, _, b') :: l' => last_gap b' l' end.
Lemma join_body a x b l : join ($",") (map (padded text) ((a, x, b) :: l)) = gap a ++ body x b l ++ gap (last_gap b l).
Proof.
  revert a x b. induction l as [|[[a' y] b'] l IH]; intros a x b; [reflexivity|].
  change (map (padded text) ((a, x, b) :: (a', y, b') :: l)) with (padded text (a, x, b) :: map (padded text) ((a', y, b') :: l)). rewrite join_cons by discriminate. rewrite IH.
  cbn [body last_gap]. unfold padded. cbn [fst snd]. rewrite <- !app_assoc. reflexivity.
Qed.
Definition mid (x : bool * A * bool) : A := snd (fst x).
Lemma gap_space b : forallb is_space (gap b) = true. Proof. destruct b; reflexivity. Qed.
Lemma gap_closed b : closed (gap b).
Proof. destruct b; apply closed_flat; apply not_in_b; reflexivity. Qed.
Definition fit (x : A) : Prop := closed (text x) /\ ends_hard (text x) = true /\ text x <> [].
Lemma body_nonnil x b l : text x <> [] -> body x b l <> [].
Proof. intros N. destruct l as [|[[a y] b'] l]; cbn [body]; [exact N|]. intros X. apply app_eq_nil in X. apply N, X. Qed.
Lemma body_last x b l : (forall y, In y (x :: map mid l) -> fit y) -> last_hard (body x b l) = true.
Proof.
  revert x b. induction l as [|[[a y] b'] l IH]; intros x b H; cbn [body].
  - destruct (H x (or_introl eq_refl)) as [_ [E _]]. rewrite ends_hard_eq in E. apply andb_true_iff in E. apply E.
  - rewrite !app_assoc, last_hard_app; [apply IH; intros z Hz; apply H; right; exact Hz|]. apply body_nonnil. apply (H y). right. left. reflexivity.
Qed.
Lemma body_hard x b l : (forall y, In y (x :: map mid l) -> fit y) -> ends_hard (body x b l) = true.
Proof.
  intros H. rewrite ends_hard_eq, body_last by exact H. destruct (H x (or_introl eq_refl)) as [_ [E N]]. rewrite ends_hard_eq in E. apply andb_true_iff in E. destruct E as [E _].
  destruct (text x) as [|c t] eqn:T; [contradiction|]. cbn [head_hard] in E. destruct l as [|[[a y] b'] l]; cbn [body]; rewrite T; cbn [app head_hard]; rewrite E; reflexivity.
Qed.
Lemma raw_body l : forall x b g acc, forallb is_space g = true -> (forall y, In y (x :: map mid l) -> fit y) ->
  raw_fields_loop (body x b l) g false acc = acc ++ text x :: map text (map mid l).
Proof.
  induction l as [|[[a y] b'] l IH]; intros x b g acc Hg H; destruct (H x (or_introl eq_refl)) as [C [E N]]; cbn [body].
  - rewrite <- (app_nil_r (text x)) at 1. rewrite C. cbn [raw_fields_loop map]. replace (negb (str_eqb (g ++ text x) [])) with true.
    + pose proof (strip_around g (text x) [] Hg eq_refl E) as S. rewrite app_nil_r in S. rewrite S. reflexivity.
    + symmetry. apply negb_true_iff, str_eqb_neq. intros X. apply app_eq_nil in X. apply N, X.
  - rewrite C, gap_closed. change ($"," ++ gap a ++ body y b' l) with (","%char :: gap a ++ body y b' l). cbn [raw_fields_loop]. change (Ascii.eqb "," "(") with false. change (Ascii.eqb "," ",") with true. cbn match.
    rewrite gap_closed. cbn [app]. rewrite IH by (apply gap_space || (intros z Hz; apply H; right; exact Hz)). rewrite <- (app_assoc g), strip_around by (assumption || apply gap_space). cbn [map mid fst snd]. rewrite <- app_assoc. reflexivity.
Qed.
Lemma raw_items l : (forall y, In y (map mid l) -> fit y) -> raw_fields (strip (join ($",") (map (padded text) l))) = map text (map mid l).
Proof.
  destruct l as [|[[a x] b] l]; intros H; [reflexivity|]. rewrite join_body. cbn [map mid fst snd] in H. rewrite strip_around by (apply gap_space || apply body_hard, H).
  unfold raw_fields. rewrite raw_body by (reflexivity || exact H). reflexivity.
Qed.
End Raw.

(** ** The statement *)
Lemma rfind_tail c a b : ~ In c b -> rfind_char c (a ++ c :: b) = Z.of_nat (length a).
Proof.
  intros H. unfold rfind_char. rewrite rev_app_distr. cbn [rev]. rewrite <- app_assoc. cbn [app]. rewrite find_opt_char by (rewrite <- in_rev; exact H). rewrite rev_length, app_length. cbn [length]. lia.
Qed.
Lemma column_text_of P M tail : ~ In "("%char P -> ~ In ")"%char tail -> column_text (P ++ "("%char :: M ++ ")"%char :: tail) = strip M.
Proof.
  intros A B. unfold column_text. f_equal. change ($"(") with ["("%char]. rewrite find_char by exact A.
  replace (P ++ "("%char :: M ++ ")"%char :: tail) with ((P ++ "("%char :: M) ++ ")"%char :: tail) by (rewrite <- app_assoc; reflexivity). rewrite rfind_tail by exact B.
  replace (Z.of_nat (length P) + 1)%Z with (Z.of_nat (length (P ++ ["("%char]))) by (rewrite app_length; cbn [length]; lia).
  replace (length (P ++ "("%char :: M)) with (length (P ++ ["("%char]) + length M) by (rewrite !app_length; cbn [length]; lia).
  apply slice_mid with (c := ")"%char :: tail). rewrite <- !app_assoc. reflexivity.
Qed.
Definition names_text (p : list (quoting * str)) (q : quoting) (n : str) : str := flat_map (fun x => spelled x ++ $".") p ++ spell q n.
Lemma last_name p q n : (forall x, In x p -> free_of name_marks (snd x)) -> free_of name_marks n -> last_of (split_char "." (names_text p q n)) = spell q n.
Proof.
  unfold names_text. intros H G. induction p as [|x p IH]; cbn [flat_map app].
  - rewrite split_char_none by (apply spell_not_in; [exact G|cbn; tauto]). reflexivity.
  - rewrite <- !app_assoc. change ($"." ++ ?s) with ("."%char :: s). rewrite split_char_app by (apply spell_not_in; [apply H; left; reflexivity|cbn; tauto]).
    specialize (IH (fun y Hy => H y (or_intror Hy))). unfold last_of in *. cbn [last]. rewrite IH.
    destruct (split_char "." (flat_map (fun x0 => spelled x0 ++ $".") p ++ spell q n)) eqn:E; [exfalso; exact (split_nonnil _ _ E)|reflexivity].
Qed.
Lemma strip_spelled q n : free_of name_marks n -> q <> Brackets -> strip_quotes (spell q n) = n.
Proof.
  intros H B. assert (N : forall c, In c name_marks -> replace_char c [] n = n) by (intros c Hc; apply replace_absent, H, Hc).
  unfold strip_quotes. destruct q; [|..|contradiction]; cbn [spell];
    try (match goal with |- context [?x :: n ++ [?y]] => change (x :: n ++ [y]) with ([x] ++ n ++ [y]) end); rewrite ?replace_app, !N by (cbn; tauto); try reflexivity; exact (app_nil_r n).
Qed.
Lemma contains_skip p c s : hd_error p <> Some c -> p <> [] -> contains p (c :: s) = contains p s.
Proof.
  intros H N. unfold contains. cbn [find_opt]. destruct p as [|x p]; [contradiction|]. cbn [starts_with]. destruct (Ascii.eqb_spec x c) as [->|_]; [exfalso; apply H; reflexivity|]. cbn [andb].
  destruct (find_opt (x :: p) s); reflexivity.
Qed.
Lemma contains_skip_all x p a s : ~ In x a -> contains (x :: p) (a ++ s) = contains (x :: p) s.
Proof.
  induction a as [|c a IH]; intros H; [reflexivity|]. cbn [app]. rewrite contains_skip; [apply IH; intros X; apply H; right; exact X| |discriminate].
  cbn [hd_error]. intros E. injection E as ->. apply H. left. reflexivity.
Qed.
Lemma rstrip_gap s b : s <> [] -> last_hard s = true -> rstrip (s ++ gap b) = s.
Proof.
  intros N L. unfold rstrip. rewrite rev_app_distr. assert (E : lstrip (rev (gap b) ++ rev s) = lstrip (rev s)) by (destruct b; reflexivity). rewrite E. unfold last_hard in L.
  destruct (rev s) as [|c r] eqn:R; [apply (f_equal (@rev _)) in R; rewrite rev_involutive in R; contradiction|]. cbn [lstrip]. destruct (is_space c); [discriminate|]. rewrite <- R. apply rev_involutive.
Qed.
Lemma names_last p q n : n <> [] -> last_hard (spell q n) = true -> last_hard (names_text p q n) = true /\ names_text p q n <> [].
Proof.
  intros G L. unfold names_text. pose proof (spell_nonnil q n G) as N. rewrite last_hard_app by exact N. split; [exact L|].
  intros X. apply app_eq_nil in X. apply N, X.
Qed.
Lemma good_last q n : good_name q n -> last_hard (spell q n) = true.
Proof. intros G. pose proof (spell_hard q n (gn_some _ _ G) (gn_bare _ _ G)) as X. rewrite ends_hard_eq in X. apply andb_true_iff in X. apply X. Qed.
Lemma names_not_in c p q n : (forall x, In x p -> free_of name_marks (snd x)) -> free_of name_marks n -> In c ["("; ")"; ","]%char -> ~ In c (names_text p q n).
Proof.
  unfold names_text. intros H G Hc. induction p as [|x p IH]; cbn [flat_map app]; [apply spell_not_in; [exact G|cbn in *; tauto]|].
  rewrite <- !app_assoc. intros X. apply in_app_or in X. destruct X as [X|[X|X]].
  - revert X. apply spell_not_in; [apply H; left; reflexivity|cbn in *; tauto].
  - subst c. repeat (destruct Hc as [Hc|Hc]; [discriminate|]). destruct Hc.
  - revert X. apply IH. intros y Hy. apply H. right. exact Hy.
Qed.
Lemma table_name_of head p q n b R : (forall x, In x p -> free_of name_marks (snd x)) -> n <> [] -> free_of name_marks n -> last_hard (spell q n) = true -> q <> Brackets ->
  (lower head = $"create table " /\ contains ($"or replace") (lower (names_text p q n)) = false) \/ lower head = $"create or replace table " ->
  get_table_name (head ++ names_text p q n ++ gap b ++ "("%char :: R) = n.
Proof.
  intros Hp Nn Fn Ln Hq Hh. unfold get_table_name. destruct (names_last p q n Nn Ln) as [L N].
  assert (Oh : ~ In "("%char head).
  { rewrite <- (in_lower "(" head) by reflexivity. destruct Hh as [[-> _]| ->]; apply not_in_b; reflexivity. }
  assert (O : ~ In "("%char (head ++ names_text p q n ++ gap b)).
  { intros X. apply in_app_or in X. destruct X as [X|X]; [contradiction|]. apply in_app_or in X. destruct X as [X|X].
    - revert X. apply names_not_in; [exact Hp|exact Fn|cbn; tauto].
    - destruct b; [destruct X as [X|[]]; discriminate|destruct X]. }
  replace (head ++ names_text p q n ++ gap b ++ "("%char :: R) with ((head ++ names_text p q n ++ gap b) ++ "("%char :: R) by (rewrite <- !app_assoc; reflexivity).
  change ($"(") with ["("%char]. rewrite find_char by exact O. rewrite (slice_prefix _ ("("%char :: R)) by reflexivity.
  rewrite (app_assoc head). rewrite rstrip_gap; [|intros X; apply app_eq_nil in X; apply N, X|rewrite last_hard_app by exact N; exact L].
  assert (S : skipn (if contains ($"or replace") (lower (head ++ names_text p q n)) then length ($"create or replace table ") else length ($"create table ")) (head ++ names_text p q n) = names_text p q n).
  { rewrite lower_app. destruct Hh as [[E C]|E]; pose proof (f_equal (@length _) E) as Lh; rewrite lower_length in Lh; rewrite E.
    - change ($"or replace") with ("o"%char :: $"r replace"). rewrite contains_skip_all by (apply not_in_b; reflexivity). change ("o"%char :: $"r replace") with ($"or replace"). rewrite C, <- Lh.
      rewrite skipn_app, skipn_all, Nat.sub_diag. reflexivity.
    - replace (contains ($"or replace") ($"create or replace table " ++ lower (names_text p q n))) with true by (symmetry; apply contains_true; exists ($"create "), ($" table " ++ lower (names_text p q n)); reflexivity).
      rewrite <- Lh, skipn_app, skipn_all, Nat.sub_diag. reflexivity. }
  rewrite S, last_name by assumption. apply strip_spelled; assumption.
Qed.

Lemma head_unb h : lower h = $"create table " \/ lower h = $"create or replace table " -> map unb h = h.
Proof.
  intros H. apply unb_id. intros c Hc. assert (L : caseless c = true) by (repeat (destruct Hc as [<-|Hc]; [reflexivity|]); destruct Hc). rewrite <- (in_lower c h) by exact L.
  destruct H as [-> | ->]; apply not_in_b; repeat (destruct Hc as [<-|Hc]; [reflexivity|]); destruct Hc.
Qed.
Definition uqs (x : quoting * str) : quoting * str := (uq (fst x), snd x).
Lemma unb_names p q n : (forall x, In x p -> free_of name_marks (snd x)) -> free_of name_marks n -> map unb (names_text p q n) = names_text (map uqs p) (uq q) n.
Proof.
  unfold names_text. intros H G. rewrite map_app, unb_spell by exact G. f_equal. induction p as [|x p IH]; [reflexivity|]. cbn [flat_map map]. rewrite !map_app, IH by (intros y Hy; apply H; right; exact Hy).
  unfold spelled at 1. rewrite unb_spell by (apply H; left; reflexivity). reflexivity.
Qed.
Lemma unb_items (l : list (bool * item * bool)) : map unb (join ($",") (map (padded item_text) l)) = join ($",") (map (padded (fun i => map unb (item_text i))) l).
Proof.
  assert (P : forall x, map unb (padded item_text x) = padded (fun i => map unb (item_text i)) x) by (intros x; unfold padded; rewrite !map_app, !unb_gap; reflexivity).
  induction l as [|x l IH]; [reflexivity|]. destruct l as [|y l]; [apply P|].
  change (map (padded item_text) (x :: y :: l)) with (padded item_text x :: map (padded item_text) (y :: l)).
  change (map (padded (fun i => map unb (item_text i))) (x :: y :: l)) with (padded (fun i => map unb (item_text i)) x :: map (padded (fun i => map unb (item_text i))) (y :: l)).
  rewrite (join_cons ($",") (padded item_text x)) by discriminate. rewrite (join_cons ($",") (padded (fun i => map unb (item_text i)) x)) by discriminate. rewrite !map_app, IH, P. reflexivity.
Qed.
Theorem create_read schema id d c types : good_create_decl c ->
  Forall2 (fun x ty => convert_type (written_type x) = Ok ty) (columns_of (items_of c)) types ->
  parse_statement schema id d (create_decl_text c) = Ok (add_table d (described schema c types)).
Proof.
  intros G Ty. destruct (gt_only _ G) as [Odb Ohash]. unfold parse_statement.
  assert (Nm : forall x, In x (dt_path c) -> free_of name_marks (snd x)). { intros [q n] Hx. apply (gn_free q). apply (gt_names _ G q n). left. exact Hx. }
  assert (Gn : good_name (dt_quoting c) (dt_name c)) by (apply (gt_names _ G); right; reflexivity).
  rewrite (proj2 (contains_false _ _) Odb).
  assert (Cr : contains ($"create table") (lower (create_decl_text c)) || contains ($"create or replace table") (lower (create_decl_text c)) = true).
  { apply orb_true_iff. unfold create_decl_text. rewrite lower_app. destruct (gt_head _ G) as [-> | ->]; [left|right]; apply contains_true; exists []; eexists; cbn [app];
      [change ($"create table ") with ($"create table" ++ $" ")|change ($"create or replace table ") with ($"create or replace table" ++ $" ")]; rewrite <- app_assoc; reflexivity. }
  rewrite Cr. unfold parse_create_table. rewrite unbracket, contains_unb, (proj2 (contains_false _ _) Ohash) by reflexivity.
  assert (E : map unb (create_decl_text c) = dt_head c ++ names_text (map uqs (dt_path c)) (uq (dt_quoting c)) (dt_name c) ++ gap (dt_gap c) ++ "("%char :: join ($",") (map (padded (fun i => map unb (item_text i))) (dt_items c)) ++ ")"%char :: map unb (dt_more c)).
  { unfold create_decl_text. rewrite !map_app, head_unb by apply (gt_head _ G). rewrite unb_gap, unb_items. change (path_text c) with (names_text (dt_path c) (dt_quoting c) (dt_name c)).
    rewrite unb_names by (exact Nm || apply (gn_free _ _ Gn)). reflexivity. }
  rewrite E. assert (Nm' : forall x, In x (map uqs (dt_path c)) -> free_of name_marks (snd x)). { intros x Hx. apply in_map_iff in Hx. destruct Hx as [y [<- Hy]]. exact (Nm y Hy). }
  rewrite table_name_of.
  - unfold parse_columns. rewrite !app_assoc. rewrite <- (app_assoc (dt_head c)). rewrite column_text_of.
    + rewrite raw_items.
      * change (map (@mid item) (dt_items c)) with (items_of c). rewrite (items_read (items_of c) (gt_items _ G) types Ty). cbn [bind app].
        rewrite add_columns_new.
        -- cbn [t_cols with_pk mk_table app]. f_equal. f_equal. unfold described, named_cols, with_cols, with_pk, mk_table. cbn [t_name t_schema t_pk t_shard t_cols t_fks t_rels]. f_equal. rewrite map_map. reflexivity.
        -- cbn [t_cols with_pk mk_table dkeys map app]. rewrite map_map. cbn [typed column_name]. pose proof (gt_distinct _ G) as D. revert D Ty. generalize (columns_of (items_of c)). clear. intros l D Ty.
           replace (map (fun x => dc_name (fst x)) (combine l types)) with (map dc_name l); [exact D|]. induction Ty as [|x ty l tys _ _ IH]; [reflexivity|]. cbn [combine map fst]. f_equal. apply IH. cbn [map] in D. inversion D. assumption.
      * intros i Hi. apply (gt_items _ G) in Hi. destruct (item_ok i Hi) as [A [B C]]. split; [apply closed_unb, A|split; [rewrite unb_hard; exact B|]]. intros X. apply map_eq_nil in X. contradiction.
    + intros X. apply in_app_or in X. destruct X as [X|X].
      * revert X. rewrite <- (in_lower "(" (dt_head c)) by reflexivity. destruct (gt_head _ G) as [-> | ->]; apply not_in_b; reflexivity.
      * apply in_app_or in X. destruct X as [X|X].
        -- revert X. apply names_not_in; [exact Nm'|apply (gn_free _ _ Gn)|cbn; tauto].
        -- destruct (dt_gap c); [destruct X as [X|[]]; discriminate|destruct X].
    + rewrite unb_in by discriminate. exact (gt_more _ G).
  - exact Nm'.
  - apply (gn_some _ _ Gn).
  - apply (gn_free _ _ Gn).
  - apply good_last, good_uq, Gn.
  - apply uq_brackets.
  - destruct (gt_head _ G) as [H|H]; [left|right; exact H]. split; [exact H|]. rewrite <- unb_names by (exact Nm || apply (gn_free _ _ Gn)). rewrite contains_unb by reflexivity. apply contains_false, (gt_replace _ G H).
Qed.

(** ** Types *)
Lemma convert_same_words s s' : (forall p, In p type_words -> contains p (type_text s) = contains p (type_text s')) -> contains ($"number") (type_text s') = false -> convert_type s = convert_type s'.
Proof.
  intros H N. unfold convert_type. assert (N' : contains ($"number") (type_text s) = false) by (rewrite H by (unfold type_words; cbn [In]; tauto); exact N). rewrite N, N'. unfold type_words in H. cbn [In] in H.
  repeat match goal with |- context [contains ?p (type_text s)] => rewrite (H p) by tauto end. reflexivity.
Qed.
Lemma type_words_first p : In p type_words -> exists c r, p = c :: r /\ (lower_char c <> c \/ upper_char c <> c).
Proof.
  intros H. assert (F : forallb (fun p => match p with [] => false | c :: _ => negb (Ascii.eqb (upper_char c) c) end) type_words = true) by reflexivity. rewrite forallb_forall in F. specialize (F p H).
  destruct p as [|c r]; [discriminate|]. exists c, r. split; [reflexivity|right]. apply negb_true_iff in F. apply Ascii.eqb_neq, F.
Qed.
Lemma letterless_words p x : In p type_words -> (forall c, In c x -> lower_char c = c /\ upper_char c = c) \/ lower x = $"max" -> contains p (lower x) = false.
Proof.
  intros Hp [L| ->].
  - destruct (type_words_first p Hp) as [c [r [-> D]]]. apply (nocc_absent _ c); [left; reflexivity|]. intros X. unfold lower in X. apply in_map_iff in X. destruct X as [y [E Hy]]. destruct (L y Hy) as [A B].
    rewrite A in E. subst y. destruct D; contradiction.
  - repeat (destruct Hp as [<-|Hp]; [reflexivity|]). destruct Hp.
Qed.
Lemma dialect_read w t w' a : In (w, t) dialect_types -> lower w' = w -> plain_args a -> convert_type (w' ++ args_text a) = Ok t.
Proof.
  intros H E A. assert (F : forallb (fun x => match convert_type (fst x) with Ok y => str_eqb y (snd x) | Err _ => false end && negb (contains ($"number") (fst x)) && noch ")" (fst x) && noch " " (fst x) && noch "(" (fst x)) dialect_types = true) by (vm_compute; reflexivity).
  rewrite forallb_forall in F. specialize (F _ H). cbn [fst snd] in F. rewrite !andb_true_iff, negb_true_iff, !noch_ok in F. destruct F as [[[[F N] C] B] O].
  assert (R : convert_type w = Ok t). { destruct (convert_type w) as [y|]; [|discriminate F]. apply str_eqb_eq in F. rewrite F. reflexivity. }
  destruct a as [x|]; cbn [args_text].
  - destruct A as [Ac A]. rewrite <- (proj2 (c67_case (w' ++ $"(" ++ x ++ $")"))). rewrite !lower_app, E. change (lower ($"(")) with ($"("). change (lower ($")")) with ($")"). rewrite <- R.
    assert (Ac' : ~ In ")"%char (lower x)) by (apply close_lower, Ac). assert (W : lower w = w) by (rewrite <- E; apply lower_idem).
    apply convert_same_words; rewrite ?(type_text_word w) by assumption; [|rewrite W; exact N]. intros p Hp. rewrite type_text_args by assumption. rewrite !lower_app, W, lower_idem. change (lower ($"(") ++ lower x ++ lower ($")")) with ("("%char :: lower x ++ $")").
    pose proof (contains_spelled p Bare w ("("%char :: lower x ++ $")") Hp (or_intror (ex_intro _ _ eq_refl))) as Q. cbn [spell] in Q. rewrite Q.
    assert (No : ~ In "("%char p) by (apply type_word_free; [exact Hp|cbn; tauto]). assert (Nc : ~ In ")"%char p) by (apply type_word_free; [exact Hp|cbn; tauto]).
    pose proof (occ_sep p "(" [] (lower x ++ $")") No) as Q1. cbn [app] in Q1. pose proof (occ_sep p ")" (lower x) [] Nc) as Q2. change (lower x ++ [")"%char]) with (lower x ++ $")") in Q2. rewrite Q1, Q2, word_nonnil by exact Hp.
    rewrite (letterless_words p x Hp A). apply orb_false_r.
  - rewrite app_nil_r, <- (proj2 (c67_case w')), E. exact R.
Qed.

(** ** Statements with one item *)
Definition one_item (T : str) (i : item) : create_decl :=
  {| dt_head := $"create table "; dt_path := []; dt_quoting := Bare; dt_name := T; dt_gap := true; dt_items := [(false, i, false)]; dt_more := [] |}.
Lemma one_text T i : create_decl_text (one_item T i) = $"create table " ++ T ++ $" (" ++ item_text i ++ $")".
Proof. unfold create_decl_text, path_text, one_item, padded. cbn [dt_head dt_path dt_quoting dt_name dt_gap dt_items dt_more flat_map spell map fst snd join gap]. rewrite !app_nil_r. reflexivity. Qed.
Lemma one_good T i : good_name Bare T -> good_item i -> harmless ($"create table " ++ T ++ $" (" ++ item_text i ++ $")") -> good_create_decl (one_item T i).
Proof.
  intros G Gi H. split.
  - left. reflexivity.
  - intros q n [[]|X]. cbn [one_item dt_quoting dt_name] in X. apply pair_equal_spec in X. destruct X as [-> ->]. exact G.
  - intros _. apply contains_false. unfold path_text. cbn [one_item dt_path dt_quoting dt_name flat_map spell app]. apply (nocc_absent _ " "%char); [cbn; tauto|]. rewrite in_lower by reflexivity.
    intros X. apply (gn_bare _ _ G eq_refl) in X. discriminate X.
  - intros j [<-|[]]. exact Gi.
  - unfold items_of. cbn [one_item dt_items map fst snd columns_of flat_map app]. destruct i; repeat constructor. intros [].
  - intros [].
  - rewrite one_text. exact H.
Qed.
