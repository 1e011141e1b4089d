(** * Lemmas about Excel workbooks: writing and reading back (C48, C49, C71) *)
From Verif Require Export SpecExcel StrFacts ConfigFacts.

(** ** Cells *)
Definition cut (v : value) : value := match v with VText s => VText (firstn cell_limit s) | VNum z => VNum z end.
Definition legal (v : value) : Prop := match v with VText s => forall c, In c s -> illegal c = false | VNum _ => True end.
Lemma firstn_in {A} n (l : list A) x : In x (firstn n l) -> In x l.
Proof. intros H. rewrite <- (firstn_skipn n l). apply in_or_app. left. exact H. Qed.
Lemma check_legal v : legal v -> check_value v = Ok (cut v).
Proof.
  destruct v as [s|z]; [|reflexivity]. cbn [check_value cut legal]. intros H. destruct (existsb illegal (firstn cell_limit s)) eqn:E; [|reflexivity].
  apply existsb_exists in E. destruct E as [c [I Q]]. rewrite (H c (firstn_in _ _ _ I)) in Q. discriminate.
Qed.
Lemma check_row_legal l : (forall v, In v l -> legal v) -> check_row l = Ok (map cut l).
Proof. induction l as [|v l IH]; intros H; [reflexivity|]. cbn [check_row map]. rewrite check_legal by (apply H; left; reflexivity). rewrite IH by (intros w I; apply H; right; exact I). reflexivity. Qed.
Lemma set_row_end pre cols : set_row (length pre) cols pre = pre ++ [cols].
Proof. induction pre as [|r pre IH]; [reflexivity|]. cbn [length set_row app]. rewrite IH. reflexivity. Qed.
Lemma write_rows_fresh l : forall pre, (forall r v, In r l -> In v r -> legal v) -> write_rows (length pre) l pre = Ok (pre ++ map (map cut) l).
Proof.
  induction l as [|r l IH]; intros pre H; [cbn [write_rows map]; rewrite app_nil_r; reflexivity|]. cbn [write_rows map]. rewrite check_row_legal by (intros v I; apply (H r v); [left; reflexivity|exact I]).
  cbn [bind]. rewrite set_row_end. replace (S (length pre)) with (length (pre ++ [map cut r])) by (rewrite app_length; cbn [length]; lia).
  rewrite IH by (intros r' v I J; apply (H r' v); [right; exact I|exact J]). rewrite <- app_assoc. reflexivity.
Qed.
Lemma illegal_small c : illegal c = true -> nat_of_ascii c < 32.
Proof. unfold illegal, ord. rewrite !orb_true_iff, !andb_true_iff, !Nat.leb_le. lia. Qed.
Lemma text_legal s : cell_text s -> legal (VText s).
Proof. intros H c I. destruct (illegal c) eqn:E; [|reflexivity]. apply illegal_small in E. pose proof (ce_printable _ H c I). lia. Qed.

Section Read.
Variable calc : value -> cell.
Definition seen (v : value) : cell := as_read calc (cut v).
Lemma formula_false s : (forall c r, s <> "="%char :: c :: r) -> is_formula s = false.
Proof.
  intros H. unfold is_formula. destruct s as [|a [|b r]]; [reflexivity|apply andb_false_r|]. destruct (starts_with ($"=") (a :: b :: r)) eqn:E; [|reflexivity].
  cbn [list_ascii_of_string starts_with] in E. rewrite andb_true_r in E. apply Ascii.eqb_eq in E. subst a. exfalso. exact (H b r eq_refl).
Qed.
Lemma seen_text s : cell_text s -> seen (VText s) = CText s.
Proof.
  intros H. unfold seen, cut. replace (firstn cell_limit s) with s.
  - cbn [as_read]. rewrite formula_false by apply (ce_formula _ H). destruct (str_in_spec s error_values) as [I|_]; [exfalso; exact (ce_error _ H I)|reflexivity].
  - symmetry. apply firstn_all2. pose proof (ce_short _ H) as L. unfold cell_limit. lia.
Qed.
Lemma seen_num z : (Z.abs z <= 2 ^ 53)%Z -> seen (VNum z) = CNum z.
Proof. intros H. unfold seen, cut, as_read, exact_number. rewrite (proj2 (Z.leb_le _ _) H). reflexivity. Qed.
Lemma seen_texts l : Forall cell_text l -> map seen (map VText l) = map CText l.
Proof. induction 1 as [|s l H F IH]; [reflexivity|]. cbn [map]. rewrite seen_text, IH by exact H. reflexivity. Qed.
End Read.

(** deciding [cell_text], for literals *)
Definition cell_text_b (s : str) : bool :=
  (N.of_nat (length s) <=? 32767)%N && forallb (fun c => Nat.leb 32 (nat_of_ascii c)) s && negb (is_formula s) && negb (str_in s error_values).
Lemma cell_text_ok s : cell_text_b s = true -> cell_text s.
Proof.
  unfold cell_text_b. rewrite !andb_true_iff, !negb_true_iff, forallb_forall. intros [[[H1 H2] H3] H4]. constructor.
  - apply N.leb_le, H1. - intros c I. apply Nat.leb_le, H2, I.
  - intros c r ->. revert H3. unfold is_formula. cbn [list_ascii_of_string starts_with length]. rewrite Ascii.eqb_refl. discriminate.
  - intros I. apply str_in_true in I. fold error_values in I. congruence.
Qed.
Lemma cell_texts_ok l : forallb cell_text_b l = true -> Forall cell_text l.
Proof. rewrite forallb_forall, Forall_forall. intros H x I. apply cell_text_ok, H, I. Qed.

(** ** Key lists in one cell *)
Lemma split_one c s : ~ In c s -> split_char c s = [s].
Proof.
  induction s as [|x s IH]; intros N; [reflexivity|]. cbn [split_char]. destruct (Ascii.eqb_spec x c) as [->|]; [exfalso; apply N; left; reflexivity|].
  rewrite IH by (intros I; apply N; right; exact I). reflexivity.
Qed.
Lemma split_cut c a b : ~ In c a -> split_char c (a ++ c :: b) = a :: split_char c b.
Proof.
  induction a as [|x a IH]; intros N; cbn [app split_char]; [rewrite Ascii.eqb_refl; reflexivity|].
  destruct (Ascii.eqb_spec x c) as [->|]; [exfalso; apply N; left; reflexivity|]. rewrite IH by (intros I; apply N; right; exact I). reflexivity.
Qed.
Definition key_words (l : list str) : Prop := forall k, In k l -> k <> [] /\ trimmed k /\ ~ In ","%char k.
Lemma trimmed_strip s : trimmed s -> strip s = s.
Proof. intros T. apply strip_unique. exists [], []. split; [rewrite app_nil_r; reflexivity|]. split; [exact T|intros c []]. Qed.
Lemma blank_strip s : trimmed s -> strip (" "%char :: s) = s.
Proof. intros T. apply strip_unique. exists ($" "), []. split; [rewrite app_nil_r; reflexivity|]. split; [exact T|]. intros c [<-|[]]. reflexivity. Qed.
Lemma split_join_blank k l : key_words (k :: l) -> forall pre, ~ In ","%char pre -> split_char "," (pre ++ join ($", ") (k :: l)) = (pre ++ k) :: map (cons " "%char) l.
Proof.
  revert k. induction l as [|k' l IH]; intros k H pre Np.
  - cbn [join map]. apply split_one. intros I. apply in_app_or in I. destruct I as [I|I]; [exact (Np I)|]. destruct (H k (or_introl eq_refl)) as [_ [_ N]]. exact (N I).
  - change (join ($", ") (k :: k' :: l)) with (k ++ ","%char :: $" " ++ join ($", ") (k' :: l)). rewrite app_assoc, split_cut.
    + rewrite IH; [reflexivity|intros x I; apply H; right; exact I|intros [E|[]]; discriminate E].
    + intros I. apply in_app_or in I. destruct I as [I|I]; [exact (Np I)|]. destruct (H k (or_introl eq_refl)) as [_ [_ N]]. exact (N I).
Qed.
Lemma cell_keys_join l : l <> [] -> key_words l -> cell_keys (join ($", ") l) = l.
Proof.
  intros Hl H. destruct l as [|k l]; [contradiction|]. unfold cell_keys. pose proof (split_join_blank k l H [] (fun x => x)) as Q. cbn [app] in Q. rewrite Q. cbn [map].
  rewrite trimmed_strip by apply (H k (or_introl eq_refl)). f_equal. rewrite map_map. rewrite <- (map_id l) at 2. apply map_ext_in. intros x I. apply blank_strip. apply (H x (or_intror I)).
Qed.
Lemma trimmed_join l : key_words l -> trimmed (join ($", ") l).
Proof.
  intros H. destruct l as [|k l]; [split; intros c r E; [discriminate E|destruct r; discriminate E]|]. revert k H. induction l as [|k' l IH]; intros k H.
  - exact (proj1 (proj2 (H k (or_introl eq_refl)))).
  - change (join ($", ") (k :: k' :: l)) with (k ++ $", " ++ join ($", ") (k' :: l)). assert (T : trimmed (join ($", ") (k' :: l))) by (apply IH; intros x I; apply H; right; exact I).
    destruct (H k (or_introl eq_refl)) as [Nk [Tk _]]. split.
    + intros c r E. destruct k as [|a k]; [contradiction|]. cbn [app] in E. injection E as <- _. exact (proj1 Tk a k eq_refl).
    + intros c r E. destruct (rev (join ($", ") (k' :: l))) as [|y q] eqn:R.
      * exfalso. apply (f_equal (@rev _)) in R. rewrite rev_involutive in R. cbn [rev] in R. assert (N' : k' <> []) by (apply H; right; left; reflexivity). destruct l as [|k2 l]; cbn [join] in R; destruct k'; [apply N'; reflexivity|discriminate R|apply N'; reflexivity|discriminate R].
      * apply (f_equal (@rev _)) in R. rewrite rev_involutive in R. cbn [rev] in R. rewrite R, !app_assoc in E. apply app_inj_tail in E. destruct E as [_ <-]. exact (proj2 T _ _ R).
Qed.
Lemma join_nonempty l : l <> [] -> key_words l -> join ($", ") l <> [].
Proof. intros Hl H E. destruct l as [|k l]; [contradiction|]. destruct (H k (or_introl eq_refl)) as [N _]. apply N. destruct l as [|k' l]; [exact E|]. cbn [join] in E. apply app_eq_nil in E. apply E. Qed.
Lemma keys_words l : key_list l -> key_words l.
Proof. intros H. exact (kl_words _ H). Qed.
