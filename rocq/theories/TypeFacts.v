(** * Type conversion: C39, C40, C67, C68 *)
From Verif Require Export CleanFacts.

(** ** Slices, splitting, case *)
Lemma ok_inj {A} (a b : A) : Ok a = Ok b -> a = b.
Proof. congruence. Qed.
Lemma slice_nat i j s : i <= length s -> j <= length s -> slice (Z.of_nat i) (Z.of_nat j) s = firstn (j - i) (skipn i s).
Proof.
  intros Hi Hj. unfold slice, slice_bound. rewrite !(proj2 (Z.ltb_ge _ 0)) by lia. rewrite !Nat2Z.id, !Nat.min_r by lia. reflexivity.
Qed.
Lemma slice_mid a b c s : s = a ++ b ++ c -> slice (Z.of_nat (length a)) (Z.of_nat (length a + length b)) s = b.
Proof.
  intros ->. rewrite slice_nat by (rewrite !app_length; lia). rewrite skipn_app, skipn_all, Nat.sub_diag. cbn [app skipn].
  rewrite firstn_app. replace (length a + length b - length a) with (length b) by lia. rewrite firstn_all, Nat.sub_diag, firstn_O. apply app_nil_r.
Qed.
Lemma slice_prefix a b s : s = a ++ b -> slice 0 (Z.of_nat (length a)) s = a.
Proof. intros E. exact (slice_mid [] a b s E). Qed.
Lemma find_cut p s a b : first_cut p s a b -> find_opt p s = Some (length a) /\ find p s = Z.of_nat (length a).
Proof.
  intros C. assert (O : occurs p s) by (eapply cut_occurs; exact C). unfold find. destruct (find_opt p s) as [n|] eqn:E.
  - apply find_opt_some in E. destruct E as [L D]. destruct (first_cut_fun _ _ _ _ _ _ C D) as [-> _].
    rewrite firstn_length_le by exact L. auto.
  - apply find_opt_none in E. contradiction.
Qed.
Lemma find_absent p s : ~ occurs p s -> find p s = (-1)%Z.
Proof. intros H. unfold find. apply find_opt_none in H. rewrite H. reflexivity. Qed.
Lemma split_nonnil c s : split_char c s <> [].
Proof. destruct s as [|x s]; [discriminate|]. cbn [split_char]. destruct (Ascii.eqb x c); [discriminate|]. destruct (split_char c s); discriminate. Qed.
Lemma split_char_join c s : join [c] (split_char c s) = s.
Proof.
  induction s as [|x s IH]; [reflexivity|]. cbn [split_char]. destruct (Ascii.eqb x c) eqn:E.
  - apply Ascii.eqb_eq in E as ->. destruct (split_char c s) as [|w ws] eqn:F; [apply split_nonnil in F; contradiction|].
    change (c :: join [c] (w :: ws) = c :: s). f_equal. exact IH.
  - destruct (split_char c s) as [|w ws] eqn:F; [apply split_nonnil in F; contradiction|]. destruct ws; cbn [join app] in *; f_equal; exact IH.
Qed.
Lemma split_char_parts c s : Forall (fun w => ~ In c w) (split_char c s).
Proof.
  induction s as [|x s IH]; [repeat constructor; tauto|]. cbn [split_char]. destruct (Ascii.eqb x c) eqn:E.
  - constructor; [tauto|exact IH].
  - apply Ascii.eqb_neq in E. destruct IH as [|w ws Hw IH]; constructor; auto; intros [H|H]; auto.
Qed.
Lemma split_char_length c s : length (split_char c s) = S (count_occ ascii_dec s c).
Proof.
  induction s as [|x s IH]; [reflexivity|]. cbn [split_char count_occ]. destruct (Ascii.eqb x c) eqn:E.
  - apply Ascii.eqb_eq in E as ->. destruct (ascii_dec c c); [|congruence]. cbn [length]. rewrite IH. reflexivity.
  - apply Ascii.eqb_neq in E. destruct (ascii_dec x c); [congruence|]. destruct (split_char c s); [discriminate|exact IH].
Qed.
Lemma split_char_none c s : ~ In c s -> split_char c s = [s].
Proof.
  induction s as [|x s IH]; [reflexivity|]. intros H. cbn [split_char]. destruct (Ascii.eqb x c) eqn:E.
  - apply Ascii.eqb_eq in E as ->. exfalso. apply H. left. reflexivity.
  - rewrite IH by (intros Hi; apply H; right; exact Hi). reflexivity.
Qed.
Lemma split_char_app c w s : ~ In c w -> split_char c (w ++ c :: s) = w :: split_char c s.
Proof.
  induction w as [|x w IH]; intros H; cbn [app split_char].
  - rewrite Ascii.eqb_refl. reflexivity.
  - destruct (Ascii.eqb x c) eqn:E; [apply Ascii.eqb_eq in E as ->; exfalso; apply H; left; reflexivity|].
    rewrite IH by (intros Hi; apply H; right; exact Hi). reflexivity.
Qed.
Lemma lower_length s : length (lower s) = length s.
Proof. apply map_length. Qed.
Lemma lower_app a b : lower (a ++ b) = lower a ++ lower b.
Proof. apply map_app. Qed.
Lemma all_chars (P : ascii -> bool) : forallb P (map ascii_of_nat (seq 0 256)) = true -> forall c, P c = true.
Proof.
  intros H c. rewrite forallb_forall in H. apply H. apply in_map_iff. exists (nat_of_ascii c). split; [apply ascii_nat_embedding|].
  apply in_seq. pose proof (nat_ascii_bounded c). lia.
Qed.
Lemma lower_char_idem c : lower_char (lower_char c) = lower_char c.
Proof. apply Ascii.eqb_eq. revert c. apply (all_chars (fun c => Ascii.eqb (lower_char (lower_char c)) (lower_char c))). vm_compute. reflexivity. Qed.
Lemma lower_upper_char c : lower_char (upper_char c) = lower_char c.
Proof. apply Ascii.eqb_eq. revert c. apply (all_chars (fun c => Ascii.eqb (lower_char (upper_char c)) (lower_char c))). vm_compute. reflexivity. Qed.
Lemma lower_idem s : lower (lower s) = lower s.
Proof. unfold lower. rewrite map_map. apply map_ext. apply lower_char_idem. Qed.
(** characters without case *)
Definition caseless (c : ascii) : bool := negb (existsb (fun d => Ascii.eqb (lower_char d) c && negb (Ascii.eqb d c)) (map ascii_of_nat (seq 0 256)))
  && Ascii.eqb (lower_char c) c.
Lemma caseless_ok c : caseless c = true -> forall d, lower_char d = c <-> d = c.
Proof.
  unfold caseless. rewrite andb_true_iff, negb_true_iff. intros [H L] d. apply Ascii.eqb_eq in L. split; [|intros ->; exact L].
  intros E. destruct (Ascii.eqb d c) eqn:D; [apply Ascii.eqb_eq, D|]. exfalso.
  assert (X : existsb (fun d => Ascii.eqb (lower_char d) c && negb (Ascii.eqb d c)) (map ascii_of_nat (seq 0 256)) = true); [|congruence].
  apply existsb_exists. exists d. split.
  - apply in_map_iff. exists (nat_of_ascii d). split; [apply ascii_nat_embedding|]. apply in_seq. pose proof (nat_ascii_bounded d). lia.
  - rewrite E, Ascii.eqb_refl, D. reflexivity.
Qed.
Lemma in_lower c s : caseless c = true -> In c (lower s) <-> In c s.
Proof.
  intros H. unfold lower. rewrite in_map_iff. split.
  - intros [d [E Hd]]. pose proof (proj1 (caseless_ok _ H d) E). subst d. exact Hd.
  - intros Hc. exists c. split; [|exact Hc]. apply (caseless_ok _ H). reflexivity.
Qed.
(** cutting at a character *)
Lemma cut_char c s a b : s = a ++ c :: b -> ~ In c a -> first_cut [c] s a b.
Proof.
  intros -> H. split; [reflexivity|]. intros a' b' E. destruct (le_lt_dec (length a) (length a')) as [L|L]; [exact L|]. exfalso. apply H.
  assert (N : nth_error (a ++ c :: b) (length a') = Some c) by (rewrite E; rewrite nth_error_app2, Nat.sub_diag by lia; reflexivity).
  rewrite nth_error_app1 in N by lia. eapply nth_error_In. exact N.
Qed.

(** ** The part that is looked at *)
Lemma type_text_spec s t : looked_at s t -> type_text s = lower t.
Proof.
  unfold type_text. intros [[a [b [C ->]]]|[[N [a [b [C ->]]]]|[N [N' ->]]]]; f_equal.
  - rewrite (proj2 (contains_true _ _) (cut_occurs _ _ _ _ C)), (proj2 (find_cut _ _ _ _ C)). destruct C as [-> _].
    replace (Z.of_nat (length a) + 1)%Z with (Z.of_nat (length (a ++ $")"))) by (rewrite app_length; cbn; lia).
    apply (slice_prefix _ b). rewrite <- app_assoc. reflexivity.
  - rewrite (proj2 (contains_false _ _) N), (proj2 (contains_true _ _) (cut_occurs _ _ _ _ C)), (proj2 (find_cut _ _ _ _ C)). destruct C as [-> _].
    replace (Z.of_nat (length a) + 1)%Z with (Z.of_nat (length (a ++ $" "))) by (rewrite app_length; cbn; lia).
    apply (slice_prefix _ b). rewrite <- app_assoc. reflexivity.
  - rewrite (proj2 (contains_false _ _) N), (proj2 (contains_false _ _) N'). reflexivity.
Qed.
Lemma looked_at_exists s : exists t, looked_at s t.
Proof.
  destruct (contains_spec ($")") s) as [O|O].
  - eexists. left. eexists _, _. split; [apply cut_some, O|reflexivity].
  - destruct (contains_spec ($" ") s) as [O'|O'].
    + eexists. right. left. split; [exact O|]. eexists _, _. split; [apply cut_some, O'|reflexivity].
    + exists s. right. right. auto.
Qed.
(** a closing parenthesis stands at the end only *)
Definition closes_last (t : str) : Prop := In ")"%char t -> exists x, t = x ++ $")" /\ ~ In ")"%char x.
Lemma looked_closes s t : looked_at s t -> closes_last (lower t).
Proof.
  intros H Hin. rewrite in_lower in Hin by reflexivity. destruct H as [[a [b [C ->]]]|[[N [a [b [C ->]]]]|[N [_ ->]]]].
  - exists (lower a). rewrite lower_app. split; [reflexivity|]. rewrite in_lower by reflexivity. apply first_cut_char in C. exact C.
  - exfalso. apply in_app_or in Hin. destruct Hin as [Hin|[Hin|[]]]; [|discriminate]. apply N, occurs_char. destruct C as [-> _].
    apply in_or_app. left. exact Hin.
  - exfalso. apply N, occurs_char, Hin.
Qed.
Lemma number_args t : In ")"%char t -> closes_last t ->
  type_args t (slice (find ($"(") t + 1) (find ($")") t) t).
Proof.
  intros Hin Hc. destruct (Hc Hin) as [x [-> N]].
  assert (C : first_cut [")"%char] (x ++ $")") x []) by (apply cut_char; [reflexivity|exact N]).
  destruct (find_cut _ _ _ _ C) as [_ F]. change ([")"%char]) with ($")") in F. rewrite F.
  destruct (contains_spec ($"(") (x ++ $")")) as [O|O].
  - pose proof (cut_some _ _ O) as D. rewrite (proj2 (find_cut _ _ _ _ D)). set (u := before ($"(") (x ++ $")")) in *. set (v := after ($"(") (x ++ $")")) in *.
    clearbody u v. left. exists u. assert (exists args, v = args ++ $")" /\ x = u ++ "("%char :: args) as [args [Ev Ex]].
    { destruct D as [E _]. destruct v as [|z v _] using rev_ind.
      - exfalso. rewrite app_nil_r in E. change ($")") with [")"%char] in E. change ($"(") with ["("%char] in E. apply app_inj_tail in E. destruct E as [_ E]. discriminate.
      - exists v. change ($"(") with ["("%char] in E. cbn [app] in E. rewrite app_comm_cons, app_assoc in E. change ($")") with [")"%char] in *.
        apply app_inj_tail in E. destruct E as [-> <-]. auto. }
    assert (S : slice (Z.of_nat (length u) + 1) (Z.of_nat (length x)) (x ++ $")") = args).
    { rewrite Ex. replace (Z.of_nat (length u) + 1)%Z with (Z.of_nat (length (u ++ $"("))) by (rewrite app_length; cbn; lia).
      replace (length (u ++ "("%char :: args)) with (length (u ++ $"(") + length args) by (rewrite !app_length; cbn; lia).
      apply (slice_mid _ _ ($")")). rewrite <- !app_assoc. reflexivity. }
    rewrite S. split; [rewrite <- Ev; exact D|]. intros H. apply N. rewrite Ex. apply in_or_app. right. right. exact H.
  - right. split; [exact O|]. rewrite (find_absent _ _ O). change (-1 + 1)%Z with 0%Z. rewrite (slice_prefix x ($")")) by reflexivity. auto.
Qed.
Lemma type_args_fun t a b : type_args t a -> type_args t b -> a = b.
Proof.
  intros [[u [C N]]|[O [E N]]] [[u' [C' N']]|[O' [E' N']]].
  - destruct (first_cut_fun _ _ _ _ _ _ C C') as [_ E]. apply app_inv_tail in E. exact E.
  - exfalso. apply O'. eapply cut_occurs. exact C.
  - exfalso. apply O. eapply cut_occurs. exact C'.
  - rewrite E in E'. apply app_inv_tail in E'. exact E'.
Qed.
Lemma py_int_value p e : py_int p = Err e -> e = ValueError.
Proof. unfold py_int. destruct (strip p) as [|c r]; [cbn; congruence|]. repeat (match goal with |- match ?x with _ => _ end = _ -> _ => destruct x | |- context [if ?b then _ else _] => destruct b end; try congruence). Qed.
Lemma count_pos c s : count_occ ascii_dec s c > 0 <-> In c s.
Proof. symmetry. apply count_occ_In. Qed.
Lemma convert_number_spec t : closes_last t ->
  match convert_number t with
  | Ok ty => In ty target_types /\ ~ (In ")"%char t /\ malformed_number t)
  | Err e => e = ValueError /\ malformed_number t
  end.
Proof.
  intros Hc. unfold convert_number. destruct (contains_spec ($")") t) as [O|O].
  2: { split; [cbn; tauto|]. intros [H _]. apply O, occurs_char, H. }
  assert (Hin : In ")"%char t) by (apply occurs_char; exact O). pose proof (number_args _ Hin Hc) as A.
  set (args := slice _ _ _) in *.
  destruct (contains_spec ($",") args) as [K|K].
  2: { split; [cbn; tauto|]. intros [_ [args' [A' M]]]. rewrite <- (type_args_fun _ _ _ A A') in M. apply K, occurs_char.
       destruct M as [M|[p [s [E _]]]]; [apply count_pos; lia|]. rewrite E. apply in_or_app. right. left. reflexivity. }
  pose proof (split_char_length "," args) as L. pose proof (split_char_join "," args) as J. pose proof (split_char_parts "," args) as P.
  destruct (split_char "," args) as [|p [|s [|q qs]]].
  - discriminate.
  - cbn in L. exfalso. apply occurs_char, count_pos in K. lia.
  - assert (E : args = p ++ ","%char :: s) by (symmetry; exact J). inversion P as [|? ? Hp P']; subst. inversion P' as [|? ? Hs _]; subst.
    assert (U : forall p' s', args = p' ++ ","%char :: s' -> ~ In ","%char (p' ++ s') -> p' = p /\ s' = s).
    { intros p' s' E' N'. rewrite E in E'. apply app_sep_inj in E'; [destruct E'; auto|exact Hp|]. intros H. apply N', in_or_app. left. exact H. }
    assert (F : In ")"%char t /\ malformed_number t -> strip s = $"0" /\ p <> $"*" /\ py_int p = Err ValueError).
    { intros [_ [args' [A' M]]]. rewrite <- (type_args_fun _ _ _ A A') in M. destruct M as [M|[p' [s' [E' [N' M]]]]].
      - cbn in L. lia.
      - destruct (U _ _ E' N') as [-> ->]. exact M. }
    destruct (str_eqb (strip s) ($"0")) eqn:Es.
    2: { split; [cbn; tauto|]. intros H. destruct (F H) as [G _]. apply str_eqb_neq in Es. contradiction. }
    destruct (str_eqb p ($"*")) eqn:Ep.
    { split; [cbn; tauto|]. intros H. destruct (F H) as [_ [G _]]. apply str_eqb_eq in Ep. contradiction. }
    destruct (py_int p) as [n|e] eqn:En; cbn [bind].
    + split; [destruct (n >? 9)%Z; cbn; tauto|]. intros H. destruct (F H) as [_ [_ G]]. discriminate.
    + apply py_int_value in En as X. subst e. split; [reflexivity|]. exists args. split; [exact A|]. right. exists p, s.
      apply str_eqb_eq in Es. apply str_eqb_neq in Ep. split; [exact E|]. split; [|auto]. intros H. apply in_app_or in H. tauto.
  - split; [reflexivity|]. exists args. split; [exact A|]. left. cbn in L. lia.
Qed.
Lemma c39 s t : looked_at s t ->
  (forall ty, convert_type s = Ok ty -> In ty target_types /\ exists c, mk_column (Some []) (Some ty) = Ok c)
  /\ (forall e, convert_type s = Err e <-> e = ValueError /\ (forall w, In w before_number -> ~ occurs w (lower t))
        /\ occurs ($"number") (lower t) /\ In ")"%char t /\ malformed_number (lower t)).
Proof.
  intros H. pose proof (looked_closes _ _ H) as Hc. pose proof (convert_number_spec _ Hc) as N. unfold convert_type. rewrite (type_text_spec _ _ H). cbn zeta.
  assert (V : forall ty, In ty target_types -> exists c, mk_column (Some []) (Some ty) = Ok c).
  { intros ty Hty. repeat (destruct Hty as [<-|Hty]; [eexists; reflexivity|]). contradiction. }
  assert (Bad : forall ty : str, In ty target_types -> forall P : Prop, ~ P ->
    (forall ty', Ok ty = Ok ty' -> In ty' target_types /\ exists c, mk_column (Some []) (Some ty') = Ok c)
    /\ (forall e, Ok ty = Err e <-> e = ValueError /\ P)).
  { intros ty Hty P NP. split; [intros ty' E; apply ok_inj in E; subst ty'; auto|]. intros e. split; [discriminate|tauto]. }
  assert (B : forall w, In w before_number -> contains w (lower t) = true -> ~ ((forall w, In w before_number -> ~ occurs w (lower t))
        /\ occurs ($"number") (lower t) /\ In ")"%char t /\ malformed_number (lower t))).
  { intros w Hw C [F _]. apply contains_true in C. apply (F _ Hw C). }
  destruct (contains ($"int") (lower t)) eqn:E1; [apply Bad; [cbn; tauto|apply (B ($"int")); [cbn; tauto|exact E1]]|].
  destruct (contains ($"rowversion") (lower t)) eqn:E2; [apply Bad; [cbn; tauto|apply (B ($"rowversion")); [cbn; tauto|exact E2]]|].
  destruct (contains ($"uniqueidentifier") (lower t)) eqn:E3; [apply Bad; [cbn; tauto|apply (B ($"uniqueidentifier")); [cbn; tauto|exact E3]]|].
  destruct (contains ($"sysname") (lower t)) eqn:E4; [apply Bad; [cbn; tauto|apply (B ($"sysname")); [cbn; tauto|exact E4]]|].
  destruct (contains ($"serial") (lower t)) eqn:E5; [apply Bad; [cbn; tauto|apply (B ($"serial")); [cbn; tauto|exact E5]]|].
  destruct (contains ($"bit") (lower t)) eqn:E6; [apply Bad; [cbn; tauto|apply (B ($"bit")); [cbn; tauto|exact E6]]|].
  destruct (contains ($"blob") (lower t)) eqn:E7; [apply Bad; [cbn; tauto|apply (B ($"blob")); [cbn; tauto|exact E7]]|].
  destruct (contains ($"binary") (lower t)) eqn:E8; [apply Bad; [cbn; tauto|apply (B ($"binary")); [cbn; tauto|exact E8]]|].
  cbn [orb]. destruct (contains ($"number") (lower t)) eqn:E9.
  - assert (F : forall w, In w before_number -> ~ occurs w (lower t)).
    { intros w Hw. apply contains_false. repeat (destruct Hw as [<-|Hw]; [assumption|]). contradiction. }
    apply contains_true in E9. destruct (convert_number (lower t)) as [ty|e'].
    + destruct N as [Hty NM]. apply Bad; [exact Hty|]. intros [_ [_ [Hp M]]]. apply NM. split; [apply (in_lower ")" t eq_refl), Hp|exact M].
    + destruct N as [-> M]. split; [discriminate|]. intros e. split; [intros E; injection E as <-|intros [-> _]; reflexivity].
      split; [reflexivity|]. split; [exact F|]. split; [exact E9|]. split; [|exact M]. apply (in_lower ")" t eq_refl).
      destruct M as [args [[[u [[C _] _]]|[_ [-> _]]] _]]; [rewrite C; apply in_or_app; right; apply in_or_app; right|]; apply in_or_app; right; left; reflexivity.
  - assert (NP : ~ ((forall w, In w before_number -> ~ occurs w (lower t)) /\ occurs ($"number") (lower t) /\ In ")"%char t /\ malformed_number (lower t))).
    { intros [_ [O _]]. apply contains_false in E9. contradiction. }
    repeat match goal with |- context [if ?b then _ else _] => destruct b end; apply Bad; try exact NP; cbn; tauto.
Qed.
