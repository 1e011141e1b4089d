(** * Lemmas: decimal numerals *)
From Coq Require Export NArith Nnat.
From Verif Require Export StrFacts.

Lemma ord_chr n : n < 256 -> ord (chr n) = n.
Proof. intros H. unfold ord, chr. apply nat_ascii_embedding, H. Qed.
Lemma digit_char_ok n : n < 10 -> is_digit (digit_char n) = true /\ ord (digit_char n) - 48 = n.
Proof.
  intros H. unfold is_digit, digit_char. rewrite ord_chr by lia. split; [|lia].
  apply andb_true_iff. split; apply Nat.leb_le; lia.
Qed.

Lemma digits_val_app a p q : digits_val a (p ++ q) = match digits_val a p with Some b => digits_val b q | None => None end.
Proof.
  revert a; induction p as [|c p IH]; intros a; simpl; [reflexivity|]. destruct (is_digit c); [apply IH | reflexivity].
Qed.

Lemma nat_to_str_ok f n acc : (n < 10 ^ N.of_nat f)%N -> 0 < f ->
  exists pre, nat_to_str_fuel f n acc = pre ++ acc /\ pre <> [] /\ forallb is_digit pre = true /\ digits_val 0 pre = Some n.
Proof.
  revert n acc; induction f as [|f IH]; intros n acc Hn Hf; [lia|].
  cbn [nat_to_str_fuel]. set (d := N.to_nat (n mod 10)).
  assert (Hd : d < 10) by (unfold d; pose proof (N.mod_lt n 10); lia).
  destruct (digit_char_ok d Hd) as [Hdig Hval].
  destruct (N.ltb_spec n 10) as [Hlt|Hge].
  - exists [digit_char d]. split; [reflexivity|]. split; [discriminate|]. cbn [forallb digits_val]. rewrite Hdig.
    split; [reflexivity|]. rewrite Hval. unfold d. rewrite N2Nat.id, N.mod_small by exact Hlt. reflexivity.
  - destruct (IH (n / 10)%N (digit_char d :: acc)) as [pre [He [Hne [Hfa Hv]]]].
    + rewrite Nat2N.inj_succ, N.pow_succ_r' in Hn. apply N.div_lt_upper_bound; lia.
    + destruct f; [|lia]. simpl in Hn. lia.
    + exists (pre ++ [digit_char d]). rewrite He, <- app_assoc. split; [reflexivity|].
      split; [destruct pre; discriminate|]. rewrite forallb_app, Hfa. cbn [forallb]. rewrite Hdig. split; [reflexivity|].
      rewrite digits_val_app, Hv. cbn [digits_val]. rewrite Hdig, Hval. unfold d. rewrite N2Nat.id. f_equal.
      pose proof (N.div_mod' n 10). lia.
Qed.
Lemma n_to_str_ok n : n_to_str n <> [] /\ forallb is_digit (n_to_str n) = true /\ digits_val 0 (n_to_str n) = Some n.
Proof.
  unfold n_to_str. destruct (nat_to_str_ok (S (N.to_nat (N.size n))) n []) as [pre [He H]]; [|lia|].
  - rewrite Nat2N.inj_succ, N2Nat.id. pose proof (N.size_gt n) as H.
    eapply N.lt_le_trans; [exact H|]. eapply N.le_trans; [apply N.pow_le_mono_l with (b := 10%N); lia|].
    apply N.pow_le_mono_r; lia.
  - rewrite He, app_nil_r. exact H.
Qed.
Lemma n_to_str_inj a b : n_to_str a = n_to_str b -> a = b.
Proof.
  intros H. destruct (n_to_str_ok a) as [_ [_ Ha]], (n_to_str_ok b) as [_ [_ Hb]]. rewrite H in Ha. congruence.
Qed.
Lemma digit_range c : is_digit c = true -> 48 <= ord c <= 57.
Proof. unfold is_digit. intros H. apply andb_true_iff in H. destruct H as [H1 H2]. apply Nat.leb_le in H1, H2. lia. Qed.
Lemma digit_not c d : is_digit c = true -> is_digit d = false -> c <> d.
Proof. intros H1 H2 ->. congruence. Qed.
Lemma z_to_str_chars z c : In c (z_to_str z) -> is_digit c = true \/ c = "-"%char.
Proof.
  destruct z as [|p|p]; unfold z_to_str.
  - intros [<-|[]]. left; reflexivity.
  - intros H. destruct (n_to_str_ok (Npos p)) as [_ [Hf _]]. rewrite forallb_forall in Hf. left; apply Hf, H.
  - intros [<-|H]; [right; reflexivity|]. destruct (n_to_str_ok (Npos p)) as [_ [Hf _]].
    rewrite forallb_forall in Hf. left; apply Hf, H.
Qed.

Lemma drop_underscores_digits b s : forallb is_digit s = true -> drop_underscores b s = Some s.
Proof.
  revert b; induction s as [|c s IH]; intros b H; [reflexivity|]. cbn [forallb] in H. apply andb_true_iff in H. destruct H as [Hc H].
  cbn [drop_underscores]. destruct (Ascii.eqb_spec c "_"%char) as [->|]; [discriminate|]. rewrite IH by exact H. reflexivity.
Qed.
Lemma unsigned_val_digits s n : s <> [] -> forallb is_digit s = true -> digits_val 0 s = Some n -> unsigned_val s = Some n.
Proof.
  intros Hne Hd Hv. unfold unsigned_val. destruct s; [contradiction|]. rewrite drop_underscores_digits by exact Hd. exact Hv.
Qed.
Lemma digit_not_space c : is_digit c = true -> is_space c = false.
Proof.
  intros H. apply digit_range in H. unfold is_space. destruct (Nat.leb_spec 9 (ord c)), (Nat.leb_spec (ord c) 13),
    (Nat.leb_spec 28 (ord c)), (Nat.leb_spec (ord c) 32); simpl; try reflexivity; lia.
Qed.
