(** * Type conversion laws (C40, C67, C68) and field splitting (C41) *)
From Verif Require Export OccFacts NumFacts.

Lemma c40 s ty : convert_type s = Ok ty -> exists ty2, convert_type ty = Ok ty2
  /\ ty2 = (if str_eqb ty ($"INT") then $"BIGINT" else ty) /\ convert_type ty2 = Ok ty2.
Proof.
  intros H. destruct (looked_at_exists s) as [t L]. apply (c39 _ _ L) in H. destruct H as [H _].
  repeat (destruct H as [<-|H]; [eexists; repeat split; vm_compute; reflexivity|]). contradiction.
Qed.

(** ** Case and trailing text *)
Section CharMap.
Variable f : ascii -> ascii.
Hypothesis f_close : forall c, f c = ")"%char <-> c = ")"%char.
Hypothesis f_blank : forall c, f c = " "%char <-> c = " "%char.
Lemma in_fmap d s : (forall c, f c = d <-> c = d) -> In d (map f s) <-> In d s.
Proof.
  intros H. rewrite in_map_iff. split; [intros [c [E Hc]]; apply (proj1 (H c)) in E; rewrite <- E; exact Hc|]. intros Hd. exists d. split; [apply H; reflexivity|exact Hd].
Qed.
Lemma cut_fmap d s a b : (forall c, f c = d <-> c = d) -> first_cut [d] s a b -> first_cut [d] (map f s) (map f a) (map f b).
Proof.
  intros H C. apply cut_char.
  - destruct C as [-> _]. rewrite map_app. cbn [map app]. rewrite (proj2 (H d) eq_refl). reflexivity.
  - rewrite in_fmap by exact H. eapply first_cut_char. exact C.
Qed.
Lemma looked_fmap s t : looked_at s t -> looked_at (map f s) (map f t).
Proof.
  assert (O : forall d, (forall c, f c = d <-> c = d) -> ~ occurs [d] s -> ~ occurs [d] (map f s)).
  { intros d H N. rewrite occurs_char, in_fmap by exact H. rewrite <- occurs_char. exact N. }
  intros [[a [b [C ->]]]|[[N [a [b [C ->]]]]|[N [N' ->]]]].
  - left. exists (map f a), (map f b). split; [apply cut_fmap; assumption|]. rewrite map_app. cbn. rewrite (proj2 (f_close _) eq_refl). reflexivity.
  - right. left. split; [apply (O ")"%char); assumption|]. exists (map f a), (map f b). split; [apply cut_fmap; assumption|].
    rewrite map_app. cbn. rewrite (proj2 (f_blank _) eq_refl). reflexivity.
  - right. right. split; [apply (O ")"%char); assumption|]. split; [apply (O " "%char); assumption|reflexivity].
Qed.
End CharMap.
Lemma convert_ext a b : type_text a = type_text b -> convert_type a = convert_type b.
Proof. intros H. unfold convert_type. rewrite H. reflexivity. Qed.
Lemma char_iff (f : ascii -> ascii) d : forallb (fun c => Bool.eqb (Ascii.eqb (f c) d) (Ascii.eqb c d)) (map ascii_of_nat (seq 0 256)) = true ->
  forall c, f c = d <-> c = d.
Proof. intros H c. apply (all_chars _) with (c := c) in H. apply eqb_prop in H. rewrite <- !Ascii.eqb_eq, H. reflexivity. Qed.
Lemma c67_case s : convert_type (upper s) = convert_type s /\ convert_type (lower s) = convert_type s.
Proof.
  destruct (looked_at_exists s) as [t L]. split; apply convert_ext; rewrite (type_text_spec _ _ L).
  - change (upper s) with (map upper_char s). rewrite (type_text_spec _ _ (looked_fmap upper_char (char_iff upper_char ")"%char eq_refl) (char_iff upper_char " "%char eq_refl) _ _ L)).
    unfold lower. rewrite map_map. apply map_ext, lower_upper_char.
  - change (lower s) with (map lower_char s). rewrite (type_text_spec _ _ (looked_fmap lower_char (char_iff lower_char ")"%char eq_refl) (char_iff lower_char " "%char eq_refl) _ _ L)). apply lower_idem.
Qed.
Lemma c67_paren a b : ~ In ")"%char a -> convert_type (a ++ $")" ++ b) = convert_type (a ++ $")").
Proof.
  intros H. apply convert_ext.
  rewrite (type_text_spec (a ++ $")" ++ b) (a ++ $")")), (type_text_spec (a ++ $")") (a ++ $")")); [reflexivity| |].
  - left. exists a, []. split; [apply cut_char; [reflexivity|exact H]|reflexivity].
  - left. exists a, b. split; [apply cut_char; [reflexivity|exact H]|reflexivity].
Qed.
Lemma c67_blank a b : ~ In ")"%char a -> ~ In ")"%char b -> ~ In " "%char a -> convert_type (a ++ $" " ++ b) = convert_type a.
Proof.
  intros Ha Hb Hs. assert (N : ~ occurs ($")") (a ++ $" " ++ b)).
  { change ($")") with [")"%char]. rewrite occurs_char. intros H. apply in_app_or in H. destruct H as [H|[H|H]]; [tauto|discriminate|tauto]. }
  assert (La : looked_at a a) by (right; right; split; [|split]; [change ($")") with [")"%char]| change ($" ") with [" "%char]|reflexivity]; rewrite occurs_char; assumption).
  assert (Lb : looked_at (a ++ $" " ++ b) (a ++ $" ")).
  { right. left. split; [exact N|]. exists a, b. split; [apply cut_char; [reflexivity|exact Hs]|reflexivity]. }
  unfold convert_type. rewrite (type_text_spec _ _ La), (type_text_spec _ _ Lb), lower_app. change (lower ($" ")) with [" "%char]. cbn zeta.
  assert (C : forall w, existsb (Ascii.eqb " ") w = false -> contains w [] = false -> contains w (lower a ++ [" "%char]) = contains w (lower a)).
  { intros w Hw He. rewrite occ_sep by (apply not_in_b, Hw). rewrite He, orb_false_r. reflexivity. }
  assert (D : convert_number (lower a ++ [" "%char]) = convert_number (lower a)).
  { unfold convert_number. rewrite (C ($")") eq_refl eq_refl).
    assert (X : contains ($")") (lower a) = false) by (apply contains_false; change ($")") with [")"%char]; rewrite occurs_char, in_lower by reflexivity; exact Ha).
    rewrite X. reflexivity. }
  rewrite D, !C by reflexivity. reflexivity.
Qed.

(** ** NUMBER *)
Lemma digits_none c s : forallb is_digit s = true -> is_digit c = false -> ~ In c s.
Proof. rewrite forallb_forall. intros H Hc Hin. apply H in Hin. congruence. Qed.
Lemma digits_lower s : forallb is_digit s = true -> lower s = s.
Proof.
  intros H. rewrite forallb_forall in H. unfold lower. rewrite <- (map_id s) at 2. apply map_ext_in. intros c Hc. apply H in Hc.
  revert Hc. pose proof (all_chars (fun c => implb (is_digit c) (Ascii.eqb (lower_char c) c)) eq_refl c) as A. cbn beta in A.
  intros Hc. rewrite Hc in A. apply Ascii.eqb_eq, A.
Qed.
Lemma digits_strip s : forallb is_digit s = true -> strip s = s.
Proof.
  intros H. assert (L : forall s, forallb is_digit s = true -> lstrip s = s).
  { intros [|c r] Hr; [reflexivity|]. cbn [forallb] in Hr. apply andb_true_iff in Hr. cbn [lstrip]. rewrite (digit_not_space _ (proj1 Hr)). reflexivity. }
  unfold strip, rstrip. rewrite (L s H), L, rev_involutive; [reflexivity|]. apply forallb_forall. intros c Hc. rewrite <- in_rev in Hc.
  rewrite forallb_forall in H. auto.
Qed.
Lemma number_prefix body : forallb (fun c => is_digit c || Ascii.eqb c ",") body = true ->
  convert_type ($"number(" ++ body ++ $")") = convert_number ($"number(" ++ body ++ $")").
Proof.
  intros H. assert (N : forall c, is_digit c = false -> c <> ","%char -> ~ In c body).
  { intros c Hc Hc' Hin. rewrite forallb_forall in H. apply H in Hin. rewrite Hc in Hin. apply Ascii.eqb_eq in Hin. contradiction. }
  assert (L : lower body = body).
  { unfold lower. rewrite <- (map_id body) at 2. apply map_ext_in. intros c Hc. rewrite forallb_forall in H. apply H in Hc.
    pose proof (all_chars (fun c => implb (is_digit c || Ascii.eqb c ",") (Ascii.eqb (lower_char c) c)) eq_refl c) as A. cbn beta in A.
    rewrite Hc in A. apply Ascii.eqb_eq, A. }
  unfold convert_type. assert (T : type_text ($"number(" ++ body ++ $")") = $"number(" ++ body ++ $")").
  { rewrite (type_text_spec _ ($"number(" ++ body ++ $")")).
    - rewrite !lower_app, L. reflexivity.
    - left. exists ($"number(" ++ body), []. split; [|rewrite <- app_assoc; reflexivity]. apply cut_char; [rewrite <- app_assoc; reflexivity|].
      intros Hin. apply in_app_or in Hin. destruct Hin as [Hin|Hin]; [revert Hin; apply not_in_b; reflexivity|]. revert Hin. apply N; [reflexivity|discriminate]. }
  rewrite T. cbn zeta.
  assert (C : forall w c, In c w -> is_digit c = false -> c <> ","%char -> existsb (Ascii.eqb "(") w = false -> existsb (Ascii.eqb ")") w = false ->
    contains w ($"number") = false -> contains w [] = false -> contains w ($"number(" ++ body ++ $")") = false).
  { intros w c Hc H1 H2 H3 H4 H5 H6. change ($"number(" ++ body ++ $")") with ($"number" ++ "("%char :: (body ++ [")"%char])).
    apply nocc_sep; [apply not_in_b, H3|exact H5|]. apply nocc_sep; [apply not_in_b, H4| |exact H6]. apply (nocc_absent _ c); [exact Hc|]. apply N; assumption. }
  rewrite (C ($"int") "i"%char), (C ($"rowversion") "r"%char), (C ($"uniqueidentifier") "u"%char), (C ($"sysname") "s"%char),
    (C ($"serial") "s"%char), (C ($"bit") "b"%char), (C ($"blob") "b"%char), (C ($"binary") "b"%char); try reflexivity; try discriminate; try (cbn; tauto).
Qed.
Lemma number_slice body : ~ In ")"%char body ->
  let t := $"number(" ++ body ++ $")" in contains ($")") t = true /\ slice (find ($"(") t + 1) (find ($")") t) t = body.
Proof.
  intros N t. assert (Hin : In ")"%char t) by (unfold t; apply in_or_app; right; apply in_or_app; right; left; reflexivity).
  split; [apply contains_true, occurs_char, Hin|]. eapply type_args_fun.
  - apply number_args; [exact Hin|]. intros _. exists ($"number(" ++ body). split; [unfold t; rewrite app_assoc; reflexivity|].
    intros H. apply in_app_or in H. destruct H as [H|H]; [revert H; apply not_in_b; reflexivity|contradiction].
  - left. exists ($"number"). split; [|exact N]. apply cut_char; [reflexivity|apply not_in_b; reflexivity].
Qed.
Lemma c68 p s : let d := n_to_str p in let e := n_to_str s in
  convert_type ($"number(" ++ d ++ $"," ++ e ++ $")")
    = Ok (if N.eqb s 0 then if N.leb p 9 then $"INT" else $"BIGINT" else $"DOUBLE")
  /\ convert_type ($"number(" ++ d ++ $")") = Ok ($"INT")
  /\ convert_type ($"number(*," ++ e ++ $")") = Ok (if N.eqb s 0 then $"BIGINT" else $"DOUBLE")
  /\ convert_type ($"number") = Ok ($"BIGINT").
Proof.
  intros d e. destruct (n_to_str_ok p) as [Nd [Dd Vd]]. destruct (n_to_str_ok s) as [Ne [De Ve]]. fold d in Nd, Dd, Vd. fold e in Ne, De, Ve.
  assert (Z : str_eqb (strip e) ($"0") = N.eqb s 0).
  { rewrite digits_strip by exact De. destruct (N.eqb_spec s 0) as [->|H]; [reflexivity|]. apply str_eqb_neq. intros E. apply H.
    apply n_to_str_inj. fold e. rewrite E. reflexivity. }
  assert (A : forall body, forallb (fun c => is_digit c || Ascii.eqb c ",") body = true -> convert_type ($"number(" ++ body ++ $")") =
    if contains ($",") body then match split_char "," body with
      | [a; b] => if str_eqb (strip b) ($"0") then if str_eqb a ($"*") then Ok ($"BIGINT") else n <- py_int a ;; Ok (if (n >? 9)%Z then $"BIGINT" else $"INT")
                  else Ok ($"DOUBLE")
      | _ => Err ValueError end else Ok ($"INT")).
  { intros body H. rewrite number_prefix by exact H. unfold convert_number. destruct (number_slice body) as [C S].
    - intros Hin. rewrite forallb_forall in H. apply H in Hin. discriminate.
    - rewrite C, S. reflexivity. }
  assert (Dc : forall x, forallb is_digit x = true -> forallb (fun c => is_digit c || Ascii.eqb c ",") x = true).
  { intros x H. rewrite forallb_forall in *. intros c Hc. rewrite (H _ Hc). reflexivity. }
  split; [|split; [|split; [|reflexivity]]].
  - change ($"number(" ++ d ++ $"," ++ e ++ $")") with ($"number(" ++ d ++ (","%char :: e) ++ $")"). rewrite (app_assoc d). rewrite A.
    2: { rewrite forallb_app. cbn [forallb]. rewrite !Dc by assumption. reflexivity. }
    rewrite (proj2 (contains_true ($",") _)) by (apply occurs_char, in_or_app; right; left; reflexivity).
    rewrite split_char_app by (apply digits_none; [exact Dd|reflexivity]). rewrite split_char_none by (apply digits_none; [exact De|reflexivity]).
    rewrite Z. destruct (N.eqb s 0); [|reflexivity].
    assert (Sx : str_eqb d ($"*") = false) by (apply str_eqb_neq; intros E; rewrite E in Dd; discriminate). rewrite Sx.
    assert (P : py_int d = Ok (Z.of_N p)).
    { unfold py_int. rewrite digits_strip by exact Dd. pose proof (unsigned_val_digits d p Nd Dd Vd) as U.
      destruct d as [|c r] eqn:Ed; [contradiction|]. cbn [forallb] in Dd. apply andb_true_iff in Dd. destruct Dd as [Dc' _].
      destruct c as [[|] [|] [|] [|] [|] [|] [|] [|]]; try discriminate; rewrite U; reflexivity. }
    rewrite P. cbn [bind]. f_equal. destruct (N.leb_spec p 9) as [H|H]; destruct (Z.gtb_spec (Z.of_N p) 9) as [G|G]; try reflexivity; lia.
  - rewrite A by (apply Dc, Dd). rewrite (proj2 (contains_false ($",") _)); [reflexivity|]. change ($",") with [","%char]. rewrite occurs_char. apply digits_none; [exact Dd|reflexivity].
  - change ($"number(*," ++ e ++ $")") with ($"number(" ++ ($"*," ++ e) ++ $")").
    assert (B : convert_type ($"number(" ++ ($"*," ++ e) ++ $")") = convert_number ($"number(" ++ ($"*," ++ e) ++ $")")).
    { unfold convert_type. assert (T : type_text ($"number(" ++ ($"*," ++ e) ++ $")") = $"number(" ++ ($"*," ++ e) ++ $")").
      { rewrite (type_text_spec _ ($"number(" ++ ($"*," ++ e) ++ $")")).
        - rewrite !lower_app, (digits_lower e De). reflexivity.
        - left. exists ($"number(*," ++ e), []. split; [|reflexivity]. apply cut_char; [reflexivity|].
          intros Hin. apply in_app_or in Hin. destruct Hin as [Hin|Hin]; [revert Hin; apply not_in_b; reflexivity|]. revert Hin. apply digits_none; [exact De|reflexivity]. }
      rewrite T. cbn zeta.
      assert (C : forall w c, In c w -> is_digit c = false -> existsb (Ascii.eqb ",") w = false -> existsb (Ascii.eqb ")") w = false ->
        contains w ($"number(*") = false -> contains w [] = false -> contains w ($"number(" ++ ($"*," ++ e) ++ $")") = false).
      { intros w c Hc H1 H3 H4 H5 H6. change ($"number(" ++ ($"*," ++ e) ++ $")") with ($"number(*" ++ ","%char :: (e ++ [")"%char])).
        apply nocc_sep; [apply not_in_b, H3|exact H5|]. apply nocc_sep; [apply not_in_b, H4| |exact H6]. apply (nocc_absent _ c); [exact Hc|]. apply digits_none; assumption. }
      rewrite (C ($"int") "i"%char), (C ($"rowversion") "r"%char), (C ($"uniqueidentifier") "u"%char), (C ($"sysname") "s"%char),
        (C ($"serial") "s"%char), (C ($"bit") "b"%char), (C ($"blob") "b"%char), (C ($"binary") "b"%char); try reflexivity; try (cbn; tauto). }
    rewrite B. unfold convert_number. destruct (number_slice ($"*," ++ e)) as [C S].
    + intros Hin. apply in_app_or in Hin. destruct Hin as [Hin|Hin]; [revert Hin; apply not_in_b; reflexivity|]. revert Hin. apply digits_none; [exact De|reflexivity].
    + rewrite C, S. rewrite (proj2 (contains_true ($",") _)) by (apply occurs_char; right; left; reflexivity).
      change ($"*," ++ e) with (["*"%char] ++ ","%char :: e). rewrite split_char_app by (intros [H|[]]; discriminate).
      rewrite split_char_none by (apply digits_none; [exact De|reflexivity]). rewrite Z. destruct (N.eqb s 0); reflexivity.
Qed.

(** ** Field splitting *)
Lemma depth_app a b : depth (a ++ b) = (depth a + depth b)%Z.
Proof. unfold depth. rewrite !count_occ_app. lia. Qed.
Lemma depth_nil : depth [] = 0%Z. Proof. reflexivity. Qed.
Lemma depth_char c : depth [c] = (if Ascii.eqb c "(" then 1 else if Ascii.eqb c ")" then -1 else 0)%Z.
Proof. destruct c as [[|] [|] [|] [|] [|] [|] [|] [|]]; reflexivity. Qed.
Lemma join_cons sep x l : l <> [] -> join sep (x :: l) = x ++ sep ++ join sep l.
Proof. destruct l; [contradiction|reflexivity]. Qed.
Lemma loop_keeps s : forall field op acc, exists init last, field ++ s = join ($",") (init ++ [last])
  /\ raw_fields_loop s field op acc = acc ++ map strip init ++ (if str_eqb last [] then [] else [strip last]).
Proof.
  induction s as [|c s IH]; intros field op acc.
  - exists [], field. split; [apply app_nil_r|]. cbn [raw_fields_loop map app]. destruct (str_eqb field []); cbn [negb]; [rewrite app_nil_r|]; reflexivity.
  - cbn [raw_fields_loop].
    assert (K : forall op', exists init last, field ++ c :: s = join ($",") (init ++ [last])
      /\ raw_fields_loop s (field ++ [c]) op' acc = acc ++ map strip init ++ (if str_eqb last [] then [] else [strip last])).
    { intros op'. destruct (IH (field ++ [c]) op' acc) as [init [lst [E H]]]. exists init, lst. rewrite <- app_assoc in E. split; assumption. }
    destruct op; [apply K|]. destruct (Ascii.eqb c "("); [apply K|]. destruct (Ascii.eqb_spec c ",") as [->|]; [|apply K].
    destruct (IH [] false (acc ++ [strip field])) as [init [lst [E H]]]. exists (field :: init), lst. split.
    + cbn [app]. rewrite join_cons by (destruct init; discriminate). rewrite <- E. reflexivity.
    + rewrite H, <- app_assoc. reflexivity.
Qed.
Lemma c41_keeps s : exists fs, s = join ($",") fs /\ fields_of fs (raw_fields s).
Proof.
  destruct (loop_keeps s [] false []) as [init [lst [E H]]]. exists (init ++ [lst]). split; [exact E|]. exists init, lst. split; [reflexivity|exact H].
Qed.
Lemma loop_top s : forall field op acc,
  (forall a b, s = a ++ b -> (0 <= depth field + depth a <= 1)%Z) -> op = (depth field =? 1)%Z ->
  (forall a b, field = a ++ ","%char :: b -> depth a <> 0%Z) ->
  exists init last, cut_at_top (field ++ s) (init ++ [last])
    /\ raw_fields_loop s field op acc = acc ++ map strip init ++ (if str_eqb last [] then [] else [strip last]).
Proof.
  induction s as [|c s IH]; intros field op acc F O I.
  - exists [], field. split.
    + constructor; cbn [app].
      * discriminate.
      * apply app_nil_r.
      * intros pre f post E N. destruct pre as [|x [|y pre]]; [injection E as _ <-; contradiction| |]; discriminate.
      * intros f a b [<-|[]]. apply I.
    + cbn [raw_fields_loop map app]. destruct (str_eqb field []); cbn [negb]; [rewrite app_nil_r|]; reflexivity.
  - pose proof (F [] _ eq_refl) as F0. rewrite depth_nil in F0. pose proof (F [c] s eq_refl) as F1. rewrite depth_char in F1.
    assert (K : forall op', op' = (depth (field ++ [c]) =? 1)%Z -> (c = ","%char -> depth field <> 0%Z) ->
      exists init last, cut_at_top (field ++ c :: s) (init ++ [last])
      /\ raw_fields_loop s (field ++ [c]) op' acc = acc ++ map strip init ++ (if str_eqb last [] then [] else [strip last])).
    { intros op' O' N. destruct (IH (field ++ [c]) op' acc) as [init [lst [E H]]].
      - intros a b ->. rewrite depth_app. specialize (F (c :: a) b eq_refl). change (c :: a) with ([c] ++ a) in F. rewrite depth_app in F. lia.
      - exact O'.
      - intros a b E. destruct b as [|x b _] using rev_ind.
        + apply app_inj_tail in E. destruct E as [<- ->]. apply N. reflexivity.
        + rewrite app_comm_cons, app_assoc in E. apply app_inj_tail in E. destruct E as [E ->]. apply (I _ _ E).
      - exists init, lst. rewrite <- app_assoc in E. split; assumption. }
    assert (Dc : depth (field ++ [c]) = (depth field + if Ascii.eqb c "(" then 1 else if Ascii.eqb c ")" then -1 else 0)%Z) by (rewrite depth_app, depth_char; reflexivity).
    cbn [raw_fields_loop]. destruct op.
    + symmetry in O. apply Z.eqb_eq in O. apply K; [|intros _; lia]. rewrite Dc. destruct (Ascii.eqb_spec c "("); [lia|].
      destruct (Ascii.eqb_spec c ")"); cbn [negb]; symmetry; [apply Z.eqb_neq|apply Z.eqb_eq]; lia.
    + symmetry in O. apply Z.eqb_neq in O. destruct (Ascii.eqb_spec c "(").
      * apply K; [rewrite Dc; symmetry; apply Z.eqb_eq; lia|]. intros ->. discriminate.
      * destruct (Ascii.eqb_spec c ",") as [->|N].
        -- destruct (IH [] false (acc ++ [strip field])) as [init [lst [E H]]].
           ++ intros a b ->. specialize (F (","%char :: a) b eq_refl). change (","%char :: a) with ([","%char] ++ a) in F. rewrite depth_app, depth_char in F.
              cbn [Ascii.eqb] in F. rewrite depth_nil. cbn in F. lia.
           ++ reflexivity.
           ++ intros [|] b Eb; discriminate.
           ++ exists (field :: init), lst. split; [|rewrite H, <- app_assoc; reflexivity]. destruct E as [E1 E2 E3 E4]. constructor.
              ** discriminate.
              ** cbn [app]. rewrite join_cons by (destruct init; discriminate). rewrite <- E2. reflexivity.
              ** intros [|x pre] f post Ef Np; cbn [app] in Ef; injection Ef as Ef1 Ef2.
                 { subst f. lia. } { eapply E3; eassumption. }
              ** intros f a b [<-|Hin]; [apply I|apply (E4 f a b Hin)].
        -- apply K; [|intros E; contradiction]. rewrite Dc. destruct (Ascii.eqb_spec c ")"); [lia|]. symmetry. apply Z.eqb_neq. lia.
Qed.
Lemma c41_flat s : flat_parens s -> exists fs, cut_at_top s fs /\ fields_of fs (raw_fields s).
Proof.
  intros F. destruct (loop_top s [] false []) as [init [lst [E H]]].
  - intros a b E. rewrite depth_nil. apply (F a b E).
  - reflexivity.
  - intros [|] b E; discriminate.
  - exists (init ++ [lst]). split; [exact E|]. exists init, lst. split; [reflexivity|exact H].
Qed.
(** there is one way only to cut a text at the top *)
Lemma app_split_lt (a b x y : str) : a ++ x = b ++ y -> length a < length b -> exists z, z <> [] /\ b = a ++ z /\ x = z ++ y.
Proof.
  revert b. induction a as [|c a IH]; intros b E L; cbn in *.
  - exists b. repeat split; [destruct b; [cbn in L; lia|discriminate]|exact E].
  - destruct b as [|d b]; [cbn in L; lia|]. injection E as <- E. destruct (IH b E) as [z [N [-> ->]]]; [cbn in L; lia|]. exists z. auto.
Qed.
Lemma app_inj_len {A} (a b x y : list A) : a ++ x = b ++ y -> length a = length b -> a = b /\ x = y.
Proof.
  revert b. induction a as [|c a IH]; intros [|d b] E L; try discriminate; [auto|]. injection E as <- E. destruct (IH b E) as [-> ->]; [cbn in L; lia|]. auto.
Qed.
Lemma cut_at_top_fun fs : forall s gs, cut_at_top s fs -> cut_at_top s gs -> fs = gs.
Proof.
  induction fs as [|f fs IH]; intros s gs [A1 A2 A3 A4] [B1 B2 B3 B4]; [contradiction|]. destruct gs as [|g gs]; [contradiction|].
  assert (T : forall f fs g gs, join ($",") (f :: fs) = join ($",") (g :: gs) ->
     (forall pre f' post, f :: fs = pre ++ f' :: post -> post <> [] -> depth f' = 0%Z) -> (forall f' a b, In f' (g :: gs) -> f' = a ++ ","%char :: b -> depth a <> 0%Z) ->
     length f < length g -> False).
  { clear. intros f fs g gs E C I L. assert (G : exists r, join ($",") (g :: gs) = g ++ r) by (destruct gs; [exists []; symmetry; apply app_nil_r|eexists; reflexivity]).
    destruct G as [r G]. rewrite G in E. destruct fs as [|f2 fs].
    - cbn [join] in E. apply (f_equal (@length ascii)) in E. rewrite app_length in E. lia.
    - rewrite join_cons in E by discriminate. destruct (app_split_lt _ _ _ _ E L) as [z [N [Ez X]]]. destruct z as [|z0 z]; [contradiction|].
      cbn [app] in X. injection X as X1 X2. refine (I g f z (or_introl eq_refl) _ _); [rewrite Ez, <- X1; reflexivity|]. apply (C [] f (f2 :: fs) eq_refl). discriminate. }
  assert (L : length f = length g).
  { destruct (lt_eq_lt_dec (length f) (length g)) as [[L|L]|L]; [|exact L|]; exfalso.
    - eapply T; [rewrite <- A2; exact B2|exact A3|exact B4|exact L].
    - eapply T; [rewrite <- B2; exact A2|exact B3|exact A4|exact L]. }
  assert (E : f = g /\ (fs = [] <-> gs = []) /\ (fs <> [] -> gs <> [] -> join ($",") fs = join ($",") gs)).
  { rewrite A2 in B2. destruct fs as [|f2 fs], gs as [|g2 gs].
    - cbn [join] in B2. repeat split; auto.
    - rewrite (join_cons _ g) in B2 by discriminate. apply (f_equal (@length ascii)) in B2. rewrite app_length in B2. cbn in B2. lia.
    - rewrite (join_cons _ f) in B2 by discriminate. apply (f_equal (@length ascii)) in B2. rewrite app_length in B2. cbn in B2. lia.
    - rewrite !join_cons in B2 by discriminate. apply app_inj_len in B2; [|exact L]. destruct B2 as [-> B2]. injection B2 as B2. repeat split; auto; discriminate. }
  destruct E as [<- [N J]]. f_equal. destruct fs as [|f2 fs]; [symmetry; apply N; reflexivity|]. assert (Ng : gs <> []) by (intros H; apply N in H; discriminate).
  apply (IH (join ($",") (f2 :: fs)) gs).
  - constructor; [discriminate|reflexivity| |].
    + intros pre f' post E. apply (A3 (f :: pre)). rewrite E. reflexivity.
    + intros f' a b Hin. apply A4. right. exact Hin.
  - constructor; [exact Ng|apply J; [discriminate|exact Ng]| |].
    + intros pre f' post E. apply (B3 (f :: pre)). rewrite E. reflexivity.
    + intros f' a b Hin. apply B4. right. exact Hin.
Qed.
Lemma c41_refuted : exists s fs, cut_at_top s fs /\ ~ fields_of fs (raw_fields s).
Proof.
  exists ($"x enum(f(1),2)"), [$"x enum(f(1),2)"]. split.
  - constructor.
    + discriminate.
    + reflexivity.
    + intros [|? [|]] f post E N; [|discriminate|discriminate]. destruct post; [contradiction|discriminate].
    + intros f a b [<-|[]] E. set (w := $"x enum(f(1),2)") in *.
      assert (A : forallb (fun i => implb (Ascii.eqb (nth i w " "%char) ",") (negb (depth (firstn i w) =? 0)%Z)) (seq 0 (length w)) = true) by reflexivity.
      rewrite forallb_forall in A. specialize (A (length a)). cbn beta in A. rewrite E in A.
      rewrite app_nth2, Nat.sub_diag, firstn_app, firstn_all, Nat.sub_diag, firstn_O, app_nil_r in A by lia. cbn [nth Ascii.eqb] in A.
      intros D. rewrite D in A. assert (X : In (length a) (seq 0 (length (a ++ ","%char :: b)))) by (apply in_seq; rewrite app_length; cbn; lia).
      apply A in X. vm_compute in X. discriminate.
  - intros [init [lst [E H]]]. destruct init as [|x [|y init]]; cbn [app] in E; [|injection E as _ E; discriminate|injection E as _ E; discriminate].
    injection E as <-. vm_compute in H. discriminate.
Qed.
