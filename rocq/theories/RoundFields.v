(** * Lemmas: the fields of a CREATE TABLE statement (for C45) *)
From Verif Require Export RoundTable.

(** ** Finding characters *)
Lemma find_opt_char c a b : ~ In c a -> find_opt [c] (a ++ c :: b) = Some (length a).
Proof.
  induction a as [|x a IH]; intros H.
  - cbn [app find_opt starts_with]. rewrite Ascii.eqb_refl. reflexivity.
  - cbn [app find_opt starts_with length]. destruct (Ascii.eqb_spec c x) as [->|N]; [exfalso; apply H; left; reflexivity|]. cbn [andb]. rewrite IH; [reflexivity|].
    intros X. apply H. right. exact X.
Qed.
Lemma find_opt_nochar c a : ~ In c a -> find_opt [c] a = None.
Proof. intros H. apply find_opt_none. rewrite occurs_char. exact H. Qed.
Lemma find_char c a b : ~ In c a -> find [c] (a ++ c :: b) = Z.of_nat (length a).
Proof. intros H. unfold find. rewrite find_opt_char by exact H. reflexivity. Qed.
Lemma rfind_end c a : rfind_char c (a ++ [c]) = Z.of_nat (length a).
Proof.
  unfold rfind_char. rewrite rev_app_distr. cbn [rev app find_opt starts_with]. rewrite Ascii.eqb_refl. cbn [andb]. rewrite app_length. cbn [length]. lia.
Qed.
Lemma find_from_pre p a x : find_from p (length a) (a ++ x) = match find_opt p x with Some n => Z.of_nat (length a + n) | None => (-1)%Z end.
Proof.
  unfold find_from. rewrite app_length. destruct (Nat.ltb_spec (length a + length x) (length a)); [lia|]. rewrite skipn_app, skipn_all, Nat.sub_diag. reflexivity.
Qed.

(** ** The type of a column *)
Lemma not_in_lower c s : lower_char c = c -> (forall d, lower_char d = c <-> d = c) -> ~ In c s -> ~ In c (lower s).
Proof. intros _ I H X. unfold lower in X. apply in_map_iff in X. destruct X as [d [E X]]. apply (proj1 (I d)) in E. rewrite E in X. contradiction. Qed.
Lemma close_lower s : ~ In ")"%char s -> ~ In ")"%char (lower s).
Proof. apply not_in_lower; [reflexivity|]. exact (char_iff lower_char ")"%char eq_refl). Qed.
Definition low_letter (c : ascii) : bool := Nat.leb 97 (ord c) && Nat.leb (ord c) 122.
Lemma varchar_has n w : forallb low_letter w = true -> w <> [] -> contains w (lower ($"VARCHAR(" ++ n_to_str n ++ $")")) = contains w ($"varchar").
Proof.
  intros A N. destruct (n_to_str_ok n) as [_ [D _]]. rewrite !lower_app, (digits_lower _ D).
  change (lower ($"VARCHAR(") ++ n_to_str n ++ lower ($")")) with ($"varchar" ++ "("%char :: n_to_str n ++ ")"%char :: []).
  assert (S : forall c, low_letter c = false -> ~ In c w) by (intros c Hc X; rewrite forallb_forall in A; rewrite (A c X) in Hc; discriminate).
  rewrite !occ_sep by (apply S; reflexivity). replace (contains w (n_to_str n)) with false; [destruct w; [contradiction|]; rewrite !orb_false_r; reflexivity|].
  symmetry. destruct w as [|c w]; [contradiction|]. apply (nocc_absent _ c); [left; reflexivity|]. apply digits_none; [exact D|].
  cbn [forallb] in A. apply andb_true_iff in A. destruct A as [A _]. pose proof (all_chars (fun c => implb (low_letter c) (negb (is_digit c))) eq_refl c) as Q. cbn beta in Q.
  rewrite A in Q. apply negb_true_iff. exact Q.
Qed.
Lemma convert_varchar n : convert_type ($"VARCHAR(" ++ n_to_str n ++ $")") = Ok ($"VARCHAR(0)").
Proof.
  unfold convert_type. rewrite (type_text_spec _ ($"VARCHAR(" ++ n_to_str n ++ $")")).
  - rewrite !varchar_has by (reflexivity || discriminate). reflexivity.
  - left. exists ($"VARCHAR(" ++ n_to_str n), []. split; [|rewrite <- app_assoc; reflexivity]. apply cut_char; [rewrite <- app_assoc; reflexivity|].
    destruct (n_to_str_ok n) as [_ [D _]]. intros X. apply in_app_or in X. destruct X as [X|X]; [exact (not_in_b ")"%char ($"VARCHAR(") eq_refl X)|exact (digits_none ")" _ D eq_refl X)].
Qed.
Definition tail_ok (tail : str) : Prop := tail = [] \/ exists r, tail = $" )" ++ r.
Lemma quoted_length n : length (quoted n ++ $" ") = length n + 3.
Proof. unfold quoted. cbn [app length]. rewrite !app_length. cbn [length list_ascii_of_string]. lia. Qed.
Lemma field_type_close n a b : ~ In ")"%char a -> field_type (quoted n ++ $" " ++ a ++ ")"%char :: b) n true = a ++ $")".
Proof.
  intros H. unfold field_type. rewrite <- quoted_length. set (p := quoted n ++ $" ").
  replace (quoted n ++ $" " ++ a ++ ")"%char :: b) with (p ++ a ++ ")"%char :: b) by (unfold p; rewrite <- app_assoc; reflexivity).
  assert (Q : find_from ($")") (length p) (lower (p ++ a ++ ")"%char :: b)) = Z.of_nat (length p + length a)).
  { rewrite (lower_app p). replace (length p) with (length (lower p)) by (unfold lower; apply map_length).
    rewrite find_from_pre, lower_app. change (lower (")"%char :: b)) with (")"%char :: lower b). change ($")") with [")"%char]. rewrite find_opt_char by (apply close_lower, H).
    unfold lower. rewrite !map_length. reflexivity. }
  rewrite Q.
  destruct (Z.gtb_spec (Z.of_nat (length p + length a)) 0) as [G|G]; [|unfold p in G; rewrite quoted_length in G; lia].
  replace (Z.of_nat (length p + length a) + 1)%Z with (Z.of_nat (length p + length (a ++ [")"%char]))) by (rewrite app_length; cbn [length]; lia).
  apply slice_mid with (c := b). rewrite <- !app_assoc. reflexivity.
Qed.
Lemma field_type_end n a : ~ In ")"%char a -> ~ In " "%char a -> ~ In ","%char a -> field_type (quoted n ++ $" " ++ a) n true = a.
Proof.
  intros H B C. unfold field_type. rewrite <- quoted_length. set (p := quoted n ++ $" ").
  replace (quoted n ++ $" " ++ a) with (p ++ a) by (unfold p; rewrite <- app_assoc; reflexivity).
  assert (Q : find_from ($")") (length p) (lower (p ++ a)) = (-1)%Z).
  { rewrite (lower_app p). replace (length p) with (length (lower p)) by (unfold lower; apply map_length). rewrite find_from_pre. change ($")") with [")"%char]. rewrite find_opt_nochar by (apply close_lower, H). reflexivity. }
  rewrite Q, !find_from_pre. change ($")") with [")"%char]. change ($" ") with [" "%char]. change ($",") with [","%char]. rewrite !find_opt_nochar by (try apply close_lower; assumption). cbn [Z.gtb Z.compare Z.eqb].
  rewrite app_length. apply slice_mid with (c := []). rewrite app_nil_r. reflexivity.
Qed.
Definition read_col (c : column) : column := {| column_name := column_name c; column_type := read_type (column_type c) |}.
Lemma valid_types_chars ty c : In ty VALID_TYPES -> existsb (Ascii.eqb c) [")"; " "; ","; "("]%char = true -> ~ In c ty.
Proof.
  intros H C. apply existsb_exists in C. destruct C as [d [Hd E]]. apply Ascii.eqb_eq in E. subst d.
  assert (F : forallb (fun ty => forallb (fun c => noch c ty) [")"; " "; ","; "("]%char) VALID_TYPES = true) by reflexivity.
  rewrite forallb_forall in F. specialize (F ty H). rewrite forallb_forall in F. apply noch_ok, F, Hd.
Qed.
Lemma read_type_target ty : readable_type ty -> In (read_type ty) target_types.
Proof.
  intros [H|[n ->]].
  - assert (F : forallb (fun ty => str_in (read_type ty) target_types) VALID_TYPES = true) by reflexivity. rewrite forallb_forall in F. specialize (F ty H). destruct (str_in_spec (read_type ty) target_types); [assumption|discriminate F].
  - unfold read_type. cbn [app list_ascii_of_string str_eqb starts_with Ascii.eqb Bool.eqb andb orb]. unfold target_types. cbn [In]. tauto.
Qed.
Lemma column_reads n ty tail : plain n -> readable_type ty -> tail_ok tail -> convert_type (field_type (quoted n ++ $" " ++ ty ++ tail) n true) = Ok (read_type ty).
Proof.
  intros Hn [H|[k ->]] T.
  - assert (N : forall c, existsb (Ascii.eqb c) [")"; " "; ","; "("]%char = true -> ~ In c ty) by (intros c; apply valid_types_chars, H).
    destruct T as [->|[r ->]].
    + rewrite app_nil_r, field_type_end by (apply N; reflexivity).
      assert (F : forallb (fun ty => match convert_type ty with Ok x => str_eqb x (read_type ty) | Err _ => false end) VALID_TYPES = true) by reflexivity.
      rewrite forallb_forall in F. specialize (F ty H). cbn beta in F. destruct (convert_type ty) as [x|e]; [|discriminate F]. apply str_eqb_eq in F. rewrite F. reflexivity.
    + replace (ty ++ $" )" ++ r) with ((ty ++ $" ") ++ ")"%char :: r) by (rewrite <- app_assoc; reflexivity). rewrite field_type_close.
      * assert (F : forallb (fun ty => match convert_type ((ty ++ $" ") ++ $")") with Ok x => str_eqb x (read_type ty) | Err _ => false end) VALID_TYPES = true) by reflexivity.
        rewrite forallb_forall in F. specialize (F ty H). cbn beta in F. destruct (convert_type ((ty ++ $" ") ++ $")")) as [x|e]; [|discriminate F]. apply str_eqb_eq in F. rewrite F. reflexivity.
      * intros X. apply in_app_or in X. destruct X as [X|[X|[]]]; [exact (N ")"%char eq_refl X)|discriminate].
  - replace (($"VARCHAR(" ++ n_to_str k ++ $")") ++ tail) with (($"VARCHAR(" ++ n_to_str k) ++ ")"%char :: tail) by (rewrite <- !app_assoc; reflexivity).
    rewrite field_type_close.
    + rewrite <- app_assoc, convert_varchar. reflexivity.
    + destruct (n_to_str_ok k) as [_ [D _]]. intros X. apply in_app_or in X. destruct X as [X|X]; [exact (not_in_b ")"%char ($"VARCHAR(") eq_refl X)|exact (digits_none ")" _ D eq_refl X)].
Qed.
Lemma field_name_quoted n x : plain n -> field_name (quoted n ++ x) = Ok (n, true).
Proof.
  intros H. unfold quoted. cbn [app]. unfold field_name. change (existsb (Ascii.eqb Generator.dq) [dquote; squote; backquote]) with true. cbn match. f_equal. f_equal.
  rewrite <- app_assoc. change ([Generator.dq] ++ x) with (dquote :: x). change Generator.dq with dquote.
  replace (find_from [dquote] 1 (dquote :: n ++ dquote :: x)) with (Z.of_nat (1 + length n)).
  - exact (slice_mid [dquote] n (dquote :: x) _ eq_refl).
  - symmetry. pose proof (find_from_pre [dquote] [dquote] (n ++ dquote :: x)) as Q. rewrite find_opt_char in Q by (apply plain_char; [exact H|reflexivity]). exact Q.
Qed.

(** ** Splitting the column list *)
Definition closed (f : str) : Prop := forall rest field acc, raw_fields_loop (f ++ rest) field false acc = raw_fields_loop rest (field ++ f) false acc.
Lemma closed_flat f : ~ In "("%char f -> ~ In ","%char f -> closed f.
Proof.
  intros A B. unfold closed. induction f as [|x f IH]; intros rest field acc; [rewrite app_nil_r; reflexivity|]. cbn [app raw_fields_loop].
  destruct (Ascii.eqb_spec x "(") as [->|_]; [exfalso; apply A; left; reflexivity|]. destruct (Ascii.eqb_spec x ",") as [->|_]; [exfalso; apply B; left; reflexivity|].
  rewrite IH by (intros X; first [apply A; right; exact X | apply B; right; exact X]). rewrite <- app_assoc. reflexivity.
Qed.
Lemma closed_app f g : closed f -> closed g -> closed (f ++ g).
Proof. intros A B rest field acc. rewrite <- app_assoc, A, B, <- app_assoc. reflexivity. Qed.
Lemma loop_inside f : ~ In ")"%char f -> forall rest field acc, raw_fields_loop (f ++ rest) field true acc = raw_fields_loop rest (field ++ f) true acc.
Proof.
  intros A. induction f as [|x f IH]; intros rest field acc; [rewrite app_nil_r; reflexivity|]. cbn [app raw_fields_loop].
  destruct (Ascii.eqb_spec x ")") as [->|_]; [exfalso; apply A; left; reflexivity|]. cbn [negb]. rewrite IH by (intros X; apply A; right; exact X). rewrite <- app_assoc. reflexivity.
Qed.
Lemma closed_paren f : ~ In ")"%char f -> closed ($"(" ++ f ++ $")").
Proof.
  intros A rest field acc. change (($"(" ++ f ++ $")") ++ rest) with ("("%char :: (f ++ $")") ++ rest). cbn [raw_fields_loop Ascii.eqb Bool.eqb]. cbn match.
  rewrite <- app_assoc, loop_inside by exact A. change ($")" ++ rest) with (")"%char :: rest). cbn [raw_fields_loop]. change (negb (Ascii.eqb ")" ")")) with false. cbn match.
  rewrite <- !app_assoc. reflexivity.
Qed.
Definition open_tail (tail : str) : Prop := forall field acc, field <> [] -> raw_fields_loop tail field false acc = acc ++ [strip (field ++ tail)].
Lemma open_nil : open_tail [].
Proof. intros field acc N. cbn [raw_fields_loop]. destruct field; [contradiction|]. rewrite app_nil_r. reflexivity. Qed.
Lemma open_paren a b : closed a -> ~ In ")"%char b -> open_tail (a ++ "("%char :: b).
Proof.
  intros A B field acc N. rewrite A. cbn [raw_fields_loop Ascii.eqb Bool.eqb]. cbn match. rewrite <- (app_nil_r b) at 1. rewrite loop_inside by exact B. cbn [raw_fields_loop].
  replace (negb (str_eqb (((field ++ a) ++ ["("%char]) ++ b) [])) with true; [rewrite <- !app_assoc; reflexivity|]. destruct field; [contradiction|]. reflexivity.
Qed.
Lemma split_fields fs l tail : (forall f, In f (fs ++ [l]) -> closed f /\ ends_hard f = true /\ f <> []) -> open_tail tail -> ends_hard (l ++ tail) = true ->
  raw_fields (join ($" ,") (fs ++ [l]) ++ tail) = fs ++ [l ++ tail].
Proof.
  intros F T H. unfold raw_fields. assert (G : forall fs acc, (forall f, In f (fs ++ [l]) -> closed f /\ ends_hard f = true /\ f <> []) ->
    raw_fields_loop (join ($" ,") (fs ++ [l]) ++ tail) [] false acc = acc ++ fs ++ [l ++ tail]).
  { clear fs F. induction fs as [|f fs IH]; intros acc F.
    - cbn [app join]. destruct (F l) as [C [E N]]; [left; reflexivity|]. rewrite C. cbn [app]. rewrite T by exact N. rewrite strip_hard by exact H. reflexivity.
    - cbn [app]. rewrite join_cons by (intros X; apply (f_equal (@length _)) in X; rewrite app_length in X; cbn in X; lia).
      destruct (F f) as [C [E N]]; [left; reflexivity|]. rewrite <- !app_assoc. rewrite C. cbn [app].
      change ($" ," ++ join ($" ,") (fs ++ [l]) ++ tail) with (" "%char :: ","%char :: join ($" ,") (fs ++ [l]) ++ tail).
      cbn [raw_fields_loop Ascii.eqb Bool.eqb]. cbn match. rewrite IH by (intros g Hg; apply F; right; exact Hg).
      change (f ++ [" "%char]) with ([] ++ f ++ $" "). rewrite strip_around by (reflexivity || exact E). rewrite <- !app_assoc. reflexivity. }
  exact (G fs [] F).
Qed.
