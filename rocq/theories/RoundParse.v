(** * Lemmas: parsing CREATE TABLE statements (for C45) *)
From Verif Require Export RoundFields.

(** ** Adding the columns *)
Definition named_cols (cs : list column) : dict column := map (fun c => (column_name c, c)) cs.
Lemma add_columns_new cs : forall t, NoDup (dkeys (t_cols t) ++ map column_name cs) -> add_columns t cs = with_cols t (t_cols t ++ named_cols cs).
Proof.
  unfold add_columns. induction cs as [|c cs IH]; intros t N.
  - cbn [fold_left named_cols map]. rewrite app_nil_r. destruct t; reflexivity.
  - cbn [fold_left]. assert (Nc : ~ In (column_name c) (dkeys (t_cols t))).
    { cbn [map] in N. apply NoDup_remove in N. destruct N as [_ N]. intros X. apply N, in_or_app. left. exact X. }
    rewrite IH.
    + unfold add_column. rewrite dset_new by exact Nc. cbn [t_cols with_cols named_cols map]. rewrite <- app_assoc. destruct t; reflexivity.
    + unfold add_column. cbn [t_cols with_cols]. rewrite dkeys_dset_new by exact Nc. rewrite <- app_assoc. exact N.
Qed.

Section Parse.
Variable t : table.
Hypothesis Ht : plain_table t.
Hypothesis Hwf : well_formed_table t.

Lemma col_name_plain c : In c (table_iter t) -> plain (column_name c).
Proof.
  intros H. apply (pt_names _ Ht). apply in_or_app. right. apply in_or_app. left.
  unfold table_iter in H. apply dvals_in in H. destruct H as [k Hk]. destruct (wf_cols _ Hwf) as [Nd W]. pose proof (dget_nodup k c (t_cols t) Nd Hk) as D. rewrite (W k c D).
  apply (in_map fst) in Hk. exact Hk.
Qed.
Lemma pk_plain w : In w (t_pk t) -> plain w.
Proof. intros H. apply (pt_names _ Ht). apply in_or_app. right. apply in_or_app. right. exact H. Qed.
Lemma schema_plain : plain (t_schema t). Proof. apply (pt_names _ Ht). left. reflexivity. Qed.
Lemma name_plain : plain (t_name t). Proof. apply (pt_names _ Ht). right. left. reflexivity. Qed.
Lemma list_chars c l : (forall w, In w l -> plain w) -> word_char c = false -> c <> dquote -> c <> ","%char -> c <> " "%char -> ~ In c (list_to_string l true).
Proof.
  intros P W D C B. apply noch_ok. rewrite <- (app_nil_r (list_to_string l true)). change (list_to_string l true ++ []) with ([] ++ list_to_string l true ++ []).
  apply sep_list; try reflexivity; [apply noch_sepable; exact D| |].
  - apply noch_ok. intros [X|[X|[]]]; congruence.
  - intros w Hw. apply plain_noch; [apply P, Hw|exact W].
Qed.

Lemma create_unbracket : replace_char "]" [dquote] (replace_char "[" [dquote] (create_text t)) = create_text t.
Proof. rewrite (replace_absent "["), (replace_absent "]"); [reflexivity|..]; apply (create_noch t Ht Hwf); try reflexivity; discriminate. Qed.
Lemma head_noch c : word_char c = false -> c <> dquote -> c <> "."%char -> noch c ($"CREATE TABLE ") = true -> ~ In c (create_head t).
Proof.
  intros W D Dt N X. apply noch_ok in N. unfold create_head in X. apply in_app_or in X. destruct X as [X|X]; [contradiction|].
  apply in_app_or in X. destruct X as [X|X]; [exact (quoted_noch c _ schema_plain W D X)|].
  apply in_app_or in X. destruct X as [[X|[]]|X]; [congruence|]. exact (quoted_noch c _ name_plain W D X).
Qed.
Lemma create_name : get_table_name (create_text t) = t_name t.
Proof.
  unfold get_table_name. set (R := match table_fields t with [] => [] | fs => $" " ++ join ($" ,") fs end ++ create_end t).
  assert (E : create_text t = (create_head t ++ $" ") ++ "("%char :: R) by (unfold create_text; rewrite <- app_assoc; reflexivity).
  assert (No : ~ In "("%char (create_head t ++ $" ")).
  { intros X. apply in_app_or in X. destruct X as [X|[X|[]]]; [|discriminate]. revert X. apply head_noch; try reflexivity; discriminate. }
  rewrite E. change ($"(") with ["("%char]. rewrite find_char by exact No. rewrite (slice_prefix _ ("("%char :: R)) by reflexivity.
  replace (rstrip (create_head t ++ $" ")) with (create_head t).
  - replace (contains ($"or replace") (lower (create_head t))) with false.
    + unfold create_head. change (skipn (length ($"create table ")) ($"CREATE TABLE " ++ quoted (t_schema t) ++ $"." ++ quoted (t_name t))) with (quoted (t_schema t) ++ $"." ++ quoted (t_name t)).
      rewrite last_two by (exact schema_plain || exact name_plain). unfold strip_quotes.
      rewrite (replace_absent squote) by (apply quoted_noch; [exact name_plain|reflexivity|discriminate]).
      rewrite (replace_absent backquote) by (apply quoted_noch; [exact name_plain|reflexivity|discriminate]). apply replace_quoted, name_plain.
    + symmetry. apply hasnt_contains. unfold create_head. assert (S : sepable (hasnt ($"or replace"))) by (apply hasnt_sepable; reflexivity).
      apply sep_quoted; [exact S|reflexivity|apply plain_hasnt; [exact schema_plain|reflexivity]|]. apply sep_quoted_end; [exact S|reflexivity|apply plain_hasnt; [exact name_plain|reflexivity]|reflexivity].
  - symmetry. unfold rstrip. rewrite rev_app_distr. cbn [rev app list_ascii_of_string]. change (lstrip (" "%char :: rev (create_head t))) with (lstrip (rev (create_head t))).
    assert (L : last_hard (create_head t) = true) by (unfold create_head; rewrite !app_assoc, last_hard_app by discriminate; apply last_hard_quoted).
    unfold last_hard in L. destruct (rev (create_head t)) as [|x r] eqn:Er; [cbn [lstrip rev]; apply (f_equal (@rev _)) in Er; rewrite rev_involutive in Er; exact (eq_sym Er)|].
    cbn [lstrip]. destruct (is_space x); [discriminate L|]. rewrite <- Er. apply rev_involutive.
Qed.

(** ** The column list *)
Lemma shard_tail_ok : tail_ok (shard_tail t).
Proof. unfold shard_tail. destruct (t_shard t); [right; eexists; reflexivity|left; reflexivity]. Qed.
Lemma shard_tail_open : open_tail (shard_tail t).
Proof.
  unfold shard_tail. destruct (t_shard t) as [sk|] eqn:E; [|exact open_nil]. destruct (pt_keys _ Ht sk E) as [_ W].
  replace ($" ) PARTITION BY HASH(" ++ z_to_str (sk_shards sk) ++ $") KEY(" ++ list_to_string (sk_keys sk) true)
    with (($" ) PARTITION BY HASH" ++ ($"(" ++ z_to_str (sk_shards sk) ++ $")") ++ $" KEY") ++ "("%char :: list_to_string (sk_keys sk) true) by (rewrite <- !app_assoc; reflexivity).
  apply open_paren.
  - apply closed_app; [apply closed_flat; apply not_in_b; reflexivity|]. apply closed_app; [|apply closed_flat; apply not_in_b; reflexivity].
    apply closed_paren, noch_ok, z_noch; [reflexivity|discriminate].
  - apply list_chars; [exact W|reflexivity|discriminate..].
Qed.
Lemma shard_tail_hard : shard_tail t = [] \/ (shard_tail t <> [] /\ last_hard (shard_tail t) = true).
Proof.
  unfold shard_tail. destruct (t_shard t) as [sk|] eqn:E; [|left; reflexivity]. right. split; [discriminate|]. destruct (pt_keys _ Ht sk E) as [N _].
  rewrite !app_assoc. rewrite last_hard_app.
  - unfold list_to_string. assert (G : forall l : list str, l <> [] -> last_hard (join ($", ") (map quoted l)) = true).
    { induction l as [|x [|y l] IH]; intros Hl; [contradiction|apply last_hard_quoted|]. cbn [map]. rewrite join_cons by discriminate. rewrite app_assoc, last_hard_app; [apply IH; discriminate|].
      cbn [map]. destruct l; [cbn [map join]; discriminate|]. cbn [map]. rewrite join_cons by discriminate. discriminate. }
    apply G, N.
  - destruct (sk_keys sk) as [|x [|y l]]; [contradiction|discriminate|]. unfold list_to_string. cbn [map]. rewrite join_cons by discriminate. discriminate.
Qed.
Lemma hard_tail f : ends_hard f = true -> f <> [] -> ends_hard (f ++ shard_tail t) = true.
Proof.
  intros H N. destruct shard_tail_hard as [->|[Nt L]]; [rewrite app_nil_r; exact H|]. rewrite ends_hard_eq in *. rewrite last_hard_app, L by exact Nt.
  apply andb_true_iff in H. destruct H as [H _]. destruct f; [contradiction|]. cbn [app head_hard] in *. rewrite H. reflexivity.
Qed.
Lemma type_closed ty : readable_type ty -> closed ty.
Proof.
  intros [H|[n ->]].
  - apply closed_flat; (apply (valid_types_chars _ _ H); reflexivity).
  - replace ($"VARCHAR(" ++ n_to_str n ++ $")") with ($"VARCHAR" ++ ($"(" ++ n_to_str n ++ $")")) by reflexivity. apply closed_app; [apply closed_flat; apply not_in_b; reflexivity|].
    apply closed_paren, noch_ok, digits_noch. reflexivity.
Qed.
Lemma fields_closed f : In f (table_fields t) -> closed f.
Proof.
  unfold table_fields. intros H. apply in_app_or in H. destruct H as [H|H].
  - apply in_map_iff in H. destruct H as [c [<- Hc]]. unfold col_field. apply closed_app; [apply closed_flat; (apply quoted_noch; [apply col_name_plain, Hc|reflexivity|discriminate])|].
    apply closed_app; [apply closed_flat; apply not_in_b; reflexivity|]. apply type_closed, (pt_coltypes _ Ht c Hc).
  - destruct (negb _); [|destruct H]. destruct H as [<-|[]]. unfold pk_field.
    replace ($"CONSTRAINT PRIMARY KEY (" ++ list_to_string (t_pk t) true ++ $")") with ($"CONSTRAINT PRIMARY KEY " ++ ($"(" ++ list_to_string (t_pk t) true ++ $")")) by reflexivity.
    apply closed_app; [apply closed_flat; apply not_in_b; reflexivity|]. apply closed_paren, list_chars; [exact pk_plain|reflexivity|discriminate..].
Qed.
Lemma join_hard fs : fs <> [] -> (forall f, In f fs -> ends_hard f = true /\ f <> []) -> ends_hard (join ($" ,") fs) = true /\ join ($" ,") fs <> [].
Proof.
  induction fs as [|f [|g fs] IH]; intros N H; [contradiction|apply H; left; reflexivity|]. rewrite join_cons by discriminate.
  destruct (H f) as [Hf Nf]; [left; reflexivity|]. destruct IH as [Hj Nj]; [discriminate|intros x Hx; apply H; right; exact Hx|]. split.
  - apply ends_hard_app; assumption.
  - destruct f; [contradiction|discriminate].
Qed.
Lemma create_columns_text : column_text (create_text t) = match table_fields t with [] => [] | fs => join ($" ,") fs ++ shard_tail t end.
Proof.
  assert (No : ~ In "("%char (create_head t ++ $" ")).
  { intros X. apply in_app_or in X. destruct X as [X|[X|[]]]; [|discriminate]. revert X. apply head_noch; try reflexivity; discriminate. }
  assert (C : forall A M, ~ In "("%char A -> column_text (A ++ "("%char :: M ++ [")"%char]) = strip M).
  { intros A M NA. unfold column_text. f_equal. change ($"(") with ["("%char]. rewrite find_char by exact NA.
    replace (A ++ "("%char :: M ++ [")"%char]) with ((A ++ "("%char :: M) ++ [")"%char]) by (rewrite <- app_assoc; reflexivity). rewrite rfind_end.
    replace (Z.of_nat (length A) + 1)%Z with (Z.of_nat (length (A ++ ["("%char]))) by (rewrite app_length; cbn [length]; lia).
    replace (length (A ++ "("%char :: M)) with (length (A ++ ["("%char]) + length M) by (rewrite !app_length; cbn [length]; lia).
    apply slice_mid with (c := [")"%char]). rewrite <- !app_assoc. reflexivity. }
  unfold create_text. destruct (table_fields t) as [|f fs] eqn:Ef.
  - assert (Es : t_shard t = None).
    { apply (pt_columns _ Ht). unfold table_fields in Ef. apply app_eq_nil in Ef. destruct Ef as [Ef _]. apply map_eq_nil in Ef. apply iter_nil, Ef. }
    unfold create_end. rewrite Es. exact (C (create_head t ++ $" ") ($" ") No) || (specialize (C (create_head t ++ $" ") ($" ") No); rewrite <- app_assoc in C; exact C).
  - assert (J : ends_hard (join ($" ,") (f :: fs)) = true /\ join ($" ,") (f :: fs) <> []).
    { apply join_hard; [discriminate|]. intros x Hx. destruct (fields_hard t Ht x) as [A [B _]]; [rewrite Ef; exact Hx|]. split; assumption. }
    destruct J as [Jh Jn]. unfold create_end. destruct (t_shard t) as [sk|] eqn:Es.
    + specialize (C (create_head t ++ $" ") ($" " ++ join ($" ,") (f :: fs) ++ shard_tail t) No).
      replace (strip ($" " ++ join ($" ,") (f :: fs) ++ shard_tail t)) with (join ($" ,") (f :: fs) ++ shard_tail t) in C.
      * refine (eq_trans _ C). f_equal. do 3 (rewrite <- ?app_assoc; cbn [app list_ascii_of_string]). reflexivity.
      * symmetry. pose proof (strip_around ($" ") (join ($" ,") (f :: fs) ++ shard_tail t) [] eq_refl eq_refl (hard_tail _ Jh Jn)) as S. rewrite app_nil_r in S. exact S.
    + specialize (C (create_head t ++ $" ") ($" " ++ join ($" ,") (f :: fs) ++ $" ") No). rewrite strip_around in C by (reflexivity || exact Jh).
      unfold shard_tail. rewrite Es, app_nil_r. refine (eq_trans _ C). f_equal. do 3 (rewrite <- ?app_assoc; cbn [app list_ascii_of_string]). reflexivity.
Qed.
Lemma create_raw_fields fs l : table_fields t = fs ++ [l] -> raw_fields (column_text (create_text t)) = fs ++ [l ++ shard_tail t].
Proof.
  intros E. assert (Q : column_text (create_text t) = join ($" ,") (fs ++ [l]) ++ shard_tail t) by (rewrite create_columns_text, E; destruct fs; reflexivity). rewrite Q.
  assert (F : forall f, In f (fs ++ [l]) -> closed f /\ ends_hard f = true /\ f <> []).
  { intros f Hf. rewrite <- E in Hf. destruct (fields_hard t Ht f Hf) as [A [B _]]. split; [apply fields_closed, Hf|split; assumption]. }
  apply split_fields; [exact F|exact shard_tail_open|]. destruct (F l) as [_ [A B]]; [apply in_or_app; right; left; reflexivity|]. apply hard_tail; assumption.
Qed.
Lemma col_field_reads c tail rest T cols : In c (table_iter t) -> tail_ok tail -> hasnt ($"key ") tail = true ->
  fields_loop ((col_field c ++ tail) :: rest) T cols = fields_loop rest T (cols ++ [read_col c]).
Proof.
  intros Hc Tl K. cbn [fields_loop]. unfold col_field. rewrite <- !app_assoc.
  replace (contains ($"key ") (lower (quoted (column_name c) ++ $" " ++ column_type c ++ tail))) with false.
  - rewrite field_name_quoted by (apply col_name_plain, Hc). cbn [bind]. rewrite column_reads; [|apply col_name_plain, Hc|apply (pt_coltypes _ Ht c Hc)|exact Tl]. cbn [bind].
    rewrite target_accepted by (apply read_type_target, (pt_coltypes _ Ht c Hc)). reflexivity.
  - symmetry. apply hasnt_contains. apply sep_quoted_start; [apply hasnt_sepable; reflexivity|reflexivity|apply plain_hasnt; [apply col_name_plain, Hc|reflexivity]|].
    destruct (pt_coltypes _ Ht c Hc) as [V|[n ->]].
    + assert (F : forallb (fun ty => hasnt ($"key ") ($" " ++ ty) && hasnt ($"key ") ($" " ++ ty ++ $" ")) VALID_TYPES = true) by reflexivity.
      rewrite forallb_forall in F. specialize (F _ V). cbn beta in F. apply andb_true_iff in F. destruct F as [F1 F2]. destruct Tl as [->|[r ->]].
      * rewrite app_nil_r. exact F1.
      * replace ($" " ++ column_type c ++ $" )" ++ r) with (($" " ++ column_type c ++ $" ") ++ ")"%char :: r) by (rewrite <- !app_assoc; reflexivity).
        assert (S : sepat ")" (hasnt ($"key "))) by (apply hasnt_sepat; [reflexivity|apply not_in_b; reflexivity]). rewrite S, F2. cbn [andb].
        change ($" )" ++ r) with ($" " ++ ")"%char :: r) in K. rewrite S in K. exact K.
    + assert (S : sepat ")" (hasnt ($"key "))) by (apply hasnt_sepat; [reflexivity|apply not_in_b; reflexivity]).
      replace ($" " ++ ($"VARCHAR(" ++ n_to_str n ++ $")") ++ tail) with ($" VARCHAR" ++ "("%char :: (n_to_str n ++ ")"%char :: tail)) by (rewrite <- !app_assoc; reflexivity).
      assert (S' : sepat "(" (hasnt ($"key "))) by (apply hasnt_sepat; [reflexivity|apply not_in_b; reflexivity]).
      rewrite S', S, K, digits_hasnt by reflexivity. reflexivity.
Qed.
Lemma cols_read cs rest T : (forall c, In c cs -> In c (table_iter t)) -> forall cols,
  fields_loop (map col_field cs ++ rest) T cols = fields_loop rest T (cols ++ map read_col cs).
Proof.
  induction cs as [|c cs IH]; intros H cols; [rewrite app_nil_r; reflexivity|]. cbn [map app].
  pose proof (col_field_reads c [] (map col_field cs ++ rest) T cols (H c (or_introl eq_refl)) (or_introl eq_refl) eq_refl) as Q. rewrite app_nil_r in Q. refine (eq_trans Q _).
  rewrite IH by (intros x Hx; apply H; right; exact Hx). rewrite <- app_assoc. reflexivity.
Qed.
Lemma shard_tail_key : hasnt ($"key ") (shard_tail t) = true.
Proof.
  unfold shard_tail. destruct (t_shard t) as [sk|] eqn:E; [|reflexivity]. destruct (pt_keys _ Ht sk E) as [N W].
  assert (G : good (hasnt ($"key "))) by (apply hasnt_good; reflexivity).
  replace ($" ) PARTITION BY HASH(" ++ z_to_str (sk_shards sk) ++ $") KEY(" ++ list_to_string (sk_keys sk) true)
    with ($" ) PARTITION BY HASH" ++ "("%char :: z_to_str (sk_shards sk) ++ ")"%char :: $" KEY" ++ "("%char :: [] ++ list_to_string (sk_keys sk) true ++ []) by (rewrite app_nil_r, <- ?app_assoc; reflexivity).
  rewrite (gd_open _ G), (gd_close _ G), (gd_open _ G), z_hasnt by reflexivity.
  rewrite (sep_list _ (gd_quote _ G)); try reflexivity. intros w Hw. apply plain_hasnt; [apply W, Hw|reflexivity].
Qed.
Lemma pk_read T cols tail : t_pk t <> [] -> fields_loop [pk_field (t_pk t) ++ tail] T cols = Ok (with_pk T (t_pk t), cols).
Proof.
  intros N. cbn [fields_loop]. unfold pk_field.
  assert (L : lower (($"CONSTRAINT PRIMARY KEY (" ++ list_to_string (t_pk t) true ++ $")") ++ tail) = $"constraint primary key (" ++ lower ((list_to_string (t_pk t) true ++ $")") ++ tail)).
  { rewrite <- app_assoc, lower_app. reflexivity. }
  rewrite L. replace (contains ($"key ") _) with true by (symmetry; apply contains_true; exists ($"constraint primary "), ($"(" ++ lower ((list_to_string (t_pk t) true ++ $")") ++ tail)); reflexivity).
  replace (contains ($"primary") _) with true by (symmetry; apply contains_true; exists ($"constraint "), ($" key (" ++ lower ((list_to_string (t_pk t) true ++ $")") ++ tail)); reflexivity).
  cbn [set_primary_key keys_list bind]. f_equal. f_equal. f_equal. unfold field_pk.
  replace (($"CONSTRAINT PRIMARY KEY (" ++ list_to_string (t_pk t) true ++ $")") ++ tail) with ($"CONSTRAINT PRIMARY KEY " ++ "("%char :: list_to_string (t_pk t) true ++ ")"%char :: tail) by (rewrite <- !app_assoc; reflexivity).
  assert (A : forall c a b, ~ In c a -> before [c] (a ++ c :: b) = a /\ after [c] (a ++ c :: b) = b).
  { intros c a b Na. assert (O : occurs [c] (a ++ c :: b)) by (exists a, b; reflexivity). pose proof (cut_some _ _ O) as C1. pose proof (cut_char c (a ++ c :: b) a b eq_refl Na) as C2.
    destruct (first_cut_fun _ _ _ _ _ _ C2 C1) as [E1 E2]. split; congruence. }
  change ($"(") with ["("%char]. change ($")") with [")"%char]. rewrite (proj2 (A "("%char _ _ (not_in_b "("%char ($"CONSTRAINT PRIMARY KEY ") eq_refl))).
  rewrite (proj1 (A ")"%char (list_to_string (t_pk t) true) tail ltac:(apply list_chars; [exact pk_plain|reflexivity|discriminate..]))).
  pose proof pk_plain as P. revert N P. generalize (t_pk t). clear. intros l N P. unfold list_to_string.
  induction l as [|x l IH]; [contradiction|]. assert (Px : plain x) by (apply P; left; reflexivity). destruct l as [|y l].
  - cbn [map join]. rewrite (replace_absent " ") by (apply quoted_noch; [exact Px|reflexivity|discriminate]). rewrite replace_quoted by exact Px.
    apply split_char_none, plain_char; [exact Px|reflexivity].
  - cbn [map]. rewrite join_cons by discriminate. rewrite !replace_app. rewrite (replace_absent " " [] (quoted x)) by (apply quoted_noch; [exact Px|reflexivity|discriminate]). rewrite replace_quoted by exact Px.
    change (replace_char dquote [] (replace_char " " [] ($", "))) with [","%char]. cbn [app]. rewrite split_char_app by (apply plain_char; [exact Px|reflexivity]). f_equal.
    apply IH; [discriminate|]. intros w Hw. apply P. right. exact Hw.
Qed.
Lemma create_fields T : fields_loop (raw_fields (column_text (create_text t))) T [] = Ok (match t_pk t with [] => T | pk => with_pk T pk end, map read_col (table_iter t)).
Proof.
  destruct (t_pk t) as [|k pk] eqn:Ep.
  - destruct (table_iter t) as [|c0 cs0] eqn:Ec.
    + replace (raw_fields (column_text (create_text t))) with ([] : list str); [reflexivity|]. rewrite create_columns_text. unfold table_fields. rewrite Ec, Ep. reflexivity.
    + destruct (exists_last (l := c0 :: cs0)) as [cs [c Hl]]; [discriminate|]. assert (I : forall x, In x (cs ++ [c]) -> In x (table_iter t)) by (intros x Hx; rewrite Ec, Hl; exact Hx).
      rewrite Hl. rewrite (create_raw_fields (map col_field cs) (col_field c)).
      * rewrite cols_read by (intros x Hx; apply I, in_or_app; left; exact Hx).
        rewrite col_field_reads; [|apply I, in_or_app; right; left; reflexivity|exact shard_tail_ok|exact shard_tail_key]. cbn [fields_loop app]. rewrite map_app. reflexivity.
      * unfold table_fields. rewrite Ec, Ep, Hl, map_app. cbn [map length Nat.eqb negb]. apply app_nil_r.
  - rewrite (create_raw_fields (map col_field (table_iter t)) (pk_field (t_pk t))).
    + rewrite cols_read by (intros x Hx; exact Hx). rewrite pk_read by (rewrite Ep; discriminate). rewrite Ep. reflexivity.
    + unfold table_fields. rewrite Ep. reflexivity.
Qed.
End Parse.
