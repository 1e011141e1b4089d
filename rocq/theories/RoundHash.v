(** * Lemmas: the shard key of a CREATE TABLE statement, and the whole statement (for C45) *)
From Verif Require Export RoundParse.
From Verif Require Import Messages.

Lemma close_key_end a : ~ In ")"%char a -> contains ($") key") (a ++ $")") = false.
Proof.
  intros H. apply contains_false. intros [x [y E]]. assert (L : nth_error (a ++ $")") (length x) = Some ")"%char) by (rewrite E; rewrite nth_error_app2, Nat.sub_diag by lia; reflexivity).
  destruct (le_lt_dec (length a) (length x)) as [G|G].
  - apply (f_equal (@length _)) in E. rewrite !app_length in E. cbn [length list_ascii_of_string] in E. lia.
  - rewrite nth_error_app1 in L by exact G. apply nth_error_In in L. contradiction.
Qed.
Lemma suffix_after (c : ascii) (A B w x : str) : ~ In c A -> A ++ c :: B = w ++ c :: x -> exists v, B = v ++ x.
Proof.
  revert w. induction A as [|y A IH]; intros [|z w] N E; cbn [app] in E.
  - injection E as ->. exists []. reflexivity.
  - injection E as _ ->. exists (w ++ [c]). rewrite <- app_assoc. reflexivity.
  - injection E as -> _. exfalso. apply N. left. reflexivity.
  - injection E as _ E. apply (IH w); [intros X; apply N; right; exact X|exact E].
Qed.
Lemma hash_parts z L : ~ In "("%char z -> ~ In ")"%char z -> ~ In "("%char L -> ~ In ")"%char L -> noch newline z = true -> noch newline L = true ->
  rmatch [RAny; RLit ($"("); RGroup; RLit ($") key"); RAny; RLit ($"("); RGroup; RLit ($")")] ($"(" ++ z ++ $") KEY(" ++ L ++ $")") = Some [z; L].
Proof.
  intros Z1 Z2 L1 L2 Nz NL.
  assert (M4 : rmatch [RGroup; RLit ($")")] (L ++ $")") = Some [L]) by exact (proj1 (group_lit ($")") ($")") [] L [] [] NL eq_refl eq_refl ltac:(discriminate) eq_refl)).
  assert (M3 : rmatch [RAny; RLit ($"("); RGroup; RLit ($")")] ($"(" ++ L ++ $")") = Some [L]).
  { refine (proj2 (group_lit ($"(") ($"(") _ [] (L ++ $")") [L] eq_refl eq_refl _ ltac:(discriminate) M4)). cbn [tl app list_ascii_of_string]. unfold lacks. apply negb_true_iff, contains_false.
    change (lower ["("%char]) with ["("%char]. rewrite occurs_char. apply not_in_lower; [reflexivity|exact (char_iff lower_char "("%char eq_refl)|].
    intros X. apply in_app_or in X. destruct X as [X|[X|[]]]; [contradiction|discriminate]. }
  assert (CL : ~ In ")"%char (lower L)) by (apply close_lower, L2).
  assert (M2 : rmatch [RGroup; RLit ($") key"); RAny; RLit ($"("); RGroup; RLit ($")")] (z ++ $") KEY" ++ $"(" ++ L ++ $")") = Some [z; L]).
  { refine (proj1 (group_lit ($") key") ($") KEY") _ z ($"(" ++ L ++ $")") [L] Nz eq_refl _ ltac:(discriminate) M3)). unfold lacks. apply negb_true_iff.
    cbn [tl app list_ascii_of_string]. replace (lower (" "%char :: "K"%char :: "E"%char :: "Y"%char :: "("%char :: L ++ [")"%char])) with (($" key(" ++ lower L) ++ $")") by (unfold lower; cbn [map]; rewrite map_app, <- app_assoc; reflexivity).
    apply close_key_end. intros X. apply in_app_or in X. destruct X as [X|X]; [exact (not_in_b ")"%char ($" key(") eq_refl X)|contradiction]. }
  assert (E : $"(" ++ z ++ $") KEY(" ++ L ++ $")" = [] ++ "("%char :: (z ++ $") KEY") ++ "("%char :: L ++ $")") by (cbn [app list_ascii_of_string]; rewrite <- app_assoc; reflexivity).
  rewrite E. set (r := "("%char :: (z ++ $") KEY") ++ "("%char :: L ++ $")").
  assert (S : star dot (rmatch [RLit ($"("); RGroup; RLit ($") key"); RAny; RLit ($"("); RGroup; RLit ($")")]) ([] ++ r) = Some ([], [z; L])).
  { apply star_last; [reflexivity| |].
    - unfold r. change ("("%char :: (z ++ $") KEY") ++ "("%char :: L ++ $")") with ($"(" ++ ((z ++ $") KEY") ++ "("%char :: L ++ $")")). rewrite rmatch_lit by reflexivity.
      rewrite <- app_assoc. exact M2.
    - intros w' r' Er N. change (rmatch [RLit ($"("); RGroup; RLit ($") key"); RAny; RLit ($"("); RGroup; RLit ($")")] r')
        with (match lit_prefix ($"(") r' with Some s' => rmatch [RGroup; RLit ($") key"); RAny; RLit ($"("); RGroup; RLit ($")")] s' | None => None end).
      destruct (lit_prefix ($"(") r') as [x|] eqn:Lp; [|reflexivity].
      assert (Ex : r' = "("%char :: x).
      { destruct (lit_prefix_some _ _ _ Lp) as [p0 [-> Lo]]. destruct p0 as [|p [|q p0]]; try discriminate Lo. cbn [app]. f_equal.
        change (lower [p]) with [lower_char p] in Lo. change (lower ($"(")) with ["("%char] in Lo. injection Lo as Lo. apply (char_iff lower_char "("%char eq_refl), Lo. }
      subst r'. destruct w' as [|y w']; [contradiction|]. unfold r in Er. cbn [app] in Er. injection Er as _ Er.
      destruct (suffix_after "("%char (z ++ $") KEY") (L ++ $")") w' x) as [v Ev].
      + intros X. apply in_app_or in X. destruct X as [X|X]; [contradiction|]. exact (not_in_b "("%char ($") KEY") eq_refl X).
      + exact Er.
      + apply group_none. apply (nocc_within _ (lower v) _ []). rewrite app_nil_r, <- lower_app. change (lower ($") key")) with ($") key"). pose proof (f_equal lower Ev) as Ev'. rewrite <- Ev', lower_app.
        apply close_key_end, CL. }
  change (match star dot (rmatch [RLit ($"("); RGroup; RLit ($") key"); RAny; RLit ($"("); RGroup; RLit ($")")]) ([] ++ r) with Some (_, g) => Some g | None => None end = Some [z; L]).
  rewrite S. reflexivity.
Qed.

Section Hash.
Variable t : table.
Hypothesis Ht : plain_table t.
Hypothesis Hwf : well_formed_table t.
Definition read_shard (id : nat) : option shard_key :=
  match t_shard t with Some sk => Some {| sk_id := id; sk_keys := sk_keys sk; sk_shards := sk_shards sk |} | None => None end.

Lemma create_hash sk : t_shard t = Some sk -> rsearch hash_pattern (create_text t) = Some [z_to_str (sk_shards sk); list_to_string (sk_keys sk) true].
Proof.
  intros E. destruct (pt_keys _ Ht sk E) as [N W]. set (z := z_to_str (sk_shards sk)). set (L := list_to_string (sk_keys sk) true).
  assert (Zc : forall c, is_digit c = false -> c <> "-"%char -> ~ In c z) by (intros c A B; apply noch_ok, z_noch; assumption).
  assert (Lc : forall c, word_char c = false -> c <> dquote -> c <> ","%char -> c <> " "%char -> ~ In c L) by (intros c; apply list_chars, W).
  set (R := match table_fields t with [] => [] | fs => $" " ++ join ($" ,") fs end).
  set (m := $" " ++ quoted (t_schema t) ++ $"." ++ quoted (t_name t) ++ $" (" ++ R ++ $" ) ").
  assert (Ec : create_text t = $"CREATE TABLE" ++ m ++ $"PARTITION BY HASH" ++ $"(" ++ z ++ $") KEY(" ++ L ++ $")").
  { unfold create_text, create_head, create_end, shard_tail, m. rewrite E. fold R z L. do 4 (rewrite <- ?app_assoc; cbn [app list_ascii_of_string]). reflexivity. }
  assert (M : rmatch hash_pattern (create_text t) = Some [z; L]).
  { rewrite Ec. unfold hash_pattern. rewrite rmatch_lit by reflexivity.
    refine (proj2 (group_lit ($"partition by hash") ($"PARTITION BY HASH") _ m ($"(" ++ z ++ $") KEY(" ++ L ++ $")") [z; L] _ eq_refl _ ltac:(discriminate) _)).
    - apply noch_ok. intros X. pose proof (ok_parts _ (create_ok_text t Ht Hwf)) as O.
      assert (In newline (create_text t)) by (rewrite Ec; apply in_or_app; right; apply in_or_app; left; exact X). tauto.
    - assert (G : good (hasnt ($"partition by hash"))) by (apply hasnt_good; reflexivity).
      change (hasnt ($"partition by hash") ($"ARTITION BY HASH" ++ "("%char :: z ++ ")"%char :: $" KEY" ++ "("%char :: [] ++ L ++ $")") = true).
      rewrite (gd_open _ G), (gd_close _ G), (gd_open _ G). unfold z, L. rewrite z_hasnt by reflexivity.
      rewrite (sep_list _ (gd_quote _ G)); try reflexivity. intros w Hw. apply plain_hasnt; [apply W, Hw|reflexivity].
    - apply hash_parts; [apply Zc; [reflexivity|discriminate]|apply Zc; [reflexivity|discriminate]|apply Lc; [reflexivity|discriminate..]|apply Lc; [reflexivity|discriminate..]| |];
        apply noch_ok; [apply Zc; [reflexivity|discriminate]|apply Lc; [reflexivity|discriminate..]]. }
  destruct (create_text t) as [|c s]; [discriminate M|]. cbn [rsearch]. rewrite M. reflexivity.
Qed.

Definition created (schema : str) (id : nat) : table :=
  {| t_name := t_name t; t_schema := schema; t_pk := t_pk t; t_shard := read_shard id;
     t_cols := named_cols (map read_col (table_iter t)); t_fks := []; t_rels := [] |}.

Lemma parse_create_text schema id d : heard_statement schema id d (create_text t) = (Ok (add_table d (created schema id)), []).
Proof.
  unfold heard_statement. cbn zeta. assert (C1 : contains ($"create database") (lower (create_text t)) = false) by (apply (create_hasnt t Ht Hwf); reflexivity).
  assert (C2 : contains ($"create table") (lower (create_text t)) = true).
  { apply contains_true. eexists [], _. unfold create_text, create_head. rewrite <- app_assoc, lower_app. change (lower ($"CREATE TABLE ")) with ($"create table" ++ $" "). rewrite <- app_assoc. reflexivity. }
  rewrite C1, C2. cbn [orb]. unfold heard_create_table. rewrite (create_unbracket t Ht Hwf). unfold parse_columns. rewrite (create_fields t Ht Hwf), (create_name t Ht). cbn [bind].
  rewrite add_columns_new.
  - assert (Q : contains ($"partition by hash") (lower (create_text t)) = match t_shard t with Some _ => true | None => false end).
    { destruct (t_shard t) as [sk|] eqn:E.
      - apply contains_true. unfold create_text, create_end, shard_tail. rewrite E. rewrite !lower_app.
        change (lower ($" ) PARTITION BY HASH(")) with ($" ) " ++ $"partition by hash" ++ $"("). do 3 (apply occurs_app; right). do 2 (apply occurs_app; left). apply occurs_app; right. apply occurs_app; left. exists [], []. reflexivity.
      - apply (create_hasnt t Ht Hwf); try reflexivity. intros X. contradiction. }
    cbn zeta. rewrite Q. unfold created, read_shard. destruct (t_shard t) as [sk|] eqn:E.
    + unfold add_hashkey, heard_hashkey. rewrite (create_hash sk E), py_int_z.
      destruct (pt_keys _ Ht sk E) as [N W]. change (map clean_name (split_char "," (list_to_string (sk_keys sk) true))) with (key_columns_of (list_to_string (sk_keys sk) true)).
      rewrite key_columns_list by assumption. destruct (t_pk t); reflexivity.
    + destruct (t_pk t); reflexivity.
  - replace (dkeys (t_cols (match t_pk t with [] => mk_table (t_name t) schema None None | pk => with_pk (mk_table (t_name t) schema None None) pk end))) with ([] : list str) by (destruct (t_pk t); reflexivity).
    cbn [app]. rewrite map_map. cbn [column_name read_col]. destruct (wf_cols _ Hwf) as [Nd Wc]. replace (map (fun x => column_name x) (table_iter t)) with (get_column_names t); [exact Nd|].
    unfold get_column_names, table_iter, dkeys, dvals. rewrite map_map. apply map_ext_in. intros [k c] Hk. cbn [fst snd]. symmetry. apply (Wc k c). apply dget_nodup; [exact Nd|exact Hk].
Qed.
End Hash.
