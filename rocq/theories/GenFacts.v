(** * Lemmas for C12-C17, C19-C21 *)
From Verif Require Export SpecGen ScriptFacts.

(** ** Case conversion *)
Lemma lower_char_idem c : lower_char (lower_char c) = lower_char c.
Proof.
  unfold lower_char at 2 3. destruct (Nat.leb_spec 65 (ord c)) as [H1|H1], (Nat.leb_spec (ord c) 90) as [H2|H2]; cbn [andb];
    unfold lower_char.
  - rewrite ord_chr by lia. destruct (Nat.leb_spec (ord c + 32) 90); [lia|]. rewrite andb_false_r. reflexivity.
  - destruct (Nat.leb_spec (ord c) 90); [lia|]. rewrite andb_false_r. reflexivity.
  - destruct (Nat.leb_spec 65 (ord c)); [lia|]. reflexivity.
  - destruct (Nat.leb_spec 65 (ord c)); [lia|]. reflexivity.
Qed.
Lemma lower_lower n : lower (lower n) = lower n.
Proof. unfold lower. rewrite map_map. apply map_ext. apply lower_char_idem. Qed.
Lemma upper_char_idem c : upper_char (upper_char c) = upper_char c.
Proof.
  unfold upper_char at 2 3. destruct (Nat.leb_spec 97 (ord c)) as [H1|H1], (Nat.leb_spec (ord c) 122) as [H2|H2]; cbn [andb];
    unfold upper_char.
  - rewrite ord_chr by lia. destruct (Nat.leb_spec 97 (ord c - 32)); [lia|]. reflexivity.
  - destruct (Nat.leb_spec (ord c) 122); [lia|]. rewrite andb_false_r. reflexivity.
  - destruct (Nat.leb_spec 97 (ord c)); [lia|]. reflexivity.
  - destruct (Nat.leb_spec 97 (ord c)); [lia|]. reflexivity.
Qed.
Lemma upper_upper n : upper (upper n) = upper n.
Proof. unfold upper. rewrite map_map. apply map_ext. apply upper_char_idem. Qed.

Lemma to_case_laws o n :
  to_case o ($"falcon_default_schema") = Ok ($"falcon_default_schema")
  /\ (n <> $"falcon_default_schema" ->
       (lowercase o = true -> to_case o n = Ok (lower n))
       /\ (lowercase o = false -> uppercase o = true -> to_case o n = Ok (upper n))
       /\ (lowercase o = false -> uppercase o = false -> camelcase o = true -> to_case o n = to_camel n))
  /\ (lowercase o = false -> uppercase o = false -> camelcase o = false -> to_case o n = Ok n)
  /\ (lowercase o = true \/ uppercase o = true -> forall m, to_case o n = Ok m -> length m = length n /\ to_case o m = Ok m).
Proof.
  unfold to_case. change ($"falcon_default_schema") with DEFAULT_SCHEMA. rewrite str_eqb_refl. split; [reflexivity|]. split; [|split].
  - intros Hn. apply str_eqb_neq in Hn. rewrite Hn. repeat split; intros; destruct o; simpl in *; subst; reflexivity.
  - intros H1 H2 H3. rewrite H1, H2, H3. destruct (str_eqb n DEFAULT_SCHEMA); reflexivity.
  - intros Ho m. destruct (str_eqb n DEFAULT_SCHEMA) eqn:E.
    + intros H. apply Ok_inj in H. subst m. rewrite E. auto.
    + destruct (lowercase o) eqn:El; [|destruct (uppercase o) eqn:Eu; [|destruct Ho; discriminate]]; intros H; apply Ok_inj in H; subst m.
      * unfold lower at 1. rewrite map_length, lower_lower. destruct (str_eqb (lower n) DEFAULT_SCHEMA); auto.
      * unfold upper at 1. rewrite map_length, upper_upper. destruct (str_eqb (upper n) DEFAULT_SCHEMA); auto.
Qed.

(** ** Camel case *)
Lemma lstrip_repeat c n s : lstrip_char c (repeat c n ++ s) = lstrip_char c s.
Proof. induction n; simpl; [reflexivity|]. rewrite Ascii.eqb_refl. exact IHn. Qed.
Lemma rev_repeat {A} (c : A) n : rev (repeat c n) = repeat c n.
Proof.
  induction n; simpl; [reflexivity|]. rewrite IHn. clear. induction n; simpl; [reflexivity|]. rewrite IHn. reflexivity.
Qed.
Lemma lstrip_keep c x s : x <> c -> lstrip_char c (x :: s) = x :: s.
Proof. intros H. simpl. destruct (Ascii.eqb_spec x c); [contradiction|reflexivity]. Qed.
Lemma strip_core c a b s x y s' : s = x :: s' -> x <> c -> (exists s'', s = s'' ++ [y]) -> y <> c ->
  strip_char c (repeat c a ++ s ++ repeat c b) = s.
Proof.
  intros -> Hx [s'' Hs] Hy. unfold strip_char. rewrite lstrip_repeat. cbn [app]. rewrite lstrip_keep by exact Hx.
  change (x :: s' ++ repeat c b) with ((x :: s') ++ repeat c b). rewrite rev_app_distr, rev_repeat, lstrip_repeat, Hs, rev_app_distr.
  cbn [rev app]. rewrite lstrip_keep by exact Hy. cbn [rev]. rewrite rev_involutive. reflexivity.
Qed.
Lemma strip_char_nil c s : strip_char c s = [] <-> forall x, In x s -> x = c.
Proof.
  unfold strip_char. split.
  - intros H. apply (f_equal (@rev ascii)) in H. rewrite rev_involutive in H. cbn [rev] in H.
    assert (G : forall t, lstrip_char c t = [] -> forall x, In x t -> x = c).
    { induction t as [|y t IH]; simpl; [intros _ x []|]. destruct (Ascii.eqb_spec y c) as [->|]; [|discriminate].
      intros H' x [<-|Hx]; [reflexivity | apply IH; assumption]. }
    intros x Hx. destruct (lstrip_char c s) as [|y t] eqn:E.
    + exact (G _ E x Hx).
    + assert (Hy : y = c). { apply (G _ H). apply -> in_rev. left. reflexivity. }
      exfalso. subst y. clear - E. induction s as [|z s IH]; [discriminate|]. simpl in E.
      destruct (Ascii.eqb_spec z c) as [Ez|Ez]; [apply IH, E|]. inversion E; congruence.
  - intros H. assert (lstrip_char c s = []) as ->; [|reflexivity].
    induction s as [|y s IH]; [reflexivity|]. simpl. rewrite (H y (or_introl eq_refl)), Ascii.eqb_refl. apply IH.
    intros x Hx. apply H. right. exact Hx.
Qed.
Lemma camel_loop_free w r : ~ In "_"%char w -> camel_loop (w ++ r) = w ++ camel_loop r.
Proof.
  induction w as [|c w IH]; intros H; [reflexivity|]. cbn [app camel_loop].
  destruct (Ascii.eqb_spec c "_") as [->|]; [destruct H; left; reflexivity|]. cbn [negb]. rewrite IH; [reflexivity|].
  intros Hin. apply H. right. exact Hin.
Qed.
Lemma to_camel_index v : (to_camel v = Err IndexError <-> forall c, In c v -> c = "_"%char)
  /\ (forall e, to_camel v = Err e -> e = IndexError).
Proof.
  unfold to_camel. rewrite <- strip_char_nil. destruct (strip_char "_" v); split.
  - split; reflexivity.
  - intros e H. inversion H. reflexivity.
  - split; discriminate.
  - discriminate.
Qed.
Lemma join_tail sep w ws : join sep (w :: ws) = w ++ flat_map (fun x => sep ++ x) ws.
Proof.
  revert w; induction ws as [|x ws IH]; intros w; [simpl; rewrite app_nil_r; reflexivity|].
  change (join sep (w :: x :: ws)) with (w ++ sep ++ join sep (x :: ws)). rewrite IH. cbn [flat_map]. rewrite <- app_assoc. reflexivity.
Qed.
Lemma last_of (s : str) : s <> [] -> exists s' y, s = s' ++ [y].
Proof. intros H. destruct (exists_last H) as [s' [y ->]]. eauto. Qed.
Lemma join_last sep w ws : Forall word (w :: ws) -> exists s y, join sep (w :: ws) = s ++ [y] /\ y <> "_"%char.
Proof.
  revert w; induction ws as [|x ws IH]; intros w H.
  - inversion H as [|? ? [Hn Hu] _]; subst. destruct (last_of w Hn) as [s [y ->]]. exists s, y. split; [reflexivity|].
    intros ->. apply Hu, in_app_iff. right; left; reflexivity.
  - inversion H; subst. destruct (IH x) as [s [y [E Hy]]]; [assumption|].
    exists (w ++ sep ++ s), y. change (join sep (w :: x :: ws)) with (w ++ sep ++ join sep (x :: ws)). rewrite E, <- !app_assoc. auto.
Qed.
Lemma to_camel_words w ws a b : Forall word (w :: ws) ->
  to_camel (underscores a ++ join ($"_") (w :: ws) ++ underscores b) = Ok (flat_map capitalised (w :: ws)).
Proof.
  intros H. inversion H as [|? ? [Hn Hu] Hws]; subst. destruct (join_last ($"_") w ws H) as [s [y [E Hy]]].
  destruct w as [|c w]; [contradiction|]. unfold to_camel, underscores.
  rewrite (strip_core "_" a b (join ($"_") (@cons str (c :: w) ws)) c y (w ++ flat_map (fun x => $"_" ++ x) ws)).
  - rewrite join_tail. cbn [app]. cbn [flat_map capitalised app]. do 2 f_equal.
    rewrite camel_loop_free by (intros Hin; apply Hu; right; exact Hin). f_equal.
    clear - Hws. induction Hws as [|x xs [Hn Hu] Hws IH]; [reflexivity|]. cbn [flat_map].
    destruct x as [|d x]; [contradiction|]. change ($"_" ++ d :: x) with ("_"%char :: d :: x). cbn [app camel_loop].
    change (Ascii.eqb "_" "_") with true. cbn [negb capitalised app]. f_equal.
    rewrite camel_loop_free by (intros Hin; apply Hu; right; exact Hin). rewrite IH. reflexivity.
  - rewrite join_tail. reflexivity.
  - intros ->. apply Hu. left. reflexivity.
  - exists s. exact E.
  - exact Hy.
Qed.
Lemma upper_char_underscore c : c <> "_"%char -> upper_char c <> "_"%char.
Proof.
  intros Hc. unfold upper_char. destruct (Nat.leb_spec 97 (ord c)), (Nat.leb_spec (ord c) 122); simpl; auto.
  intros H'. apply (f_equal ord) in H'. rewrite ord_chr in H' by lia. change (ord "_") with 95 in H'. lia.
Qed.
Lemma camel_no_underscore ws : Forall word ws -> ~ In "_"%char (flat_map capitalised ws).
Proof.
  intros H Hin. apply in_flat_map in Hin. destruct Hin as [w [Hw Hin]]. rewrite Forall_forall in H. destruct (H _ Hw) as [Hn Hu].
  destruct w as [|c w]; [contradiction|]. destruct Hin as [E|Hin].
  - apply (upper_char_underscore c) in E; [exact E|]. intros ->. apply Hu. left. reflexivity.
  - apply Hu. right. exact Hin.
Qed.
Lemma to_camel_again w ws : Forall word (w :: ws) ->
  to_camel (flat_map capitalised (w :: ws)) = Ok (flat_map capitalised (w :: ws)).
Proof.
  intros H. pose proof (camel_no_underscore _ H) as Hu. inversion H as [|? ? [Hn _] _]; subst.
  destruct w as [|c w]; [contradiction|].
  assert (Hne : flat_map capitalised (@cons str (c :: w) ws) <> []) by discriminate.
  set (R := flat_map capitalised (@cons str (c :: w) ws)) in *.
  assert (Hw : word R) by (split; assumption).
  pose proof (to_camel_words R [] 0 0 (Forall_cons _ Hw (Forall_nil _))) as G.
  cbn [underscores repeat join app flat_map] in G. rewrite !app_nil_r in G. rewrite G. f_equal.
  subst R. cbn [flat_map capitalised app]. rewrite upper_char_idem. reflexivity.
Qed.
Lemma c13 : forall v,
  (to_camel v = Err IndexError <-> forall c, In c v -> c = "_"%char)
  /\ (forall e, to_camel v = Err e -> e = IndexError)
  /\ (forall w ws a b, Forall word (w :: ws) -> v = underscores a ++ join ($"_") (w :: ws) ++ underscores b ->
        let r := flat_map capitalised (w :: ws) in to_camel v = Ok r /\ ~ In "_"%char r /\ to_camel r = Ok r).
Proof.
  intros v. destruct (to_camel_index v). split; [assumption|]. split; [assumption|].
  intros w ws a b H1 ->. split; [apply to_camel_words, H1|]. split; [apply camel_no_underscore, H1 | apply to_camel_again, H1].
Qed.
Lemma c14_refuted : exists v r r', to_camel v = Ok r /\ to_camel r = Ok r' /\ r' <> r.
Proof. exists ($"a__b"), ($"A_b"), ($"AB"). repeat split. discriminate. Qed.

(** ** Comma lists *)
Lemma split_free c w r : ~ In c w -> split_char c (w ++ c :: r) = w :: split_char c r.
Proof.
  induction w as [|x w IH]; intros H; cbn [app split_char].
  - rewrite Ascii.eqb_refl. reflexivity.
  - destruct (Ascii.eqb_spec x c) as [->|]; [destruct H; left; reflexivity|]. rewrite IH; [reflexivity|].
    intros Hin; apply H; right; exact Hin.
Qed.
Lemma split_one c w : ~ In c w -> split_char c w = [w].
Proof.
  induction w as [|x w IH]; intros H; [reflexivity|]. cbn [split_char].
  destruct (Ascii.eqb_spec x c) as [->|]; [destruct H; left; reflexivity|]. rewrite IH; [reflexivity|].
  intros Hin; apply H; right; exact Hin.
Qed.
Lemma split_char_nonnil c s : split_char c s <> [].
Proof. destruct s as [|x s]; simpl; [discriminate|]. destruct (Ascii.eqb x c); [discriminate|]. destruct (split_char c s); discriminate. Qed.
Lemma strip_space n : strip (" "%char :: n) = strip n.
Proof. reflexivity. Qed.
Lemma list_string_split l : l <> [] -> Forall plain_item l ->
  map strip (split_char "," (list_to_string l false)) = l.
Proof.
  intros Hl H. unfold list_to_string. destruct l as [|x l]; [contradiction|]. clear Hl. revert x H.
  induction l as [|y l IH]; intros x H; inversion H as [|? ? [H1 H2] H3]; subst.
  - cbn [join]. rewrite split_one by exact H1. cbn [map]. rewrite H2. reflexivity.
  - change (join ($", ") (x :: y :: l)) with (x ++ $", " ++ join ($", ") (y :: l)).
    change ($", " ++ join ($", ") (y :: l)) with (","%char :: " "%char :: join ($", ") (y :: l)).
    rewrite split_free by exact H1. cbn [map]. rewrite H2. f_equal. rewrite <- (IH y H3) at 2.
    cbn [split_char]. change (Ascii.eqb " " ",") with false. cbn iota.
    pose proof (split_char_nonnil "," (join ($", ") (y :: l))) as Hne.
    destruct (split_char "," (join ($", ") (y :: l))) as [|w ws]; [contradiction|]. cbn [map]. rewrite strip_space. reflexivity.
Qed.
Lemma list_string_quoted l : Forall quote_free l -> rlist (list_to_string l true) = Some (l, []).
Proof.
  intros H. rewrite <- (app_nil_r (list_to_string l true)). apply rlist_ok; [exact H | reflexivity | reflexivity].
Qed.
Lemma c15 l :
  (l <> [] -> Forall plain_item l -> map strip (split_char "," (list_to_string l false)) = l)
  /\ list_to_string l true = join ($", ") (map q l)
  /\ (Forall quote_free l -> rlist (list_to_string l true) = Some (l, [])).
Proof. split; [apply list_string_split|]. split; [reflexivity | apply list_string_quoted]. Qed.

(** ** CREATE TABLE *)
Lemma column_lines_text o cs : column_lines o true cs =
  match map (fun c => (col_cased o (column_name c), column_type c)) cs with
  | [] => []
  | _ => $"    " ++ join ($"   ,") (map column_line (map (fun c => (col_cased o (column_name c), column_type c)) cs))
  end.
Proof.
  assert (G : forall cs, column_lines o false cs
     = flat_map (fun x => $"   ," ++ x) (map column_line (map (fun c => (col_cased o (column_name c), column_type c)) cs))).
  { induction cs0 as [|c cs0 IH]; [reflexivity|]. cbn [column_lines map flat_map]. rewrite IH. unfold column_line at 2. change quoted with q.
    cbn [fst snd]. rewrite <- !app_assoc. reflexivity. }
  destruct cs as [|c cs]; [reflexivity|]. cbn [map]. rewrite join_tail. cbn [column_lines]. rewrite G.
  unfold column_line at 2. change quoted with q. cbn [fst snd]. rewrite <- !app_assoc. reflexivity.
Qed.
Lemma create_table_shape o t :
  (exists s n, to_case o (t_schema t) = Ok s /\ to_case o (t_name t) = Ok n
     /\ gen_create_table o t = Ok (create_table_text s n
          (map (fun c => (col_cased o (column_name c), column_type c)) (table_iter t)) (t_pk t) (shard_of t)))
  \/ (exists e, gen_create_table o t = Err e /\ (to_case o (t_schema t) = Err e \/ to_case o (t_name t) = Err e)).
Proof.
  unfold gen_create_table. destruct (to_case o (t_name t)) as [n|e] eqn:En; [|right; exists e; auto].
  destruct (to_case o (t_schema t)) as [s|e] eqn:Es; [|right; exists e; auto]. left. exists s, n. split; [reflexivity|]. split; [reflexivity|].
  cbn [bind]. rewrite column_lines_text. unfold create_table_text. set (L := map _ (table_iter t)).
  clearbody L. unfold shard_of.
  destruct (t_pk t) as [|p pk]; cbn [length Nat.eqb negb]; destruct (t_shard t) as [sk|]; cbn iota;
    (f_equal; unfold list_to_string; change (map quoted) with (map q); change quoted with q;
     change (nl) with newline_char; rewrite <- ?app_assoc; reflexivity).
Qed.

(** ** Clauses and targets of the script *)
Lemma script_in_create o b d s t defs pk sh :
  In (SCreateTable s t defs pk sh) (script_stmts (cased o) (col_cased o) b d) ->
  exists tb, In tb (db_iter d) /\ s = cased o (t_schema tb) /\ t = cased o (t_name tb)
    /\ defs = map (fun c => (col_cased o (column_name c), column_type c)) (table_iter tb) /\ pk = t_pk tb /\ sh = shard_of tb.
Proof.
  unfold script_stmts. intros H. repeat (apply in_app_iff in H; destruct H as [H|H]).
  - destruct b; [|destruct H]. destruct H as [H|[]]; discriminate.
  - destruct H as [H|[]]; discriminate.
  - destruct b; [|destruct H]. apply in_map_iff in H. destruct H as [x [H _]]. discriminate.
  - apply in_flat_map in H. destruct H as [tb [Hin [H|[H|[]]]]]; [discriminate|]. injection H as <- <- <- <- <-. exists tb. repeat split; auto.
  - apply in_flat_map in H. destruct H as [tb [Hin H]]. apply in_map_iff in H. destruct H as [x [H _]]. discriminate.
  - apply in_flat_map in H. destruct H as [tb [Hin H]]. apply in_map_iff in H. destruct H as [x [H _]]. discriminate.
Qed.
Lemma script_creates o b d tb : In tb (db_iter d) ->
  created (script_stmts (cased o) (col_cased o) b d) (cased o (t_schema tb)) (cased o (t_name tb))
          (map (fun c => col_cased o (column_name c)) (table_iter tb)).
Proof.
  intros H. unfold created. do 3 eexists. split.
  - unfold script_stmts. do 3 (apply in_app_iff; right). apply in_app_iff; left. apply in_flat_map. exists tb. split; [exact H|].
    right. left. reflexivity.
  - rewrite map_map. reflexivity.
Qed.
Lemma script_in_fk o b d s t n fc ts tot tc :
  In (SAddFk s t n fc ts tot tc) (script_stmts (cased o) (col_cased o) b d) ->
  exists tb fk, In tb (db_iter d) /\ In fk (foreign_keys_iter tb) /\ SAddFk s t n fc ts tot tc = fk_stmt (cased o) tb fk.
Proof.
  unfold script_stmts. intros H. repeat (apply in_app_iff in H; destruct H as [H|H]).
  - destruct b; [|destruct H]. destruct H as [H|[]]; discriminate.
  - destruct H as [H|[]]; discriminate.
  - destruct b; [|destruct H]. apply in_map_iff in H. destruct H as [x [H _]]. discriminate.
  - apply in_flat_map in H. destruct H as [tb [Hin [H|[H|[]]]]]; discriminate.
  - apply in_flat_map in H. destruct H as [tb [Hin H]]. apply in_map_iff in H. destruct H as [x [H Hx]]. eauto.
  - apply in_flat_map in H. destruct H as [tb [Hin H]]. apply in_map_iff in H. destruct H as [x [H _]]. discriminate.
Qed.
Lemma script_in_rel o b d s t n ts tot c :
  In (SAddRel s t n ts tot c) (script_stmts (cased o) (col_cased o) b d) ->
  exists tb r, In tb (db_iter d) /\ In r (relationships_iter tb) /\ SAddRel s t n ts tot c = rel_stmt (cased o) tb r.
Proof.
  unfold script_stmts. intros H. repeat (apply in_app_iff in H; destruct H as [H|H]).
  - destruct b; [|destruct H]. destruct H as [H|[]]; discriminate.
  - destruct H as [H|[]]; discriminate.
  - destruct b; [|destruct H]. apply in_map_iff in H. destruct H as [x [H _]]. discriminate.
  - apply in_flat_map in H. destruct H as [tb [Hin [H|[H|[]]]]]; discriminate.
  - apply in_flat_map in H. destruct H as [tb [Hin H]]. apply in_map_iff in H. destruct H as [x [H _]]. discriminate.
  - apply in_flat_map in H. destruct H as [tb [Hin H]]. apply in_map_iff in H. destruct H as [x [H Hx]]. eauto.
Qed.
Lemma get_table_iter d n t : well_formed d -> get_table d n = Some t -> In t (db_iter d) /\ t_name t = n.
Proof. intros W H. split; [|apply (wf_names _ W), H]. apply dvals_in. exists n. apply dget_in, H. Qed.
Lemma names_in d t : well_formed d -> In t (db_iter d) ->
  forall n, In n (get_column_names t) <-> In n (map column_name (table_iter t)).
Proof.
  intros W H n. destruct (wf_cols _ (wf_tables _ W _ H)) as [N1 N2]. unfold get_column_names, table_iter, get_column in *.
  assert (map column_name (dvals (t_cols t)) = dkeys (t_cols t)) as ->; [|reflexivity].
  unfold dvals, dkeys. rewrite map_map. apply map_ext_in. intros [k v] Hin. simpl. apply N2. apply dget_nodup; assumption.
Qed.

Lemma forall2_left {A B} (P : A -> B -> Prop) l m x : Forall2 P l m -> In x l -> exists y, In y m /\ P x y.
Proof. induction 1; intros []; subst; eauto using in_eq. destruct (IHForall2 H1) as [? []]; eauto using in_cons. Qed.

Lemma clauses_ok o b d s : well_formed d -> writable d -> consistent_db d -> own_fks d -> schema_local d ->
  (forall n, In n (key_columns d) -> col_cased o n = n) ->
  tql_script o b d = Ok s -> exists l, read_script s = Some l /\ clauses_resolve l.
Proof.
  intros W Wr C Own L Hk Hs. exists (script_stmts (cased o) (col_cased o) b d). split; [apply script_reads; assumption|].
  assert (Kin : forall tb k, In tb (db_iter d) -> In k (get_column_names tb) -> In k (key_columns d) ->
                In k (map (fun c => col_cased o (column_name c)) (table_iter tb))).
  { intros tb k Ht Hc Hkk. rewrite <- (map_map column_name (col_cased o)). apply in_map_iff. exists k.
    split; [apply Hk, Hkk | apply (names_in d tb W Ht), Hc]. }
  split.
  - intros s' t cols pk sh Hin. apply script_in_create in Hin. destruct Hin as [tb (Ht & -> & -> & -> & -> & ->)].
    rewrite map_map. simpl. split.
    + intros k Hkk. apply Kin; [exact Ht | apply (ok_pk _ _ (C _ Ht)), Hkk|].
      apply in_flat_map. exists tb. split; [exact Ht|]. apply in_app_iff; left; exact Hkk.
    + unfold shard_of. destruct (t_shard tb) as [sk|] eqn:Esk; [|exact I]. intros k Hkk.
      apply Kin; [exact Ht | apply (ok_shard _ _ (C _ Ht) _ Esk), Hkk|].
      apply in_flat_map. exists tb. split; [exact Ht|]. apply in_app_iff; right. apply in_app_iff; left. rewrite Esk. exact Hkk.
  - intros s' t n fc ts tot tc Hin. apply script_in_fk in Hin. destruct Hin as [tb [fk (Ht & Hfk & E)]].
    unfold fk_stmt in E. injection E as -> -> -> -> -> -> ->. destruct (ok_fks _ _ (C _ Ht) _ Hfk) as [tt [Htt [_ Hp]]].
    destruct (get_table_iter _ _ _ W Htt) as [Hti Htn].
    assert (Hsch : t_schema tt = t_schema tb).
    { apply (L tb tt); auto. unfold get_all_related_tables. apply in_app_iff. left. rewrite Htn. apply in_map_iff. eauto. }
    split.
    + exists (map (fun c => col_cased o (column_name c)) (table_iter tb)). split.
      * rewrite (Own _ _ Ht Hfk). apply script_creates, Ht.
      * intros k Hkk. destruct (forall2_left _ _ _ _ Hp Hkk) as [y [_ [fc [tc [Hf _]]]]].
        apply Kin; [exact Ht | apply get_column_names_in; eauto|].
        apply in_flat_map. exists tb. split; [exact Ht|]. do 2 (apply in_app_iff; right). apply in_flat_map. exists fk. split; [exact Hfk|].
        apply in_app_iff; left; exact Hkk.
    + exists (map (fun c => col_cased o (column_name c)) (table_iter tt)). split.
      * rewrite <- Htn, <- Hsch. apply script_creates, Hti.
      * intros k Hkk. destruct (forall2_in_r _ _ _ _ Hp Hkk) as [y [_ [fc [tc [_ [Hf _]]]]]].
        apply Kin; [exact Hti | apply get_column_names_in; eauto|].
        apply in_flat_map. exists tb. split; [exact Ht|]. do 2 (apply in_app_iff; right). apply in_flat_map. exists fk. split; [exact Hfk|].
        apply in_app_iff; right; exact Hkk.
Qed.
Lemma targets_ok o b d s : well_formed d -> writable d -> consistent_db d -> schema_local d ->
  tql_script o b d = Ok s -> exists l, read_script s = Some l /\ targets_created l.
Proof.
  intros W Wr C L Hs. exists (script_stmts (cased o) (col_cased o) b d). split; [apply script_reads; assumption|]. split.
  - intros s' t n fc ts tot tc Hin. apply script_in_fk in Hin. destruct Hin as [tb [fk (Ht & Hfk & E)]].
    unfold fk_stmt in E. injection E as -> -> -> -> -> -> ->. destruct (ok_fks _ _ (C _ Ht) _ Hfk) as [tt [Htt _]].
    destruct (get_table_iter _ _ _ W Htt) as [Hti Htn].
    assert (Hsch : t_schema tt = t_schema tb).
    { apply (L tb tt); auto. unfold get_all_related_tables. apply in_app_iff. left. rewrite Htn. apply in_map_iff. eauto. }
    eexists. rewrite <- Htn, <- Hsch. apply script_creates, Hti.
  - intros s' t n ts tot c Hin. apply script_in_rel in Hin. destruct Hin as [tb [r (Ht & Hr & E)]].
    unfold rel_stmt in E. injection E as -> -> -> -> -> ->. destruct (ok_rels _ _ (C _ Ht) _ Hr) as [_ Hto].
    apply dget_some_in in Hto. destruct Hto as [tt Htt]. destruct (get_table_iter _ _ _ W Htt) as [Hti Htn].
    assert (Hsch : t_schema tt = t_schema tb).
    { apply (L tb tt); auto. unfold get_all_related_tables. apply in_app_iff. right. rewrite Htn. apply in_map_iff. eauto. }
    eexists. rewrite <- Htn, <- Hsch. apply script_creates, Hti.
Qed.

(** ** Writer effects *)
Lemma write_all_ran E h texts : forall tr, exists written r,
  write_all E h texts tr = (tr ++ map (Write h) written, r) /\ ran E h tr texts written r.
Proof.
  induction texts as [|x texts IH]; intros tr; cbn [write_all].
  - exists [], (Ok tt). rewrite app_nil_r. split; [reflexivity|]. exists []. auto.
  - unfold io_bind, write_text, io_bind, throw. destruct x as [s|e].
    + unfold do_write. destruct (write_fails E tr h s) eqn:Ef.
      * exists [], (Err OSError). simpl. rewrite app_nil_r. split; [reflexivity|]. exists (Ok s :: texts). simpl. rewrite app_nil_r. auto.
      * destruct (IH (tr ++ [Write h s])) as [wr [r [H1 [rest [H2 H3]]]]]. exists (s :: wr), r. rewrite H1, <- app_assoc.
        split; [reflexivity|]. exists rest. split; [simpl; congruence|]. destruct rest as [|[s'|e] rest]; auto.
        rewrite <- app_assoc in H3. exact H3.
    + exists [], (Err e). simpl. rewrite app_nil_r. split; [reflexivity|]. exists (Err e :: texts). auto.
Qed.
Lemma smart_open_writes E filename texts :
  writes_texts E filename texts (smart_open E filename (fun h => write_all E h texts)).
Proof.
  intros tr0. split.
  - intros Hstd. assert (Hch : smart_open E filename (fun h => write_all E h texts) tr0 = write_all E Stdout texts tr0).
    { unfold smart_open, io_bind. destruct Hstd as [->|[->| ->]]; simpl; destruct (write_all E Stdout texts tr0); reflexivity. }
    rewrite Hch. apply write_all_ran.
  - intros f -> Hns. unfold smart_open, io_bind.
    destruct (str_eqb_spec f []) as [->|H1]; [destruct Hns; right; left; reflexivity|].
    destruct (str_eqb_spec f ($"-")) as [->|H2]; [destruct Hns; right; right; reflexivity|]. cbn [negb andb].
    unfold do_open. split; intros Hf; rewrite Hf; [reflexivity|].
    destruct (write_all_ran E (File f) texts (tr0 ++ [Open f])) as [wr [r [-> Hr]]]. exists wr, r. unfold do_close.
    split; [rewrite <- !app_assoc; reflexivity | exact Hr].
Qed.
Lemma c21 E filename :
  (forall o b d, writes_texts E filename (tql_texts o b d) (write_tql E o b d filename))
  /\ (forall ds, writes_texts E filename (map get_alter ds) (write_alters E ds filename)).
Proof. split; intros; apply smart_open_writes. Qed.
