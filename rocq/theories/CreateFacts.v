(** * Lemmas about CREATE TABLE and CREATE OR REPLACE TABLE (C73, C74) *)
From Verif Require Export RoundFields ParsedFacts.

(** ** Brackets *)
Definition ub (c : ascii) : ascii := if Ascii.eqb c "[" then dquote else if Ascii.eqb c "]" then dquote else c.
Lemma unbracket_map s : replace_char "]" [dquote] (replace_char "[" [dquote] s) = map ub s.
Proof.
  induction s as [|c s IH]; [reflexivity|]. unfold replace_char in *. cbn [flat_map map]. unfold ub at 1. destruct (Ascii.eqb_spec c "[") as [->|N].
  - cbn [app flat_map]. rewrite IH. reflexivity.
  - cbn [app flat_map]. destruct (Ascii.eqb c "]"); cbn [app]; rewrite IH; reflexivity.
Qed.
Lemma map_occurs (f g : ascii -> ascii) w s : (forall c, In (f c) w -> g c = f c) -> occurs w (map f s) -> occurs w (map g s).
Proof.
  intros H [a [b E]]. apply map_eq_app in E. destruct E as [sa [sr [-> [Ea E]]]]. apply map_eq_app in E. destruct E as [sw [sb [-> [Ew Eb]]]].
  exists (map g sa), (map g sb). rewrite !map_app. f_equal. f_equal. rewrite <- Ew. apply map_ext_in. intros c I. apply H. rewrite <- Ew. apply in_map, I.
Qed.
Lemma lower_unbracket w s : ~ In dquote w -> ~ In "["%char w -> ~ In "]"%char w -> contains w (lower (map ub s)) = contains w (lower s).
Proof.
  intros N1 N2 N3. unfold lower. rewrite map_map. apply eq_true_iff_eq. rewrite !contains_true. split; apply map_occurs; intros c I.
  - unfold ub in *. destruct (Ascii.eqb_spec c "["); [contradiction|]. destruct (Ascii.eqb_spec c "]"); [contradiction|]. reflexivity.
  - unfold ub. destruct (Ascii.eqb_spec c "[") as [E|_]; [exfalso; apply N2; rewrite E in I; exact I|]. destruct (Ascii.eqb_spec c "]") as [E|_]; [exfalso; apply N3; rewrite E in I; exact I|]. reflexivity.
Qed.
Lemma map_ub_plain s : ~ In "["%char s -> ~ In "]"%char s -> map ub s = s.
Proof.
  intros N1 N2. rewrite <- (map_id s) at 2. apply map_ext_in. intros c I. unfold ub. destruct (Ascii.eqb_spec c "[") as [E|_]; [exfalso; apply N1; rewrite <- E; exact I|]. destruct (Ascii.eqb_spec c "]") as [E|_]; [exfalso; apply N2; rewrite <- E; exact I|]. reflexivity.
Qed.
Lemma ub_in c s : c <> dquote -> In c (map ub s) -> In c s.
Proof. intros N I. apply in_map_iff in I. destruct I as [x [E I]]. unfold ub in E. destruct (Ascii.eqb x "["); [congruence|]. destruct (Ascii.eqb x "]"); congruence. Qed.

(** ** A pattern that cannot begin in the prefix *)
Fixpoint suffixes (s : str) : list str := match s with [] => [] | _ :: s' => s :: suffixes s' end.
Definition clash (w t : str) : bool := starts_with t w || starts_with w t.
Lemma starts_split w : forall t x y, t ++ x = w ++ y -> clash w t = true.
Proof.
  induction w as [|a w IH]; intros t x y E; [unfold clash; destruct t; reflexivity|]. destruct t as [|b t]; [reflexivity|]. cbn [app] in E. pose proof (f_equal (hd "0"%char) E) as Q. cbn [hd] in Q. subst b.
  apply (f_equal (@tl _)) in E. cbn [tl] in E. specialize (IH t x y E). unfold clash in *. cbn [starts_with]. rewrite Ascii.eqb_refl. exact IH.
Qed.
Lemma occurs_prefix w p x : w <> [] -> forallb (fun t => negb (clash w t)) (suffixes p) = true -> occurs w (p ++ x) -> occurs w x.
Proof.
  intros Nw. induction p as [|c p IH]; intros F O; [exact O|]. cbn [suffixes forallb] in F. apply andb_true_iff in F. destruct F as [F1 F2]. apply IH; [exact F2|].
  destruct O as [a [b E]]. destruct a as [|c' a].
  - exfalso. apply negb_true_iff in F1. rewrite (starts_split w (c :: p) x b) in F1; [discriminate|exact E].
  - exists a, b. exact (f_equal (@tl _) E).
Qed.
Lemma contains_prefix w p x : w <> [] -> forallb (fun t => negb (clash w t)) (suffixes p) = true -> contains w (p ++ x) = contains w x.
Proof.
  intros Nw F. apply eq_true_iff_eq. rewrite !contains_true. split; [apply occurs_prefix; assumption|]. intros O. apply occurs_app. right. exact O.
Qed.

(** ** The name *)
Lemma lstrip_app a b : lstrip (a ++ b) = match lstrip a with [] => lstrip b | _ => lstrip a ++ b end.
Proof. induction a as [|c a IH]; [reflexivity|]. cbn [app lstrip]. destruct (is_space c); [exact IH|reflexivity]. Qed.
Lemma lstrip_length a : length (lstrip a) <= length a.
Proof. induction a as [|c a IH]; [apply le_n|]. cbn [lstrip length]. destruct (is_space c); cbn [length]; lia. Qed.
Lemma rstrip_skip p s : skipn (length p) (rstrip (p ++ s)) = rstrip s.
Proof.
  unfold rstrip. rewrite rev_app_distr, lstrip_app. destruct (lstrip (rev s)) as [|c l].
  - apply skipn_all2. rewrite rev_length. pose proof (lstrip_length (rev p)) as L. rewrite rev_length in L. exact L.
  - rewrite rev_app_distr, rev_involutive. rewrite skipn_app, skipn_all, Nat.sub_diag. reflexivity.
Qed.
Lemma rstrip_pre p s : exists b, p ++ s = rstrip (p ++ s) ++ b.
Proof. unfold rstrip. destruct (lstrip_suffix (rev (p ++ s))) as [w [E _]]. exists (rev w). rewrite <- rev_app_distr, <- E, rev_involutive. reflexivity. Qed.
Lemma rstrip_keeps p s : rstrip p = p -> exists b, rstrip (p ++ s) = p ++ b.
Proof.
  intros E. unfold rstrip in *. rewrite rev_app_distr, lstrip_app. destruct (lstrip (rev s)) as [|c l]; [exists []; rewrite app_nil_r; exact E|].
  rewrite rev_app_distr, rev_involutive. eexists. reflexivity.
Qed.
Lemma find_paren A B : ~ In "("%char A -> find ($"(") (A ++ "("%char :: B) = Z.of_nat (length A).
Proof. intros N. exact (find_char "(" A B N). Qed.
Definition skip_of (tn : str) : nat := if contains ($"or replace") (lower tn) then length ($"create or replace table ") else length ($"create table ").
Lemma table_name_cut A B : ~ In "("%char A -> get_table_name (A ++ "("%char :: B) = strip_quotes (last_of (split_char "." (skipn (skip_of (rstrip A)) (rstrip A)))).
Proof. intros N. unfold get_table_name, skip_of. rewrite find_paren by exact N. rewrite (slice_prefix A ("("%char :: B)) by reflexivity. reflexivity. Qed.
Definition p1 : str := $"create table ".
Definition p2 : str := $"create or replace table ".
Lemma name_p1 N : ~ occurs ($"or replace") (lower N) -> skip_of (rstrip (p1 ++ N)) = length p1.
Proof.
  intros H. unfold skip_of. replace (contains ($"or replace") (lower (rstrip (p1 ++ N)))) with false; [reflexivity|]. symmetry. apply contains_false. intros O. apply H.
  destruct (rstrip_pre p1 N) as [b E]. assert (O' : occurs ($"or replace") (lower (p1 ++ N))) by (rewrite E, lower_app; apply occurs_app; left; exact O).
  rewrite lower_app in O'. refine (occurs_prefix _ (lower p1) _ _ _ O'); [discriminate|vm_compute; reflexivity].
Qed.
Lemma name_p2 N : skip_of (rstrip (p2 ++ N)) = length p2.
Proof.
  unfold skip_of. replace (contains ($"or replace") (lower (rstrip (p2 ++ N)))) with true; [reflexivity|]. symmetry. apply contains_true.
  change p2 with ($"create or replace table" ++ $" "). rewrite <- app_assoc. destruct (rstrip_keeps ($"create or replace table") ($" " ++ N) eq_refl) as [b ->]. rewrite lower_app. apply occurs_app. left. exists ($"create "), ($" table"). reflexivity.
Qed.
Lemma same_name N B : ~ In "("%char N -> ~ occurs ($"or replace") (lower N) -> get_table_name (p1 ++ N ++ "("%char :: B) = get_table_name (p2 ++ N ++ "("%char :: B).
Proof.
  intros H O. rewrite !app_assoc. rewrite !table_name_cut by (intros I; apply in_app_or in I; destruct I as [I|I]; [revert I; apply not_in_b; reflexivity|contradiction]).
  rewrite name_p1 by exact O. rewrite name_p2, !rstrip_skip. reflexivity.
Qed.

(** ** The columns *)
Lemma find_opt_app c a b : find_opt [c] (a ++ b) = match find_opt [c] a with Some n => Some n | None => match find_opt [c] b with Some n => Some (length a + n) | None => None end end.
Proof.
  induction a as [|x a IH]; [cbn [app]; destruct (find_opt [c] b); reflexivity|]. cbn [app find_opt starts_with]. destruct (Ascii.eqb c x); [reflexivity|]. cbn [andb]. rewrite IH. destruct (find_opt [c] a); [reflexivity|]. destruct (find_opt [c] b); reflexivity.
Qed.
Lemma find_opt_bound c s n : find_opt [c] s = Some n -> n < length s.
Proof. revert n. induction s as [|x s IH]; intros n E; [discriminate|]. cbn [find_opt starts_with] in E. destruct (Ascii.eqb c x); [injection E as <-; cbn [length]; lia|]. cbn [andb] in E. destruct (find_opt [c] s) as [m|]; [|discriminate]. injection E as <-. specialize (IH m eq_refl). cbn [length]. lia. Qed.
Lemma column_text_cut A B : ~ In "("%char A -> ~ In ")"%char A ->
  column_text (A ++ "("%char :: B) = strip (firstn (length B - 1 - match find_opt [")"%char] (rev B) with Some n => n | None => 0 end) B).
Proof.
  intros N1 N2. unfold column_text. f_equal. rewrite find_paren by exact N1. unfold slice. set (s := A ++ "("%char :: B).
  assert (Ls : length s = S (length A + length B)) by (unfold s; rewrite app_length; cbn [length]; lia).
  assert (Sk : skipn (S (length A)) s = B) by (unfold s; change ("("%char :: B) with ($"(" ++ B); rewrite app_assoc; rewrite skipn_app; replace (S (length A)) with (length (A ++ $"(")) by (rewrite app_length; cbn [length list_ascii_of_string]; lia); rewrite skipn_all, Nat.sub_diag; reflexivity).
  assert (B1 : slice_bound (length s) (Z.of_nat (length A) + 1) = S (length A)) by (unfold slice_bound; destruct (Z.ltb_spec (Z.of_nat (length A) + 1) 0); [lia|]; rewrite Ls; lia).
  rewrite B1, Sk. unfold rfind_char. unfold s at 2. rewrite rev_app_distr. cbn [rev]. rewrite <- app_assoc, find_opt_app.
  destruct (find_opt [")"%char] (rev B)) as [n|] eqn:E.
  - pose proof (find_opt_bound _ _ _ E) as L. rewrite rev_length in L. unfold slice_bound. destruct (Z.ltb_spec (Z.of_nat (length s) - 1 - Z.of_nat n) 0); [lia|]. f_equal. lia.
  - rewrite find_opt_nochar; [|cbn [app]; intros [I|I]; [discriminate|apply in_rev in I; contradiction]]. cbv iota. unfold slice_bound. cbn [Z.ltb Z.compare]. f_equal. lia.
Qed.

(** ** The statement *)
Lemma parse_create_cut schema id d A B : parse_create_table schema id d (A ++ "("%char :: B) =
  (let s := map ub A ++ "("%char :: map ub B in
   t <- parse_columns (mk_table (get_table_name s) schema None None) s ;;
   Ok (add_table d (if contains ($"partition by hash") (lower s) then add_hashkey id t s else t))).
Proof. unfold parse_create_table. rewrite unbracket_map, map_app. reflexivity. Qed.
Lemma create_or_replace schema id d N B : ~ In "("%char N -> ~ In ")"%char N -> ~ occurs ($"or replace") (lower N) -> ~ occurs ($"partition by hash") (lower (N ++ $"(" ++ B)) ->
  parse_create_table schema id d (p1 ++ N ++ $"(" ++ B) = parse_create_table schema id d (p2 ++ N ++ $"(" ++ B).
Proof.
  intros N1 N2 O H. change ($"(" ++ B) with ("("%char :: B) in *. rewrite !app_assoc. rewrite !parse_create_cut. cbv zeta.
  assert (Q : forall p, (p = p1 \/ p = p2) -> map ub (p ++ N) ++ "("%char :: map ub B = p ++ map ub N ++ "("%char :: map ub B).
  { intros p Hp. rewrite map_app, <- app_assoc. f_equal. destruct Hp as [ -> | -> ]; reflexivity. }
  rewrite !Q by (first [left; reflexivity|right; reflexivity]).
  assert (U : ~ In "("%char (map ub N) /\ ~ In ")"%char (map ub N)) by (split; intros I; apply ub_in in I; try contradiction; discriminate). destruct U as [U1 U2].
  assert (Hash : forall p, (p = p1 \/ p = p2) -> contains ($"partition by hash") (lower (p ++ map ub N ++ "("%char :: map ub B)) = false).
  { intros p Hp. rewrite lower_app, contains_prefix; [|discriminate|destruct Hp as [ -> | -> ]; vm_compute; reflexivity].
    change ("("%char :: map ub B) with (map ub ("("%char :: B)). rewrite <- map_app, lower_unbracket by (apply not_in_b; reflexivity). apply contains_false, H. }
  rewrite !Hash by (first [left; reflexivity|right; reflexivity]).
  assert (O' : ~ occurs ($"or replace") (lower (map ub N))) by (apply contains_false; rewrite lower_unbracket by (apply not_in_b; reflexivity); apply contains_false, O).
  rewrite (same_name _ _ U1 O'). unfold parse_columns.
  assert (C : column_text (p1 ++ map ub N ++ "("%char :: map ub B) = column_text (p2 ++ map ub N ++ "("%char :: map ub B)).
  { rewrite !app_assoc. rewrite !column_text_cut; [reflexivity| | | |]; intros I; apply in_app_or in I; (destruct I as [I|I]; [revert I; apply not_in_b; reflexivity|contradiction]). }
  rewrite C. reflexivity.
Qed.
Lemma replace_statement schema id d N B : ~ In "("%char N -> ~ In ")"%char N -> ~ occurs ($"or replace") (lower N) ->
  ~ occurs ($"partition by hash") (lower (N ++ $"(" ++ B)) -> ~ occurs ($"create database") (lower (N ++ $"(" ++ B)) ->
  parse_statement schema id d (p1 ++ N ++ $"(" ++ B) = parse_statement schema id d (p2 ++ N ++ $"(" ++ B).
Proof.
  intros N1 N2 O H D. unfold parse_statement. rewrite !lower_app.
  rewrite <- !lower_app. rewrite !(lower_app _ (N ++ $"(" ++ B)). rewrite !(contains_prefix ($"create database")) by (discriminate || (vm_compute; reflexivity)).
  rewrite (proj2 (contains_false _ _) D).
  replace (contains ($"create table") (lower p1 ++ lower (N ++ $"(" ++ B))) with true by (symmetry; apply contains_true; exists [], ($" " ++ lower (N ++ $"(" ++ B)); reflexivity).
  replace (contains ($"create or replace table") (lower p2 ++ lower (N ++ $"(" ++ B))) with true by (symmetry; apply contains_true; exists [], ($" " ++ lower (N ++ $"(" ++ B)); reflexivity).
  rewrite orb_true_r. cbn [orb]. apply create_or_replace; assumption.
Qed.

(** ** Shard keys *)
Lemma lit_prefix_lower p : forall s r, lit_prefix p s = Some r -> exists b, lower s = lower p ++ b.
Proof.
  induction p as [|x p IH]; intros s r E; [exists (lower s); reflexivity|]. destruct s as [|y s]; [discriminate|]. cbn [lit_prefix] in E. unfold ci_eqb in E. destruct (Ascii.eqb_spec (lower_char x) (lower_char y)) as [Q|]; [|discriminate].
  destruct (IH _ _ E) as [b Eb]. exists b. unfold lower in *. cbn [map app]. rewrite Q, Eb. reflexivity.
Qed.
Lemma no_hash s : ~ occurs ($"create table") (lower s) -> rsearch hash_pattern s = None.
Proof.
  induction s as [|c s IH]; intros O.
  - reflexivity.
  - cbn [rsearch]. replace (rmatch hash_pattern (c :: s)) with (@None (list str)); [apply IH; intros O'; apply O; change (lower (c :: s)) with ([lower_char c] ++ lower s); apply occurs_app; right; exact O'|].
    unfold hash_pattern. cbn [rmatch]. destruct (lit_prefix ($"create table") (c :: s)) as [r|] eqn:E; [|reflexivity]. exfalso. apply O. destruct (lit_prefix_lower _ _ _ E) as [b Eb]. rewrite Eb. exists [], b. reflexivity.
Qed.
Lemma fields_shard rfs : forall t cs t' cs', fields_loop rfs t cs = Ok (t', cs') -> t_shard t' = t_shard t.
Proof.
  induction rfs as [|rf rfs IH]; intros t cs t' cs' E; cbn [fields_loop] in E; [injection E as <- <-; reflexivity|]. destruct (contains ($"key ") (lower rf)).
  - destruct (contains ($"primary") (lower rf)); [|exact (IH _ _ _ _ E)]. destruct (set_primary_key t (Some (KeyList (field_pk rf)))) as [t1|] eqn:P; [|discriminate]. cbn [bind] in E. rewrite (IH _ _ _ _ E).
    unfold set_primary_key in P. injection P as <-. reflexivity.
  - destruct (field_name rf) as [[name q]|]; [|discriminate]. cbn [bind] in E. destruct (convert_type _) as [ty|]; [|discriminate]. cbn [bind] in E. destruct (mk_column _ _) as [c|]; [|discriminate]. cbn [bind] in E. exact (IH _ _ _ _ E).
Qed.
Lemma columns_shard t s t' : parse_columns t s = Ok t' -> t_shard t' = t_shard t.
Proof.
  unfold parse_columns. intros E. destruct (fields_loop (raw_fields (column_text s)) t []) as [[t1 cs]|] eqn:F; [|discriminate]. cbn [bind] in E. injection E as <-. rewrite <- (fields_shard _ _ _ _ _ F). clear.
  unfold add_columns. revert t1. induction cs as [|c cs IH]; intros t1; [reflexivity|]. cbn [fold_left]. rewrite IH. reflexivity.
Qed.
Lemma replace_no_shard schema id d s d' : ~ occurs ($"create table") (lower s) -> occurs ($"create or replace table") (lower s) -> ~ occurs ($"create database") (lower s) ->
  parse_statement schema id d s = Ok d' -> exists t, d' = add_table d t /\ t_shard t = None.
Proof.
  intros O1 O2 O3. unfold parse_statement. rewrite (proj2 (contains_false _ _) O3), (proj2 (contains_true _ _) O2), orb_true_r. unfold parse_create_table. rewrite unbracket_map. cbv zeta. intros E.
  destruct (parse_columns _ (map ub s)) as [t|] eqn:P; [|discriminate]. cbn [bind] in E. pose proof (columns_shard _ _ _ P) as Q. cbn [mk_table t_shard] in Q.
  assert (H : rsearch hash_pattern (map ub s) = None).
  { apply no_hash. apply contains_false. rewrite lower_unbracket by (apply not_in_b; reflexivity). apply contains_false, O1. }
  unfold add_hashkey in E. rewrite H in E. exists t. split; [|exact Q]. destruct (contains _ _); injection E as <-; reflexivity.
Qed.
(** the table a CREATE statement makes *)
Definition created (schema : str) (id : nat) (s : str) : result table :=
  let s := map ub s in
  t <- parse_columns (mk_table (get_table_name s) schema None None) s ;;
  Ok (if contains ($"partition by hash") (lower s) then add_hashkey id t s else t).
Lemma created_ok schema id d s : parse_create_table schema id d s = match created schema id s with Ok t => Ok (add_table d t) | Err e => Err e end.
Proof. unfold parse_create_table, created. rewrite unbracket_map. cbv zeta. destruct (parse_columns _ (map ub s)); reflexivity. Qed.
Lemma create_bare schema id s t : created schema id s = Ok t -> t_fks t = [] /\ t_rels t = [].
Proof.
  intros K. pose proof (create_ok schema id (empty_database []) s) as Q. rewrite created_ok, K in Q. destruct Q as [t' [A [_ [_ [F [R _]]]]]].
  apply (f_equal (fun d => dvals (db_tables d))) in A. cbn in A. injection A as ->. auto.
Qed.
