(** * Lemmas about Excel cells, Python literals and missing values *)
From Verif Require Export SpecDetails ExcelRound.

(** ** Cells *)
Lemma illegal_control c : illegal c = true <-> control c.
Proof.
  unfold illegal, control, ord. rewrite !orb_true_iff, !andb_true_iff, !Nat.leb_le. cbn [In]. lia.
Qed.
Lemma refused_iff s : existsb illegal (firstn cell_limit s) = true <-> refused_text s.
Proof.
  rewrite existsb_exists. split.
  - intros [c [I E]]. apply in_split in I. destruct I as [a [b I]]. exists a, c, (b ++ skipn cell_limit s). split; [|split; [apply illegal_control, E|]].
    + rewrite <- (firstn_skipn cell_limit s) at 1. rewrite I, <- app_assoc. reflexivity.
    + assert (L : length (firstn cell_limit s) <= cell_limit) by apply firstn_le_length. rewrite I, app_length in L. cbn [length] in L. unfold cell_limit in L. lia.
  - intros [a [c [b [-> [C L]]]]]. exists c. split; [|apply illegal_control, C]. rewrite firstn_app. apply in_or_app. right.
    assert (P : exists k, cell_limit - length a = S k) by (exists (cell_limit - length a - 1); unfold cell_limit; lia). destruct P as [k ->]. left. reflexivity.
Qed.
Definition refused (v : value) : Prop := match v with VText s => refused_text s | VNum _ => False end.
Lemma check_value_iff v : (refused v -> check_value v = Err IllegalCharacterError) /\ (~ refused v -> exists v', check_value v = Ok v').
Proof.
  destruct v as [s|z]; cbn [refused check_value]; [|split; [intros []|eauto]]. pose proof (refused_iff s) as H. destruct (existsb illegal _); split; intros N; eauto; exfalso.
  - apply N, H. reflexivity. - apply H in N. discriminate.
Qed.
(** a result is an error of this kind, or none *)
Definition errs {A} (P : Prop) (r : result A) : Prop := (P /\ r = Err IllegalCharacterError) \/ (~ P /\ exists x, r = Ok x).
Lemma errs_bind {A B} P Q (r : result A) (f : A -> result B) : errs P r -> (forall x, errs Q (f x)) -> errs (P \/ Q) (bind r f).
Proof.
  intros [[p ->]|[p [x ->]]] H; [left; split; [left; exact p|reflexivity]|]. cbn [bind]. destruct (H x) as [[q E]|[q E]]; [left|right]; (split; [tauto|exact E]).
Qed.
Lemma errs_ok {A} (x : A) : errs False (Ok x).
Proof. right. split; [tauto|eauto]. Qed.
Lemma errs_iff {A} P Q (r : result A) : (P <-> Q) -> errs P r -> errs Q r.
Proof. intros H [[p E]|[p E]]; [left|right]; (split; [tauto|exact E]). Qed.
Lemma errs_value v : errs (refused v) (check_value v).
Proof.
  destruct v as [s|z]; [|right; split; [tauto|cbn; eauto]]. cbn [refused check_value]. pose proof (refused_iff s) as H. destruct (existsb illegal _); [left|right]; split; eauto; intuition congruence.
Qed.
Lemma errs_row l : errs (Exists refused l) (check_row l).
Proof.
  induction l as [|v l IH]; [apply (errs_iff False); [split; [tauto|intros E; inversion E]|apply errs_ok]|]. cbn [check_row].
  apply (errs_iff (refused v \/ (Exists refused l \/ False))); [rewrite Exists_cons; tauto|]. apply errs_bind; [apply errs_value|]. intros x. apply errs_bind; [exact IH|]. intros y. apply errs_ok.
Qed.
Lemma errs_rows l : forall row rows, errs (Exists (Exists refused) l) (write_rows row l rows).
Proof.
  induction l as [|v l IH]; intros row rows; [apply (errs_iff False); [split; [tauto|intros E; inversion E]|apply errs_ok]|]. cbn [write_rows].
  apply (errs_iff (Exists refused v \/ Exists (Exists refused) l)); [rewrite Exists_cons; tauto|]. apply errs_bind; [apply errs_row|]. intros x. apply IH.
Qed.
Definition all_rows (d : database) : list (list value) :=
  (columns_header :: columns_rows d) ++ (tables_header :: tables_rows d) ++ (fks_header :: fks_rows d) ++ (rels_header :: rels_rows d).
Lemma errs_database fresh x w d f : errs (Exists (Exists refused) (all_rows d)) (write_database fresh (x :: w) d f).
Proof.
  unfold write_database, write_columns_worksheet, add_sheet. destruct x as [t rows]. unfold all_rows.
  apply (errs_iff ((Exists (Exists refused) (columns_header :: columns_rows d) \/ False) \/ (Exists (Exists refused) (tables_header :: tables_rows d) \/ False) \/ (Exists (Exists refused) (fks_header :: fks_rows d) \/ False)
    \/ (Exists (Exists refused) (rels_header :: rels_rows d) \/ False) \/ False)); [rewrite !Exists_app; tauto|].
  repeat first [apply errs_bind; [apply errs_bind; [apply errs_rows|intros ?; apply errs_ok]|intros ?] | apply errs_ok].
Qed.
Lemma refused_legal v : legal v -> ~ refused v.
Proof.
  destruct v as [s|z]; [|intros _ []]. intros L [a [c [b [-> [C _]]]]]. apply illegal_control in C. rewrite (L c) in C by (apply in_or_app; right; left; reflexivity). discriminate.
Qed.
Lemma header_fine l : forallb cell_text_b l = true -> ~ Exists refused (map VText l).
Proof. intros H E. apply Exists_exists in E. destruct E as [v [I R]]. exact (refused_legal v (header_legal l v H I) R). Qed.
Lemma row_texts_of dbn r t v : In v (table_row dbn r t) -> legal v \/ exists s, v = VText s /\ In s ([dbn; t_schema t; t_name t; join ($", ") (t_pk t)] ++ match t_shard t with Some sk => [join ($", ") (sk_keys sk)] | None => [] end).
Proof.
  assert (Lc : forall sheet col, forallb (fun c => negb (illegal c)) (sheet ++ col) = true -> legal (VText (count_formula sheet col (n_to_str r)))).
  { intros sheet col H. apply count_legal. intros c I. rewrite app_assoc in I. apply in_app_or in I. destruct I as [I|I]; [|apply (n_to_str_legal _ _ I)]. rewrite forallb_forall in H. apply negb_true_iff, H, I. }
  assert (Ll : legal (VText (lookup_formula (n_to_str r)))) by (apply lookup_legal; intros c I; apply (n_to_str_legal _ _ I)).
  assert (Le : legal (VText [])) by (intros c []).
  unfold table_row, list_to_string.
  destruct (t_shard t) as [sk|]; cbn [app]; intros H; repeat (destruct H as [<-|H]; [first [left; first [exact Le | exact Ll | apply literal_legal; reflexivity | apply Lc; reflexivity | exact I] | right; eexists; split; [reflexivity|cbn [In]; tauto]]|]); destruct H.
Qed.
Lemma cons_rows h l : ~ Exists refused h -> (Exists (Exists refused) (h :: l) <-> exists r, In r l /\ Exists refused r).
Proof. intros N. rewrite Exists_cons, (Exists_exists (Exists refused)). split; [intros [E|E]; [contradiction|exact E]|right; assumption]. Qed.
Lemma cells_iff d : Exists (Exists refused) (all_rows d) <-> exists s, In s (cell_texts d) /\ refused_text s.
Proof.
  assert (H1 : ~ Exists refused columns_header) by (apply header_fine; reflexivity). assert (H2 : ~ Exists refused tables_header) by (apply header_fine; reflexivity).
  assert (H3 : ~ Exists refused fks_header) by (apply header_fine; reflexivity). assert (H4 : ~ Exists refused rels_header) by (apply header_fine; reflexivity).
  unfold all_rows. rewrite !Exists_app, !cons_rows by assumption.
  assert (IN : forall t s, In t (db_iter d) -> In s (row_texts d t) -> In s (cell_texts d)) by (intros t s It Is; apply in_flat_map; eauto).
  split.
  - intros [[r [I E]]|[[r [I E]]|[[r [I E]]|[r [I E]]]]]; apply Exists_exists in E; destruct E as [v [J E]].
    + unfold columns_rows in I. apply in_flat_map in I. destruct I as [t [It I]].
      assert (G : forall k cs, In r (column_rows (db_name d) t k cs) -> exists z c, In c cs /\ r = [VText (db_name d); VText (t_schema t); VText (t_name t); VNum z; VText (column_name c); VText (column_type c)]).
      { intros k cs. revert k. induction cs as [|c cs IH]; intros k; [intros []|]. intros [<-|K]; [exists k, c; split; [left; reflexivity|reflexivity]|]. destruct (IH _ K) as [z [c' [K1 K2]]]. exists z, c'. split; [right; exact K1|exact K2]. }
      destruct (G _ _ I) as [z [c [Ic ->]]]. assert (Q : forall s, In s [db_name d; t_schema t; t_name t; column_name c; column_type c] -> In s (row_texts d t)).
      { intros s Hs. unfold row_texts. rewrite !in_app_iff. cbn [In] in Hs |- *. destruct Hs as [<-|[<-|[<-|Hs]]]; [tauto|tauto|tauto|]. right. right. left. apply in_flat_map. exists c. split; [exact Ic|]. cbn [In]. tauto. }
      cbn [In] in J, Q. destruct J as [<-|[<-|[<-|[<-|[<-|[<-|[]]]]]]]; cbn [refused] in E; try contradiction; (match type of E with refused_text ?x => exists x end; split; [apply (IN t); [exact It|apply Q; tauto]|exact E]).
    + unfold tables_rows in I. assert (G : forall k ts, In r (table_rows (db_name d) k ts) -> exists z t, In t ts /\ r = table_row (db_name d) z t).
      { intros k ts. revert k. induction ts as [|c cs IH]; intros k; [intros []|]. intros [<-|K]; [exists k, c; split; [left; reflexivity|reflexivity]|]. destruct (IH _ K) as [z [c' [K1 K2]]]. exists z, c'. split; [right; exact K1|exact K2]. }
      destruct (G _ _ I) as [z [t [It ->]]]. destruct (row_texts_of _ _ _ _ J) as [L|[s [-> Hs]]]; [destruct (refused_legal _ L E)|]. exists s. split; [|exact E]. apply (IN t); [exact It|]. unfold row_texts. rewrite !in_app_iff in *. tauto.
    + unfold fks_rows in I. apply in_flat_map in I. destruct I as [t [It I]]. apply in_map_iff in I. destruct I as [f [<- If]]. unfold fk_row, list_to_string in J. apply in_map_iff in J. destruct J as [s [<- Hs]]. exists s. split; [|exact E]. apply (IN t); [exact It|].
      unfold row_texts. rewrite !in_app_iff. cbn [In] in Hs. destruct Hs as [<-|[<-|[<-|Hs]]]; [|left; cbn [In]; tauto|left; cbn [In]; tauto|].
      * right. right. right. left. apply in_flat_map. exists f. cbn [In]. tauto. * right. right. right. left. apply in_flat_map. exists f. cbn [In]. tauto.
    + unfold rels_rows in I. apply in_flat_map in I. destruct I as [t [It I]]. apply in_map_iff in I. destruct I as [f [<- If]]. unfold rel_row in J. apply in_map_iff in J. destruct J as [s [<- Hs]]. exists s. split; [|exact E]. apply (IN t); [exact It|].
      unfold row_texts. rewrite !in_app_iff. cbn [In] in Hs. destruct Hs as [<-|[<-|[<-|Hs]]]; [|left; cbn [In]; tauto|left; cbn [In]; tauto|].
      * right. right. right. right. apply in_flat_map. exists f. cbn [In]. tauto. * right. right. right. right. apply in_flat_map. exists f. cbn [In]. tauto.
  - intros [s [I E]]. apply in_flat_map in I. destruct I as [t [It I]]. unfold row_texts in I. rewrite app_assoc in I. rewrite !(in_app_iff (_ ++ _)), !(in_app_iff (flat_map _ _)) in I.
    destruct I as [I|[I|[I|I]]].
    + right. left. assert (G : forall k ts, In t ts -> exists z, In (table_row (db_name d) z t) (table_rows (db_name d) k ts)).
      { intros k ts. revert k. induction ts as [|c cs IH]; intros k; [intros []|]. intros [<-|K]; [exists k; left; reflexivity|]. destruct (IH (k + 1)%N K) as [z K1]. exists z. right. exact K1. }
      destruct (G 2%N _ It) as [z G']. exists (table_row (db_name d) z t). split; [exact G'|]. apply Exists_exists. exists (VText s). split; [|exact E]. unfold table_row, list_to_string. destruct (t_shard t) as [sk|]; cbn [In app] in *; intuition (subst; tauto).
    + left. apply in_flat_map in I. destruct I as [c [Ic I]]. assert (G : forall k cs, In c cs -> exists z, In [VText (db_name d); VText (t_schema t); VText (t_name t); VNum z; VText (column_name c); VText (column_type c)] (column_rows (db_name d) t k cs)).
      { intros k cs. revert k. induction cs as [|c' cs IH]; intros k; [intros []|]. intros [<-|K]; [exists k; left; reflexivity|]. destruct (IH (k + 1)%Z K) as [z K1]. exists z. right. exact K1. }
      destruct (G 1%Z _ Ic) as [z G']. eexists. split; [unfold columns_rows; apply in_flat_map; exists t; split; [exact It|exact G']|]. apply Exists_exists. exists (VText s). split; [|exact E]. cbn [In] in *. intuition (subst; tauto).
    + right. right. left. apply in_flat_map in I. destruct I as [f [If I]]. exists (fk_row (db_name d) t f). split; [unfold fks_rows; apply in_flat_map; exists t; split; [exact It|apply in_map; exact If]|]. apply Exists_exists. exists (VText s). split; [|exact E].
      unfold fk_row, list_to_string. apply in_map. cbn [In] in *. intuition (subst; tauto).
    + right. right. right. apply in_flat_map in I. destruct I as [f [If I]]. exists (rel_row (db_name d) t f). split; [unfold rels_rows; apply in_flat_map; exists t; split; [exact It|apply in_map; exact If]|]. apply Exists_exists. exists (VText s). split; [|exact E].
      unfold rel_row. apply in_map. cbn [In] in *. intuition (subst; tauto).
Qed.

(** ** Python literals *)
Lemma literal_char q c r : (q = "'"%char \/ q = dquote) -> literal q (repr_char q c ++ r) = match literal q r with Some (x, rest) => Some (c :: x, rest) | None => None end.
Proof.
  intros [-> | ->]; destruct c as [[] [] [] [] [] [] [] []]; match goal with |- literal _ (?x ++ r) = _ => let y := eval vm_compute in x in replace x with y by (vm_cast_no_check (eq_refl y)) end;
    cbn [app literal]; set (L := literal _ r); clearbody L; vm_compute; destruct L as [[? ?]|]; reflexivity.
Qed.
Lemma literal_chars q s r : (q = "'"%char \/ q = dquote) -> literal q (flat_map (repr_char q) s ++ q :: r) = Some (s, r).
Proof.
  intros Q. induction s as [|c s IH]; cbn [flat_map app]; [destruct Q as [-> | ->]; reflexivity|]. rewrite <- app_assoc, literal_char, IH by exact Q. reflexivity.
Qed.
Lemma repr_read s r : read_literal (py_repr s ++ r) = Some (s, r).
Proof.
  unfold py_repr. set (q := if _ : bool then dquote else "'"%char). assert (Q : q = "'"%char \/ q = dquote) by (unfold q; destruct (_ && _); auto). clearbody q.
  cbn [app read_literal]. replace (Ascii.eqb q "'" || Ascii.eqb q dquote) with true by (destruct Q as [-> | ->]; reflexivity). rewrite <- app_assoc. apply literal_chars, Q.
Qed.
Lemma repr_chars q c x : In x (repr_char q c) -> (q = "'"%char \/ q = dquote) -> 32 <= nat_of_ascii x.
Proof.
  intros H [-> | ->]; destruct c as [[] [] [] [] [] [] [] []]; vm_compute in H; repeat (destruct H as [<-|H]; [apply Nat.leb_le; vm_compute; reflexivity|]); destruct H.
Qed.
Lemma repr_printable s x : In x (py_repr s) -> 32 <= nat_of_ascii x.
Proof.
  unfold py_repr. set (q := if _ : bool then dquote else "'"%char). assert (Q : q = "'"%char \/ q = dquote) by (unfold q; destruct (_ && _); auto). clearbody q. assert (P : 32 <= nat_of_ascii q) by (destruct Q as [-> | ->]; cbn; lia).
  rewrite !in_app_iff. intros [[<-|[]]|[H|[<-|[]]]]; try exact P. apply in_flat_map in H. destruct H as [c [_ H]]. exact (repr_chars q c x H Q).
Qed.
Lemma repr_one a b r r' : py_repr a ++ r = py_repr b ++ r' -> a = b /\ r = r'.
Proof. intros H. apply (f_equal read_literal) in H. rewrite !repr_read in H. apply (f_equal (fun o => match o with Some p => p | None => ([], []) end)) in H. apply pair_equal_spec in H. exact H. Qed.
Lemma repr_starts s : exists c r, py_repr s = c :: r /\ c <> "]"%char /\ c <> ","%char.
Proof. unfold py_repr. destruct (_ && _); eexists _, _; (split; [reflexivity|split; discriminate]). Qed.
Lemma reprs_one l : forall l', join ($", ") (map py_repr l) ++ $"]" = join ($", ") (map py_repr l') ++ $"]" -> l = l'.
Proof.
  assert (J : forall a l, exists r, join ($", ") (map py_repr (a :: l)) ++ $"]" = py_repr a ++ r /\ (l = [] -> r = $"]") /\ (l <> [] -> r = $", " ++ join ($", ") (map py_repr l) ++ $"]")).
  { intros a [|b m]; [exists ($"]"); split; [reflexivity|split; [reflexivity|intros N; destruct (N eq_refl)]]|]. exists ($", " ++ join ($", ") (map py_repr (b :: m)) ++ $"]"). cbn [map]. split; [|split; [discriminate|reflexivity]]. change (join ($", ") (py_repr a :: py_repr b :: map py_repr m)) with (py_repr a ++ $", " ++ join ($", ") (py_repr b :: map py_repr m)). rewrite <- !app_assoc. reflexivity. }
  induction l as [|a l IH]; intros [|b l'] E; [reflexivity| | |].
  - destruct (J b l') as [r [R _]]. rewrite R in E. destruct (repr_starts b) as [c [x [Q [N _]]]]. rewrite Q in E. cbn [map join app] in E. exfalso. apply N. injection E as E _. symmetry. exact E.
  - destruct (J a l) as [r [R _]]. rewrite R in E. destruct (repr_starts a) as [c [x [Q [N _]]]]. rewrite Q in E. cbn [map join app] in E. exfalso. apply N. injection E as E _. exact E.
  - destruct (J a l) as [r [R [R1 R2]]], (J b l') as [r' [R' [R1' R2']]]. rewrite R, R' in E. apply repr_one in E. destruct E as [-> E]. f_equal.
    destruct l as [|x l], l' as [|y l']; [reflexivity| | |].
    + rewrite (R1 eq_refl), R2' in E by discriminate. discriminate E.
    + rewrite (R1' eq_refl), R2 in E by discriminate. discriminate E.
    + rewrite R2, R2' in E by discriminate. apply IH. apply app_inv_head in E. exact E.
Qed.

(** ** Missing values *)
Lemma nothing_iff v : truthy v = false <-> nothing v.
Proof.
  unfold nothing. destruct v as [|b|q|s|l|m]; cbn [truthy]; split; intros H; try reflexivity; auto.
  - right. left. subst b. reflexivity.
  - destruct H as [H|[H|[[? [H _]]|[H|[H|H]]]]]; congruence.
  - right. right. left. exists q. split; [reflexivity|]. apply negb_false_iff in H. apply Qeq_bool_iff, H.
  - destruct H as [H|[H|[[x [H E]]|[H|[H|H]]]]]; try discriminate. injection H as <-. apply negb_false_iff, Qeq_bool_iff, E.
  - apply negb_false_iff, str_eqb_eq in H. subst. tauto.
  - destruct H as [H|[H|[[? [H _]]|[H|[H|H]]]]]; try discriminate. injection H as ->. reflexivity.
  - destruct l; [tauto|discriminate]. - destruct H as [H|[H|[[? [H _]]|[H|[H|H]]]]]; try discriminate. injection H as ->. reflexivity.
  - destruct m; [tauto|discriminate]. - destruct H as [H|[H|[[? [H _]]|[H|[H|H]]]]]; try discriminate. injection H as ->. reflexivity.
Qed.
