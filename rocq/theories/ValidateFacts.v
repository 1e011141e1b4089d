From Verif Require Export SpecValid ModelFacts.

Definition add_all (r : validation_result) (l : list (str * level)) : validation_result :=
  {| is_valid := is_valid r && (match l with [] => true | _ => false end); issues := issues r ++ l |}.

Lemma add_all_nil r : add_all r [] = r.
Proof. destruct r as [v i]. unfold add_all. simpl. rewrite andb_true_r, app_nil_r. reflexivity. Qed.
Lemma add_all_app r a b : add_all (add_all r a) b = add_all r (a ++ b).
Proof.
  unfold add_all. simpl. rewrite <- app_assoc, <- andb_assoc. f_equal. destruct a, b; reflexivity.
Qed.
Lemma add_issue_all r i l : add_issue r i l = add_all r [(i, l)].
Proof. unfold add_issue, add_all. rewrite andb_false_r. reflexivity. Qed.

(** text of an issue about table [t] *)
Definition itext (d : database) (t : table) (s : str) : str :=
  $"database " ++ db_name d ++ $", table " ++ t_name t ++ $":  " ++ s.

Lemma avi_all d t r i l : add_validation_issue d t r i l = add_all r [(itext d t i, l)].
Proof. apply add_issue_all. Qed.

(** a loop whose body appends a list of issues *)
Lemma fold_add_all {A} (body : validation_result -> A -> validation_result) f l r :
  (forall r x, body r x = add_all r (f x)) -> fold_left body l r = add_all r (flat_map f l).
Proof.
  intros H. revert r; induction l as [|x l IH]; intros r; simpl; [symmetry; apply add_all_nil|].
  rewrite IH, H, add_all_app. reflexivity.
Qed.
Lemma fold_result_add_all {A} (body : validation_result -> A -> result validation_result) f l r :
  (forall r x, In x l -> body r x = Ok (add_all r (f x))) -> fold_result body l r = Ok (add_all r (flat_map f l)).
Proof.
  revert r; induction l as [|x l IH]; intros r H; simpl; [rewrite add_all_nil; reflexivity|].
  rewrite H by (left; reflexivity). simpl. rewrite IH by (intros; apply H; right; assumption).
  rewrite add_all_app. reflexivity.
Qed.

Definition type_issues (d : database) (t : table) : list (str * level) :=
  flat_map (fun c => if str_eqb (column_type c) ($"UNKNOWN")
                     then [(itext d t ($"column " ++ column_name c ++ $" is of type UNKNOWN."), WARNING)]
                     else []) (dvals (t_cols t)).
Lemma type_issues_ok d t r : validate_column_types d t r = add_all r (type_issues d t).
Proof.
  unfold validate_column_types, type_issues. apply fold_add_all. intros r' c.
  destruct (str_eqb _ _); [apply avi_all | symmetry; apply add_all_nil].
Qed.

Definition pk_issue (d : database) (t : table) (pk : str) : list (str * level) :=
  match get_column t pk with
  | None => [(itext d t ($"column " ++ pk ++ $" in primary key does not exist in the the table."), ERROR)]
  | Some _ => []
  end.
Lemma pk_issues_ok d t r : validate_primary_key d t r = add_all r (flat_map (pk_issue d t) (t_pk t)).
Proof.
  unfold validate_primary_key. apply fold_add_all. intros r' pk. unfold pk_issue.
  destruct (get_column t pk); [symmetry; apply add_all_nil | apply avi_all].
Qed.

Definition shard_issue (d : database) (t : table) (sk : str) : list (str * level) :=
  match get_column t sk with
  | None => [(itext d t ($"column " ++ sk ++ $" in shard key does not exist in the the table."), ERROR)]
  | Some _ => []
  end ++
  if negb (strs_eqb (t_pk t) []) && negb (str_in sk (t_pk t))
  then [(itext d t ($"column " ++ sk ++ $" in shard key not in primary key " ++ list_repr (t_pk t)), ERROR)]
  else [].
Definition shard_issues (d : database) (t : table) : list (str * level) :=
  match t_shard t with None => [] | Some sks => flat_map (shard_issue d t) (sk_keys sks) end.
Lemma shard_issues_ok d t r : validate_shard_keys d t r = add_all r (shard_issues d t).
Proof.
  unfold validate_shard_keys, shard_issues. destruct (t_shard t) as [sks|]; [|symmetry; apply add_all_nil].
  apply fold_add_all. intros r' sk. unfold shard_issue. rewrite <- add_all_app.
  destruct (get_column t sk).
  - rewrite add_all_nil. destruct (_ && _); [apply avi_all | symmetry; apply add_all_nil].
  - rewrite <- avi_all. destruct (_ && _); [apply avi_all | symmetry; apply add_all_nil].
Qed.

Definition type_clash (fc tc : column) : bool :=
  (negb (is_varchar (column_type fc)) && negb (str_eqb (column_type fc) (column_type tc)))
  || ((is_varchar (column_type fc) && negb (is_varchar (column_type tc)))
      || (is_varchar (column_type tc) && negb (is_varchar (column_type fc)))).

(** issues of one column pair; the text of the type message differs between the two branches *)
Definition pair_issues (d : database) (t tot : table) (fk : foreign_key) (f k : str) : list (str * level) :=
  (if negb (str_in k (t_pk tot))
   then [(itext d t ($"foreign key " ++ fk_name fk ++ $" column " ++ k ++ $" isn't in primary key for " ++ t_name tot), ERROR)]
   else [])
  ++ match get_column t f with
     | None => [(itext d t ($"foreign key " ++ fk_name fk ++ $" missing from_column " ++ f ++ $" from table " ++ t_name t), ERROR)]
     | Some _ => []
     end
  ++ match get_column tot k with
     | None => [(itext d t ($"foreign key " ++ fk_name fk ++ $" missing to_column " ++ k ++ $" from table " ++ t_name t), ERROR)]
     | Some _ => []
     end
  ++ match get_column t f, get_column tot k with
     | Some fc, Some tc =>
         let msg shown := itext d t ($"foreign key " ++ fk_name fk ++ $" column " ++ shown ++ $" type " ++ column_type fc
           ++ $" doesn't match type " ++ column_type tc ++ $" for " ++ t_name tot ++ $" column " ++ column_name tc) in
         if type_clash fc tc
         then [(msg (if negb (is_varchar (column_type fc)) && negb (str_eqb (column_type fc) (column_type tc))
                     then column_name fc else k), ERROR)]
         else []
     | _, _ => []
     end.

Lemma pair_types_ok d t tot fk k fc tc r :
  validate_pair_types d t tot fk k fc tc r =
  add_all r (if type_clash fc tc
     then [(itext d t ($"foreign key " ++ fk_name fk ++ $" column " ++
             (if negb (is_varchar (column_type fc)) && negb (str_eqb (column_type fc) (column_type tc))
              then column_name fc else k) ++ $" type " ++ column_type fc
             ++ $" doesn't match type " ++ column_type tc ++ $" for " ++ t_name tot ++ $" column " ++ column_name tc), ERROR)]
     else []).
Proof.
  unfold validate_pair_types, type_clash.
  destruct (negb (is_varchar (column_type fc)) && negb (str_eqb (column_type fc) (column_type tc))) eqn:E1; simpl.
  - apply avi_all.
  - destruct (_ || _); [apply avi_all | symmetry; apply add_all_nil].
Qed.

Lemma position_ok d t tot fk r i f k :
  nth_error (fk_from_keys fk) i = Some f -> nth_error (fk_to_keys fk) i = Some k ->
  validate_fk_position d t tot fk r i = Ok (add_all r (pair_issues d t tot fk f k)).
Proof.
  intros Hf Hk. unfold validate_fk_position. rewrite Hf, Hk. unfold pair_issues.
  rewrite <- !add_all_app.
  assert (H1 : forall r : validation_result, (if negb (str_in k (t_pk tot))
               then add_validation_issue d t r
                      ($"foreign key " ++ fk_name fk ++ $" column " ++ k
                       ++ $" isn't in primary key for " ++ t_name tot) ERROR
               else r) = add_all r (if negb (str_in k (t_pk tot))
   then [(itext d t ($"foreign key " ++ fk_name fk ++ $" column " ++ k ++ $" isn't in primary key for " ++ t_name tot), ERROR)]
   else [])) by (intros r'; destruct (negb _); [apply avi_all | symmetry; apply add_all_nil]).
  rewrite H1. clear H1. generalize (add_all r (if negb (str_in k (t_pk tot))
   then [(itext d t ($"foreign key " ++ fk_name fk ++ $" column " ++ k ++ $" isn't in primary key for " ++ t_name tot), ERROR)]
   else [])). intros r1.
  destruct (get_column t f) as [fc|], (get_column tot k) as [tc|];
    rewrite ?add_all_nil, ?avi_all, ?add_all_nil; try reflexivity.
  rewrite pair_types_ok. reflexivity.
Qed.

Definition fk_issues (d : database) (t : table) (fk : foreign_key) : list (str * level) :=
  match get_table d (fk_to_table fk) with
  | None => [(itext d t ($"table " ++ fk_to_table fk ++ $" doesn't exist for foreign key " ++ fk_name fk), ERROR)]
  | Some tot =>
      (if negb (Nat.eqb (length (fk_to_keys fk)) (length (t_pk tot)))
       then [(itext d t ($"FK " ++ fk_name fk ++ $" doesn't match number of columns in primary key "
                         ++ list_repr (t_pk tot)), ERROR)]
       else [])
      ++ flat_map (fun p => pair_issues d t tot fk (fst p) (snd p)) (combine (fk_from_keys fk) (fk_to_keys fk))
  end.

Lemma positions_ok d t tot fk r pre1 pre2 fs ks :
  fk_from_keys fk = pre1 ++ fs -> fk_to_keys fk = pre2 ++ ks -> length pre1 = length pre2 -> length fs = length ks ->
  fold_result (validate_fk_position d t tot fk) (seq (length pre1) (length fs)) r
  = Ok (add_all r (flat_map (fun p => pair_issues d t tot fk (fst p) (snd p)) (combine fs ks))).
Proof.
  revert r pre1 pre2 ks; induction fs as [|f fs IH]; intros r pre1 pre2 [|k ks] Hf Hk Hp Hl; simpl in Hl; try discriminate.
  - simpl. rewrite add_all_nil. reflexivity.
  - cbn [seq length fold_result].
    rewrite (position_ok d t tot fk r (length pre1) f k).
    2:{ rewrite Hf, nth_error_app2, Nat.sub_diag by lia. reflexivity. }
    2:{ rewrite Hk, Hp, nth_error_app2, Nat.sub_diag by lia. reflexivity. }
    simpl.
    replace (S (length pre1)) with (length (pre1 ++ [f])) by (rewrite app_length; simpl; lia).
    rewrite (IH _ (pre1 ++ [f]) (pre2 ++ [k]) ks).
    + rewrite add_all_app. reflexivity.
    + rewrite <- app_assoc; exact Hf.
    + rewrite <- app_assoc; exact Hk.
    + rewrite !app_length; simpl; lia.
    + lia.
Qed.

Lemma fk_issues_ok d t fk r : length (fk_from_keys fk) = length (fk_to_keys fk) ->
  validate_fk d t r fk = Ok (add_all r (fk_issues d t fk)).
Proof.
  intros Hl. unfold validate_fk, fk_issues. destruct (get_table d (fk_to_table fk)) as [tot|].
  - rewrite Hl, Nat.eqb_refl. simpl. rewrite <- Hl.
    rewrite <- add_all_app.
    rewrite (positions_ok d t tot fk _ [] [] (fk_from_keys fk) (fk_to_keys fk)) by (reflexivity || assumption).
    do 2 f_equal. destruct (negb _); [apply avi_all | symmetry; apply add_all_nil].
  - rewrite avi_all. reflexivity.
Qed.

Definition rel_issues (d : database) (t : table) (rel : relationship) : list (str * level) :=
  (if negb (str_eqb (rel_from_table rel) (t_name t))
   then [(itext d t ($"from table " ++ t_name t ++ $" doesn't exist in relationship " ++ rel_name rel ++ $"."), ERROR)]
   else [])
  ++ match get_table d (rel_to_table rel) with
     | None => [(itext d t ($"to table None doesn't exist in relationship " ++ rel_name rel ++ $"."), ERROR)]
     | Some _ => []
     end.
Lemma rel_issues_ok d t r : validate_relationships d t r = add_all r (flat_map (rel_issues d t) (relationships_iter t)).
Proof.
  unfold validate_relationships. apply fold_add_all. intros r' rel. unfold rel_issues.
  rewrite <- add_all_app. destruct (negb _), (get_table d (rel_to_table rel));
    rewrite ?avi_all, ?add_all_nil; reflexivity.
Qed.

Definition table_issues (d : database) (t : table) : list (str * level) :=
  type_issues d t ++ flat_map (pk_issue d t) (t_pk t) ++ shard_issues d t
  ++ flat_map (fk_issues d t) (foreign_keys_iter t) ++ flat_map (rel_issues d t) (relationships_iter t).

Lemma validate_table_ok d t r :
  (forall fk, In fk (foreign_keys_iter t) -> length (fk_from_keys fk) = length (fk_to_keys fk)) ->
  validate_table d r t = Ok (add_all r (table_issues d t)).
Proof.
  intros Hp. unfold validate_table. rewrite type_issues_ok, pk_issues_ok, shard_issues_ok.
  unfold validate_foreign_keys. erewrite fold_result_add_all.
  2:{ intros r' fk Hin. apply fk_issues_ok, Hp, Hin. }
  simpl. rewrite rel_issues_ok, !add_all_app. unfold table_issues. rewrite ?app_assoc. reflexivity.
Qed.

Lemma validate_ok d : paired_db d ->
  validate d = Ok (add_all new_result (flat_map (table_issues d) (db_iter d))).
Proof.
  intros Hp. unfold validate. apply fold_result_add_all.
  intros r t Hin. apply validate_table_ok. intros fk Hfk. eapply Hp; eassumption.
Qed.

(** ** When the issue lists are empty *)
Lemma flat_map_nil {A B} (f : A -> list B) l : flat_map f l = [] <-> forall x, In x l -> f x = [].
Proof.
  induction l as [|x l IH]; simpl; [split; [intros _ ? []|reflexivity]|].
  rewrite <- (app_nil_r []). split.
  - intros H. apply app_eq_nil in H. destruct H as [H1 H2]. intros y [<-|Hy]; [exact H1 | apply IH; assumption].
  - intros H. rewrite (H x) by (left; reflexivity). simpl. apply IH. intros y Hy; apply H; right; exact Hy.
Qed.
Lemma app_nil_iff {A} (a b : list A) : a ++ b = [] <-> a = [] /\ b = [].
Proof. split; [apply app_eq_nil | intros [-> ->]; reflexivity]. Qed.

Lemma starts_with_spec p s : starts_with p s = true <-> exists rest, s = p ++ rest.
Proof.
  revert s; induction p as [|x p IH]; intros s; simpl.
  - split; [intros _; exists s; reflexivity | reflexivity].
  - destruct s as [|y s]; simpl.
    + split; [discriminate | intros [r Hr]; discriminate].
    + rewrite andb_true_iff, IH. split.
      * intros [He [r ->]]. apply Ascii.eqb_eq in He. subst. exists r; reflexivity.
      * intros [r Hr]. inversion Hr; subst. split; [apply Ascii.eqb_refl | exists r; reflexivity].
Qed.
Lemma is_varchar_spec s : is_varchar s = true <-> varchar_like s.
Proof. apply starts_with_spec. Qed.

Lemma type_clash_spec fc tc : type_clash fc tc = false <-> same_kind (column_type fc) (column_type tc).
Proof.
  unfold type_clash, same_kind. rewrite <- !is_varchar_spec.
  destruct (str_eqb_spec (column_type fc) (column_type tc)) as [->|Hne].
  - simpl. rewrite andb_false_r. simpl. destruct (is_varchar (column_type tc)); simpl; tauto.
  - destruct (is_varchar (column_type fc)), (is_varchar (column_type tc)); simpl; split; intros H;
      try discriminate; try reflexivity; try tauto; destruct H as [H|[H1 H2]]; congruence.
Qed.

Lemma get_column_names_in t n : In n (get_column_names t) <-> exists c, get_column t n = Some c.
Proof. apply dget_some_in. Qed.

Lemma pair_issues_nil d t tot fk f k : pair_issues d t tot fk f k = [] <-> pair_ok t tot f k.
Proof.
  unfold pair_issues, pair_ok. rewrite !app_nil_iff. split.
  - intros (H1 & H2 & H3 & H4).
    destruct (get_column t f) as [fc|]; [|discriminate].
    destruct (get_column tot k) as [tc|]; [|discriminate].
    exists fc, tc. repeat split.
    + destruct (str_in_spec k (t_pk tot)); [assumption|discriminate].
    + apply type_clash_spec. destruct (type_clash fc tc); [discriminate|reflexivity].
  - intros (fc & tc & -> & -> & H3 & H4). apply type_clash_spec in H4. rewrite H4.
    apply str_in_true in H3. rewrite H3. auto.
Qed.

Lemma combine_forall2 {A B} (P : A -> B -> Prop) l m : length l = length m ->
  ((forall p, In p (combine l m) -> P (fst p) (snd p)) <-> Forall2 P l m).
Proof.
  revert m; induction l as [|x l IH]; intros [|y m] Hl; simpl in *; try discriminate.
  - split; [constructor | intros _ p []].
  - split.
    + intros H. constructor; [apply (H (x, y)); left; reflexivity|]. apply IH; [lia|]. intros p Hp. apply H; right; exact Hp.
    + intros H. inversion H; subst. intros p [<-|Hp]; [assumption|]. apply (proj2 (IH m ltac:(lia))); assumption.
Qed.

Lemma fk_issues_nil d t fk : length (fk_from_keys fk) = length (fk_to_keys fk) ->
  fk_issues d t fk = [] <-> fk_ok d t fk.
Proof.
  intros Hl. unfold fk_issues, fk_ok. destruct (get_table d (fk_to_table fk)) as [tot|].
  - rewrite app_nil_iff, flat_map_nil. split.
    + intros [H1 H2]. exists tot. split; [reflexivity|]. split.
      * destruct (Nat.eqb_spec (length (fk_to_keys fk)) (length (t_pk tot))); [assumption|discriminate].
      * apply combine_forall2; [exact Hl|]. intros p Hp. eapply pair_issues_nil. apply H2, Hp.
    + intros [tt' [Ht [H1 H2]]]. inversion Ht; subst. rewrite H1, Nat.eqb_refl. split; [reflexivity|].
      intros p Hp. apply pair_issues_nil. eapply (proj2 (combine_forall2 _ _ _ Hl)); eassumption.
  - split; [discriminate|]. intros [tt' [Ht _]]. discriminate.
Qed.

Lemma table_issues_nil d t :
  (forall fk, In fk (foreign_keys_iter t) -> length (fk_from_keys fk) = length (fk_to_keys fk)) ->
  table_issues d t = [] <-> consistent d t.
Proof.
  intros Hp. unfold table_issues. rewrite !app_nil_iff, !flat_map_nil.
  unfold type_issues. rewrite flat_map_nil. split.
  - intros (H1 & H2 & H3 & H4 & H5). constructor.
    + intros c Hc. specialize (H1 c Hc). destruct (str_eqb_spec (column_type c) ($"UNKNOWN")); [discriminate|assumption].
    + intros k Hk. specialize (H2 k Hk). unfold pk_issue in H2. apply get_column_names_in.
      destruct (get_column t k); [eauto|discriminate].
    + intros sk Hsk k Hk. unfold shard_issues in H3. rewrite Hsk in H3.
      rewrite flat_map_nil in H3. specialize (H3 k Hk). unfold shard_issue in H3. apply app_nil_iff in H3.
      destruct H3 as [H3 H3']. split.
      * apply get_column_names_in. destruct (get_column t k); [eauto|discriminate].
      * intros Hpk. destruct (strs_eqb_spec (t_pk t) []); [contradiction|]. simpl in H3'.
        destruct (str_in_spec k (t_pk t)); [assumption|discriminate].
    + intros fk Hfk. apply fk_issues_nil; [apply Hp, Hfk | apply H4, Hfk].
    + intros r Hr. specialize (H5 r Hr). unfold rel_issues in H5. apply app_nil_iff in H5. destruct H5 as [H5 H6].
      split.
      * destruct (str_eqb_spec (rel_from_table r) (t_name t)); [assumption|discriminate].
      * apply dget_some_in. unfold get_table in H6. destruct (dget (rel_to_table r) (db_tables d)); [eauto|discriminate].
  - intros [H1 H2 H3 H4 H5]. repeat split.
    + intros c Hc. specialize (H1 c Hc). destruct (str_eqb_spec (column_type c) ($"UNKNOWN")); [contradiction|reflexivity].
    + intros k Hk. unfold pk_issue. apply H2, get_column_names_in in Hk. destruct Hk as [c ->]. reflexivity.
    + unfold shard_issues. destruct (t_shard t) as [sk|]; [|reflexivity]. rewrite flat_map_nil.
      intros k Hk. unfold shard_issue. destruct (H3 sk eq_refl k Hk) as [Hc Hpk].
      apply get_column_names_in in Hc. destruct Hc as [c ->]. simpl.
      destruct (strs_eqb_spec (t_pk t) []) as [|Hne]; [reflexivity|]. simpl.
      destruct (str_in_spec k (t_pk t)); [reflexivity|]. tauto.
    + intros fk Hfk. apply fk_issues_nil; [apply Hp, Hfk | apply H4, Hfk].
    + intros r Hr. unfold rel_issues. destruct (H5 r Hr) as [H6 H7]. rewrite H6, str_eqb_refl. simpl.
      apply dget_some_in in H7. unfold get_table. destruct H7 as [v ->]. reflexivity.
Qed.

Lemma validate_sound_complete d : paired_db d ->
  exists r, validate d = Ok r /\ (is_valid r = true <-> consistent_db d) /\ (is_valid r = true <-> issues r = []).
Proof.
  intros Hp. eexists. split; [apply validate_ok; exact Hp|]. simpl.
  assert (H : flat_map (table_issues d) (db_iter d) = [] <-> consistent_db d).
  { rewrite flat_map_nil. unfold consistent_db. split; intros H t Ht.
    - apply table_issues_nil; [intros fk Hfk; eapply Hp; eassumption | auto].
    - apply table_issues_nil; [intros fk Hfk; eapply Hp; eassumption | auto]. }
  rewrite <- H. destruct (flat_map (table_issues d) (db_iter d)); split; split; congruence.
Qed.

(** ** Levels and texts of the issues (C09) *)

Lemma itext_errors_filter l : (forall i, In i l -> snd i = ERROR) -> filter is_warning l = [].
Proof.
  induction l as [|[s lv] l IH]; intros H; [reflexivity|]. simpl. unfold is_warning at 1. simpl.
  pose proof (H (s, lv) (or_introl eq_refl)) as Hs. simpl in Hs. subst lv. apply IH. intros; apply H; right; assumption.
Qed.

Ltac in_cases :=
  repeat match goal with
  | H : In _ (_ ++ _) |- _ => apply in_app_iff in H; destruct H as [H|H]
  | H : In _ (flat_map _ _) |- _ => apply in_flat_map in H; destruct H as [? [? H]]
  | H : In _ (match ?x with _ => _ end) |- _ => destruct x
  | H : In _ [] |- _ => destruct H
  | H : In _ [_] |- _ => destruct H as [H|[]]; subst
  end.

Lemma other_issues_error d t i :
  In i (flat_map (pk_issue d t) (t_pk t) ++ shard_issues d t
  ++ flat_map (fk_issues d t) (foreign_keys_iter t) ++ flat_map (rel_issues d t) (relationships_iter t)) ->
  snd i = ERROR /\ exists s, fst i = itext d t s.
Proof.
  unfold pk_issue, shard_issues, shard_issue, fk_issues, rel_issues, pair_issues. intros H. cbv zeta in H.
  in_cases; simpl; eauto.
Qed.
Lemma type_issues_warning d t i : In i (type_issues d t) -> snd i = WARNING /\ exists s, fst i = itext d t s.
Proof. unfold type_issues. intros H. in_cases; simpl; eauto. Qed.

Lemma table_warnings d t :
  filter is_warning (table_issues d t) = map (fun c => (warning_text d t c, WARNING)) (unknown_columns t).
Proof.
  unfold table_issues. rewrite filter_app.
  rewrite (itext_errors_filter (flat_map (pk_issue d t) _ ++ _)) by (intros i Hi; apply other_issues_error in Hi; tauto).
  rewrite app_nil_r. unfold type_issues, unknown_columns, table_iter.
  induction (dvals (t_cols t)) as [|c l IH]; [reflexivity|].
  cbn [flat_map]. rewrite filter_app, IH. cbn [filter]. destruct (str_eqb (column_type c) ($"UNKNOWN")); reflexivity.
Qed.

Lemma filter_flat_map {A B} (p : B -> bool) (f : A -> list B) l :
  filter p (flat_map f l) = flat_map (fun x => filter p (f x)) l.
Proof. induction l as [|x l IH]; simpl; [reflexivity|]. rewrite filter_app, IH. reflexivity. Qed.

Lemma validate_levels d : paired_db d -> exists r, validate d = Ok r
  /\ filter is_warning (issues r)
     = flat_map (fun t => map (fun c => (warning_text d t c, WARNING)) (unknown_columns t)) (db_iter d)
  /\ (forall s l, In (s, l) (issues r) -> l = ERROR \/ l = WARNING)
  /\ (forall s l, In (s, l) (issues r) -> exists t rest, In t (db_iter d)
        /\ s = $"database " ++ db_name d ++ $", table " ++ t_name t ++ $":  " ++ rest
        /\ ~ consistent d t).
Proof.
  intros Hp. eexists. split; [apply validate_ok; exact Hp|]. simpl. split; [|split].
  - rewrite filter_flat_map. apply flat_map_ext. intros t. apply table_warnings.
  - intros s l H. apply in_flat_map in H. destruct H as [t [_ H]]. unfold table_issues in H.
    apply in_app_iff in H. destruct H as [H|H].
    + apply type_issues_warning in H. simpl in H. tauto.
    + apply other_issues_error in H. simpl in H. tauto.
  - intros s l H. apply in_flat_map in H. destruct H as [t [Ht H]].
    assert (exists rest, s = itext d t rest) as [rest ->].
    { unfold table_issues in H. apply in_app_iff in H. destruct H as [H|H].
      - apply type_issues_warning in H. simpl in H. tauto.
      - apply other_issues_error in H. simpl in H. tauto. }
    exists t, rest. split; [exact Ht|]. split; [reflexivity|].
    intros Hc. apply table_issues_nil in Hc; [|intros fk Hfk; eapply Hp; eassumption]. rewrite Hc in H. destruct H.
Qed.

(** ** To columns enumerate the key (C10) *)
Lemma forall2_in_r {A B} (P : A -> B -> Prop) l m y : Forall2 P l m -> In y m -> exists x, In x l /\ P x y.
Proof.
  induction 1 as [|a b l m Hab H IH]; intros Hin; [destruct Hin|].
  destruct Hin as [<-|Hin]; [exists a; split; [left; reflexivity | exact Hab]|].
  destruct (IH Hin) as [x [Hx Hp]]. exists x. split; [right; exact Hx | exact Hp].
Qed.
Lemma valid_to_keys d t fk : consistent d t -> In fk (foreign_keys_iter t) -> NoDup (fk_to_keys fk) ->
  exists tot, get_table d (fk_to_table fk) = Some tot /\ Permutation (fk_to_keys fk) (t_pk tot).
Proof.
  intros Hc Hfk Hnd. destruct (ok_fks _ _ Hc _ Hfk) as [tot [Ht [Hl Hf2]]]. exists tot. split; [exact Ht|].
  apply NoDup_Permutation_bis; [exact Hnd | lia |].
  intros k Hk. destruct (forall2_in_r _ _ _ _ Hf2 Hk) as [f [_ [fc [tc [_ [_ [H _]]]]]]]. exact H.
Qed.

Lemma c08_verdict d : paired_db d ->
  exists r, validate d = Ok r /\ (is_valid r = true <-> consistent_db d).
Proof. intros H. destruct (validate_sound_complete d H) as [r [H1 [H2 _]]]. eauto. Qed.

Lemma c09_issues d : paired_db d -> exists r, validate d = Ok r
  /\ (is_valid r = true <-> issues r = [])
  /\ filter is_warning (issues r)
     = flat_map (fun t => map (fun c => (warning_text d t c, WARNING)) (unknown_columns t)) (db_iter d)
  /\ (forall s l, In (s, l) (issues r) -> l = ERROR \/ l = WARNING)
  /\ (forall s l, In (s, l) (issues r) -> exists t rest, In t (db_iter d)
        /\ s = $"database " ++ db_name d ++ $", table " ++ t_name t ++ $":  " ++ rest
        /\ ~ consistent d t)
  /\ (forall t, In t (db_iter d) -> ~ consistent d t -> exists rest l,
        In ($"database " ++ db_name d ++ $", table " ++ t_name t ++ $":  " ++ rest, l) (issues r)).
Proof.
  intros H. destruct (validate_sound_complete d H) as [r [H1 [_ H2]]].
  destruct (validate_levels d H) as [r' [H1' H3]]. rewrite H1 in H1'. inversion H1'; subst r'.
  exists r. destruct H3 as [H3 [H4 H5]]. repeat split; auto; try apply H2.
  intros t Ht Hc. pose proof (validate_ok d H) as Hv. rewrite H1 in Hv. inversion Hv; subst r. simpl.
  destruct (table_issues d t) as [|[s l] rest] eqn:E.
  - destruct Hc. apply table_issues_nil; [|exact E]. intros fk Hfk. eapply H; eassumption.
  - assert (Hi : In (s, l) (table_issues d t)) by (rewrite E; left; reflexivity).
    assert (exists rest, s = itext d t rest) as [x Hx].
    { unfold table_issues in Hi. apply in_app_iff in Hi. destruct Hi as [Hi|Hi].
      - apply type_issues_warning in Hi. simpl in Hi. tauto.
      - apply other_issues_error in Hi. simpl in Hi. tauto. }
    exists x, l. apply in_flat_map. exists t. split; [exact Ht|]. subst s. exact Hi.
Qed.

Lemma c10_partial d r : paired_db d -> validate d = Ok r -> is_valid r = true ->
  forall t fk, In t (db_iter d) -> In fk (foreign_keys_iter t) -> NoDup (fk_to_keys fk) ->
  exists tot, get_table d (fk_to_table fk) = Some tot /\ Permutation (fk_to_keys fk) (t_pk tot).
Proof.
  intros Hp Hv Hi t fk Ht Hfk Hnd. destruct (c08_verdict d Hp) as [r' [Hv' Hc]].
  rewrite Hv in Hv'. inversion Hv'; subst r'. apply (valid_to_keys d t fk); auto. apply Hc; [exact Hi|exact Ht].
Qed.

(** ** Concrete databases *)
Definition col (n ty : str) : column := {| column_name := n; column_type := ty |}.
Definition dup_db : database :=
  let a := add_columns (mk_table ($"A") DEFAULT_SCHEMA None None) [col ($"x") ($"INT"); col ($"y") ($"INT")] in
  let a := add_fk_obj a {| fk_name := $"FK"; fk_from_table := $"A"; fk_from_keys := [$"x"; $"y"];
                           fk_to_table := $"B"; fk_to_keys := [$"k"; $"k"] |} in
  let b := add_columns (mk_table ($"B") DEFAULT_SCHEMA (Some (KeyList [$"k"; $"l"])) None)
             [col ($"k") ($"INT"); col ($"l") ($"INT")] in
  add_table (add_table (empty_database ($"db")) a) b.
Definition good_db : database :=
  let a := add_columns (mk_table ($"A") DEFAULT_SCHEMA (Some (OneKey ($"x"))) (Some {| sk_id := 1; sk_keys := [$"x"]; sk_shards := 8 |}))
             [col ($"x") ($"INT"); col ($"y") ($"VARCHAR(7)")] in
  let a := add_fk_obj a {| fk_name := $"FK"; fk_from_table := $"A"; fk_from_keys := [$"y"; $"x"];
                           fk_to_table := $"B"; fk_to_keys := [$"k"; $"l"] |} in
  let a := add_rel_obj a {| rel_name := $"R"; rel_from_table := $"A"; rel_to_table := $"B"; rel_conditions := $"c" |} in
  let b := add_columns (mk_table ($"B") DEFAULT_SCHEMA (Some (KeyList [$"l"; $"k"])) None)
             [col ($"k") ($"VARCHAR(0)"); col ($"l") ($"INT")] in
  add_table (add_table (empty_database ($"db")) a) b.
Definition bad_db : database :=
  let a := add_columns (mk_table ($"A") DEFAULT_SCHEMA (Some (OneKey ($"q"))) (Some {| sk_id := 1; sk_keys := [$"x"]; sk_shards := 8 |}))
             [col ($"x") ($"UNKNOWN"); col ($"y") ($"VARCHAR(7)")] in
  let a := add_fk_obj a {| fk_name := $"FK"; fk_from_table := $"A"; fk_from_keys := [$"y"];
                           fk_to_table := $"C"; fk_to_keys := [$"k"] |} in
  let a := add_rel_obj a {| rel_name := $"R"; rel_from_table := $"A"; rel_to_table := $"Z"; rel_conditions := $"c" |} in
  add_table (empty_database ($"db")) a.

Lemma paired_check d :
  forallb (fun t => forallb (fun fk => Nat.eqb (length (fk_from_keys fk)) (length (fk_to_keys fk)))
                            (foreign_keys_iter t)) (db_iter d) = true -> paired_db d.
Proof.
  intros H t fk Ht Hfk. rewrite forallb_forall in H. specialize (H t Ht).
  rewrite forallb_forall in H. apply Nat.eqb_eq, H, Hfk.
Qed.

Lemma valid_cases : paired_db good_db /\ paired_db bad_db
  /\ (exists r, validate good_db = Ok r /\ is_valid r = true)
  /\ (exists r, validate bad_db = Ok r /\ map snd (issues r) = [WARNING; ERROR; ERROR; ERROR; ERROR]).
Proof.
  split; [apply paired_check; reflexivity|]. split; [apply paired_check; reflexivity|].
  split; eexists; (split; [vm_compute; reflexivity | reflexivity]).
Qed.

Lemma c10_refuted : exists d r t fk tot, paired_db d /\ validate d = Ok r /\ is_valid r = true
  /\ In t (db_iter d) /\ In fk (foreign_keys_iter t) /\ get_table d (fk_to_table fk) = Some tot
  /\ ~ Permutation (fk_to_keys fk) (t_pk tot).
Proof.
  exists dup_db. eexists. eexists. eexists. eexists.
  split; [apply paired_check; reflexivity|].
  split; [vm_compute; reflexivity|]. split; [reflexivity|].
  split; [left; reflexivity|]. split; [left; reflexivity|]. split; [reflexivity|].
  simpl. intros Hp. assert (In ($"l") [$"k"; $"k"]) as H
    by (eapply Permutation_in; [apply Permutation_sym; exact Hp | right; left; reflexivity]).
  simpl in H. destruct H as [H|[H|[]]]; discriminate.
Qed.
