(** * Lemmas: relationship statements (for C45) *)
From Verif Require Export RoundAlter.
From Verif Require Import Messages.

Lemma contains_skip p x s : starts_with p (x :: s) = false -> contains p (x :: s) = contains p s.
Proof. intros H. unfold contains. cbn [find_opt]. rewrite H. destruct (find_opt p s); reflexivity. Qed.
Definition rel_text (s n : str) (r : relationship) : str :=
  $"ALTER TABLE " ++ quoted s ++ $"." ++ quoted n ++ $" ADD RELATIONSHIP " ++ quoted (rel_name r) ++ $" WITH "
  ++ quoted s ++ $"." ++ quoted (rel_to_table r) ++ $" AS " ++ rel_conditions r.
Section RelText.
Variables s n : str.
Variable r : relationship.
Hypothesis Hs : plain s.
Hypothesis Hn : plain n.
Hypothesis Hname : plain (rel_name r).
Hypothesis Hto : plain (rel_to_table r).
Hypothesis Hf : forall w, In w [s; n; rel_name r; rel_to_table r] -> ~ mentions ($"foreign") w.
Hypothesis Hc : readable_condition (rel_conditions r).
Let c := rel_conditions r.

Lemma rel_text_P P : sepable P -> (forall w, plain w -> In w [s; n; rel_name r; rel_to_table r] -> P w = true) ->
  P ($"ALTER TABLE ") = true -> P ($".") = true -> P ($" ADD RELATIONSHIP ") = true -> P ($" WITH ") = true -> P ($" AS " ++ c) = true ->
  P (rel_text s n r) = true.
Proof.
  intros HP W A B C D E. unfold rel_text.
  apply sep_quoted; [exact HP|exact A|apply W; [exact Hs|cbn; tauto]|]. apply sep_quoted; [exact HP|exact B|apply W; [exact Hn|cbn; tauto]|].
  apply sep_quoted; [exact HP|exact C|apply W; [exact Hname|cbn; tauto]|]. apply sep_quoted; [exact HP|exact D|apply W; [exact Hs|cbn; tauto]|].
  apply sep_quoted; [exact HP|exact B|apply W; [exact Hto|cbn; tauto]|exact E].
Qed.
Lemma cond_word p : In p [$"create database"; $"create table"; $"create or replace table"; $"primary key"; $"foreign"] -> hasnt p ($" AS " ++ c) = true.
Proof.
  intros H. pose proof (pc_words _ Hc p H) as M. apply mentions_hasnt in M. fold c in M. unfold hasnt, lacks in *. apply negb_true_iff in M. apply negb_true_iff.
  change (lower ($" AS " ++ c)) with ($" as " ++ lower c).
  revert M. generalize (lower c). intros l M.
  destruct H as [<-|[<-|[<-|[<-|[<-|[]]]]]]; cbn [list_ascii_of_string app]; rewrite !contains_skip by reflexivity; exact M.
Qed.
Lemma rel_hasnt p : In p [$"create database"; $"create table"; $"create or replace table"; $"primary key"] ->
  contains p (lower (rel_text s n r)) = false.
Proof.
  intros H. apply hasnt_contains. assert (E : noch dquote p = true /\ existsb (fun c => negb (word_char c)) p = true
    /\ forallb (hasnt p) [$"ALTER TABLE "; $"."; $" ADD RELATIONSHIP "; $" WITH "] = true)
    by (destruct H as [<-|[<-|[<-|[<-|[]]]]]; repeat split; reflexivity).
  destruct E as [Q [B F]]. rewrite forallb_forall in F. apply rel_text_P; try (apply F; cbn [In]; tauto).
  - apply hasnt_sepable, Q.
  - intros w Pw _. apply plain_hasnt; assumption.
  - apply cond_word. cbn [In] in *. tauto.
Qed.
Lemma rel_hasnt_foreign : contains ($"foreign") (lower (rel_text s n r)) = false.
Proof.
  apply hasnt_contains, rel_text_P; try reflexivity; [apply hasnt_sepable; reflexivity|intros w _ Hw; apply mentions_hasnt, Hf, Hw|apply cond_word; cbn [In]; tauto].
Qed.
Lemma cond_ok : ok_text c = true /\ c <> [] /\ ends_hard c = true.
Proof.
  destruct Hc as [N [S L T [T1 T2] Sg] Cr [D1 D2] _ _]. fold c in N, S, L, T, T1, T2, Sg, Cr, D1, D2. split; [|split; [exact N|]].
  - unfold ok_text. rewrite !andb_true_iff, !noch_ok. unfold lacks. rewrite !negb_true_iff, !contains_false. auto 10.
  - unfold ends_hard. apply andb_true_iff. split.
    + destruct c as [|x m]; [reflexivity|]. rewrite (T1 x m eq_refl). reflexivity.
    + destruct (rev c) as [|x m] eqn:R; [reflexivity|]. rewrite (T2 x (rev m)); [reflexivity|]. rewrite <- (rev_involutive c), R. reflexivity.
Qed.
Lemma rel_text_line : line_ok (rel_text s n r).
Proof.
  destruct cond_ok as [O [N E]]. constructor; [| |reflexivity].
  - rewrite ends_hard_eq. apply andb_true_iff. split; [reflexivity|]. unfold rel_text. rewrite !app_assoc. rewrite last_hard_app by exact N.
    rewrite ends_hard_eq in E. apply andb_true_iff in E. apply E.
  - apply rel_text_P; try reflexivity; [exact ok_text_sepable|intros w Pw _; apply plain_ok, Pw|].
    apply ok_parts in O. destruct O as [O1 [O2 [O3 [O4 [O5 [O6 O7]]]]]]. unfold ok_text. rewrite !noch_app, !andb_true_iff, !noch_ok. unfold lacks. rewrite !negb_true_iff.
    repeat split; try assumption; try (apply not_in_b; reflexivity).
    + clear - O5. revert O5. generalize c. intros l M. cbn [list_ascii_of_string app]; rewrite !contains_skip by reflexivity; exact M.
    + clear - O6. revert O6. generalize c. intros l M. cbn [list_ascii_of_string app]; rewrite !contains_skip by reflexivity; exact M.
    + rewrite ends_hard_eq in E. apply andb_true_iff in E. destruct E as [E _]. apply contains_false. intros [a [b X]]. destruct c as [|x m] eqn:Ec; [contradiction|].
      destruct a as [|a1 [|a2 [|a3 [|a4 a]]]]; cbn in X; try discriminate X.
      * injection X as _ _ _ X _. rewrite X in E. discriminate E.
      * injection X as _ _ _ _ X. apply contains_false in O7. apply O7. exists a, b. exact X.
Qed.
Lemma clause p : In p [$" add relationship "; $" with "; $" as "] -> hasnt p ($" " ++ c) = true.
Proof. intros H. apply mentions_hasnt, (pc_clauses _ Hc p H). Qed.
Lemma rel_parts_text : rel_parts (rel_text s n r) = Some (Ok n, Some (rel_name r), Ok (rel_to_table r), c).
Proof.
  destruct cond_ok as [O [N E]].
  assert (M : rmatch named_rel_pattern (rel_text s n r)
     = Some [quoted s ++ $"." ++ quoted n; quoted (rel_name r); quoted s ++ $"." ++ quoted (rel_to_table r); c]).
  { unfold named_rel_pattern, rel_text. rewrite rmatch_lit by reflexivity. fold c.
    assert (Bare : forall p, noch dquote p = true -> existsb (fun c => negb (word_char c)) p = true ->
       forallb (hasnt p) [[]; $"."] = true -> forall a b, hasnt p a = true -> hasnt p b = true -> forall x y, plain x -> plain y -> hasnt p (a ++ quoted x ++ $"." ++ quoted y ++ b) = true).
    { intros p Q B F a b A Bb x y X Y. rewrite forallb_forall in F. apply sep_quoted; [apply hasnt_sepable, Q|exact A|apply plain_hasnt; assumption|].
      apply sep_quoted; [apply hasnt_sepable, Q|apply F; cbn [In]; tauto|apply plain_hasnt; assumption|exact Bb]. }
    assert (Cl : forall p, In p [$" add relationship "; $" with "] -> hasnt p ($" AS " ++ c) = true).
    { intros p H. pose proof (clause p ltac:(cbn [In] in *; tauto)) as C. unfold hasnt, lacks in *. apply negb_true_iff in C. apply negb_true_iff.
      change (lower ($" AS " ++ c)) with ($" as" ++ lower ($" " ++ c)). change (lower ($" " ++ c)) with (" "%char :: lower c) in *. revert C. generalize (lower c). intros l C.
      destruct H as [<-|[<-|[]]]; cbn [list_ascii_of_string app]; rewrite (contains_skip _ " "), (contains_skip _ "a"), (contains_skip _ "s") by reflexivity; exact C. }
    rewrite (app_assoc ($".")), (app_assoc (quoted s)).
    apply group_lit; [apply two_newline; assumption|reflexivity| |discriminate|].
    - change (hasnt ($" add relationship ") ($"ADD RELATIONSHIP " ++ quoted (rel_name r) ++ $" WITH " ++ quoted s ++ $"." ++ quoted (rel_to_table r) ++ $" AS " ++ c) = true).
      apply sep_quoted; [apply hasnt_sepable; reflexivity|reflexivity|apply plain_hasnt; [assumption|reflexivity]|].
      apply Bare; try reflexivity; try assumption. apply Cl. cbn [In]; tauto.
    - apply group_lit; [apply quoted_newline; assumption|reflexivity| |discriminate|].
      + change (hasnt ($" with ") ($"WITH " ++ quoted s ++ $"." ++ quoted (rel_to_table r) ++ $" AS " ++ c) = true).
        apply Bare; try reflexivity; try assumption. apply Cl. cbn [In]; tauto.
      + rewrite (app_assoc ($".")), (app_assoc (quoted s)). apply group_lit; [apply two_newline; assumption|reflexivity| |discriminate|].
        * change (hasnt ($" as ") ($"AS" ++ $" " ++ c) = true). pose proof (clause ($" as ") ltac:(cbn [In]; tauto)) as C. unfold hasnt, lacks in *.
          apply negb_true_iff in C. apply negb_true_iff. change (lower ($"AS" ++ $" " ++ c)) with ($"as" ++ lower ($" " ++ c)).
          change (lower ($" " ++ c)) with (" "%char :: lower c) in *. revert C. generalize (lower c). intros l C. 
          cbn [list_ascii_of_string app]; rewrite (contains_skip _ "a"), (contains_skip _ "s") by reflexivity; exact C.
        * apply group_end. apply ok_parts in O. apply noch_ok. tauto. }
  unfold rel_parts. rewrite M, !extract_two by assumption. rewrite <- (app_nil_l (quoted (rel_name r))), clean_quoted by (assumption || (left; reflexivity)). reflexivity.
Qed.
Lemma parse_rel_text d t : get_table d n = Some t -> t_name t = n -> rel_from_table r = n ->
  forall schema id, heard_statement schema id d (rel_text s n r) = (Ok (store_table d n (add_rel_obj t r)), []).
Proof.
  intros T Tn Ff schema id. unfold heard_statement. cbn zeta.
  rewrite (rel_hasnt ($"create database")), (rel_hasnt ($"create table")), (rel_hasnt ($"create or replace table")), (rel_hasnt ($"primary key")), rel_hasnt_foreign
    by (cbn [In]; tauto).
  cbn [orb].
  replace (contains ($"alter table") (lower (rel_text s n r))) with true by reflexivity.
  replace (contains ($"relationship") (lower (rel_text s n r))) with true.
  2: { symmetry. apply contains_true. unfold rel_text. rewrite !lower_app. do 4 (apply occurs_app; right). apply occurs_app. left.
       exists ($" add "), ($" "). reflexivity. }
  unfold heard_relationship. rewrite rel_parts_text, T. unfold add_rel_parts, mk_relationship. cbn [bind].
  rewrite Tn, <- Ff. f_equal. f_equal. f_equal. f_equal. unfold c. destruct r; reflexivity.
Qed.
End RelText.
