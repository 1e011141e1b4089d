(** * Lemmas: reading and parsing CREATE TABLE statements (for C45) *)
From Verif Require Export RoundCreate.

(** ** Numbers *)
Lemma digits_noch c n : is_digit c = false -> noch c (n_to_str n) = true.
Proof. intros H. apply noch_ok, digits_none; [apply n_to_str_ok|exact H]. Qed.
Lemma digits_hasnt p n : existsb (fun c => negb (is_digit c)) p = true -> hasnt p (n_to_str n) = true.
Proof.
  intros H. unfold hasnt. rewrite digits_lower by apply n_to_str_ok. apply existsb_exists in H. destruct H as [c [Hc N]]. apply negb_true_iff in N.
  unfold lacks. rewrite (nocc_absent p c); [reflexivity|exact Hc|]. apply digits_none; [apply n_to_str_ok|exact N].
Qed.
Lemma z_hasnt p z : existsb (fun c => negb (is_digit c || Ascii.eqb c "-")) p = true -> hasnt p (z_to_str z) = true.
Proof.
  intros H. apply existsb_exists in H. destruct H as [c [Hc N]]. apply negb_true_iff, orb_false_iff in N. destruct N as [N1 N2].
  unfold hasnt, lacks. rewrite (nocc_absent p c); [reflexivity|exact Hc|]. intros X. unfold lower in X. apply in_map_iff in X. destruct X as [d [E X]].
  apply z_to_str_chars in X. destruct X as [X| ->].
  - replace (lower_char d) with d in E; [subst d; congruence|]. symmetry. pose proof (all_chars (fun d => implb (is_digit d) (Ascii.eqb (lower_char d) d)) eq_refl d) as A. cbn beta in A.
    rewrite X in A. apply Ascii.eqb_eq, A.
  - subst c. discriminate N2.
Qed.
Lemma z_noch c z : is_digit c = false -> c <> "-"%char -> noch c (z_to_str z) = true.
Proof. intros A B. apply noch_ok. intros X. apply z_to_str_chars in X. destruct X; congruence. Qed.
Lemma n_ok n : ok_text (n_to_str n) = true.
Proof.
  unfold ok_text. rewrite !digits_noch by reflexivity. cbn [andb]. unfold lacks.
  rewrite (nocc_absent ($"--") "-"), (nocc_absent ($"/*") "/"), (nocc_absent ($"  ") " ");
    first [reflexivity | left; reflexivity | apply digits_none; [apply n_to_str_ok|reflexivity]].
Qed.
Lemma minus_ok s : ok_text s = true -> ~ In "-"%char s -> ok_text ("-"%char :: s) = true.
Proof.
  intros O N. apply ok_parts in O. change ("-"%char :: s) with ($"-" ++ s). unfold ok_text. rewrite !noch_app, !andb_true_iff, !noch_ok. unfold lacks. rewrite !negb_true_iff.
  destruct O as [A [B [C [D [E [F G]]]]]]. rewrite contains_false in E, F, G.
  repeat split; try (apply not_in_b; reflexivity); try assumption;
    apply contains_false; intros [a [b X]]; destruct a as [|x a]; try discriminate X; apply (f_equal (@tl _)) in X; change (tl ($"-" ++ s)) with s in X.
  - apply N. rewrite X. left. reflexivity.
  - apply E. exists a, b. exact X.
  - apply F. exists a, b. exact X.
  - apply G. exists a, b. exact X.
Qed.
Lemma z_ok z : ok_text (z_to_str z) = true.
Proof.
  destruct z as [|p|p]; [reflexivity|apply n_ok|]. apply minus_ok; [apply n_ok|]. apply digits_none; [apply n_to_str_ok|reflexivity].
Qed.
Lemma py_int_z z : py_int (z_to_str z) = Ok z.
Proof.
  assert (D : forall n, unsigned_val (n_to_str n) = Some n).
  { intros n. destruct (n_to_str_ok n) as [A [B C]]. apply unsigned_val_digits; assumption. }
  assert (S : forall n, exists c r, n_to_str n = c :: r /\ is_digit c = true /\ strip (n_to_str n) = n_to_str n).
  { intros n. destruct (n_to_str_ok n) as [A [B C]]. destruct (n_to_str n) as [|c r] eqn:E; [contradiction|]. exists c, r. split; [reflexivity|]. split.
    - cbn [forallb] in B. apply andb_true_iff in B. apply B.
    - apply digits_strip. exact B. }
  destruct z as [|p|p]; [reflexivity| |].
  - unfold z_to_str, py_int. destruct (S (Npos p)) as [c [r [E [Dc St]]]]. rewrite St. specialize (D (N.pos p)). rewrite E in *.
    assert (N1 : c <> "-"%char) by (intros ->; discriminate). assert (N2 : c <> "+"%char) by (intros ->; discriminate).
    revert N1 N2 D. clear. destruct c as [[] [] [] [] [] [] [] []]; intros N1 N2 D; try (rewrite D; reflexivity); contradiction.
  - unfold z_to_str, py_int. destruct (S (Npos p)) as [c [r [E [Dc St]]]].
    replace (strip ("-"%char :: n_to_str (N.pos p))) with ("-"%char :: n_to_str (N.pos p)); [rewrite D; reflexivity|].
    symmetry. apply strip_hard. rewrite ends_hard_eq. change ("-"%char :: n_to_str (N.pos p)) with ($"-" ++ n_to_str (N.pos p)). rewrite last_hard_app by (rewrite E; discriminate).
    apply andb_true_iff. split; [reflexivity|]. assert (H : ends_hard (n_to_str (N.pos p)) = true); [|rewrite ends_hard_eq in H; apply andb_true_iff in H; apply H].
    apply nospace_hard, forallb_forall. intros x Hx. destruct (n_to_str_ok (Npos p)) as [_ [B _]]. rewrite forallb_forall in B. rewrite (digit_not_space x (B x Hx)). reflexivity.
Qed.

(** ** The lines *)
Lemma ok_within a s b : ok_text (a ++ s ++ b) = true -> ok_text s = true.
Proof.
  intros H. apply ok_parts in H. destruct H as [A [B [C [D [E [F G]]]]]]. unfold ok_text. rewrite !andb_true_iff, !noch_ok. unfold lacks. rewrite !negb_true_iff.
  assert (I : forall c, ~ In c (a ++ s ++ b) -> ~ In c s) by (intros c N X; apply N, in_or_app; right; apply in_or_app; left; exact X).
  repeat split; auto; eapply nocc_within; eassumption.
Qed.
Lemma join_within sep x l : In x l -> exists a b, join sep l = a ++ x ++ b.
Proof.
  induction l as [|y l IH]; [intros []|]. intros [->|H].
  - destruct l as [|z l]; [exists [], []; rewrite app_nil_r; reflexivity|]. rewrite join_cons by discriminate. exists [], (sep ++ join sep (z :: l)). reflexivity.
  - destruct l as [|z l]; [destruct H|]. destruct (IH H) as [a [b E]]. rewrite join_cons by discriminate. rewrite E. exists (y ++ sep ++ a), b. rewrite <- !app_assoc. reflexivity.
Qed.
Definition comma_rest (fs : list str) : list str := match fs with [] => [] | f :: l => f :: map (cons ","%char) l end.
Lemma join_lines a fs z : join ($" ") (a :: comma_rest fs ++ [z]) = a ++ (match fs with [] => [] | f :: l => $" " ++ join ($" ,") (f :: l) end) ++ $" " ++ z.
Proof.
  assert (N : forall (l : list str) x, l ++ [x] <> []) by (intros l x E; apply (f_equal (@length _)) in E; rewrite app_length in E; cbn in E; lia).
  destruct fs as [|f l]; [reflexivity|]. cbn [comma_rest app].
  assert (G : forall l f, join ($" ") (f :: map (cons ","%char) l ++ [z]) = join ($" ,") (f :: l) ++ $" " ++ z).
  { clear - N. induction l as [|g l IH]; intros f; [reflexivity|]. cbn [map app]. change (f :: (","%char :: g) :: map (cons ","%char) l ++ [z]) with (f :: ((","%char :: g) :: map (cons ","%char) l ++ [z])).
    rewrite (join_cons _ f ((","%char :: g) :: _)) by discriminate. rewrite (join_cons _ f (g :: l)) by discriminate. specialize (IH (","%char :: g)). rewrite IH. rewrite <- !app_assoc.
    destruct l as [|h l]; [reflexivity|]. rewrite (join_cons _ (","%char :: g) (h :: l)), (join_cons _ g (h :: l)) by discriminate. reflexivity. }
  rewrite (join_cons _ a (f :: _)) by discriminate. rewrite G. rewrite <- !app_assoc. reflexivity.
Qed.

Section Table.
Variable t : table.
Hypothesis Ht : plain_table t.
Hypothesis Hwf : well_formed_table t.

Lemma create_ok_text : ok_text (create_text t) = true.
Proof.
  apply P_create; try assumption; try reflexivity; [exact ok_text_good|exact plain_ok|exact n_ok|exact z_ok].
Qed.
Lemma create_hasnt p : bare p = true -> existsb (fun c => negb (word_char c)) p = true -> existsb (fun c => negb (is_digit c || Ascii.eqb c "-")) p = true ->
  forallb (hasnt p) ([[]; $" "; $" VARCHAR"; $"CONSTRAINT PRIMARY KEY "; $" KEY"; $"."; $"CREATE TABLE "]
     ++ flat_map (fun ty => [$" " ++ ty ++ $" "; $" " ++ ty]) VALID_TYPES) = true ->
  (t_shard t <> None -> hasnt p ($" PARTITION BY HASH") = true) ->
  contains p (lower (create_text t)) = false.
Proof.
  intros B W Z F S. apply hasnt_contains. rewrite forallb_app, andb_true_iff in F. destruct F as [F1 F2]. rewrite forallb_forall in F1.
  apply P_create; try assumption; try (apply F1; cbn [In]; tauto).
  - apply hasnt_good, B.
  - intros w Hw. apply plain_hasnt; assumption.
  - intros n. apply digits_hasnt. apply existsb_exists in Z. destruct Z as [c [Hc N]]. apply existsb_exists. exists c. split; [exact Hc|].
    apply negb_true_iff, orb_false_iff in N. apply negb_true_iff. apply N.
  - intros z. apply z_hasnt, Z.
  - apply forallb_forall. intros ty Hty. rewrite forallb_forall in F2. apply andb_true_iff. split; apply F2, in_flat_map; exists ty; (split; [exact Hty|cbn [In]; tauto]).
Qed.
Lemma create_noch c : word_char c = false -> is_digit c = false -> c <> "-"%char -> c <> dquote -> c <> "("%char -> c <> ")"%char -> c <> ","%char -> c <> " "%char -> c <> "."%char ->
  forallb (noch c) ([$"VARCHAR"; $"CONSTRAINT PRIMARY KEY "; $" PARTITION BY HASH"; $"CREATE TABLE "] ++ VALID_TYPES) = true ->
  ~ In c (create_text t).
Proof.
  intros W D N Q O C M B Dt F. apply noch_ok. rewrite forallb_forall in F.
  assert (Sp : noch c ($" ") = true) by (apply noch_ok; intros [X|[]]; congruence).
  apply P_create; try assumption.
  - apply noch_good; assumption.
  - intros w Hw. apply plain_noch; assumption.
  - intros n. apply digits_noch, D.
  - intros z. apply z_noch; assumption.
  - reflexivity.
  - apply forallb_forall. intros ty Hty. rewrite !noch_app, Sp, (F ty) by (apply in_or_app; right; exact Hty). reflexivity.
  - change ($" VARCHAR") with ($" " ++ $"VARCHAR"). rewrite noch_app, Sp. apply F. cbn [app In]; tauto.
  - apply F. cbn [app In]; tauto.
  - intros _. apply F. cbn [app In]; tauto.
  - assert (X := F ($"CONSTRAINT PRIMARY KEY ") ltac:(cbn [app In]; tauto)). change ($"CONSTRAINT PRIMARY KEY ") with ($"CONSTRAINT PRIMARY" ++ $" KEY" ++ $" ") in X.
    rewrite !noch_app, !andb_true_iff in X. apply X.
  - apply noch_ok. intros [X|[]]; congruence.
  - apply F. cbn [app In]; tauto.
Qed.

Lemma type_last ty : readable_type ty -> ty <> [] /\ last_hard ty = true.
Proof.
  intros [H|[n ->]].
  - repeat (destruct H as [<-|H]; [split; [discriminate|reflexivity]|]). destruct H.
  - split; [discriminate|]. rewrite app_assoc, last_hard_app by discriminate. reflexivity.
Qed.
Lemma col_field_hard c : In c (table_iter t) -> ends_hard (col_field c) = true.
Proof.
  intros H. destruct (type_last _ (pt_coltypes _ Ht c H)) as [N L]. rewrite ends_hard_eq. unfold col_field. rewrite app_assoc, last_hard_app, L by exact N. reflexivity.
Qed.
Lemma pk_field_hard pk : ends_hard (pk_field pk) = true.
Proof. unfold pk_field. rewrite ends_hard_eq, app_assoc, last_hard_app by discriminate. reflexivity. Qed.
Lemma fields_hard f : In f (table_fields t) -> ends_hard f = true /\ f <> [] /\ starts_with ($"GO") f = false.
Proof.
  unfold table_fields. intros H. apply in_app_or in H. destruct H as [H|H].
  - apply in_map_iff in H. destruct H as [c [<- Hc]]. split; [apply col_field_hard, Hc|]. split; [discriminate|reflexivity].
  - destruct (negb _); [|destruct H]. destruct H as [<-|[]]. split; [apply pk_field_hard|]. split; [discriminate|reflexivity].
Qed.
Definition last_line : str := tl (create_end t).
Lemma end_line : create_end t = $" " ++ last_line /\ exists x, last_line = ")"%char :: x.
Proof. unfold last_line, create_end, shard_tail. destruct (t_shard t); (split; [reflexivity|eexists; reflexivity]). Qed.
Lemma last_line_end : exists x, last_line = x ++ $")".
Proof. unfold last_line, create_end, shard_tail. destruct (t_shard t); [eexists; cbn [tl list_ascii_of_string app]; rewrite ?app_comm_cons; reflexivity|exists []; reflexivity]. Qed.
Lemma create_text_lines : create_text t = join ($" ") ((create_head t ++ $" (") :: comma_rest (table_fields t) ++ [last_line]).
Proof. rewrite join_lines. unfold create_text. destruct end_line as [-> _]. rewrite <- !app_assoc. reflexivity. Qed.
Definition create_lines : list (str * str) :=
  ([], create_head t ++ $" (") :: match table_fields t with [] => [] | f :: l => ($"    ", f) :: map (fun g => ($"   ", ","%char :: g)) l end.
Lemma create_lines_snd : map snd create_lines = (create_head t ++ $" (") :: comma_rest (table_fields t).
Proof. unfold create_lines, comma_rest. cbn [map snd]. f_equal. destruct (table_fields t) as [|f l]; [reflexivity|]. cbn [map snd]. rewrite map_map. reflexivity. Qed.
Lemma gen_create_text : gen_create_table no_case t = Ok (stmt_text create_lines last_line).
Proof.
  unfold gen_create_table. rewrite !to_case_none. cbn [bind].
  assert (Cl : forall cs first, column_lines no_case first cs = concat (map line_text (match cs with [] => [] | c :: l =>
      (if first then ($"    ", col_field c) else ($"   ", ","%char :: col_field c)) :: map (fun g => ($"   ", ","%char :: col_field g)) l end))).
  { induction cs as [|c cs IH]; intros first; [reflexivity|]. cbn [column_lines map concat]. rewrite IH. unfold column_case. cbn [lowercase uppercase no_case].
    replace (concat (map line_text match cs with [] => [] | c0 :: l => (if false then ($"    ", col_field c0) else ($"   ", ","%char :: col_field c0)) :: map (fun g => ($"   ", ","%char :: col_field g)) l end))
      with (concat (map line_text (map (fun g => ($"   ", ","%char :: col_field g)) cs))) by (destruct cs; reflexivity).
    unfold line_text at 2. destruct first; unfold col_field; cbn [fst snd app list_ascii_of_string]; rewrite <- !app_assoc; reflexivity. }
  rewrite Cl. unfold stmt_text, create_lines, table_fields, last_line, create_end, shard_tail, pk_field, create_head.
  destruct (table_iter t) as [|c cs] eqn:Ec.
  - destruct (pt_columns _ Ht (iter_nil t Ec)) as [Epk Esh]. rewrite Epk, Esh. cbn [map app length Nat.eqb negb concat]. unfold line_text. cbn [fst snd app tl list_ascii_of_string]. do 4 (rewrite <- ?app_assoc; cbn [app]). reflexivity.
  - destruct (negb (Nat.eqb (length (t_pk t)) 0)); destruct (t_shard t) as [sk|]; cbn [map app concat]; unfold line_text at 1 2; cbn [fst snd app];
      rewrite ?map_app, ?concat_app, ?map_map; cbn [map concat]; unfold line_text; cbn [fst snd app tl list_ascii_of_string]; do 4 (rewrite ?app_nil_r, <- ?app_assoc; cbn [app]); reflexivity.
Qed.
Lemma create_reads : reads (stmt_text create_lines last_line) [create_text t].
Proof.
  assert (L : forall x, In x ((create_head t ++ $" (") :: comma_rest (table_fields t) ++ [last_line]) -> ok_text x = true).
  { intros x H. destruct (join_within ($" ") _ _ H) as [a [b E]]. pose proof create_ok_text as O. rewrite create_text_lines, E in O. eapply ok_within, O. }
  apply reads_stmt.
  - apply Forall_forall. intros [w x] H. cbn [fst snd]. assert (Hx : In x (map snd create_lines)) by (apply (in_map snd) in H; exact H).
    rewrite create_lines_snd in Hx. split.
    + unfold create_lines in H. destruct H as [E|H]; [injection E as <- _; reflexivity|]. destruct (table_fields t) as [|f l]; [destruct H|].
      destruct H as [E|H]; [injection E as <- _; reflexivity|]. apply in_map_iff in H. destruct H as [g [E _]]. injection E as <- _. reflexivity.
    + assert (O : ok_text x = true) by (apply L; destruct Hx as [->|Hx]; [left; reflexivity|right; apply in_or_app; left; exact Hx]).
      destruct Hx as [<-|Hx].
      * split; [rewrite ends_hard_eq, last_hard_app by discriminate; reflexivity|exact O|reflexivity].
      * unfold comma_rest in Hx. destruct (table_fields t) as [|f l] eqn:Ef; [destruct Hx|]. destruct Hx as [<-|Hx].
        -- destruct (fields_hard f) as [A [B C]]; [rewrite Ef; left; reflexivity|]. split; assumption.
        -- apply in_map_iff in Hx. destruct Hx as [g [<- Hg]]. destruct (fields_hard g) as [A [B C]]; [rewrite Ef; right; exact Hg|].
           split; [|exact O|reflexivity]. rewrite ends_hard_eq in *. apply andb_true_iff in A. destruct A as [_ A].
           change (","%char :: g) with ([","%char] ++ g). rewrite last_hard_app, A by exact B. reflexivity.
  - destruct end_line as [_ [x E]]. destruct last_line_end as [y E']. split.
    + rewrite ends_hard_eq. apply andb_true_iff. split; [rewrite E; reflexivity|rewrite E', last_hard_app by discriminate; reflexivity].
    + apply L. right. apply in_or_app. right. left. reflexivity.
    + rewrite E. reflexivity.
  - destruct end_line as [_ [x E]]. rewrite E. discriminate.
  - destruct end_line as [_ [x E]]. rewrite E. reflexivity.
  - pose proof create_lines_snd as Q. unfold str in *. rewrite Q. exact create_text_lines.
  - destruct last_line_end as [y E']. rewrite ends_hard_eq. apply andb_true_iff. split; [reflexivity|]. unfold create_text. destruct end_line as [-> _]. rewrite E'.
    rewrite !app_assoc. rewrite last_hard_app by discriminate. reflexivity.
  - pose proof (ok_parts _ create_ok_text). tauto.
Qed.
End Table.
