(** * Lemmas: the one-line statements of a script and what the parser makes of them (for C45) *)
From Verif Require Export RoundLines.
From Verif Require Import Messages.

Definition hasnt (p s : str) : bool := lacks p (lower s).
Lemma hasnt_sepable p : noch dquote p = true -> sepable (hasnt p).
Proof. intros H. apply (lower_sepable (lacks p)), lacks_sepable, noch_ok, H. Qed.
Lemma hasnt_contains p s : hasnt p s = true -> contains p (lower s) = false.
Proof. unfold hasnt, lacks. apply negb_true_iff. Qed.
Lemma plain_hasnt w p : plain w -> existsb (fun c => negb (word_char c)) p = true -> hasnt p w = true.
Proof. intros H E. unfold hasnt. apply plain_lacks; [apply plain_lower; exact H|exact E]. Qed.
Lemma mentions_hasnt w s : ~ mentions w s -> hasnt w s = true.
Proof. unfold mentions, hasnt, lacks. intros H. apply negb_true_iff, contains_false, H. Qed.
Lemma plain_ok w : plain w -> ok_text w = true.
Proof. intros H. unfold ok_text. rewrite !plain_noch, !plain_lacks by (try exact H; reflexivity). reflexivity. Qed.

Section SepEnd.
Variable P : str -> bool.
Hypothesis HP : sepable P.
Lemma sep_quoted_end a w : P a = true -> P w = true -> P [] = true -> P (a ++ quoted w) = true.
Proof. intros A W B. rewrite <- (app_nil_r (quoted w)). apply sep_quoted; assumption. Qed.
Lemma sep_quoted_start w b : P [] = true -> P w = true -> P b = true -> P (quoted w ++ b) = true.
Proof. intros A W B. exact (sep_quoted P HP [] w b A W B). Qed.
End SepEnd.

Lemma lower_quoted w : lower (quoted w) = quoted (lower w).
Proof. unfold quoted. change (lower (Generator.dq :: w ++ [Generator.dq])) with (Generator.dq :: lower (w ++ [Generator.dq])). rewrite lower_app. reflexivity. Qed.

(** texts that begin and end with hard characters *)
Definition head_hard (s : str) : bool := match s with [] => true | c :: _ => negb (is_space c) end.
Definition last_hard (s : str) : bool := match rev s with [] => true | c :: _ => negb (is_space c) end.
Lemma ends_hard_eq s : ends_hard s = head_hard s && last_hard s.
Proof. reflexivity. Qed.
Lemma last_hard_app a b : b <> [] -> last_hard (a ++ b) = last_hard b.
Proof.
  intros N. unfold last_hard. rewrite rev_app_distr. destruct (rev b) as [|d r] eqn:R; [|reflexivity].
  apply (f_equal (@length _)) in R. rewrite rev_length in R. destruct b; [contradiction|discriminate].
Qed.
Lemma last_hard_quoted w : last_hard (quoted w) = true.
Proof. unfold quoted. change (Generator.dq :: w ++ [Generator.dq]) with ((Generator.dq :: w) ++ [Generator.dq]). rewrite last_hard_app by discriminate. reflexivity. Qed.
Lemma quoted_nonnil w : quoted w <> []. Proof. discriminate. Qed.

(** ** Names *)
Lemma plain_strip w : plain w -> strip w = w.
Proof. intros H. apply strip_hard, nospace_hard, plain_nospace, H. Qed.
Lemma quoted_strip w : strip (quoted w) = quoted w.
Proof. apply strip_hard. rewrite ends_hard_eq. rewrite last_hard_quoted. reflexivity. Qed.
Lemma quoted_noch c w : plain w -> word_char c = false -> c <> dquote -> ~ In c (quoted w).
Proof.
  intros H C N X. unfold quoted in X. destruct X as [X|X]; [symmetry in X; contradiction|]. apply in_app_or in X. destruct X as [X|[X|[]]].
  - exact (plain_char w c H C X).
  - symmetry in X; contradiction.
Qed.
Lemma replace_plain c x w : plain w -> word_char c = false -> replace_char c x w = w.
Proof. intros H E. apply replace_absent, plain_char; assumption. Qed.
Lemma replace_quoted w : plain w -> replace_char dquote [] (quoted w) = w.
Proof.
  intros H. unfold quoted. change (Generator.dq :: w ++ [Generator.dq]) with ([dquote] ++ w ++ [dquote]). rewrite !replace_app.
  rewrite (replace_absent dquote [] w) by (apply plain_char; [exact H|reflexivity]). change (replace_char dquote [] [dquote]) with ([] : str). apply app_nil_r.
Qed.
Lemma clean_quoted w v : plain w -> (v = [] \/ v = $" ") -> clean_name (v ++ quoted w) = w.
Proof.
  intros H V. unfold clean_name. rewrite split_char_none.
  - unfold last_of. cbn [last]. replace (strip (v ++ quoted w)) with (quoted w).
    + rewrite (replace_absent tab) by (apply quoted_noch; [exact H|reflexivity|discriminate]). rewrite replace_quoted by exact H.
      rewrite (replace_plain squote _ w), (replace_plain "[" _ w), (replace_plain "]" _ w) by (exact H || reflexivity). reflexivity.
    + symmetry. rewrite <- (app_nil_r (quoted w)) at 1. apply strip_around; [destruct V as [-> | ->]; reflexivity|reflexivity|].
      rewrite ends_hard_eq, last_hard_quoted. reflexivity.
  - intros X. apply in_app_or in X. destruct X as [X|X]; [destruct V as [-> | ->]; [destruct X|destruct X as [X|[]]; discriminate X]|].
    revert X. apply quoted_noch; [exact H|reflexivity|discriminate].
Qed.
Lemma last_two a b : plain a -> plain b -> last_of (split_char "." (quoted a ++ $"." ++ quoted b)) = quoted b.
Proof.
  intros A B. change ($"." ++ quoted b) with ("."%char :: quoted b). rewrite split_char_app by (apply quoted_noch; [exact A|reflexivity|discriminate]).
  rewrite split_char_none by (apply quoted_noch; [exact B|reflexivity|discriminate]). reflexivity.
Qed.
Lemma clean_two a b : plain a -> plain b -> clean_name (quoted a ++ $"." ++ quoted b) = b.
Proof.
  intros A B. rewrite <- (clean_quoted b [] B) at 2 by (left; reflexivity). unfold clean_name. rewrite last_two by assumption. cbn [app].
  rewrite split_char_none by (apply quoted_noch; [exact B|reflexivity|discriminate]). reflexivity.
Qed.
Lemma extract_two a b : plain a -> plain b -> extract_table_name (quoted a ++ $"." ++ quoted b) = Ok b.
Proof.
  intros A B. unfold extract_table_name. rewrite last_two by assumption. unfold quoted, extract_name. change (Ascii.eqb Generator.dq dquote) with true. cbn [bind].
  change [Generator.dq] with (dquote :: []). rewrite split_char_app by (apply plain_char; [exact B|reflexivity]). cbn [hd bind].
  f_equal. unfold clean_name. rewrite split_char_none by (apply plain_char; [exact B|reflexivity]). unfold last_of. cbn [last]. rewrite plain_strip by exact B.
  rewrite (replace_plain tab _ b), (replace_plain dquote _ b), (replace_plain squote _ b), (replace_plain "[" _ b), (replace_plain "]" _ b) by (exact B || reflexivity). reflexivity.
Qed.
Lemma key_columns_list l : l <> [] -> (forall w, In w l -> plain w) -> key_columns_of (list_to_string l true) = l.
Proof.
  intros N H. unfold key_columns_of, list_to_string. assert (G : forall l v, l <> [] -> (forall w, In w l -> plain w) -> (v = [] \/ v = $" ") ->
    map clean_name (split_char "," (v ++ join ($", ") (map quoted l))) = l).
  { clear. induction l as [|w [|w' l] IH]; intros v N H V; [contradiction| |].
    - cbn [map join]. rewrite split_char_none.
      + cbn [map]. rewrite clean_quoted; [reflexivity|apply H; left; reflexivity|exact V].
      + intros X. apply in_app_or in X. destruct X as [X|X]; [destruct V as [-> | ->]; [destruct X|destruct X as [X|[]]; discriminate X]|].
        revert X. apply quoted_noch; [apply H; left; reflexivity|reflexivity|discriminate].
    - cbn [map]. rewrite join_cons by discriminate. change ($", " ++ join ($", ") (quoted w' :: map quoted l)) with (","%char :: $" " ++ join ($", ") (map quoted (w' :: l))).
      rewrite app_assoc, split_char_app.
      + cbn [map]. rewrite clean_quoted; [|apply H; left; reflexivity|exact V]. f_equal. apply IH; [discriminate|intros x Hx; apply H; right; exact Hx|right; reflexivity].
      + intros X. apply in_app_or in X. destruct X as [X|X]; [destruct V as [-> | ->]; [destruct X|destruct X as [X|[]]; discriminate X]|].
        revert X. apply quoted_noch; [apply H; left; reflexivity|reflexivity|discriminate]. }
  exact (G l [] N H (or_introl eq_refl)).
Qed.
Lemma strip_char_hard c s : (forall r, s <> c :: r) -> (forall r, s <> r ++ [c]) -> strip_char c s = s.
Proof.
  intros A B. unfold strip_char. assert (L : lstrip_char c s = s).
  { destruct s as [|x s]; [reflexivity|]. cbn [lstrip_char]. destruct (Ascii.eqb_spec x c) as [->|]; [exfalso; apply (A s); reflexivity|reflexivity]. }
  rewrite L. assert (R : lstrip_char c (rev s) = rev s).
  { destruct (rev s) as [|x r] eqn:E; [reflexivity|]. cbn [lstrip_char]. destruct (Ascii.eqb_spec x c) as [->|]; [|reflexivity].
    exfalso. apply (B (rev r)). rewrite <- (rev_involutive s), E. reflexivity. }
  rewrite R. apply rev_involutive.
Qed.

(** ** One-line statements *)
Lemma reads_one c : line_ok c -> c <> [] -> starts_with ($"GO") (c ++ $";") = false -> reads (c ++ $";" ++ [newline]) [c].
Proof.
  intros L N G. change (c ++ $";" ++ [newline]) with (stmt_text [] c). destruct L as [H O Go]. pose proof (ok_parts _ O) as Op.
  apply reads_stmt; [constructor|split; assumption|exact N|exact G|reflexivity|exact H|tauto].
Qed.
Ltac qsep HP :=
  repeat first
    [ apply (sep_quoted _ HP) | apply (sep_list _ HP) | apply (sep_quoted_end _ HP) | apply (sep_quoted_start _ HP) ].

Definition passive (schema : str) (c : str) : Prop := forall id d, heard_statement schema id d c = (Ok d, []).
Lemma passive_intro schema c : hasnt ($"create table") c = true -> hasnt ($"create or replace table") c = true ->
  hasnt ($"alter table") c = true -> passive schema c.
Proof.
  intros A B C id d. apply hasnt_contains in A, B, C. unfold heard_statement. cbn zeta. rewrite A, B, C. cbn [orb]. destruct (contains ($"create database") (lower c)); reflexivity.
Qed.
Lemma to_case_none n : to_case no_case n = Ok n.
Proof. unfold to_case. destruct (str_eqb n DEFAULT_SCHEMA); reflexivity. Qed.

Ltac line_quoted Hw :=
  constructor; [rewrite ends_hard_eq, last_hard_app, last_hard_quoted by discriminate; reflexivity
               |qsep ok_text_sepable; try reflexivity; apply plain_ok; exact Hw|reflexivity].
Lemma create_database_reads schema n : plain n -> exists s, gen_create_database no_case n = Ok s
  /\ reads s [$"CREATE DATABASE " ++ quoted n] /\ passive schema ($"CREATE DATABASE " ++ quoted n).
Proof.
  intros H. unfold gen_create_database. rewrite to_case_none. cbn [bind]. eexists. split; [reflexivity|]. split.
  - rewrite app_assoc. apply reads_one; [line_quoted H|discriminate|reflexivity].
  - apply passive_intro; (apply sep_quoted_end; [apply hasnt_sepable; reflexivity|reflexivity|apply plain_hasnt; [exact H|reflexivity]|reflexivity]).
Qed.
Lemma use_database_reads schema n : plain n -> exists s, gen_use_database no_case n = Ok s
  /\ reads s [$"USE " ++ quoted n] /\ passive schema ($"USE " ++ quoted n).
Proof.
  intros H. unfold gen_use_database. rewrite to_case_none. cbn [bind]. eexists. split; [reflexivity|]. split.
  - rewrite app_assoc. apply reads_one; [line_quoted H|discriminate|reflexivity].
  - apply passive_intro; (apply sep_quoted_end; [apply hasnt_sepable; reflexivity|reflexivity|apply plain_hasnt; [exact H|reflexivity]|reflexivity]).
Qed.
Lemma create_schema_reads schema n : plain n -> exists s, gen_create_schema no_case n = Ok s
  /\ reads s [$"CREATE SCHEMA " ++ quoted n] /\ passive schema ($"CREATE SCHEMA " ++ quoted n).
Proof.
  intros H. unfold gen_create_schema. rewrite to_case_none. cbn [bind]. eexists. split; [reflexivity|]. split.
  - rewrite app_assoc. apply reads_one; [line_quoted H|discriminate|reflexivity].
  - apply passive_intro; (apply sep_quoted_end; [apply hasnt_sepable; reflexivity|reflexivity|apply plain_hasnt; [exact H|reflexivity]|reflexivity]).
Qed.
Lemma cased_names_none t : cased_names no_case t = Ok (t_schema t, t_name t).
Proof. unfold cased_names. rewrite !to_case_none. reflexivity. Qed.
Definition drop_text (s n : str) : str := $"DROP TABLE " ++ quoted s ++ $"." ++ quoted n.
Lemma drop_table_reads schema t : plain (t_schema t) -> plain (t_name t) -> exists s, gen_drop_table no_case t = Ok s
  /\ reads s [drop_text (t_schema t) (t_name t)] /\ passive schema (drop_text (t_schema t) (t_name t)).
Proof.
  intros H H'. unfold gen_drop_table. rewrite cased_names_none. cbn [bind]. eexists. split; [reflexivity|]. split.
  - replace ($"DROP TABLE " ++ quoted (t_schema t) ++ $"." ++ quoted (t_name t) ++ $";" ++ [nl]) with (drop_text (t_schema t) (t_name t) ++ $";" ++ [newline])
      by (unfold drop_text; rewrite <- !app_assoc; reflexivity).
    apply reads_one; [|discriminate|reflexivity]. unfold drop_text. constructor.
    + rewrite ends_hard_eq. rewrite !app_assoc, last_hard_app, last_hard_quoted by discriminate. reflexivity.
    + qsep ok_text_sepable; try reflexivity; apply plain_ok; assumption.
    + reflexivity.
  - unfold drop_text. apply passive_intro; (apply sep_quoted; [apply hasnt_sepable; reflexivity|reflexivity|apply plain_hasnt; [assumption|reflexivity]|];
      apply sep_quoted_end; [apply hasnt_sepable; reflexivity|reflexivity|apply plain_hasnt; [assumption|reflexivity]|reflexivity]).
Qed.

(** ** Foreign keys *)
Definition fk_body (s : str) (fk : foreign_key) : str :=
  quoted (fk_name fk) ++ $" FOREIGN KEY (" ++ list_to_string (fk_from_keys fk) true ++ $") REFERENCES "
  ++ quoted s ++ $"." ++ quoted (fk_to_table fk) ++ $" (" ++ list_to_string (fk_to_keys fk) true ++ $")".
Definition fk_text (s n : str) (fk : foreign_key) : str :=
  $"ALTER TABLE " ++ quoted s ++ $"." ++ quoted n ++ $" ADD CONSTRAINT " ++ fk_body s fk.
Section FkText.
Variables s n : str.
Variable fk : foreign_key.
Hypothesis Hs : plain s.
Hypothesis Hn : plain n.
Hypothesis Hw : forall w, In w ([fk_name fk; fk_to_table fk] ++ fk_from_keys fk ++ fk_to_keys fk) -> plain w.
Hypothesis Nf : fk_from_keys fk <> [].
Hypothesis Nt : fk_to_keys fk <> [].
Hypothesis Hc : forall w, In w ([s; n; fk_name fk; fk_to_table fk] ++ fk_from_keys fk ++ fk_to_keys fk) -> ~ mentions ($"constraint") w.
Let Hname : plain (fk_name fk). Proof. apply Hw. left. reflexivity. Qed.
Let Hto : plain (fk_to_table fk). Proof. apply Hw. right. left. reflexivity. Qed.
Let Hfrom : forall w, In w (fk_from_keys fk) -> plain w. Proof. intros w H. apply Hw, in_or_app. right. apply in_or_app. left. exact H. Qed.
Let Htos : forall w, In w (fk_to_keys fk) -> plain w. Proof. intros w H. apply Hw, in_or_app. right. apply in_or_app. right. exact H. Qed.

Lemma fk_body_P P : sepable P -> (forall w, plain w -> In w ([s; n; fk_name fk; fk_to_table fk] ++ fk_from_keys fk ++ fk_to_keys fk) -> P w = true) ->
  P [] = true -> P ($" FOREIGN KEY (") = true -> P ($", ") = true -> P ($") REFERENCES ") = true -> P ($".") = true -> P ($" (") = true -> P ($")") = true ->
  P (fk_body s fk) = true.
Proof.
  intros HP W A B C D E F G. unfold fk_body.
  apply sep_quoted_start; [exact HP|exact A|apply W; [exact Hname|cbn; tauto]|].
  apply sep_list; [exact HP|exact B| |exact C| |intros X; contradiction].
  2: { intros w H. apply W; [apply Hfrom, H|]. apply in_or_app. right. apply in_or_app. left. exact H. }
  apply sep_quoted; [exact HP|exact D|apply W; [exact Hs|cbn; tauto]|].
  apply sep_quoted; [exact HP|exact E|apply W; [exact Hto|cbn; tauto]|].
  apply sep_list; [exact HP|exact F|exact G|exact C| |intros X; contradiction].
  intros w H. apply W; [apply Htos, H|]. apply in_or_app. right. apply in_or_app. right. exact H.
Qed.
Lemma fk_text_P P : sepable P -> (forall w, plain w -> In w ([s; n; fk_name fk; fk_to_table fk] ++ fk_from_keys fk ++ fk_to_keys fk) -> P w = true) ->
  P [] = true -> P ($" FOREIGN KEY (") = true -> P ($", ") = true -> P ($") REFERENCES ") = true -> P ($".") = true -> P ($" (") = true -> P ($")") = true ->
  P ($"ALTER TABLE ") = true -> P ($" ADD CONSTRAINT ") = true -> P (fk_text s n fk) = true.
Proof.
  intros HP W A B C D E F G H I. unfold fk_text.
  apply sep_quoted; [exact HP|exact H|apply W; [exact Hs|cbn; tauto]|].
  apply sep_quoted; [exact HP|exact E|apply W; [exact Hn|cbn; tauto]|].
  unfold fk_body. apply sep_quoted; [exact HP|exact I|apply W; [exact Hname|cbn; tauto]|].
  apply sep_list; [exact HP|exact B| |exact C| |intros X; contradiction].
  2: { intros w X. apply W; [apply Hfrom, X|]. apply in_or_app. right. apply in_or_app. left. exact X. }
  apply sep_quoted; [exact HP|exact D|apply W; [exact Hs|cbn; tauto]|].
  apply sep_quoted; [exact HP|exact E|apply W; [exact Hto|cbn; tauto]|].
  apply sep_list; [exact HP|exact F|exact G|exact C| |intros X; contradiction].
  intros w X. apply W; [apply Htos, X|]. apply in_or_app. right. apply in_or_app. right. exact X.
Qed.
Lemma fk_text_hasnt p : noch dquote p = true -> existsb (fun c => negb (word_char c)) p = true ->
  forallb (hasnt p) [[]; $" FOREIGN KEY ("; $", "; $") REFERENCES "; $"."; $" ("; $")"; $"ALTER TABLE "; $" ADD CONSTRAINT "] = true ->
  contains p (lower (fk_text s n fk)) = false.
Proof.
  intros Q B F. rewrite forallb_forall in F. apply hasnt_contains, fk_text_P; try (apply F; cbn [In]; tauto).
  - apply hasnt_sepable, Q.
  - intros w Pw _. apply plain_hasnt; assumption.
Qed.
Lemma fk_text_line : line_ok (fk_text s n fk).
Proof.
  constructor; [|apply fk_text_P; try reflexivity; [exact ok_text_sepable|intros w Pw _; apply plain_ok, Pw]|reflexivity].
  rewrite ends_hard_eq. apply andb_true_iff. split; [reflexivity|]. unfold fk_text, fk_body. rewrite !app_assoc. rewrite last_hard_app by discriminate. reflexivity.
Qed.
Lemma list_newline l : (forall w, In w l -> plain w) -> noch newline (list_to_string l true) = true.
Proof.
  intros H. rewrite <- (app_nil_r (list_to_string l true)). change (list_to_string l true ++ []) with ([] ++ list_to_string l true ++ []).
  apply sep_list; try reflexivity; [apply noch_sepable; discriminate|]. intros w Hw'. apply plain_noch; [apply H, Hw'|reflexivity].
Qed.
Lemma quoted_newline w : plain w -> noch newline (quoted w) = true.
Proof. intros H. apply noch_ok, quoted_noch; [exact H|reflexivity|discriminate]. Qed.
Lemma two_newline a b : plain a -> plain b -> noch newline (quoted a ++ $"." ++ quoted b) = true.
Proof. intros A B. rewrite noch_app, quoted_newline by exact A. cbn [andb]. rewrite noch_app. apply andb_true_iff. split; [reflexivity|apply quoted_newline, B]. Qed.

Lemma fk_parts_text : fk_parts (fk_body s fk) = Some (Some (fk_name fk), fk_from_keys fk, Ok (fk_to_table fk), fk_to_keys fk).
Proof.
  assert (M : rmatch named_fk_pattern (fk_body s fk)
    = Some [quoted (fk_name fk); list_to_string (fk_from_keys fk) true; quoted s ++ $"." ++ quoted (fk_to_table fk); list_to_string (fk_to_keys fk) true]).
  { unfold named_fk_pattern, fk_body.
    set (tos := list_to_string (fk_to_keys fk) true ++ $")"). set (three := quoted s ++ $"." ++ quoted (fk_to_table fk) ++ $" (" ++ tos).
    set (froms := list_to_string (fk_from_keys fk) true ++ $") REFERENCES " ++ three).
    assert (M1 : rmatch [RGroup; RLit ($")")] tos = Some [list_to_string (fk_to_keys fk) true]).
    { unfold tos. change ($")") with ($")" ++ []) at 2. apply group_lit; try reflexivity; [|discriminate]. apply list_newline, Htos. }
    assert (Wt : forall p, noch dquote p = true -> existsb (fun c => negb (word_char c)) p = true -> forallb (hasnt p) [[]; $"("; $", "; $")"] = true ->
        hasnt p ($"(" ++ tos) = true).
    { intros p Q B F. rewrite forallb_forall in F. unfold tos. apply sep_list; [apply hasnt_sepable, Q|apply F; cbn; tauto|apply F; cbn [In]; tauto|apply F; cbn [In]; tauto| |intros X; contradiction].
      intros w X. apply plain_hasnt; [apply Htos, X|exact B]. }
    assert (M2 : rmatch [RGroup; RLit ($" ("); RGroup; RLit ($")")] three = Some [quoted s ++ $"." ++ quoted (fk_to_table fk); list_to_string (fk_to_keys fk) true]).
    { unfold three. rewrite (app_assoc ($".")), (app_assoc (quoted s)). apply group_lit; [apply two_newline; [exact Hs|exact Hto]|reflexivity| |discriminate|exact M1].
      apply (Wt ($" (")); reflexivity. }
    assert (W2 : forall p, noch dquote p = true -> existsb (fun c => negb (word_char c)) p = true -> forallb (hasnt p) [[]; $"("; $", "; $")"; $" ("; $" REFERENCES "; $"."] = true ->
        hasnt p ($" REFERENCES " ++ three) = true).
    { intros p Q B F. rewrite forallb_forall in F. unfold three, tos. apply sep_quoted; [apply hasnt_sepable, Q|apply F; cbn [In]; tauto|apply plain_hasnt; assumption|].
      apply sep_quoted; [apply hasnt_sepable, Q|apply F; cbn [In]; tauto|apply plain_hasnt; assumption|].
      apply sep_list; [apply hasnt_sepable, Q|apply F; cbn [In]; tauto|apply F; cbn [In]; tauto|apply F; cbn [In]; tauto| |intros X; contradiction].
      intros w X. apply plain_hasnt; [apply Htos, X|exact B]. }
    assert (M3 : rmatch [RGroup; RLit ($") references"); RBlanks; RGroup; RLit ($" ("); RGroup; RLit ($")")] froms
      = Some [list_to_string (fk_from_keys fk) true; quoted s ++ $"." ++ quoted (fk_to_table fk); list_to_string (fk_to_keys fk) true]).
    { unfold froms. change ($") REFERENCES " ++ three) with ($") REFERENCES" ++ $" " ++ three).
      apply group_lit; [apply list_newline, Hfrom|reflexivity| |discriminate|].
      - change (hasnt ($") references") ($" REFERENCES " ++ three) = true). apply W2; reflexivity.
      - apply blanks_one; [intros t; unfold three, quoted; discriminate|exact M2]. }
    change ($" FOREIGN KEY (" ++ froms) with ($" FOREIGN KEY" ++ $" (" ++ froms).
    apply group_lit; [apply quoted_newline, Hname|reflexivity| |discriminate|].
    - change (hasnt ($" foreign key") ($"FOREIGN KEY (" ++ froms) = true). unfold froms, three, tos.
      assert (Q : sepable (hasnt ($" foreign key"))) by (apply hasnt_sepable; reflexivity).
      apply sep_list; [exact Q|reflexivity| |reflexivity| |intros X; contradiction].
      2: { intros w X. apply plain_hasnt; [apply Hfrom, X|reflexivity]. }
      apply sep_quoted; [exact Q|reflexivity|apply plain_hasnt; [assumption|reflexivity]|].
      apply sep_quoted; [exact Q|reflexivity|apply plain_hasnt; [assumption|reflexivity]|].
      apply sep_list; [exact Q|reflexivity|reflexivity|reflexivity| |intros X; contradiction].
      intros w X. apply plain_hasnt; [apply Htos, X|reflexivity].
    - apply blanks_one; [discriminate|]. exact (eq_trans (rmatch_lit ($"(") ($"(") _ froms eq_refl) M3). }
  unfold fk_parts. rewrite M. rewrite extract_two by (exact Hs || exact Hto). rewrite !key_columns_list by assumption.
  rewrite <- (app_nil_l (quoted (fk_name fk))), clean_quoted; [reflexivity|exact Hname|left; reflexivity].
Qed.

Lemma parse_fk_text d t : get_table d n = Some t -> t_name t = n -> fk_from_table fk = n -> length (fk_from_keys fk) = length (fk_to_keys fk) ->
  forall schema id, heard_statement schema id d (fk_text s n fk) = (Ok (store_table d n (add_fk_obj t fk)), []).
Proof.
  intros T Tn Ff Len schema id. unfold heard_statement. cbn zeta.
  rewrite (fk_text_hasnt ($"create database")), (fk_text_hasnt ($"create table")), (fk_text_hasnt ($"create or replace table")), (fk_text_hasnt ($"primary key")) by reflexivity.
  cbn [orb].
  replace (contains ($"alter table") (lower (fk_text s n fk))) with true by reflexivity.
  replace (contains ($"foreign") (lower (fk_text s n fk))) with true.
  2: { symmetry. apply contains_true. unfold fk_text, fk_body. rewrite !lower_app. do 6 (apply occurs_app; right). apply occurs_app. left.
       exists ($" "), ($" key ("). reflexivity. }
  unfold heard_foreign_key.
  assert (M : rmatch add_pattern (fk_text s n fk) = Some [quoted s ++ $"." ++ quoted n]).
  { unfold add_pattern, fk_text. rewrite rmatch_lit by reflexivity.
    change ($" ADD CONSTRAINT " ++ fk_body s fk) with ($" ADD" ++ $" CONSTRAINT " ++ fk_body s fk). rewrite (app_assoc ($".")), (app_assoc (quoted s)).
    apply group_lit; [apply two_newline; assumption|reflexivity| |discriminate|].
    - change (hasnt ($" add") ($"ADD CONSTRAINT " ++ fk_body s fk) = true). unfold fk_body.
      assert (Q : sepable (hasnt ($" add"))) by (apply hasnt_sepable; reflexivity).
      apply sep_quoted; [exact Q|reflexivity|apply plain_hasnt; [assumption|reflexivity]|].
      apply sep_list; [exact Q|reflexivity| |reflexivity| |intros X; contradiction].
      2: { intros w X. apply plain_hasnt; [apply Hfrom, X|reflexivity]. }
      apply sep_quoted; [exact Q|reflexivity|apply plain_hasnt; [assumption|reflexivity]|].
      apply sep_quoted; [exact Q|reflexivity|apply plain_hasnt; [assumption|reflexivity]|].
      apply sep_list; [exact Q|reflexivity|reflexivity|reflexivity| |intros X; contradiction].
      intros w X. apply plain_hasnt; [apply Htos, X|reflexivity].
    - apply any_end. rewrite noch_app. apply andb_true_iff. split; [reflexivity|].
      apply fk_body_P; try reflexivity; [apply noch_sepable; discriminate|]. intros w Pw _. apply plain_noch; [exact Pw|reflexivity]. }
  rewrite M, clean_two by assumption.
  assert (S : resplit ($"constraint") (fk_text s n fk) = [$"ALTER TABLE " ++ quoted s ++ $"." ++ quoted n ++ $" ADD "; $" " ++ fk_body s fk]).
  { replace (fk_text s n fk) with (($"ALTER TABLE " ++ quoted s ++ $"." ++ quoted n ++ $" ADD") ++ " "%char :: $"CONSTRAINT" ++ $" " ++ fk_body s fk)
      by (unfold fk_text; rewrite <- !app_assoc; reflexivity).
    assert (W : forall w, In w ([s; n; fk_name fk; fk_to_table fk] ++ fk_from_keys fk ++ fk_to_keys fk) -> hasnt ($"constraint") w = true) by (intros w X; apply mentions_hasnt, Hc, X).
    rewrite resplit_once; [rewrite <- !app_assoc; reflexivity|reflexivity|discriminate|apply not_in_b; reflexivity| |].
    - apply (hasnt_contains ($"constraint")). assert (Q : sepable (hasnt ($"constraint"))) by (apply hasnt_sepable; reflexivity).
      apply sep_quoted; [exact Q|reflexivity|apply W; cbn; tauto|]. apply sep_quoted; [exact Q|reflexivity|apply W; cbn; tauto|reflexivity].
    - apply (hasnt_contains ($"constraint")). assert (Q : sepable (hasnt ($"constraint"))) by (apply hasnt_sepable; reflexivity).
      unfold fk_body. apply sep_quoted; [exact Q|reflexivity|apply W; cbn; tauto|].
      apply sep_list; [exact Q|reflexivity| |reflexivity| |intros X; contradiction].
      2: { intros w X. apply W. apply in_or_app. right. apply in_or_app. left. exact X. }
      apply sep_quoted; [exact Q|reflexivity|apply W; cbn; tauto|]. apply sep_quoted; [exact Q|reflexivity|apply W; cbn; tauto|].
      apply sep_list; [exact Q|reflexivity|reflexivity|reflexivity| |intros X; contradiction].
      intros w X. apply W. apply in_or_app. right. apply in_or_app. right. exact X. }
  rewrite S. cbn [tl heard_fk_loop]. cbn zeta.
  assert (Bh : ends_hard (fk_body s fk) = true).
  { rewrite ends_hard_eq. apply andb_true_iff. split; [reflexivity|]. unfold fk_body. rewrite !app_assoc. rewrite last_hard_app by discriminate. reflexivity. }
  assert (Bl : exists x, fk_body s fk = x ++ $")") by (unfold fk_body; eexists; rewrite !app_assoc; reflexivity).
  replace (strip (strip_char ";" (strip_char "," (strip ($" " ++ fk_body s fk))))) with (fk_body s fk).
  - rewrite fk_parts_text, T. unfold add_fk_parts, mk_foreign_key. cbn [keys_list]. rewrite Len, Nat.eqb_refl. cbn [negb bind].
    cbn [bind heard_fk_loop]. rewrite Tn, <- Ff. destruct fk; reflexivity.
  - symmetry. replace (strip ($" " ++ fk_body s fk)) with (fk_body s fk).
    + destruct Bl as [x Ex]. rewrite (strip_char_hard ","), (strip_char_hard ";").
      * apply strip_hard, Bh.
      * unfold fk_body, quoted. discriminate.
      * intros r E. rewrite Ex in E. apply app_inj_tail in E. destruct E as [_ E]. discriminate E.
      * unfold fk_body, quoted. discriminate.
      * intros r E. rewrite Ex in E. apply app_inj_tail in E. destruct E as [_ E]. discriminate E.
    + symmetry. rewrite <- (app_nil_r (fk_body s fk)) at 1. apply strip_around; [reflexivity|reflexivity|exact Bh].
Qed.
End FkText.
