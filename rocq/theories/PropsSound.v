(** * C114: what is read from a workbook is well formed and can be converted *)
From Verif Require Import StrFacts SpecCliFlow ScriptFacts CliFacts GenFacts CheckFacts PropsScript PropsValidate PropsCli PropsCliCase ParsedFacts.
From Verif Require Import ExcelReuse SoundFacts PropsExcel PropsContents PropsAgain.
From Coq Require Import List. Import ListNotations.

(** Every database that a reader holds, whatever it has read before and however the reading ended, is
    filed under its name, which is not empty; it is well formed, its columns have the types of the
    model, its foreign keys and relationships start at the table they are filed in, and the names in
    its keys are trimmed. *)
Theorem C114_sound : forall dbs, held dbs -> forall n d, dget n dbs = Some d -> sound_db n d.
Proof. intros dbs L n d D. apply fine_sound. exact (held_fine dbs L n d D). Qed.
Print Assumptions C114_sound.

(** So it can be validated and written as TQL, unless camel case is asked for (C13: a name of nothing
    but underscores has none). *)
Theorem C114_usable : forall dbs n d, held dbs -> dget n dbs = Some d ->
  (exists r, validate d = Ok r) /\ forall o create, camelcase o = false \/ lowercase o = true \/ uppercase o = true -> exists s, tql_script o create d = Ok s.
Proof.
  intros dbs n d L D. pose proof (C114_sound dbs L n d D) as S. split.
  - destruct (C09_validation_issues d) as [r [V _]]; [|exists r; exact V]. intros t fk I J. apply (wf_paired t); [apply (wf_tables _ (sd_formed _ _ S)), I|exact J].
  - intros o create C. apply script_named. intros x _. unfold to_case. destruct (str_eqb x DEFAULT_SCHEMA); [eauto|].
    destruct (lowercase o) eqn:Lo; [eauto|]. destruct (uppercase o) eqn:Up; [eauto|]. destruct (camelcase o); [|eauto]. destruct C as [C|[C|C]]; discriminate.
Qed.
Print Assumptions C114_usable.

(** and it is kept by Excel: written and read again it is the same, relationships included *)
Lemma sound_excel n d : sound_db n d -> fits_db d -> excel_db d.
Proof.
  intros [[N1 N2] _ S] [F1 [F2 F]]. split; [split; [congruence|exact F1]|exact F2|]. intros t I. destruct (S t I) as [A B C D E], (F t I) as [G1 G2 G3 G4 G5 G6].
  assert (K : forall l, listed_names l -> fits_list l -> key_list l).
  { intros l L [X Y]. split; [|exact Y]. intros k J. destruct (L k J) as [L1 L2]. split; [intros ->; exact (X J)|split; assumption]. }
  split.
  - exact G1.
  - intros c J. destruct (G2 c J). auto.
  - exact (K _ A G3).
  - intros sk J. destruct (B sk J) as [B1 [B2 B3]], (G4 sk J) as [H1 H2]. split; [exact B1|]. split; [exact (K _ B2 H1)|]. split; assumption.
  - intros fk J. destruct (D fk J) as [D1 [D2 [D3 [D4 D5]]]], (G5 fk J) as [H1 [H2 [H3 H4]]]. split; [exact D1|]. split; [exact H1|]. split; [exact H2|]. split; [exact D2|]. split; [exact (K _ D4 H3)|]. split; [|exact (K _ D5 H4)].
    intros Z. rewrite Z in D3. destruct (fk_from_keys fk); [exact (D2 eq_refl)|discriminate].
  - intros r J. destruct (E r J) as [E1 _], (G6 r J) as [H1 [H2 H3]]. auto.
Qed.
Theorem C114_kept : forall fresh calc base dbs n d filename, held dbs -> dget n dbs = Some d -> fits_db d ->
  exists w d', write_database fresh new_writer d filename = Ok (w, xls_filename filename) /\ read_xls base [] (saved calc w) = Ok ([(n, d')], [])
    /\ db_name d' = n /\ get_table_names d' = get_table_names d /\ Forall2 same_but_rels (db_iter d) (db_iter d') /\ map t_rels (db_iter d') = map t_rels (db_iter d).
Proof.
  intros fresh calc base dbs n d filename L D F. pose proof (C114_sound dbs L n d D) as S. pose proof (sound_excel n d S F) as X. pose proof (sd_formed _ _ S) as W. destruct (sd_name _ _ S) as [N _].
  destruct (C48_read_back fresh calc base d filename W X) as [w [d' [E [R [N' [T [_ B]]]]]]]. exists w, d'. rewrite N in *. split; [exact E|]. split; [exact R|]. split; [exact N'|]. split; [exact T|]. split; [exact B|].
  apply (C49_partial fresh calc base d filename w (xls_filename filename) [(n, d')] [] d' W X); [|exact E|exact R|cbn [dget]; rewrite N, str_eqb_refl; reflexivity].
  intros t r I J. apply (sd_rels _ (sd_tables _ _ S t I) r J).
Qed.
Print Assumptions C114_kept.

(** ** convert_ddl *)
Lemma reads_formed H message a st d ms : reads H message a st d ms -> well_formed d.
Proof.
  intros [t x _ _ P|w x rest m _ _ _ E|lines x _ _ P|n _ _ _ _].
  - apply (c44 _ _ _ _ P).
  - assert (L : held (x :: rest)) by exact (held_read _ [] w _ m held_nothing E). destruct x as [n d']. cbn [snd]. apply (sd_formed n). apply (C114_sound _ L n d'). cbn [dget]. rewrite str_eqb_refl. reflexivity.
  - apply (c44 _ _ _ _ P).
  - apply (api_well_formed [] n _ eq_refl).
Qed.
(** Once convert_ddl has read a model, from wherever, the conversion to TQL succeeds and so does the
    validation: what can still fail are the camel case of names without letters, the Excel writer, and
    the files and the cluster. *)
Theorem C114_converts : forall H message a st d ms w response,
  no_failures H -> convert_accepts a -> version a = false -> reads H message a st d ms ->
  (lower_option a = false -> upper_option a = false -> camel_option a = true -> camel_able d) ->
  (is_given (to_excel a) -> exists f, write_database (h_fresh H) new_writer d (text (to_excel a)) = Ok (w, f)) ->
  (forall script c, In c (to_send a script) -> h_run H (sent st ++ asked a) c = Ok response) ->
  exists st' script r, convert H message a st = (st', Ok tt) /\ tql_script (case_of a) (create_db a) d = Ok script /\ validate d = Ok r
    /\ converted a d script (saved (h_calc H) w) r ms response st st'.
Proof.
  intros H message a st d ms w response NF CA V RD CM X R. pose proof (reads_formed _ _ _ _ _ _ RD) as W.
  assert (S : exists s, tql_script (case_of a) (create_db a) d = Ok s).
  { apply script_named. intros n I. unfold to_case. destruct (str_eqb n DEFAULT_SCHEMA); [eauto|]. cbn [case_of lowercase uppercase camelcase].
    destruct (lower_option a); [eauto|]. destruct (upper_option a); [eauto|]. destruct (camel_option a); [|eauto].
    destruct (CM eq_refl eq_refl eq_refl n I) as [c [Ic Nc]]. destruct (C13_camel n) as [C1 [C2 _]].
    destruct (to_camel n) as [m|e] eqn:E; [eauto|]. rewrite (C2 e eq_refl) in C1. destruct (Nc (proj1 C1 eq_refl c Ic)). }
  destruct S as [s S]. destruct (C09_validation_issues d) as [r [Va _]]; [intros t fk I J; apply (wf_paired t); [apply (wf_tables _ W), I|exact J]|].
  destruct (C79_converted H message a st d ms s w r response NF CA V RD) as [st' [E C]]; [auto|auto|exact X|exact (R s)|].
  exists st', s, r. auto.
Qed.
Print Assumptions C114_converts.

(** ** Cases *)
Lemma excel_fits d : excel_db d -> fits_db d.
Proof.
  intros [[_ N] S T]. split; [exact N|]. split; [exact S|]. intros t I. destruct (T t I) as [A B C D E F].
  assert (K : forall l, key_list l -> fits_list l) by (intros l [X Y]; split; [intros J; destruct (X [] J) as [Z _]; exact (Z eq_refl)|exact Y]).
  split.
  - exact A.
  - intros c J. destruct (B c J) as [? [? _]]. auto.
  - exact (K _ C).
  - intros sk J. destruct (D sk J) as [_ [X [_ Y]]]. auto.
  - intros fk J. destruct (E fk J) as [_ [X1 [X2 [_ [X3 [_ X4]]]]]]. auto.
  - intros r J. destruct (F r J) as [_ X]. exact X.
Qed.
(** the two workbooks of C108, one after the other *)
Example C114_case : exists dbs d, held dbs /\ dget ($"d") dbs = Some d /\ fits_db d /\ length (db_iter d) = 2.
Proof.
  assert (H1 : exists dbs0, read_xls 0 [] written_book = Ok (dbs0, []) /\ exists dbs ms d, read_xls 0 dbs0 second_book = Ok (dbs, ms) /\ dget ($"d") dbs = Some d /\ excel_db_b d = true /\ length (db_iter d) = 2).
  { eexists. split; [vm_compute; reflexivity|]. eexists _, _, _. split; [vm_compute; reflexivity|]. split; [vm_compute; reflexivity|]. split; vm_compute; reflexivity. }
  destruct H1 as [dbs0 [E0 [dbs [ms [d [E [D [X L]]]]]]]]. exists dbs, d. split; [|split; [exact D|split; [apply excel_fits, excel_db_ok, X|exact L]]].
  apply (held_read 0 dbs0 second_book dbs ms); [|exact E]. apply (held_read 0 [] written_book dbs0 []); [apply held_nothing|exact E0].
Qed.
(** convert_ddl with the first of them *)
Definition book_state : Cli.state :=
  {| files := fun n => if str_eqb n ($"in.xlsx") then Some (Book written_book) else None; out := []; err := []; sent := []; objects := 0 |}.
Definition book_to_tql : convert_args := excel_to_tql ($"in.xlsx") ($"out.tql") {| o_create := true; o_lower := false; o_upper := false; o_camel := true; o_validate := true |}.
Example C114_converts_case : exists d, no_failures PropsCli.quiet /\ convert_accepts book_to_tql /\ reads PropsCli.quiet (fun _ => []) book_to_tql book_state d [] /\ camel_able d /\ length (db_iter d) = 2.
Proof.
  assert (E : exists d, read_xls 0 [] written_book = Ok ([($"d", d)], []) /\ names_used d <> [] /\ forallb (fun n => existsb (fun c => negb (Ascii.eqb c "_"%char)) n) (names_used d) = true /\ length (db_iter d) = 2)
    by (eexists; split; [vm_compute; reflexivity|split; [vm_compute; discriminate|split; vm_compute; reflexivity]]).
  destruct E as [d [E [_ [N L]]]]. exists d. split; [split; reflexivity|]. split; [split; [right; right; right; left; discriminate|intros [X|X]; destruct (X eq_refl)]|].
  split; [exact (reads_excel PropsCli.quiet (fun _ => []) book_to_tql book_state written_book ($"d", d) [] [] (fun X => X eq_refl) ltac:(discriminate) eq_refl E)|]. split; [|exact L].
  intros n I. rewrite forallb_forall in N. pose proof (N n I) as Q. apply existsb_exists in Q. destruct Q as [c [J Q]]. exists c. split; [exact J|]. intros ->. rewrite Ascii.eqb_refl in Q. discriminate.
Qed.
