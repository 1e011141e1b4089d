(** * C115: from a workbook to TQL and back to a workbook *)
From Verif Require Import StrFacts SpecCliFlow SpecRound ScriptFacts CliFacts GenFacts CheckFacts PropsScript PropsValidate PropsCli PropsCliCase ParsedFacts RoundDemo PropsRound.
From Verif Require Import ExcelReuse SoundFacts PropsExcel PropsContents PropsSound.
From Coq Require Import List. Import ListNotations.

Lemma read_type_cell ty : valid_type ty -> cell_text ty -> valid_type (read_type ty) /\ cell_text (read_type ty).
Proof.
  intros V C. unfold read_type. repeat match goal with |- context [if ?b then _ else _] => destruct b end; try (split; assumption);
    (split; [|apply cell_text_ok; vm_compute; reflexivity]).
  - left. vm_compute. auto 12.
  - left. vm_compute. auto 12.
  - left. vm_compute. auto 12.
  - right. exists ($"(0)"). reflexivity.
Qed.
Lemma back_table s t t' : cell_text s -> excel_table t -> SpecRound.read_back s t t' -> excel_table t'.
Proof.
  intros Cs [A B C D E F] [R1 R2 R3 R4 R5 R6 R7]. split.
  - rewrite R1, R2. split; [apply A|exact Cs].
  - intros c I. assert (J : In (column_name c, column_type c) (map (fun c => (column_name c, column_type c)) (table_iter t'))) by (apply in_map_iff; exists c; auto).
    rewrite R3 in J. apply in_map_iff in J. destruct J as [u [X J]]. apply pair_equal_spec in X. destruct X as [X1 X2]. rewrite <- X1, <- X2. destruct (B u J) as [B1 [B2 B3]].
    split; [exact B1|]. destruct (read_type_cell _ B3 B2). auto.
  - rewrite R4. exact C.
  - intros sk G. unfold shard_of in R5. rewrite G in R5. destruct (t_shard t) as [sk0|] eqn:G0; [|discriminate]. injection R5 as -> ->. exact (D sk0 eq_refl).
  - intros fk I. unfold foreign_keys_iter in I. rewrite R6 in I. rewrite R1. exact (E fk I).
  - intros r I. unfold relationships_iter in I. rewrite R7 in I. rewrite R1. exact (F r I).
Qed.
Lemma back_then s l : forall l' l'', Forall2 (SpecRound.read_back s) l l' -> Forall2 same_but_rels l' l'' -> map t_rels l'' = map t_rels l' -> Forall2 (SpecRound.read_back s) l l''.
Proof.
  induction l as [|t l IH]; intros l' l'' A B C; inversion A; subst; inversion B; subst; [constructor|]. cbn [map] in C. injection C as C1 C2. constructor; [|eapply IH; eassumption].
  destruct H1 as [R1 R2 R3 R4 R5 R6 R7]. destruct H2 as [S1 S2 S3 S4 S5 S6]. split; try congruence. unfold table_iter in *. rewrite S3. exact R3.
Qed.

(** The first database of the workbook [x], with texts that fit into cells and plain names, is written
    as TQL to [g]; [g] is then converted to a workbook.  What a reader finds there is the database [n]
    with the same tables in the same order, in the schema given, with the same columns (the types as
    TQL knows them), keys, shard keys, foreign keys and relationships. *)
Theorem C115_back : forall H message st x g n s y o w b d rest ms base,
  no_failures H -> x <> [] -> g <> [] -> g <> $"-" -> n <> [] -> y <> [] -> cell_text n -> cell_text s ->
  o_lower o = false -> o_upper o = false -> o_camel o = false ->
  files st x = Some (Book w) -> read_xls (objects st) [] w = Ok ((b, d) :: rest, ms) -> fits_db d -> plain_db d ->
  exists st1 st2 book content d',
    convert H message (excel_to_tql x g o) st = (st1, Ok tt) /\ convert H message (file_to_excel g n s y) st1 = (st2, Ok tt)
    /\ excel_file (file_to_excel g n s y) book /\ files st2 book = Some (Book content)
    /\ read_xls base [] content = Ok ([(n, d')], [])
    /\ get_table_names d' = get_table_names d /\ Forall2 (SpecRound.read_back s) (db_iter d) (db_iter d').
Proof.
  intros H message st x g n s y o w b d rest ms base NF X G G1 N Y Cn Cs L U C T R F P.
  assert (HL : held ((b, d) :: rest)) by exact (held_read _ [] w _ ms held_nothing R).
  assert (D : dget b ((b, d) :: rest) = Some d) by (cbn [dget]; rewrite str_eqb_refl; reflexivity).
  pose proof (C114_sound _ HL b d D) as S. pose proof (sd_formed _ _ S) as W. pose proof (sound_excel b d S F) as ED.
  set (a1 := excel_to_tql x g o). set (a2 := file_to_excel g n s y).
  assert (A1 : convert_accepts a1) by (split; [right; right; right; left; exact X|intros [Z|Z]; destruct (Z eq_refl)]).
  pose proof (reads_excel H message a1 st w (b, d) rest ms (fun Z => Z eq_refl) X T R) as R1. cbn [snd] in R1.
  destruct (C45_read_back d (o_create o) n s W P) as [script [d1 [Es [Ep [N1 [T1 B1]]]]]].
  assert (Es' : tql_script (case_of a1) (create_db a1) d = Ok script).
  { assert (Q : case_of a1 = no_case) by (unfold case_of, a1; cbn [excel_to_tql lower_option upper_option camel_option]; rewrite L, U, C; reflexivity). rewrite Q. exact Es. }
  destruct (C114_usable _ b d HL D) as [[r V] _].
  destruct (C79_converted H message a1 st d _ script new_writer r [] NF A1 eq_refl R1) as [st1 [E1 C1]];
    [intros _; exact V|intros _; exact Es'|intros Z; destruct (Z eq_refl)|intros c []|].
  assert (F1 : files st1 g = Some (Text script)).
  { apply (cv_tql _ _ _ _ _ _ _ _ _ C1); [split; [exact G|split; [exact G1|reflexivity]]|intros [Z _]; exact (Z eq_refl)|intros [Z _]; exact (Z eq_refl)]. }
  assert (W1 : well_formed d1) by apply (c44 _ _ _ _ Ep).
  assert (ED1 : excel_db d1).
  { split; [rewrite N1; split; assumption| |].
    - intros Z. rewrite Z in B1. inversion B1 as [Q|]. exact (ed_some _ ED (eq_sym Q)).
    - intros t' I. destruct (forall2_in _ _ _ _ B1 I) as [t [J Q]]. exact (back_table s t t' Cs (ed_tables _ ED t J) Q). }
  assert (UN : forall t r, In t (db_iter d1) -> In r (relationships_iter t) -> rel_name r = usual_name r).
  { intros t' q I J. destruct (forall2_in _ _ _ _ B1 I) as [t [K Q]]. unfold relationships_iter in J. rewrite (rb_rels _ _ _ Q) in J. apply (sd_rels _ (sd_tables _ _ S t K) q J). }
  destruct (C48_read_back (h_fresh H) (h_calc H) base d1 y W1 ED1) as [wr [d2 [E2 [R2 [N2 [T2 [_ B2]]]]]]].
  assert (A2 : convert_accepts a2) by (split; [right; right; left; exact G|intros _; exact N]).
  pose proof (reads_ddl H message a2 st1 script d1 G F1 Ep) as RD2.
  destruct (C79_converted H message a2 st1 d1 _ script wr r [] NF A2 eq_refl RD2) as [st2 [Ec C2]];
    [discriminate|intros [Z|Z]; destruct (Z eq_refl)|intros _; exists (xls_filename y); exact E2|intros c []|].
  assert (Bk : excel_file a2 (xls_filename y)) by (apply excel_file_iff; split; [exact Y|reflexivity]).
  exists st1, st2, (xls_filename y), (saved (h_calc H) wr), d2. split; [exact E1|]. split; [exact Ec|]. split; [exact Bk|]. split; [exact (cv_excel _ _ _ _ _ _ _ _ _ C2 _ Bk)|].
  rewrite N1 in R2. split; [exact R2|]. split; [congruence|]. apply (back_then s _ (db_iter d1)); [exact B1|exact B2|].
  apply (C49_partial (h_fresh H) (h_calc H) base d1 y wr (xls_filename y) [(n, d2)] [] d2 W1 ED1 UN E2 R2). cbn [dget]. rewrite N1, str_eqb_refl. reflexivity.
Qed.
Print Assumptions C115_back.
(** the workbook of C107 meets the hypotheses *)
Example C115_case : exists d, no_failures PropsCli.quiet /\ cell_text ($"n") /\ cell_text ($"s") /\ files book_state ($"in.xlsx") = Some (Book written_book)
  /\ read_xls 0 [] written_book = Ok ([($"d", d)], []) /\ fits_db d /\ plain_db d
  /\ flat_map foreign_keys_iter (db_iter d) <> [] /\ flat_map relationships_iter (db_iter d) <> [].
Proof.
  assert (E : exists d, read_xls 0 [] written_book = Ok ([($"d", d)], []) /\ excel_db_b d = true /\ plain_db_b d = true /\ flat_map foreign_keys_iter (db_iter d) <> [] /\ flat_map relationships_iter (db_iter d) <> [])
    by (eexists; split; [vm_compute; reflexivity|split; [vm_compute; reflexivity|split; [vm_compute; reflexivity|split; vm_compute; discriminate]]]).
  destruct E as [d [E [X [P Q]]]]. exists d. split; [split; reflexivity|]. split; [apply cell_text_ok; reflexivity|]. split; [apply cell_text_ok; reflexivity|]. split; [reflexivity|]. split; [exact E|].
  split; [apply excel_fits, excel_db_ok, X|]. split; [apply plain_db_ok, P|exact Q].
Qed.
(** For names that are not plain this fails: the column ["a, b"] of this workbook does not come back. *)
Definition comma_book : workbook cell :=
  dset ($"Tables") [map CText [$"Database"; $"Schema"; $"Table"; $"Updated"; $"Update Type"; $"# Rows"; $"# Columns"; $"Primary Key"; $"Shard Key"; $"# Shards"; $"RLS Column"]; map CText [$"d"; $"s"; $"t"]]
  (dset ($"Columns") [map CText [$"Type"; $"Name"; $"Database"; $"Schema"; $"Table"; $"Column"]; map CText [$"INT"; $"a, b"; $"d"; []; $"t"]]
  (dset ($"Foreign Keys") [map CText [$"Name"; $"Database"; $"Schema"; $"From Table"; $"From Columns"; $"To Table"; $"To Columns"]]
  (dset ($"Relationships") [map CText [$"Name"; $"Database"; $"Schema"; $"From Table"; $"To Table"; $"Conditions"]] written_book))).
Theorem C115_refuted : exists d script d', read_xls 0 [] comma_book = Ok ([($"d", d)], []) /\ fits_db d /\ tql_script no_case true d = Ok script
  /\ parse_text ($"d") ($"s") script = Ok d' /\ get_table_names d' = get_table_names d
  /\ map get_column_names (db_iter d) = [[$"a, b"]] /\ ~ In ($"a, b") (flat_map get_column_names (db_iter d')).
Proof.
  assert (E : exists d script d', read_xls 0 [] comma_book = Ok ([($"d", d)], []) /\ excel_db_b d = true /\ tql_script no_case true d = Ok script /\ parse_text ($"d") ($"s") script = Ok d' /\ get_table_names d' = get_table_names d
    /\ map get_column_names (db_iter d) = [[$"a, b"]] /\ existsb (str_eqb ($"a, b")) (flat_map get_column_names (db_iter d')) = false)
    by (eexists _, _, _; repeat (split; [vm_compute; reflexivity|]); vm_compute; reflexivity).
  destruct E as [d [script [d' [E [X [S [P [N [C Z]]]]]]]]]. exists d, script, d'. split; [exact E|]. split; [apply excel_fits, excel_db_ok, X|]. repeat (split; [assumption|]).
  intros I. rewrite <- Bool.not_true_iff_false in Z. apply Z. apply existsb_exists. exists ($"a, b"). split; [exact I|apply str_eqb_refl].
Qed.
Print Assumptions C115_refuted.
