(** * Property C97: the reported differences *)
From Verif Require Import CheckFacts DiffDemo SpecReport ReportFacts StrFacts DiffFacts DiffProps ParsedFacts PropsDiff SpecCliDiff CliFacts CliFrame PropsCli PropsCliDiff.
From Coq Require Import List Bool. Import ListNotations.

Definition flipped (alike : foreign_key -> foreign_key -> bool) : foreign_key -> foreign_key -> bool := fun f2 f1 => alike f1 f2.

(** two criteria that agree on foreign keys of one name *)
Lemma due_alike al al' one r m th :
  (forall t1 t2 k f1 f2, m = Some t1 -> th = Some t2 -> get_foreign_key t1 k = Some f1 -> get_foreign_key t2 k = Some f2 -> al f1 f2 = al' f1 f2) ->
  reports_due al one r m th = reports_due al' one r m th.
Proof.
  intros H. destruct m as [t1|], th as [t2|]; try reflexivity. destruct r; try reflexivity; cbn [reports_due]; apply how_many_ext; intros k _.
  - unfold lacks_fk. destruct (get_foreign_key t1 k) as [f1|] eqn:E1, (get_foreign_key t2 k) as [f2|] eqn:E2; try reflexivity. rewrite (H t1 t2 k f1 f2) by (reflexivity || assumption). reflexivity.
  - unfold loses_fk. destruct (get_foreign_key t1 k) as [f1|] eqn:E1, (get_foreign_key t2 k) as [f2|] eqn:E2; try reflexivity. rewrite (H t1 t2 k f1 f2) by (reflexivity || assumption). reflexivity.
Qed.
Lemma lines_alike al al' one schema r m th : reports_due al one r m th = reports_due al' one r m th -> lines_due al one schema r m th = lines_due al' one schema r m th.
Proof. intros H. unfold lines_due. rewrite H. reflexivity. Qed.

(** the lines of both lists, whenever the printed name of a table can mean only one *)
Lemma both_lists d1 d2 l1 l2 alike : well_formed d1 -> well_formed d2 -> compare_databases d1 d2 = Ok (l1, l2) ->
  (forall f1 f2, alike f1 f2 = true <-> taken_as_same f1 f2) ->
  (forall schema n r, clear_name d1 d2 schema n ->
    times (report_line (db_name d1) schema n r) (map diff_repr l1) = lines_due alike same_object schema r (get_table d1 n) (get_table d2 n)
    /\ times (report_line (db_name d2) schema n r) (map diff_repr l2) = lines_due (flipped alike) same_object schema r (get_table d2 n) (get_table d1 n))
  /\ (forall x, In x (map diff_repr l1) -> exists t r, (In t (db_iter d1) \/ In t (db_iter d2)) /\ x = report_line (db_name d1) (t_schema t) (t_name t) r)
  /\ (forall x, In x (map diff_repr l2) -> exists t r, (In t (db_iter d2) \/ In t (db_iter d1)) /\ x = report_line (db_name d2) (t_schema t) (t_name t) r).
Proof.
  intros W1 W2 C Ha. rewrite compare_refines in C by assumption. injection C as <- <-.
  assert (E : forall n t1 t2 k f1 f2, get_table d1 n = Some t1 -> get_table d2 n = Some t2 -> get_foreign_key t1 k = Some f1 -> get_foreign_key t2 k = Some f2 -> fk_eqb f1 f2 = alike f1 f2).
  { intros n t1 t2 k f1 f2 T1 T2 F1 F2. apply eq_iff_eq_true. rewrite fk_eqb_spec, Ha.
    rewrite (proj2 (wf_fks _ (get_table_wf _ _ _ W1 T1)) _ _ F1), (proj2 (wf_fks _ (get_table_wf _ _ _ W2 T2)) _ _ F2). tauto. }
  split; [|split; apply lines_known; assumption].
  intros schema n r CN. split.
  - rewrite lines_counted by assumption. apply lines_alike, due_alike. intros t1 t2 k f1 f2 T1 T2 F1 F2. exact (E n t1 t2 k f1 f2 T1 T2 F1 F2).
  - rewrite lines_counted; [|assumption|assumption|]. 2: { intros t I. apply CN. tauto. }
    apply lines_alike, due_alike. intros t2 t1 k f2 f1 T2 T1 F2 F1. exact (E n t1 t2 k f1 f2 T1 T2 F1 F2).
Qed.

(** C97: how often each line is in the list for either database; [alike] is the criterion of C26.  A
    line names the database, the schema and the table, the number and the words of the difference. *)
Theorem C97_lines : forall d1 d2 l1 l2 alike, well_formed d1 -> well_formed d2 -> compare_databases d1 d2 = Ok (l1, l2) ->
  dotless_schemas d1 -> dotless_schemas d2 -> (forall f1 f2, alike f1 f2 = true <-> taken_as_same f1 f2) ->
  (forall schema n r, dotless schema ->
    times (report_line (db_name d1) schema n r) (map diff_repr l1) = lines_due alike same_object schema r (get_table d1 n) (get_table d2 n)
    /\ times (report_line (db_name d2) schema n r) (map diff_repr l2) = lines_due (flipped alike) same_object schema r (get_table d2 n) (get_table d1 n))
  /\ (forall x, In x (map diff_repr l1) -> exists schema n r, dotless schema /\ x = report_line (db_name d1) schema n r)
  /\ (forall x, In x (map diff_repr l2) -> exists schema n r, dotless schema /\ x = report_line (db_name d2) schema n r).
Proof.
  intros d1 d2 l1 l2 alike W1 W2 C D1 D2 Ha. destruct (both_lists d1 d2 l1 l2 alike W1 W2 C Ha) as (A & B1 & B2). split; [|split].
  - intros schema n r D. apply A, clear_dotless; assumption.
  - intros x I. destruct (B1 x I) as (t & r & [J|J] & ->); exists (t_schema t), (t_name t), r; (split; [|reflexivity]); [apply D1, J | apply D2, J].
  - intros x I. destruct (B2 x I) as (t & r & [J|J] & ->); exists (t_schema t), (t_name t), r; (split; [|reflexivity]); [apply D2, J | apply D1, J].
Qed.
Print Assumptions C97_lines.

(** Without the restriction on schemas a line can mean two tables. *)
Definition empty_table (n schema : str) : table := mk_table n schema None None.
Theorem C97_dots_refuted : exists d1 d2 l1 l2 schema n, well_formed d1 /\ well_formed d2 /\ compare_databases d1 d2 = Ok (l1, l2)
  /\ get_table d2 n = None /\ times (report_line (db_name d1) schema n IsCreated) (map diff_repr l1) = 1.
Proof.
  exists (empty_database ($"d")), (add_table (empty_database ($"d")) (empty_table ($"c") ($"a.b"))). do 2 eexists. exists ($"a"), ($"b.c").
  split; [apply wf_ok; vm_compute; reflexivity|]. split; [apply wf_ok; vm_compute; reflexivity|]. split; [vm_compute; reflexivity|]. split; vm_compute; reflexivity.
Qed.
Print Assumptions C97_dots_refuted.

(** ** What ddldiff prints *)
Lemma renum_due al k1 k2 one r m th : (forall t1 t2 s1 s2, m = Some t1 -> th = Some t2 -> t_shard t1 = Some s1 -> t_shard t2 = Some s2 -> one (renum_sk k1 s1) (renum_sk k2 s2) = false) ->
  reports_due al one r (option_map (renum_t k1) m) (option_map (renum_t k2) th) = reports_due al (fun _ _ => false) r m th.
Proof.
  intros H. destruct m as [t1|], th as [t2|]; try reflexivity. cbn [option_map]. destruct r; try reflexivity; cbn [reports_due renum_t with_shard t_shard].
  - destruct (t_shard t1) as [s1|] eqn:E1, (t_shard t2) as [s2|] eqn:E2; try reflexivity. cbn [option_map]. rewrite (H t1 t2 s1 s2) by (reflexivity || assumption). reflexivity.
  - destruct (t_shard t1), (t_shard t2); reflexivity.
Qed.
Lemma no_alters a l1 l2 s1 s2 : alter1 a = false -> alter2 a = false ->
  diff_output a l1 l2 s1 s2 = listing ($"Database differences for DB 1:") l1 ++ listing ($"Database differences for DB 2:") l2.
Proof. intros A1 A2. unfold diff_output. rewrite A1, A2. reflexivity. Qed.

(** C97 for the tool: the lines printed for two files, named by the options --database1 and --schema1.
    A table sharded in both files is always reported, because the shard keys are different objects. *)
Theorem C97_printed : forall H a st d1 d2 alike, no_failures H -> both_read a st d1 d2 -> alter1 a = false -> alter2 a = false ->
  (forall f1 f2, alike f1 f2 = true <-> taken_as_same f1 f2) ->
  exists L1 L2 st', ddldiff H a st = (st', Ok tt)
    /\ prints (Namespace (diff_namespace a) :: says ($"Database differences for DB 1:") :: map (fun x => says ([chr 9] ++ x)) L1
               ++ says ($"Database differences for DB 2:") :: map (fun x => says ([chr 9] ++ x)) L2) st st'
    /\ (forall n r, times (report_line (database1 a) (schema1 a) n r) L1 = reports_due alike (fun _ _ => false) r (get_table d1 n) (get_table d2 n)
                 /\ times (report_line (database1 a) (schema1 a) n r) L2 = reports_due (flipped alike) (fun _ _ => false) r (get_table d2 n) (get_table d1 n))
    /\ (forall x, In x L1 \/ In x L2 -> exists n r, x = report_line (database1 a) (schema1 a) n r).
Proof.
  intros H a st d1 d2 alike NF B A1 A2 Ha.
  destruct (ddldiff_runs H a st d1 d2 B) as [d1' [d2' [l1 [l2 [S1 [S2 [O [W1 [W2 [G1 [[k2 G2] [C [st1 [X1 R]]]]]]]]]]]]]].
  destruct B as [_ [t1 [_ P1]] [t2 [_ P2]]].
  destruct (does_report H a l1 l2 [] [] st1 NF ltac:(congruence) ltac:(congruence)) as [st' [E X2]]. rewrite (no_alters a l1 l2 [] [] A1 A2) in X2.
  exists (map diff_repr l1), (map diff_repr l2), st'. split; [rewrite R; exact E|]. split.
  { destruct (effect_trans _ _ _ _ _ _ _ _ _ _ _ X1 X2) as [_ Pr _ _]. unfold listing in Pr. rewrite !map_map. exact Pr. }
  assert (Sc : forall t, In t (db_iter d1') \/ In t (db_iter d2') -> t_schema t = schema1 a).
  { pose proof (proj2 (proj2 (c44 _ _ _ _ P1))) as Q1. pose proof (proj2 (proj2 (c44 _ _ _ _ P2))) as Q2. intros t [I|I].
    - pose proof (in_get_table _ _ W1 I) as G. rewrite G1 in G. destruct (get_table d1 (t_name t)) as [u|] eqn:U; [|discriminate]. injection G as <-. apply (Q1 u (get_in _ _ _ U)).
    - pose proof (in_get_table _ _ W2 I) as G. rewrite G2 in G. destruct (get_table d2 (t_name t)) as [u|] eqn:U; [|discriminate]. injection G as <-. apply (Q2 u (get_in _ _ _ U)). }
  destruct (both_lists d1' d2' l1 l2 alike W1 W2 C Ha) as (L & K1 & K2).
  assert (N1 : db_name d1' = database1 a) by (rewrite (proj1 S1); apply (c44 _ _ _ _ P1)).
  assert (N2 : db_name d2' = database1 a) by (rewrite (proj1 S2); apply (c44 _ _ _ _ P2)).
  rewrite N1, N2 in *.
  assert (U : forall al one r m th, (forall t, m = Some t \/ th = Some t -> t_schema t = schema1 a) -> lines_due al one (schema1 a) r m th = reports_due al one r m th).
  { intros al one r m th Q. unfold lines_due. destruct m as [t|]; [rewrite (Q t (or_introl eq_refl))|destruct th as [t|]; [rewrite (Q t (or_intror eq_refl))|reflexivity]];
      (destruct (eq_str _ _); [reflexivity | contradiction]). }
  assert (Q : forall n t, get_table d1' n = Some t \/ get_table d2' n = Some t -> t_schema t = schema1 a) by (intros n t [I|I]; apply Sc; [left | right]; exact (get_in _ _ _ I)).
  split.
  - intros n r. destruct (L (schema1 a) n r) as [T1 T2]; [intros t I n' _; apply Sc, I|]. rewrite T1, T2, !U by (intros t I; apply (Q n); tauto). rewrite G1, G2. split; apply renum_due.
    + intros u1 u2 s1 s2 V1 V2 H1 H2. unfold same_object. destruct (Nat.eq_dec _ _) as [I|]; [|reflexivity]. exfalso.
      apply (O (renum_t (objects st) u1) (renum_t k2 u2) (renum_sk (objects st) s1) (renum_sk k2 s2)); [apply (get_in _ n); rewrite G1, V1; reflexivity | apply (get_in _ n); rewrite G2, V2; reflexivity
        | cbn [renum_t with_shard t_shard]; rewrite H1; reflexivity | cbn [renum_t with_shard t_shard]; rewrite H2; reflexivity | exact I].
    + intros u2 u1 s2 s1 V2 V1 H2 H1. unfold same_object. destruct (Nat.eq_dec _ _) as [I|]; [|reflexivity]. exfalso.
      apply (O (renum_t (objects st) u1) (renum_t k2 u2) (renum_sk (objects st) s1) (renum_sk k2 s2)); [apply (get_in _ n); rewrite G1, V1; reflexivity | apply (get_in _ n); rewrite G2, V2; reflexivity
        | cbn [renum_t with_shard t_shard]; rewrite H1; reflexivity | cbn [renum_t with_shard t_shard]; rewrite H2; reflexivity | symmetry; exact I].
  - intros x [I|I]; [destruct (K1 x I) as (t & r & J & ->) | destruct (K2 x I) as (t & r & J & ->)]; rewrite (Sc t) by tauto; exists (t_name t), r; reflexivity.
Qed.
Print Assumptions C97_printed.

Example C97_case : dotless_schemas shop /\ dotless_schemas shop'
  /\ map diff_repr (fst demo) <> [] /\ times (report_line (db_name shop) ($"falcon_default_schema") ($"Clients") IsCreated) (map diff_repr (fst demo)) = 1.
Proof.
  split; [intros t I; apply (proj1 (Forall_forall (fun t => dotless (t_schema t)) (db_iter shop))); [|exact I]; repeat constructor; apply OccFacts.not_in_b; reflexivity|].
  split; [intros t I; apply (proj1 (Forall_forall (fun t => dotless (t_schema t)) (db_iter shop'))); [|exact I]; repeat constructor; apply OccFacts.not_in_b; reflexivity|].
  split; [vm_compute; discriminate|vm_compute; reflexivity].
Qed.
