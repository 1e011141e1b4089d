(** * Properties of ddldiff (C87, C88) *)
From Verif Require Import StrFacts DiffFacts DiffProps AlterFacts ParsedFacts PropsDiff SpecCliDiff CliFacts CliFrame PropsCli.

(** ** Models with new shard key objects *)
Lemma renum_table_same k t : same_table t (renum_t k t).
Proof. split; try reflexivity. unfold shard_of, renum_t. cbn [with_shard t_shard]. destruct (t_shard t); reflexivity. Qed.
Lemma renum_same k d : same_model d (renum k d).
Proof.
  split; [reflexivity|]. split; [reflexivity|]. cbn [renum db_tables]. induction (db_tables d) as [|x l IH]; [constructor|]. cbn [map]. constructor; [split; [reflexivity|apply renum_table_same]|exact IH].
Qed.
Lemma renum_well_formed k d : well_formed d -> well_formed (renum k d).
Proof.
  intros [[N1 N2] [S1 S2] T]. split.
  - rewrite renum_names. split; [exact N1|]. intros n t G. rewrite renum_get in G. destruct (get_table d n) as [t0|] eqn:E; [|discriminate]. injection G as <-. exact (N2 n t0 E).
  - split; [exact S1|]. intros t I. rewrite renum_iter in I. apply in_map_iff in I. destruct I as [t0 [<- I]]. exact (S2 t0 I).
  - intros t I. rewrite renum_iter in I. apply in_map_iff in I. destruct I as [t0 [<- I]]. destruct (T t0 I) as [A B C D]. split; assumption.
Qed.
Lemma get_in d n t : get_table d n = Some t -> In t (db_iter d).
Proof. intros E. apply dget_in in E. exact (in_map snd _ _ E). Qed.
Lemma renum_own k1 k2 d1 d2 n : numbered n d1 -> k1 + n <= k2 -> own_shards (renum k1 d1) (renum k2 d2).
Proof.
  intros N L t1 t2 s1 s2 I1 I2 E1 E2. rewrite renum_iter in I1, I2. apply in_map_iff in I1. apply in_map_iff in I2. destruct I1 as [u1 [<- I1]], I2 as [u2 [<- I2]].
  cbn [renum_t with_shard t_shard] in E1, E2. destruct (t_shard u1) as [x1|] eqn:X1; [|discriminate]. destruct (t_shard u2) as [x2|] eqn:X2; [|discriminate]. injection E1 as <-. injection E2 as <-.
  cbn [renum_sk sk_id]. pose proof (N u1 x1 I1 X1). lia.
Qed.
(** the run up to the comparison *)
Lemma ddldiff_renum H a st d1 d2 : both_read a st d1 d2 -> exists k1 k2 l1 l2, k1 = objects st /\ own_shards (renum k1 d1) (renum k2 d2)
  /\ compare_databases (renum k1 d1) (renum k2 d2) = Ok (l1, l2)
  /\ exists st1, effect (files st) [Namespace (diff_namespace a)] (both_said H a st) [] st st1 /\ ddldiff H a st =
    (_ <-- when (alter1 a)
            (_ <-- print ($"-- changes needed for first schema to match the second") ;; perform (write_alters (h_env H) l1 None)) ;;
    _ <-- when (alter2 a)
            (_ <-- print ($"-- changes needed for second schema to match the first") ;; perform (write_alters (h_env H) l2 None)) ;;
    when (negb (alter1 a) && negb (alter2 a))
      (_ <-- show_differences ($"Database differences for DB 1:") l1 ;;
       show_differences ($"Database differences for DB 2:") l2)) st1.
Proof.
  intros [[G1 G2] [t1 [F1 P1]] [t2 [F2 P2]]]. set (k1 := objects st). set (k2 := k1 + length (get_statements t1)).
  pose proof (proj1 (proj2 (c44 _ _ _ _ P1))) as W1. pose proof (proj1 (proj2 (c44 _ _ _ _ P2))) as W2.
  pose proof (renum_well_formed k1 _ W1) as W1'. pose proof (renum_well_formed k2 _ W2) as W2'.
  destruct (C22_comparison_total _ _ W1' W2') as [l1 [l2 C]].
  exists k1, k2, l1, l2. split; [reflexivity|]. split; [apply (renum_own _ _ _ _ _ (numbered_text _ _ _ _ P1)); apply le_n|]. split; [exact C|].
  destruct (C65_ddldiff a st) as [V _]. assert (AC : diff_accepts a st) by (split; [split; assumption|split; unfold file_exists; congruence]).
  destruct (given_text _ G1) as [T1 _], (given_text _ G2) as [T2 _].
  eexists. split; [|unfold ddldiff, then_ at 1; rewrite (V AC); cbn [negb]; unfold then_ at 1; rewrite T1; unfold then_ at 1; rewrite (parse_file_is H _ _ _ t1); [|exact F1]; rewrite P1; cbn [map_ok];
    rewrite T2; unfold then_ at 1; rewrite (parse_file_is H _ _ _ t2); [|exact F2]; rewrite P2; cbn [map_ok needed]; unfold then_ at 1, done; unfold then_ at 1; unfold then_ at 1, lift; cbn [objects emit];
    fold k1; fold k2; rewrite C; reflexivity].
  split; [reflexivity|exists [Namespace (diff_namespace a)]; split; reflexivity| |cbn; rewrite app_nil_r; reflexivity].
  unfold both_said, said_about. rewrite F1, F2, map_app, app_assoc. reflexivity.
Qed.
Lemma ddldiff_runs H a st d1 d2 : both_read a st d1 d2 -> exists d1' d2' l1 l2, same_model d1 d1' /\ same_model d2 d2' /\ own_shards d1' d2' /\ well_formed d1' /\ well_formed d2'
  /\ (forall n, get_table d1' n = option_map (renum_t (objects st)) (get_table d1 n)) /\ (exists k, forall n, get_table d2' n = option_map (renum_t k) (get_table d2 n))
  /\ compare_databases d1' d2' = Ok (l1, l2)
  /\ exists st1, effect (files st) [Namespace (diff_namespace a)] (both_said H a st) [] st st1 /\ ddldiff H a st =
    (_ <-- when (alter1 a)
            (_ <-- print ($"-- changes needed for first schema to match the second") ;; perform (write_alters (h_env H) l1 None)) ;;
    _ <-- when (alter2 a)
            (_ <-- print ($"-- changes needed for second schema to match the first") ;; perform (write_alters (h_env H) l2 None)) ;;
    when (negb (alter1 a) && negb (alter2 a))
      (_ <-- show_differences ($"Database differences for DB 1:") l1 ;;
       show_differences ($"Database differences for DB 2:") l2)) st1.
Proof.
  intros B. pose proof B as [_ [t1 [_ P1]] [t2 [_ P2]]]. destruct (ddldiff_renum H a st d1 d2 B) as [k1 [k2 [l1 [l2 [-> [O [C R]]]]]]].
  exists (renum (objects st) d1), (renum k2 d2), l1, l2. split; [apply renum_same|]. split; [apply renum_same|]. split; [exact O|].
  split; [apply renum_well_formed, (c44 _ _ _ _ P1)|]. split; [apply renum_well_formed, (c44 _ _ _ _ P2)|].
  split; [intros n; apply renum_get|]. split; [exists k2; intros n; apply renum_get|]. split; [exact C|exact R].
Qed.
Lemma smart_stdout E texts tr : smart_open E None (fun h => write_all E h texts) tr = write_all E Stdout texts tr.
Proof. unfold smart_open, io_bind, ret. destruct (write_all E Stdout texts tr); reflexivity. Qed.
Lemma does_stdout H l s st : no_failures H -> concat_results (map get_alter l) = Ok s -> does (perform (write_alters (h_env H) l None)) st (files st) [Printed s] [] [] tt.
Proof.
  intros [_ NW] C. destruct (concat_ok _ _ C) as [ss [E ->]]. unfold does, perform, write_alters. rewrite smart_stdout, E.
  destruct (GenFacts.write_all_ran (h_env H) Stdout (map Ok ss) []) as [wr [r [W R]]]. apply (ran_all _ _ _ _ _ _ NW) in R. destruct R as [-> ->]. rewrite W. eexists. split; [reflexivity|apply happen_stdout].
Qed.
Lemma stdout_fails H l e st : no_failures H -> concat_results (map get_alter l) = Err e -> snd (perform (write_alters (h_env H) l None) st) = Err e.
Proof.
  intros [_ NW] C. unfold perform, write_alters. rewrite smart_stdout. revert C. generalize (map get_alter l) (@nil event). clear l.
  induction l as [|x texts IH]; intros tr C; cbn [concat_results] in C; [discriminate|]. cbn [write_all]. destruct x as [x|e']; [|injection C as ->; reflexivity]. cbn [bind] in C.
  destruct (concat_results texts) as [y|e'] eqn:Y; [discriminate|]. cbn [bind] in C. injection C as ->. unfold io_bind, write_text, io_bind, throw, do_write. rewrite NW. exact (IH (tr ++ [Write Stdout x]) eq_refl).
Qed.
Lemma does_each {A} (f : A -> str) : forall (l : list A) st, does (each (fun x => print (f x)) l) st (files st) (map (fun x => says (f x)) l) [] [] tt.
Proof.
  induction l as [|x l IH]; intros st; [apply does_done|]. cbn [each map].
  apply (seq (map (fun x => says (f x)) l) [] [] _ _ _ _ _ _ _ _ _ _ _ _ _ (does_print _ _)); [reflexivity..|]. intros st1 F1 _. apply (does_files _ _ (files st1)); [exact F1|apply IH].
Qed.
Lemma does_show title l st : does (show_differences title l) st (files st) (listing title l) [] [] tt.
Proof.
  unfold show_differences, listing. apply (seq (map (fun d => says ([chr 9] ++ diff_repr d)) l) [] [] _ _ _ _ _ _ _ _ _ _ _ _ _ (does_print _ _)); [reflexivity..|]. intros st1 F1 _.
  apply (does_files _ _ (files st1)); [exact F1|]. exact (does_each (fun d => [tab] ++ diff_repr d) l st1).
Qed.
Lemma does_report H a l1 l2 s1 s2 st : no_failures H -> (alter1 a = true -> concat_results (map get_alter l1) = Ok s1) -> (alter2 a = true -> concat_results (map get_alter l2) = Ok s2) ->
  does (_ <-- when (alter1 a)
            (_ <-- print ($"-- changes needed for first schema to match the second") ;; perform (write_alters (h_env H) l1 None)) ;;
    _ <-- when (alter2 a)
            (_ <-- print ($"-- changes needed for second schema to match the first") ;; perform (write_alters (h_env H) l2 None)) ;;
    when (negb (alter1 a) && negb (alter2 a))
      (_ <-- show_differences ($"Database differences for DB 1:") l1 ;;
       show_differences ($"Database differences for DB 2:") l2)) st (files st) (diff_output a l1 l2 s1 s2) [] [] tt.
Proof.
  intros NF A1 A2. unfold diff_output. set (o1 := if_true (alter1 a) _). set (o2 := if_true (alter2 a) _). set (o3 := if_true (_ && _) _).
  assert (D1 : does (when (alter1 a) (_ <-- print ($"-- changes needed for first schema to match the second") ;; perform (write_alters (h_env H) l1 None))) st (files st) o1 [] [] tt).
  { apply does_when; intros B; unfold o1; rewrite B; cbn [if_true]; [|repeat split].
    apply (seq [Printed s1] [] [] _ _ _ _ _ _ _ _ _ _ _ _ _ (does_print _ _)); [reflexivity..|]. intros st1 F1 _. apply (does_files _ _ (files st1)); [exact F1|]. apply does_stdout; [exact NF|apply A1, B]. }
  apply (seq (o2 ++ o3) [] [] _ _ _ _ _ _ _ _ _ _ _ _ _ D1); [reflexivity..|]. intros st1 F1 _.
  assert (D2 : does (when (alter2 a) (_ <-- print ($"-- changes needed for second schema to match the first") ;; perform (write_alters (h_env H) l2 None))) st1 (files st1) o2 [] [] tt).
  { apply does_when; intros B; unfold o2; rewrite B; cbn [if_true]; [|repeat split].
    apply (seq [Printed s2] [] [] _ _ _ _ _ _ _ _ _ _ _ _ _ (does_print _ _)); [reflexivity..|]. intros st2 F2 _. apply (does_files _ _ (files st2)); [exact F2|]. apply does_stdout; [exact NF|apply A2, B]. }
  apply (seq o3 [] [] _ _ _ _ _ _ _ _ _ _ _ _ _ D2); [reflexivity..|]. intros st2 F2 _. apply (does_files _ _ (files st2)); [intros n; rewrite F2; apply F1|].
  apply does_when; intros B; unfold o3; rewrite B; cbn [if_true]; [|repeat split].
  apply (seq (listing ($"Database differences for DB 2:") l2) [] [] _ _ _ _ _ _ _ _ _ _ _ _ _ (does_show _ _ _)); [reflexivity..|]. intros st3 F3 _.
  apply (does_files _ _ (files st3)); [exact F3|apply does_show].
Qed.

Lemma look_same_iff k1 k2 d1 d2 d1' d2' : own_shards d1' d2' -> (forall n, get_table d1' n = option_map (renum_t k1) (get_table d1 n)) -> (forall n, get_table d2' n = option_map (renum_t k2) (get_table d2 n)) ->
  indistinct_dbs d1' d2' <-> look_same d1 d2.
Proof.
  intros OS G1 G2. unfold indistinct_dbs, look_same. split; intros L n; specialize (L n); rewrite ?G1, ?G2 in *; pose proof (G1 n) as Q1; pose proof (G2 n) as Q2.
  - destruct (get_table d1 n) as [t1|], (get_table d2 n) as [t2|]; cbn [option_map] in *; try exact L. destruct L as [A B C D E]. split; try assumption.
    pose proof (OS _ _ (renum_sk k1 {| sk_id := 0; sk_keys := []; sk_shards := 0 |}) (renum_sk k2 {| sk_id := 0; sk_keys := []; sk_shards := 0 |}) (get_in _ _ _ Q1) (get_in _ _ _ Q2)) as _.
    cbn [renum_t with_shard t_shard] in E. destruct (t_shard t1) as [s1|] eqn:S1, (t_shard t2) as [s2|] eqn:S2; cbn [option_map] in E; try contradiction; [|split; reflexivity].
    exfalso. apply (OS _ _ (renum_sk k1 s1) (renum_sk k2 s2) (get_in _ _ _ Q1) (get_in _ _ _ Q2)); [cbn [renum_t with_shard t_shard]; rewrite S1; reflexivity|cbn [renum_t with_shard t_shard]; rewrite S2; reflexivity|exact E].
  - destruct (get_table d1 n) as [t1|], (get_table d2 n) as [t2|]; cbn [option_map] in *; try exact L. destruct L as [A B C D [E1 E2]]. split; try assumption.
    cbn [renum_t with_shard t_shard]. rewrite E1, E2. exact I.
Qed.

(** C87: what ddldiff prints for two files that are read: the differences between their models, which are
    none exactly when the models look the same; on standard error is what the parser says about the files;
    nothing else happens. *)
Theorem C87_ddldiff : forall H a st d1 d2, no_failures H -> both_read a st d1 d2 -> exists l1 l2, differences d1 d2 l1 l2
  /\ (l1 = [] <-> look_same d1 d2) /\ (l2 = [] <-> look_same d1 d2)
  /\ (forall s1 s2, (alter1 a = true -> concat_results (map get_alter l1) = Ok s1) -> (alter2 a = true -> concat_results (map get_alter l2) = Ok s2) ->
        exists st', ddldiff H a st = (st', Ok tt) /\ prints (Namespace (diff_namespace a) :: diff_output a l1 l2 s1 s2) st st'
          /\ (forall n, files st' n = files st n) /\ err st' = err st ++ map line (both_said H a st) /\ sent st' = sent st).
Proof.
  intros H a st d1 d2 NF B. destruct (ddldiff_runs H a st d1 d2 B) as [d1' [d2' [l1 [l2 [S1 [S2 [O [W1 [W2 [G1 [[k2 G2] [C [st1 [X1 R]]]]]]]]]]]]]]. exists l1, l2.
  split; [exists d1', d2'; repeat (split; [assumption|]); assumption|]. pose proof (C31_empty_differences _ _ _ _ W1 W2 C) as [E1 E2]. pose proof (look_same_iff _ _ _ _ _ _ O G1 G2) as LS.
  split; [rewrite E1; exact LS|]. split; [rewrite E2; exact LS|]. intros s1 s2 A1 A2. destruct (does_report H a l1 l2 s1 s2 st1 NF A1 A2) as [st' [E X2]].
  exists st'. split; [rewrite R; exact E|]. destruct (effect_trans _ _ _ _ _ _ _ _ _ _ _ X1 X2) as [F P ER SE]. split; [exact P|]. split; [intros n; rewrite F; apply (ef_files _ _ _ _ _ _ X1)|].
  split; [rewrite ER, app_nil_r; reflexivity|rewrite SE; cbn; rewrite app_nil_r; reflexivity].
Qed.
Print Assumptions C87_ddldiff.
(** --alter1 fails exactly when a table of both has a key in the second model that is not its key in the
    first (C34). *)
Theorem C87_alter1 : forall H a st d1 d2, no_failures H -> both_read a st d1 d2 -> alter1 a = true -> alter2 a = false ->
  (snd (ddldiff H a st) = Ok tt <-> forall n t1 t2, get_table d1 n = Some t1 -> get_table d2 n = Some t2 -> t_pk t2 = [] \/ t_pk t1 = t_pk t2).
Proof.
  intros H a st d1 d2 NF B A1 A2. destruct (ddldiff_runs H a st d1 d2 B) as [d1' [d2' [l1 [l2 [S1 [S2 [O [W1 [W2 [G1 [[k2 G2] [C [st1 [X1 R]]]]]]]]]]]]]].
  pose proof (C34_alters_partial _ _ _ _ W1 W2 C) as [_ E].
  assert (Q : (forall n t1 t2, get_table d1' n = Some t1 -> get_table d2' n = Some t2 -> t_pk t2 = [] \/ t_pk t1 = t_pk t2)
              <-> forall n t1 t2, get_table d1 n = Some t1 -> get_table d2 n = Some t2 -> t_pk t2 = [] \/ t_pk t1 = t_pk t2).
  { split; intros K n t1 t2 T1 T2.
    - apply (K n (renum_t (objects st) t1) (renum_t k2 t2)); [rewrite G1, T1; reflexivity|rewrite G2, T2; reflexivity].
    - rewrite G1 in T1. rewrite G2 in T2. destruct (get_table d1 n) as [u1|] eqn:U1; [|discriminate]. destruct (get_table d2 n) as [u2|] eqn:U2; [|discriminate].
      injection T1 as <-. injection T2 as <-. exact (K n u1 u2 U1 U2). }
  rewrite <- Q, <- E, R. clear Q E. destruct (concat_results (map get_alter l1)) as [s|e] eqn:CR.
  - split; [intros _; exists s; reflexivity|]. intros _. destruct (does_report H a l1 l2 s [] st1 NF (fun _ => CR) ltac:(congruence)) as [st' [-> _]]. reflexivity.
  - split; [|intros [s K]; discriminate]. intros K. exfalso. rewrite A1 in K. cbn [when] in K. unfold then_ at 1, then_ at 1, print in K.
    pose proof (stdout_fails H l1 e (emit (Printed ($"-- changes needed for first schema to match the second" ++ [newline])) st1) NF CR) as F.
    destruct (perform (write_alters (h_env H) l1 None) _) as [st2 [[]|e']]; cbn [snd] in F; discriminate.
Qed.
Print Assumptions C87_alter1.

Lemma in_get_table d t : well_formed d -> In t (db_iter d) -> get_table d (t_name t) = Some t.
Proof. intros W I. apply dvals_in in I. destruct I as [k K]. destruct (wf_names _ W) as [N F]. pose proof (dget_nodup _ _ _ N K) as G. rewrite (F _ _ G). exact G. Qed.
Lemma in_get_fk t fk : well_formed_table t -> In fk (foreign_keys_iter t) -> get_foreign_key t (fk_name fk) = Some fk.
Proof. intros W I. apply dvals_in in I. destruct I as [k K]. destruct (wf_fks _ W) as [N F]. pose proof (dget_nodup _ _ _ N K) as G. rewrite (F _ _ G). exact G. Qed.

(** A file compared with itself: nothing is reported exactly when no table is sharded and every foreign key
    links columns of the same names.  So C87 as users expect it is refuted for every file with a sharded table. *)
Theorem C87_same_file : forall H a st d, no_failures H -> both_read a st d d -> exists l1 l2, differences d d l1 l2
  /\ (l1 = [] /\ l2 = [] <-> forall t, In t (db_iter d) -> t_shard t = None /\ forall fk, In fk (foreign_keys_iter t) -> Permutation (fk_from_keys fk) (fk_to_keys fk)).
Proof.
  intros H a st d NF B. destruct (C87_ddldiff H a st d d NF B) as [l1 [l2 [D [E1 [E2 _]]]]]. exists l1, l2. split; [exact D|]. rewrite E1, E2.
  destruct B as [_ [t [_ P]] _]. destruct (c44 _ _ _ _ P) as [_ [W _]]. unfold look_same. split.
  - intros [L _] u I. assert (G : get_table d (t_name u) = Some u) by (apply in_get_table; assumption). specialize (L (t_name u)). rewrite G in L. destruct L as [_ _ _ F [S _]]. split; [exact S|].
    intros fk J. assert (K : get_foreign_key u (fk_name fk) = Some fk) by (apply in_get_fk; [apply (wf_tables _ W), I|exact J]). specialize (F (fk_name fk)). rewrite K in F. apply F.
  - intros L. assert (K : forall n, match get_table d n with Some t1 => match get_table d n with Some t2 => looks_same t1 t2 | None => False end | None => match get_table d n with Some _ => False | None => True end end); [|split; exact K].
    intros n. destruct (get_table d n) as [u|] eqn:G; [|exact I]. apply get_in in G. destruct (L u G) as [S F]. split; try reflexivity; [|split; assumption].
    intros k. destruct (get_foreign_key u k) as [f|] eqn:Q; [|exact I]. split; [reflexivity|]. split; [reflexivity|]. apply F. apply dget_in in Q. exact (in_map snd _ _ Q).
Qed.
Print Assumptions C87_same_file.
Definition diff_of (f g : str) : diff_args :=
  {| ddl1 := Some f; ddl2 := Some g; database1 := $"d"; schema1 := $"falcon_default_schema"; alter1 := false; alter2 := false; ignore_case := false |}.
(** the sharded file of the other examples, compared with itself *)
Example C87_case : exists d, both_read (diff_of ($"in.ddl") ($"in.ddl")) small_state d d /\ ~ look_same d d.
Proof.
  destruct (parse_text ($"d") ($"falcon_default_schema") small_ddl) as [d|] eqn:P; [|vm_compute in P; discriminate]. exists d. split.
  - split; [split; discriminate|exists small_ddl; split; [reflexivity|exact P]|exists small_ddl; split; [reflexivity|exact P]].
  - vm_compute in P. injection P as <-. intros L. specialize (L ($"t")). destruct L as [_ _ _ _ [S _]]. discriminate.
Qed.
Theorem C87_same_file_refuted : exists H a st, no_failures H /\ diff_accepts a st /\ ddl1 a = ddl2 a
  /\ out (fst (ddldiff H a st)) <> [Namespace (diff_namespace a); says ($"Database differences for DB 1:"); says ($"Database differences for DB 2:")].
Proof.
  exists quiet, (diff_of ($"in.ddl") ($"in.ddl")), small_state. split; [split; reflexivity|]. split; [split; [split; discriminate|split; discriminate]|]. split; [reflexivity|].
  intros E. apply (f_equal (@length _)) in E. vm_compute in E. discriminate.
Qed.
Print Assumptions C87_same_file_refuted.

(** C88 does not hold: --ignore_case changes nothing but the printed arguments. *)
Definition ignoring_case (b : bool) (a : diff_args) : diff_args :=
  {| ddl1 := ddl1 a; ddl2 := ddl2 a; database1 := database1 a; schema1 := schema1 a; alter1 := alter1 a; alter2 := alter2 a; ignore_case := b |}.
Theorem C88_ignore_case_refuted : forall H a st d1 d2 b, no_failures H -> both_read a st d1 d2 -> exists l1 l2,
  differences d1 d2 l1 l2 /\ forall s1 s2, (alter1 a = true -> concat_results (map get_alter l1) = Ok s1) -> (alter2 a = true -> concat_results (map get_alter l2) = Ok s2) ->
  exists st1 st2, ddldiff H a st = (st1, Ok tt) /\ ddldiff H (ignoring_case b a) st = (st2, Ok tt)
    /\ prints (Namespace (diff_namespace a) :: diff_output a l1 l2 s1 s2) st st1
    /\ prints (Namespace (diff_namespace (ignoring_case b a)) :: diff_output a l1 l2 s1 s2) st st2.
Proof.
  intros H a st d1 d2 b NF [BG [t1 [F1 P1]] [t2 [F2 P2]]]. 
  assert (DI : forall a', ddl1 a' = ddl1 a -> ddl2 a' = ddl2 a -> database1 a' = database1 a -> schema1 a' = schema1 a -> alter1 a' = alter1 a -> alter2 a' = alter2 a -> forall l1 l2,
     compare_databases (renum (objects st) d1) (renum (objects st + length (get_statements t1)) d2) = Ok (l1, l2) -> forall s1 s2,
     (alter1 a = true -> concat_results (map get_alter l1) = Ok s1) -> (alter2 a = true -> concat_results (map get_alter l2) = Ok s2) ->
     exists st', ddldiff H a' st = (st', Ok tt) /\ prints (Namespace (diff_namespace a') :: diff_output a l1 l2 s1 s2) st st').
  { intros a' E1 E2 E3 E4 E5 E6 l1 l2 C s1 s2 A1 A2.
    destruct (C65_ddldiff a' st) as [V _]. assert (AC : diff_accepts a' st) by (split; [rewrite E1, E2; exact BG|rewrite E1, E2; split; unfold file_exists; congruence]).
    destruct BG as [G1 G2]. destruct (given_text _ G1) as [T1 _], (given_text _ G2) as [T2 _]. rewrite <- E5 in A1. rewrite <- E6 in A2.
    destruct (does_report H a' l1 l2 s1 s2 {| files := files st; out := out st ++ [Namespace (diff_namespace a')];
       err := (err st ++ map line (complaints H (database1 a) (schema1 a) t1)) ++ map line (complaints H (database1 a) (schema1 a) t2); sent := sent st;
       objects := objects st + length (get_statements t1) + length (get_statements t2) |} NF A1 A2) as [st' [R X]]. exists st'. split.
    - unfold ddldiff, then_ at 1. rewrite (V AC). cbn [negb]. unfold then_ at 1. rewrite E1, E2, E3, E4, T1. unfold then_ at 1. rewrite (parse_file_is H _ _ _ t1); [|exact F1]. rewrite P1. cbn [map_ok].
      rewrite T2. unfold then_ at 1. rewrite (parse_file_is H _ _ _ t2); [|exact F2]. rewrite P2. cbn [map_ok needed]. unfold then_ at 1, done. unfold then_ at 1. unfold then_ at 1, lift. cbn [objects emit].
      rewrite C. exact R.
    - assert (Q : diff_output a l1 l2 s1 s2 = diff_output a' l1 l2 s1 s2) by (unfold diff_output; rewrite E5, E6; reflexivity). rewrite Q.
      destruct X as [_ [ad [O X]] _ _]. cbn [out] in O. exists (Namespace (diff_namespace a') :: ad). split; [rewrite O, <- app_assoc; reflexivity|].
      intros f g. specialize (X f g). unfold rendered in *. cbn [flat_map]. rewrite X. reflexivity. }
  pose proof (proj1 (proj2 (c44 _ _ _ _ P1))) as W1. pose proof (proj1 (proj2 (c44 _ _ _ _ P2))) as W2.
  destruct (C22_comparison_total _ _ (renum_well_formed (objects st) _ W1) (renum_well_formed (objects st + length (get_statements t1)) _ W2)) as [l1 [l2 C]].
  exists l1, l2. split.
  - exists (renum (objects st) d1), (renum (objects st + length (get_statements t1)) d2). split; [apply renum_same|]. split; [apply renum_same|].
    split; [apply (renum_own _ _ _ _ _ (numbered_text _ _ _ _ P1)); apply le_n|exact C].
  - intros s1 s2 A1 A2. destruct (DI a eq_refl eq_refl eq_refl eq_refl eq_refl eq_refl l1 l2 C s1 s2 A1 A2) as [st1 [R1 X1]].
    destruct (DI (ignoring_case b a) eq_refl eq_refl eq_refl eq_refl eq_refl eq_refl l1 l2 C s1 s2 A1 A2) as [st2 [R2 X2]]. exists st1, st2. repeat (split; [assumption|]). assumption.
Qed.
Print Assumptions C88_ignore_case_refuted.
