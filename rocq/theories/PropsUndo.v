(** * C120: the two scripts of ddldiff undo each other *)
From Verif Require Import CheckFacts StrFacts DiffFacts DiffProps ParsedFacts SpecMigrate AlterFacts CliFacts CliFrame PropsValidate PropsScript PropsDiff PropsAlter PropsCli PropsCliDiff PropsMigrate.
From Coq Require Import List. Import ListNotations.

(** ddldiff --ddl1 [f] --ddl2 [g] --database [n] --schema [s] --alter1 --alter2 *)
Definition both_alters (f g n s : str) : diff_args :=
  {| ddl1 := Some f; ddl2 := Some g; database1 := n; schema1 := s; alter1 := true; alter2 := true; ignore_case := false |}.
(** what a migration in one direction needs (C98) *)
Record passable (d1 d2 : database) : Prop := {
  ps_bare : new_tables_bare d1 d2;
  ps_apart : fks_told_apart d1 d2;
  ps_alter : alterable d1 d2 }.

(** ddldiff with both options prints two scripts.  The first turns every database that holds the first model into
    one that holds the second, and the second turns that, and every other database that holds the second model, into
    one that holds the first. *)
Theorem C120_undo : forall H st f1 f2 n s t1 t2 d1 d2,
  no_failures H -> f1 <> [] -> f2 <> [] -> files st f1 = Some (Text t1) -> files st f2 = Some (Text t2) ->
  parse_text n s t1 = Ok d1 -> parse_text n s t2 = Ok d2 -> writable d1 -> writable d2 -> consistent_db d1 -> consistent_db d2 ->
  passable d1 d2 -> passable d2 d1 -> common_fks d1 d2 (fun f1 f2 => same_names f1 <-> same_names f2) ->
  exists st' there back, ddldiff H (both_alters f1 f2 n s) st = (st', Ok tt)
    /\ prints [Namespace (diff_namespace (both_alters f1 f2 n s)); says ($"-- changes needed for first schema to match the second"); Printed there;
               says ($"-- changes needed for second schema to match the first"); Printed back] st st'
    /\ (forall c, holds s c d1 -> exists c' c'', run_alters s c there = Some c' /\ holds s c' d2 /\ run_alters s c' back = Some c'' /\ holds s c'' d1
          /\ cd_name c'' = cd_name c /\ cd_schemas c'' = cd_schemas c)
    /\ (forall c, holds s c d2 -> exists c' c'', run_alters s c back = Some c' /\ holds s c' d1 /\ run_alters s c' there = Some c'' /\ holds s c'' d2
          /\ cd_name c'' = cd_name c /\ cd_schemas c'' = cd_schemas c).
Proof.
  intros H st f1 f2 n s t1 t2 d1 d2 NF G1 G2 F1 F2 P1 P2 Q1 Q2 K1 K2 [NB1 TA1 AL1] [NB2 TA2 AL2] SN. set (a := both_alters f1 f2 n s).
  assert (B : both_read a st d1 d2) by (split; [split; assumption|exists t1; split; assumption|exists t2; split; assumption]).
  destruct (ddldiff_renum H a st d1 d2 B) as [k1 [k2 [l1 [l2 [_ [O [C [st1 [X1 R]]]]]]]]].
  destruct (c44 _ _ _ _ P1) as [_ [W1 _]], (c44 _ _ _ _ P2) as [_ [W2 _]]. pose proof (renum_well_formed k1 _ W1) as W1'. pose proof (renum_well_formed k2 _ W2) as W2'.
  assert (SN' : common_fks (renum k1 d1) (renum k2 d2) (fun f1 f2 => same_names f1 <-> same_names f2)).
  { intros m k u1 u2 g1 g2 H1 H2. apply renum_some in H1, H2. destruct H1 as [v1 [H1 ->]], H2 as [v2 [H2 ->]]. exact (SN m k v1 v2 g1 g2 H1 H2). }
  destruct (C29_mirror _ _ W1' W2' SN') as [m1 [m2 [C' D]]]. rewrite C in C'. apply ok_inj, pair_equal_spec in C'. destruct C' as [<- <-].
  destruct (proj2 (C34_alters_partial _ _ _ _ W1' W2' C)) as [_ E]. destruct (E (pk_renum_alters k1 k2 d1 d2 AL1)) as [there S1]. clear E.
  destruct (proj2 (C34_alters_partial _ _ _ _ W2' W1' D)) as [_ E]. destruct (E (pk_renum_alters k2 k1 d2 d1 AL2)) as [back S2]. clear E.
  destruct (does_report H a l1 l2 there back st1 NF (fun _ => S1) (fun _ => S2)) as [st' [E X2]].
  assert (O' : own_shards (renum k2 d2) (renum k1 d1)) by (intros u1 u2 s1 s2 I1 I2 E1 E2 Z; exact (O u2 u1 s2 s1 I2 I1 E2 E1 (eq_sym Z))).
  assert (GO : forall c, holds s c d1 -> exists c', run_alters s c there = Some c' /\ holds s c' d2 /\ cd_name c' = cd_name c /\ cd_schemas c' = cd_schemas c).
  { intros c Hc. apply (holds_renum k1) in Hc.
    destruct (C95_runs_partial s _ _ l1 l2 c there W1' W2' (writable_renum _ _ Q1) (writable_renum _ _ Q2) (all_in_renum _ _ _ (parsed_all_in _ _ _ _ P1)) (all_in_renum _ _ _ (parsed_all_in _ _ _ _ P2))
      C S1 Hc (told_apart_renum _ _ _ _ TA1) (own_objects _ _ O) (bare_renum _ _ _ _ NB1) (consistent_renum _ _ K1) (consistent_renum _ _ K2) (alterable_renum _ _ _ _ AL1)) as [c' [R1 _]].
    destruct (C95_result_partial s _ _ l1 l2 c there c' W1' W2' (writable_renum _ _ Q1) (writable_renum _ _ Q2) (all_in_renum _ _ _ (parsed_all_in _ _ _ _ P1)) (all_in_renum _ _ _ (parsed_all_in _ _ _ _ P2))
      C S1 Hc (told_apart_renum _ _ _ _ TA1) (own_objects _ _ O) (bare_renum _ _ _ _ NB1) R1) as [R2 R3].
    exists c'. split; [exact R1|]. split; [apply (holds_renum k2), R2|exact R3]. }
  assert (COME : forall c, holds s c d2 -> exists c', run_alters s c back = Some c' /\ holds s c' d1 /\ cd_name c' = cd_name c /\ cd_schemas c' = cd_schemas c).
  { intros c Hc. apply (holds_renum k2) in Hc.
    destruct (C95_runs_partial s _ _ l2 l1 c back W2' W1' (writable_renum _ _ Q2) (writable_renum _ _ Q1) (all_in_renum _ _ _ (parsed_all_in _ _ _ _ P2)) (all_in_renum _ _ _ (parsed_all_in _ _ _ _ P1))
      D S2 Hc (told_apart_renum _ _ _ _ TA2) (own_objects _ _ O') (bare_renum _ _ _ _ NB2) (consistent_renum _ _ K2) (consistent_renum _ _ K1) (alterable_renum _ _ _ _ AL2)) as [c' [R1 _]].
    destruct (C95_result_partial s _ _ l2 l1 c back c' W2' W1' (writable_renum _ _ Q2) (writable_renum _ _ Q1) (all_in_renum _ _ _ (parsed_all_in _ _ _ _ P2)) (all_in_renum _ _ _ (parsed_all_in _ _ _ _ P1))
      D S2 Hc (told_apart_renum _ _ _ _ TA2) (own_objects _ _ O') (bare_renum _ _ _ _ NB2) R1) as [R2 R3].
    exists c'. split; [exact R1|]. split; [apply (holds_renum k1), R2|exact R3]. }
  exists st', there, back. split; [rewrite R; exact E|]. split; [destruct (effect_trans _ _ _ _ _ _ _ _ _ _ _ X1 X2) as [_ Y _ _]; exact Y|]. split.
  - intros c Hc. destruct (GO c Hc) as [c' [A1 [A2 [A3 A4]]]]. destruct (COME c' A2) as [c'' [B1 [B2 [B3 B4]]]]. exists c', c''. repeat (split; [assumption|]). split; congruence.
  - intros c Hc. destruct (COME c Hc) as [c' [A1 [A2 [A3 A4]]]]. destruct (GO c' A2) as [c'' [B1 [B2 [B3 B4]]]]. exists c', c''. repeat (split; [assumption|]). split; congruence.
Qed.
Print Assumptions C120_undo.
(** the files of C98 *)
Lemma in_first n t : get_table first_model n = Some t -> n = $"t" /\ t = first_t \/ n = $"u" /\ t = both_u \/ (n = $"v" /\ t_fks t = [] /\ t_rels t = [] /\ get_table second_model n = None).
Proof.
  intros E. apply dget_in in E. unfold first_model in E. cbn [db_tables] in E. destruct E as [E|[E|[E|[]]]]; apply pair_equal_spec in E; destruct E as [<- <-]; [auto|auto|]. right. right. repeat split.
Qed.
Lemma common_back n t1 t2 : get_table second_model n = Some t1 -> get_table first_model n = Some t2 ->
  n = $"t" /\ t1 = second_t /\ t2 = first_t \/ n = $"u" /\ t1 = both_u /\ t2 = both_u.
Proof. intros H1 H2. destruct (common_tables n t2 t1 H2 H1) as [(A & B & C)|(A & B & C)]; [left|right]; auto. Qed.
Example C120_case : 
  parse_text ($"d") ($"falcon_default_schema") first_file = Ok first_model /\ parse_text ($"d") ($"falcon_default_schema") second_file = Ok second_model
  /\ writable first_model /\ writable second_model /\ consistent_db first_model /\ consistent_db second_model
  /\ passable first_model second_model /\ passable second_model first_model /\ common_fks first_model second_model (fun f1 f2 => same_names f1 <-> same_names f2).
Proof.
  destruct C98_case as (A & B & C & D & E & F & G & I & J). do 6 (split; [assumption|]). split; [split; assumption|]. split.
  - split.
    + intros n t H1 H2. destruct (in_first n t H2) as [[-> ->]|[[-> ->]|(-> & X & Y & _)]]; [discriminate H1|discriminate H1|split; assumption].
    + intros n k t1 t2 f1 f2 H1 H2 K1 K2. destruct (common_back _ _ _ H1 H2) as [(-> & -> & ->)|(-> & -> & ->)]; discriminate K2.
    + constructor.
      * intros n t1 t2 H1 H2. destruct (common_back _ _ _ H1 H2) as [(-> & -> & ->)|(-> & -> & ->)]; [left|right]; reflexivity.
      * intros n t1 t2 z l k H1 H2 S. destruct (common_back _ _ _ H1 H2) as [(-> & -> & ->)|(-> & -> & ->)]; discriminate S.
      * intros n t1 t2 m f k H1 H2 K1. destruct (common_back _ _ _ H1 H2) as [(-> & -> & ->)|(-> & -> & ->)]; discriminate K1.
      * intros n t1 t2 m f H1 H2 K1. destruct (common_back _ _ _ H1 H2) as [(-> & -> & ->)|(-> & -> & ->)]; discriminate K1.
      * intros n t1 t2 m r H1 H2 K1. destruct (common_back _ _ _ H1 H2) as [(-> & -> & ->)|(-> & -> & ->)]; discriminate K1.
      * intros n t1 t2 k H1 H2 K. destruct (common_back _ _ _ H1 H2) as [(-> & -> & ->)|(-> & -> & ->)]; destruct K; reflexivity.
      * intros n t1 t2 k m u i f H1 H2 K1 K2 L U Q N. destruct (in_second m u U) as [[-> ->]|[[-> ->]|[-> ->]]]; [|discriminate Q|discriminate Q].
        destruct (second_fk i f Q) as [_ [T _]]. rewrite T in N. subst n. destruct (common_back _ _ _ H1 H2) as [(X & _)|(_ & -> & ->)]; [discriminate X|destruct (K1 K2)].
  - intros n k t1 t2 f1 f2 H1 H2 K1. destruct (common_tables _ _ _ H1 H2) as [(-> & -> & ->)|(-> & -> & ->)]; discriminate K1.
Qed.
