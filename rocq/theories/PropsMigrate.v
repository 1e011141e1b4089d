(** * Properties of the workflow convert_ddl, ddldiff --alter1 (C98) *)
From Verif Require Import CheckFacts StrFacts DiffFacts DiffProps ParsedFacts SpecMigrate AlterFacts CliFacts CliFrame PropsValidate PropsScript PropsDiff PropsAlter PropsCli PropsCliDiff.

(** ** New shard key objects change nothing that matters *)
Lemma renum_some k d n t : get_table (renum k d) n = Some t -> exists u, get_table d n = Some u /\ t = renum_t k u.
Proof. rewrite renum_get. destruct (get_table d n) as [u|]; [|discriminate]. intros E. injection E as <-. eauto. Qed.
Lemma renum_none k d n : get_table (renum k d) n = None -> get_table d n = None.
Proof. rewrite renum_get. destruct (get_table d n); [discriminate|reflexivity]. Qed.
Lemma renum_in k d t : In t (db_iter (renum k d)) -> exists u, In u (db_iter d) /\ t = renum_t k u.
Proof. rewrite renum_iter. intros I. apply in_map_iff in I. destruct I as [u [<- I]]. eauto. Qed.
Lemma shard_of_renum k t : shard_of (renum_t k t) = shard_of t.
Proof. apply (st_shard _ _ (renum_table_same k t)). Qed.
Lemma entry_renum k t : entry_of (renum_t k t) = entry_of t.
Proof. unfold entry_of. rewrite shard_of_renum. reflexivity. Qed.
Lemma writable_renum k d : writable d -> writable (renum k d).
Proof.
  intros [N S T]. split; [exact N|exact S|]. intros t I. apply renum_in in I. destruct I as [u [I ->]]. destruct (T u I) as [A B C D E F G J].
  split; try assumption. intros sk Q. cbn [renum_t with_shard t_shard] in Q. destruct (t_shard u) as [x|] eqn:X; [|discriminate]. injection Q as <-. exact (F x eq_refl).
Qed.
Lemma all_in_renum k cs d : all_in cs d -> all_in cs (renum k d).
Proof. intros A t I. apply renum_in in I. destruct I as [u [I ->]]. exact (A u I). Qed.
Lemma consistent_renum k d : consistent_db d -> consistent_db (renum k d).
Proof.
  intros K t I. apply renum_in in I. destruct I as [u [I ->]]. destruct (K u I) as [A B C D E]. split; try assumption.
  - intros sk Q. cbn [renum_t with_shard t_shard] in Q. destruct (t_shard u) as [x|] eqn:X; [|discriminate]. injection Q as <-. exact (C x eq_refl).
  - intros fk J. destruct (D fk J) as [tt [G [L F]]]. exists (renum_t k tt). rewrite renum_get, G. split; [reflexivity|]. split; [exact L|].
    clear - F. induction F as [|x y l l' P _ IH]; [constructor|]. constructor; [exact P|exact IH].
  - intros r J. destruct (E r J) as [P Q]. split; [exact P|]. rewrite renum_names. exact Q.
Qed.
Lemma alterable_renum k1 k2 d1 d2 : alterable d1 d2 -> alterable (renum k1 d1) (renum k2 d2).
Proof.
  intros [A B C D E F G]. constructor.
  - intros n t1 t2 H1 H2. apply renum_some in H1, H2. destruct H1 as [u1 [H1 ->]], H2 as [u2 [H2 ->]]. exact (A n u1 u2 H1 H2).
  - intros n t1 t2 z l k H1 H2. apply renum_some in H1, H2. destruct H1 as [u1 [H1 ->]], H2 as [u2 [H2 ->]]. rewrite !shard_of_renum. exact (B n u1 u2 z l k H1 H2).
  - intros n t1 t2 m f k H1 H2. apply renum_some in H1, H2. destruct H1 as [u1 [H1 ->]], H2 as [u2 [H2 ->]]. exact (C n u1 u2 m f k H1 H2).
  - intros n t1 t2 m f H1 H2 Q1 Q2. apply renum_some in H1, H2. destruct H1 as [u1 [H1 ->]], H2 as [u2 [H2 ->]].
    destruct (D n u1 u2 m f H1 H2 Q1 Q2) as [L|[u [U1 U2]]]; [left; exact L|right]. exists (renum_t k1 u). rewrite renum_get, U1. split; [reflexivity|exact U2].
  - intros n t1 t2 m r H1 H2 Q1 Q2. apply renum_some in H1, H2. destruct H1 as [u1 [H1 ->]], H2 as [u2 [H2 ->]].
    destruct (E n u1 u2 m r H1 H2 Q1 Q2) as [L|U]; [left; exact L|right]. intros X. apply U. exact (renum_none _ _ _ X).
  - intros n t1 t2 k H1 H2. apply renum_some in H1, H2. destruct H1 as [u1 [H1 ->]], H2 as [u2 [H2 ->]]. exact (F n u1 u2 k H1 H2).
  - intros n t1 t2 k m u i f H1 H2 Q1 Q2 L U. apply renum_some in H1, H2, U. destruct H1 as [u1 [H1 ->]], H2 as [u2 [H2 ->]], U as [u' [U ->]]. exact (G n u1 u2 k m u' i f H1 H2 Q1 Q2 L U).
Qed.
Lemma told_apart_renum k1 k2 d1 d2 : fks_told_apart d1 d2 -> fks_told_apart (renum k1 d1) (renum k2 d2).
Proof. intros A n k t1 t2 f1 f2 H1 H2. apply renum_some in H1, H2. destruct H1 as [u1 [H1 ->]], H2 as [u2 [H2 ->]]. exact (A n k u1 u2 f1 f2 H1 H2). Qed.
Lemma bare_renum k1 k2 d1 d2 : new_tables_bare d1 d2 -> new_tables_bare (renum k1 d1) (renum k2 d2).
Proof. intros A n t H1 H2. apply renum_some in H2. destruct H2 as [u [H2 ->]]. exact (A n u (renum_none _ _ _ H1) H2). Qed.
Lemma own_objects d1 d2 : own_shards d1 d2 -> shard_objects d1 d2.
Proof. intros O n t1 t2 s1 s2 H1 H2 E1 E2 E. destruct (O t1 t2 s1 s2 (get_in _ _ _ H1) (get_in _ _ _ H2) E1 E2 E). Qed.
Lemma holds_renum k cs c d : holds cs c (renum k d) <-> holds cs c d.
Proof.
  split; intros [A B C]; (split; [exact A|exact B|]); intros n; specialize (C n); rewrite renum_get in *; destruct (get_table d n) as [t|]; cbn [option_map] in *; try exact C; destruct C as [x C]; exists x; rewrite entry_renum in *; exact C.
Qed.
Lemma pk_renum_alters k1 k2 d1 d2 : alterable d1 d2 -> forall n t1 t2, get_table (renum k1 d1) n = Some t1 -> get_table (renum k2 d2) n = Some t2 -> t_pk t2 = [] \/ t_pk t1 = t_pk t2.
Proof. intros A. exact (ab_pk _ _ (alterable_renum k1 k2 d1 d2 A)). Qed.

(** what parsing guarantees *)
Lemma parsed_own n s t d : parse_text n s t = Ok d -> own_fks d.
Proof. intros P u fk I J. destruct (c44 _ _ _ _ P) as [_ [_ T]]. exact (pf_from _ _ (pt_fks _ _ (T u I) fk J)). Qed.
Lemma parsed_all_in n s t d : parse_text n s t = Ok d -> all_in s d.
Proof. intros P u I. destruct (c44 _ _ _ _ P) as [_ [_ T]]. exact (pt_schema _ _ (T u I)). Qed.
Lemma parsed_local n s t d : parse_text n s t = Ok d -> schema_local d.
Proof. intros P u v I _ J. rewrite (parsed_all_in _ _ _ _ P u I), (parsed_all_in _ _ _ _ P v J). reflexivity. Qed.

(** What ddldiff --alter1 prints turns any database that holds the first model into one that holds the
    second. *)
Theorem C98_alter1_partial : forall H st f1 f2 n s t1 t2 d1 d2,
  no_failures H -> f1 <> [] -> f2 <> [] -> files st f1 = Some (Text t1) -> files st f2 = Some (Text t2) ->
  parse_text n s t1 = Ok d1 -> parse_text n s t2 = Ok d2 -> writable d1 -> writable d2 -> consistent_db d1 -> consistent_db d2 ->
  new_tables_bare d1 d2 -> fks_told_apart d1 d2 -> alterable d1 d2 ->
  exists st' alters, ddldiff H (alter_diff f1 f2 n s) st = (st', Ok tt)
    /\ prints [Namespace (diff_namespace (alter_diff f1 f2 n s)); says ($"-- changes needed for first schema to match the second"); Printed alters] st st'
    /\ forall c, holds s c d1 -> exists c', run_alters s c alters = Some c' /\ holds s c' d2 /\ cd_name c' = cd_name c /\ cd_schemas c' = cd_schemas c.
Proof.
  intros H st f1 f2 n s t1 t2 d1 d2 NF G1 G2 F1 F2 P1 P2 Q1 Q2 K1 K2 NB TA AL. set (a := alter_diff f1 f2 n s).
  assert (B : both_read a st d1 d2) by (split; [split; assumption|exists t1; split; assumption|exists t2; split; assumption]).
  destruct (ddldiff_renum H a st d1 d2 B) as [k1 [k2 [l1 [l2 [_ [O [C [st1 [X1 R]]]]]]]]].
  destruct (c44 _ _ _ _ P1) as [_ [W1 _]], (c44 _ _ _ _ P2) as [_ [W2 _]]. pose proof (renum_well_formed k1 _ W1) as W1'. pose proof (renum_well_formed k2 _ W2) as W2'.
  destruct (proj2 (C34_alters_partial _ _ _ _ W1' W2' C)) as [_ E]. destruct (E (pk_renum_alters k1 k2 d1 d2 AL)) as [alters S]. clear E.
  destruct (does_report H a l1 l2 alters [] st1 NF (fun _ => S) ltac:(discriminate)) as [st' [E X2]].
  exists st', alters. split; [rewrite R; exact E|]. split; [destruct (effect_trans _ _ _ _ _ _ _ _ _ _ _ X1 X2) as [_ Y _ _]; exact Y|].
  intros c Hc. apply (holds_renum k1) in Hc.
  assert (SO : shard_objects (renum k1 d1) (renum k2 d2)) by apply own_objects, O.
  destruct (C95_runs_partial s _ _ l1 l2 c alters W1' W2' (writable_renum _ _ Q1) (writable_renum _ _ Q2) (all_in_renum _ _ _ (parsed_all_in _ _ _ _ P1)) (all_in_renum _ _ _ (parsed_all_in _ _ _ _ P2))
    C S Hc (told_apart_renum _ _ _ _ TA) SO (bare_renum _ _ _ _ NB) (consistent_renum _ _ K1) (consistent_renum _ _ K2) (alterable_renum _ _ _ _ AL)) as [c' [R1 _]].
  destruct (C95_result_partial s _ _ l1 l2 c alters c' W1' W2' (writable_renum _ _ Q1) (writable_renum _ _ Q2) (all_in_renum _ _ _ (parsed_all_in _ _ _ _ P1)) (all_in_renum _ _ _ (parsed_all_in _ _ _ _ P2))
    C S Hc (told_apart_renum _ _ _ _ TA) SO (bare_renum _ _ _ _ NB) R1) as [R2 R3].
  exists c'. split; [exact R1|]. split; [apply (holds_renum k2), R2|exact R3].
Qed.
Print Assumptions C98_alter1_partial.

(** C98: a database created from the conversion of the first file, altered by what ddldiff --alter1 prints,
    holds the model of the second file. *)
Theorem C98_migrate_partial : forall H message st f1 f2 n s g validated t1 t2 d1 d2,
  no_failures H -> f1 <> [] -> f2 <> [] -> n <> [] -> g <> [] -> g <> $"-" -> f1 <> g -> f2 <> g ->
  files st f1 = Some (Text t1) -> files st f2 = Some (Text t2) -> parse_text n s t1 = Ok d1 -> parse_text n s t2 = Ok d2 ->
  writable d1 -> writable d2 -> consistent_db d1 -> consistent_db d2 -> s = default_schema \/ db_iter d1 <> [] ->
  new_tables_bare d1 d2 -> fks_told_apart d1 d2 -> alterable d1 d2 ->
  exists st1 st2 script alters,
    convert H message (file_to_tql f1 n s g (as_is true validated)) st = (st1, Ok tt) /\ files st1 g = Some (Text script)
    /\ ddldiff H (alter_diff f1 f2 n s) st1 = (st2, Ok tt)
    /\ prints [Namespace (diff_namespace (alter_diff f1 f2 n s)); says ($"-- changes needed for first schema to match the second"); Printed alters] st1 st2
    /\ forall cat, existsb (is_db n) (cat_dbs cat) = false -> exists db db',
         run_script cat script = Some {| cat_dbs := cat_dbs cat ++ [db]; cat_use := Some n |} /\ holds s db d1
         /\ run_alters s db alters = Some db' /\ cd_name db' = n /\ holds s db' d2.
Proof.
  intros H message st f1 f2 n s g validated t1 t2 d1 d2 NF G1 G2 N G GD D1 D2 F1 F2 P1 P2 Q1 Q2 K1 K2 NE NB TA AL.
  destruct (c44 _ _ _ _ P1) as [DN [W1 _]].
  destruct (script_total no_case true d1 (or_introl eq_refl)) as [script S].
  set (a := file_to_tql f1 n s g (as_is true validated)).
  assert (A : convert_accepts a) by (split; [right; right; left; exact G1|intros _; exact N]).
  pose proof (reads_ddl H message a st t1 d1 G1 F1 P1) as R.
  destruct (C09_validation_issues d1) as [r [V _]]; [intros u fk I J; apply (wf_paired u); [apply (wf_tables _ W1), I|exact J]|].
  destruct (C79_converted H message a st d1 _ script [] r [] NF A eq_refl R) as [st1 [E1 C1]];
    [intros _; exact V|intros _; exact S|intros D; destruct (D eq_refl)|intros c []|].
  assert (FT : forall f, f <> g -> files st1 f = files st f).
  { intros f FG. apply (cv_other _ _ _ _ _ _ _ _ _ C1); [intros [_ [_ Q]]; exact (FG Q)|intros [Q _]; exact (Q eq_refl)|]. left. intros [Q|[Q _]]; exact (Q eq_refl). }
  assert (GT : files st1 g = Some (Text script)).
  { apply (cv_tql _ _ _ _ _ _ _ _ _ C1); [split; [exact G|split; [exact GD|reflexivity]]|intros [D _]; exact (D eq_refl)|intros [D _]; exact (D eq_refl)]. }
  rewrite <- (FT f1 D1) in F1. rewrite <- (FT f2 D2) in F2.
  destruct (C98_alter1_partial H st1 f1 f2 n s t1 t2 d1 d2 NF G1 G2 F1 F2 P1 P2 Q1 Q2 K1 K2 NB TA AL) as [st2 [alters [E2 [O X]]]].
  exists st1, st2, script, alters. split; [exact E1|]. split; [exact GT|]. split; [exact E2|]. split; [exact O|].
  intros cat Fresh. rewrite <- DN in Fresh.
  destruct (C95_created_holds s d1 script cat W1 Q1 K1 (parsed_own _ _ _ _ P1) (parsed_local _ _ _ _ P1) (parsed_all_in _ _ _ _ P1) NE S Fresh) as [db [RS [NM HO]]].
  destruct (X db HO) as [db' [RA [HO' [NM' _]]]]. exists db, db'. rewrite DN in *. split; [exact RS|]. split; [exact HO|]. split; [exact RA|]. split; [congruence|exact HO'].
Qed.
Print Assumptions C98_migrate_partial.
Definition first_file : str :=
  $"create table t (id bigint, a varchar(10));" ++ [newline_char]
  ++ $"create table u (id bigint, primary key (id));" ++ [newline_char] ++ $"create table v (k bigint);" ++ [newline_char].
(** column a of t gone, columns b and id new or changed, a foreign key, v gone, w new *)
Definition second_file : str :=
  $"create table t (id bigint, b date);" ++ [newline_char]
  ++ $"create table u (id bigint, primary key (id));" ++ [newline_char] ++ $"create table w (k double);" ++ [newline_char]
  ++ $"alter table t add constraint f foreign key (id) references u (id);" ++ [newline_char].
Definition first_t : table := {| t_name := $"t"; t_schema := DEFAULT_SCHEMA; t_pk := []; t_shard := None;
  t_cols := [($"id", {| column_name := $"id"; column_type := $"BIGINT" |}); ($"a", {| column_name := $"a"; column_type := $"VARCHAR(0)" |})]; t_fks := []; t_rels := [] |}.
Definition second_t : table := {| t_name := $"t"; t_schema := DEFAULT_SCHEMA; t_pk := []; t_shard := None;
  t_cols := [($"id", {| column_name := $"id"; column_type := $"BIGINT" |}); ($"b", {| column_name := $"b"; column_type := $"DATE" |})];
  t_fks := [($"f", {| fk_name := $"f"; fk_from_table := $"t"; fk_from_keys := [$"id"]; fk_to_table := $"u"; fk_to_keys := [$"id"] |})]; t_rels := [] |}.
Definition both_u : table := {| t_name := $"u"; t_schema := DEFAULT_SCHEMA; t_pk := [$"id"]; t_shard := None;
  t_cols := [($"id", {| column_name := $"id"; column_type := $"BIGINT" |})]; t_fks := []; t_rels := [] |}.
Definition first_model : database := {| db_name := $"d"; db_schemas := [(DEFAULT_SCHEMA, 3%Z)];
  db_tables := [($"t", first_t); ($"u", both_u); ($"v", {| t_name := $"v"; t_schema := DEFAULT_SCHEMA; t_pk := []; t_shard := None;
    t_cols := [($"k", {| column_name := $"k"; column_type := $"BIGINT" |})]; t_fks := []; t_rels := [] |})] |}.
Definition new_w : table := {| t_name := $"w"; t_schema := DEFAULT_SCHEMA; t_pk := []; t_shard := None;
    t_cols := [($"k", {| column_name := $"k"; column_type := $"DOUBLE" |})]; t_fks := []; t_rels := [] |}.
Definition second_model : database := {| db_name := $"d"; db_schemas := [(DEFAULT_SCHEMA, 3%Z)];
  db_tables := [($"t", second_t); ($"u", both_u); ($"w", new_w)] |}.
Lemma in_second n t : get_table second_model n = Some t -> n = $"t" /\ t = second_t \/ n = $"u" /\ t = both_u \/ n = $"w" /\ t = new_w.
Proof.
  intros E. apply dget_in in E. unfold second_model in E. cbn [db_tables] in E. destruct E as [E|[E|[E|[]]]]; apply pair_equal_spec in E; destruct E as [<- <-]; auto.
Qed.
Lemma common_tables n t1 t2 : get_table first_model n = Some t1 -> get_table second_model n = Some t2 ->
  n = $"t" /\ t1 = first_t /\ t2 = second_t \/ n = $"u" /\ t1 = both_u /\ t2 = both_u.
Proof.
  intros H1 H2. destruct (in_second n t2 H2) as [[-> ->]|[[-> ->]|[-> ->]]].
  - left. change (get_table first_model ($"t")) with (Some first_t) in H1. split; [reflexivity|]. split; congruence.
  - right. change (get_table first_model ($"u")) with (Some both_u) in H1. split; [reflexivity|]. split; congruence.
  - change (get_table first_model ($"w")) with (@None table) in H1. discriminate.
Qed.
Lemma second_fk m f : get_foreign_key second_t m = Some f -> fk_from_keys f = [$"id"] /\ fk_to_table f = $"u" /\ fk_to_keys f = [$"id"].
Proof. intros E. apply dget_in in E. destruct E as [E|[]]. apply pair_equal_spec in E. destruct E as [_ <-]. repeat split. Qed.
Example C98_case : 
  parse_text ($"d") ($"falcon_default_schema") first_file = Ok first_model /\ parse_text ($"d") ($"falcon_default_schema") second_file = Ok second_model
  /\ writable first_model /\ writable second_model /\ consistent_db first_model /\ consistent_db second_model
  /\ new_tables_bare first_model second_model /\ fks_told_apart first_model second_model /\ alterable first_model second_model.
Proof.
  split; [vm_compute; reflexivity|]. split; [vm_compute; reflexivity|].
  split; [apply wr_ok; vm_compute; reflexivity|]. split; [apply wr_ok; vm_compute; reflexivity|].
  split; [apply valid_ok; vm_compute; reflexivity|]. split; [apply valid_ok; vm_compute; reflexivity|].
  split; [|split].
  - intros n t H1 H2. destruct (in_second n t H2) as [[-> ->]|[[-> ->]|[-> ->]]]; [discriminate H1|discriminate H1|split; reflexivity].
  - intros n k t1 t2 f1 f2 H1 H2 K1 K2. destruct (common_tables _ _ _ H1 H2) as [(-> & -> & ->)|(-> & -> & ->)]; discriminate K1.
  - constructor.
    + intros n t1 t2 H1 H2. destruct (common_tables _ _ _ H1 H2) as [(-> & -> & ->)|(-> & -> & ->)]; [left|right]; reflexivity.
    + intros n t1 t2 z l k H1 H2 S. destruct (common_tables _ _ _ H1 H2) as [(-> & -> & ->)|(-> & -> & ->)]; discriminate S.
    + intros n t1 t2 m f k H1 H2 K1 K2 I. destruct (common_tables _ _ _ H1 H2) as [(-> & -> & ->)|(-> & -> & ->)]; [|discriminate K1].
      destruct (second_fk m f K1) as [E _]. rewrite E in I. destruct I as [<-|[]]. discriminate.
    + intros n t1 t2 m f H1 H2 K1 K2. destruct (common_tables _ _ _ H1 H2) as [(-> & -> & ->)|(-> & -> & ->)]; [|discriminate K1].
      destruct (second_fk m f K1) as [_ [-> ->]]. right. exists both_u. split; [reflexivity|]. intros k [<-|[]]. discriminate.
    + intros n t1 t2 m r H1 H2 K1 K2. destruct (common_tables _ _ _ H1 H2) as [(-> & -> & ->)|(-> & -> & ->)]; discriminate K1.
    + intros n t1 t2 k H1 H2 K. destruct (common_tables _ _ _ H1 H2) as [(-> & -> & ->)|(-> & -> & ->)]; destruct K; reflexivity.
    + intros n t1 t2 k m u i f H1 H2 K1 K2 L U F E. apply dget_in in U. unfold first_model in U. cbn [db_tables] in U.
      destruct U as [U|[U|[U|[]]]]; apply pair_equal_spec in U; destruct U as [<- <-]; discriminate F.
Qed.
