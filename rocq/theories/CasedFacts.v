(** * The model a script with a case option describes *)
From Verif Require Import StrFacts TypeFacts ParsedFacts RoundText RoundDemo SpecRound SpecScript Writer GenFacts ScriptFacts.
From Coq Require Import List. Import ListNotations.

Section Cased.
Variable o : case_opts.
Hypothesis O : lowercase o = true \/ uppercase o = true \/ camelcase o = false.
Let cn := cased o.
Let cc := col_cased o.

Lemma cn_ok x : to_case o x = Ok (cn x).
Proof.
  unfold cn, cased, to_case. destruct (str_eqb x DEFAULT_SCHEMA); [reflexivity|]. destruct (lowercase o) eqn:L; [reflexivity|]. destruct (uppercase o) eqn:U; [reflexivity|].
  destruct (camelcase o) eqn:C; [|reflexivity]. destruct O as [Q|[Q|Q]]; discriminate Q.
Qed.
Lemma upper_char_idem c : upper_char (upper_char c) = upper_char c.
Proof. apply Ascii.eqb_eq. revert c. apply (all_chars (fun c => Ascii.eqb (upper_char (upper_char c)) (upper_char c))). vm_compute. reflexivity. Qed.
Lemma upper_idem s : upper (upper s) = upper s.
Proof. unfold upper. rewrite map_map. apply map_ext. apply upper_char_idem. Qed.
Lemma lower_upper s : lower (upper s) = lower s.
Proof. unfold lower, upper. rewrite map_map. apply map_ext. apply lower_upper_char. Qed.
Lemma plain_upper w : plain w -> plain (upper w).
Proof.
  unfold plain. rewrite !forallb_forall. intros H c Hc. unfold upper in Hc. apply in_map_iff in Hc. destruct Hc as [d [<- Hd]].
  specialize (H d Hd). revert H. generalize d. clear. intros d.
  pose proof (all_chars (fun d => implb (word_char d) (word_char (upper_char d))) eq_refl d) as A. cbn beta in A.
  intros H. rewrite H in A. exact A.
Qed.
Lemma cn_cases x : cn x = x \/ (lowercase o = true /\ cn x = lower x) \/ (lowercase o = false /\ uppercase o = true /\ cn x = upper x).
Proof.
  unfold cn, cased, to_case. destruct (str_eqb x DEFAULT_SCHEMA); [left; reflexivity|]. destruct (lowercase o) eqn:L; [right; left; auto|]. destruct (uppercase o) eqn:U; [right; right; auto|].
  destruct (camelcase o) eqn:C; [|left; reflexivity]. destruct O as [Q|[Q|Q]]; discriminate Q.
Qed.
Lemma cn_plain x : plain x -> plain (cn x).
Proof. intros P. destruct (cn_cases x) as [-> |[[_ ->]|[_ [_ ->]]]]; [exact P|apply plain_lower, P|apply plain_upper, P]. Qed.
Lemma cn_silent w x : ~ mentions w x -> ~ mentions w (cn x).
Proof. unfold mentions. intros P. destruct (cn_cases x) as [-> |[[_ ->]|[_ [_ ->]]]]; [exact P|rewrite lower_idem; exact P|rewrite lower_upper; exact P]. Qed.
Lemma cn_idem x : cn (cn x) = cn x.
Proof.
  destruct (cn_cases x) as [E|[[L E]|[L [U E]]]]; [rewrite !E; reflexivity| |]; rewrite E; unfold cn, cased, to_case; rewrite L, ?U.
  - destruct (str_eqb (lower x) DEFAULT_SCHEMA); [reflexivity|apply lower_idem].
  - destruct (str_eqb (upper x) DEFAULT_SCHEMA); [reflexivity|apply upper_idem].
Qed.
Lemma cc_idem x : cc (cc x) = cc x.
Proof. unfold cc, col_cased. destruct (lowercase o); [apply lower_idem|]. destruct (uppercase o); [apply upper_idem|reflexivity]. Qed.
Lemma cc_plain x : plain x -> plain (cc x).
Proof. intros P. unfold cc, col_cased. destruct (lowercase o); [apply plain_lower, P|]. destruct (uppercase o); [apply plain_upper, P|exact P]. Qed.

Definition cased_column (c : column) : column := {| column_name := cc (column_name c); column_type := column_type c |}.
Definition cased_fk (k : foreign_key) : foreign_key :=
  {| fk_name := fk_name k; fk_from_table := cn (fk_from_table k); fk_from_keys := fk_from_keys k; fk_to_table := cn (fk_to_table k); fk_to_keys := fk_to_keys k |}.
Definition cased_rel (r : relationship) : relationship :=
  {| rel_name := rel_name r; rel_from_table := cn (rel_from_table r); rel_to_table := cn (rel_to_table r); rel_conditions := rel_conditions r |}.
Definition mapped {A} (f : str -> str) (g : A -> A) (d : dict A) : dict A := map (fun p => (f (fst p), g (snd p))) d.
Definition cased_table (t : table) : table :=
  {| t_name := cn (t_name t); t_schema := cn (t_schema t); t_pk := t_pk t; t_shard := t_shard t;
     t_cols := mapped cc cased_column (t_cols t); t_fks := mapped (fun k => k) cased_fk (t_fks t); t_rels := mapped (fun k => k) cased_rel (t_rels t) |}.
Definition cased_db (d : database) : database :=
  {| db_name := cn (db_name d); db_tables := mapped cn cased_table (db_tables d); db_schemas := mapped cn (fun z => z) (db_schemas d) |}.

Lemma mapped_keys {A} f (g : A -> A) d : dkeys (mapped f g d) = map f (dkeys d).
Proof. unfold dkeys, mapped. rewrite !map_map. reflexivity. Qed.
Lemma mapped_vals {A} f (g : A -> A) d : dvals (mapped f g d) = map g (dvals d).
Proof. unfold dvals, mapped. rewrite !map_map. reflexivity. Qed.
Lemma mapped_filed {A} f (g : A -> A) (name : A -> str) d : NoDup (dkeys d) -> (forall n x, dget n d = Some x -> name x = n) -> (forall x, name (g x) = f (name x)) ->
  forall n x, dget n (mapped f g d) = Some x -> name x = n.
Proof.
  intros N F E n x G. apply dget_in in G. unfold mapped in G. apply in_map_iff in G. destruct G as [[k v] [Q I]]. apply pair_equal_spec in Q. cbn [fst snd] in Q. destruct Q as [<- <-].
  rewrite E, (F k v); [reflexivity|]. apply dget_nodup; assumption.
Qed.
Lemma cased_iter d : db_iter (cased_db d) = map cased_table (db_iter d).
Proof. apply mapped_vals. Qed.
Lemma cased_columns t : table_iter (cased_table t) = map cased_column (table_iter t).
Proof. apply mapped_vals. Qed.
Lemma cased_fks t : foreign_keys_iter (cased_table t) = map cased_fk (foreign_keys_iter t).
Proof. apply mapped_vals. Qed.
Lemma cased_rels t : relationships_iter (cased_table t) = map cased_rel (relationships_iter t).
Proof. apply mapped_vals. Qed.

(** names that stay apart *)
Definition apart (d : database) : Prop := NoDup (map cn (get_table_names d)) /\ forall t, In t (db_iter d) -> NoDup (map cc (get_column_names t)).

Lemma cased_formed d s : well_formed d -> apart d -> get_schema_names d = [s] -> well_formed (cased_db d).
Proof.
  intros W [A B] S. split.
  - split; [unfold get_table_names, cased_db; cbn [db_tables]; rewrite mapped_keys; exact A|]. destruct (wf_names _ W) as [N F]. apply (mapped_filed cn cased_table t_name (db_tables d) N F). reflexivity.
  - assert (E : get_schema_names (cased_db d) = [cn s]) by (unfold get_schema_names, cased_db; cbn [db_schemas]; rewrite mapped_keys; unfold get_schema_names in S; rewrite S; reflexivity). rewrite E. split; [constructor; [intros []|constructor]|].
    intros t I. rewrite cased_iter in I. apply in_map_iff in I. destruct I as [u [<- I]]. left. cbn [cased_table t_schema]. f_equal. destruct (wf_schemas _ W) as [_ Z]. specialize (Z u I). rewrite S in Z. destruct Z as [Z|[]]. exact Z.
  - intros t I. rewrite cased_iter in I. apply in_map_iff in I. destruct I as [u [<- I]]. destruct (wf_tables _ W u I) as [[C1 C2] [F1 F2] [R1 R2] P]. split.
    + split; [unfold get_column_names, cased_table; cbn [t_cols]; rewrite mapped_keys; apply B, I|]. apply (mapped_filed cc cased_column column_name (t_cols u) C1 C2). reflexivity.
    + split; [cbn [cased_table t_fks]; rewrite mapped_keys, map_id; exact F1|]. apply (mapped_filed (fun k => k) cased_fk fk_name (t_fks u) F1 F2). reflexivity.
    + split; [cbn [cased_table t_rels]; rewrite mapped_keys, map_id; exact R1|]. apply (mapped_filed (fun k => k) cased_rel rel_name (t_rels u) R1 R2). reflexivity.
    + intros fk J. rewrite cased_fks in J. apply in_map_iff in J. destruct J as [k [<- J]]. exact (P k J).
Qed.
Lemma cased_plain d : plain_db d -> plain_db (cased_db d).
Proof.
  intros [A B C]. split.
  - apply cn_plain, A.
  - intros s I. unfold get_schema_names, cased_db in I. cbn [db_schemas] in I. rewrite mapped_keys in I. apply in_map_iff in I. destruct I as [x [<- I]]. apply cn_plain, B, I.
  - intros t I. rewrite cased_iter in I. apply in_map_iff in I. destruct I as [u [<- I]]. destruct (C u I) as [P1 P2 P3 P4 P5 P6]. split.
    + intros w J. cbn [cased_table t_schema t_name t_pk] in J. unfold get_column_names, cased_table in J. cbn [t_cols] in J. rewrite mapped_keys in J. cbn [app] in J.
      destruct J as [<-|[<-|J]]; [apply cn_plain, P1; left; reflexivity|apply cn_plain, P1; right; left; reflexivity|]. apply in_app_or in J. destruct J as [J|J].
      * apply in_map_iff in J. destruct J as [x [<- J]]. apply cc_plain, P1. right. right. apply (in_or_app (get_column_names u) (t_pk u)). left. exact J.
      * apply P1. right. right. apply (in_or_app (get_column_names u) (t_pk u)). right. exact J.
    + intros c J. rewrite cased_columns in J. apply in_map_iff in J. destruct J as [x [<- J]]. exact (P2 x J).
    + exact P3.
    + cbn [cased_table t_cols t_pk t_shard]. intros E. apply P4. unfold mapped in E. apply map_eq_nil in E. exact E.
    + intros fk J. rewrite cased_fks in J. apply in_map_iff in J. destruct J as [k [<- J]]. destruct (P5 k J) as [Q1 Q2 Q3 Q4]. split.
      * cbn [cased_fk fk_from_table cased_table t_name]. rewrite Q1. reflexivity.
      * exact Q2.
      * cbn [cased_fk fk_name fk_to_table fk_from_keys fk_to_keys]. intros w [<-|[<-|K]]; [apply Q3; left; reflexivity|apply cn_plain, Q3; right; left; reflexivity|apply Q3; right; right; exact K].
      * cbn [cased_fk fk_name fk_to_table fk_from_keys fk_to_keys cased_table t_schema t_name]. intros w [<-|[<-|[<-|[<-|K]]]];
          [apply cn_silent, Q4; left; reflexivity|apply cn_silent, Q4; right; left; reflexivity|apply Q4; right; right; left; reflexivity|apply cn_silent, Q4; right; right; right; left; reflexivity|apply Q4; right; right; right; right; exact K].
    + intros r J. rewrite cased_rels in J. apply in_map_iff in J. destruct J as [k [<- J]]. destruct (P6 k J) as [Q1 [Q2 Q3] Q4 Q5]. split.
      * cbn [cased_rel rel_from_table cased_table t_name]. rewrite Q1. reflexivity.
      * split; [exact Q2|apply cn_plain, Q3].
      * cbn [cased_rel rel_name rel_to_table cased_table t_schema t_name]. intros w [<-|[<-|[<-|[<-|[]]]]];
          [apply cn_silent, Q4; left; reflexivity|apply cn_silent, Q4; right; left; reflexivity|apply Q4; right; right; left; reflexivity|apply cn_silent, Q4; right; right; right; left; reflexivity].
      * exact Q5.
Qed.

(** ** The script of a model with the option is the script of the other model without it *)
Lemma plain_ok x : to_case no_case x = Ok x.
Proof. unfold to_case. destruct (str_eqb x DEFAULT_SCHEMA); reflexivity. Qed.
Lemma cased_lines : forall cs b, column_lines no_case b (map cased_column cs) = column_lines o b cs.
Proof. induction cs as [|c cs IH]; intros b; [reflexivity|]. cbn [map column_lines]. rewrite IH. reflexivity. Qed.
Lemma cased_table_texts t : table_texts no_case (cased_table t) = table_texts o t.
Proof.
  unfold table_texts, gen_drop_table, gen_create_table, cased_names. rewrite !plain_ok, !cn_ok, cased_columns, cased_lines. reflexivity.
Qed.
Lemma cased_fk_texts t : fk_texts no_case (cased_table t) = fk_texts o t.
Proof.
  unfold fk_texts. fold (foreign_keys_iter (cased_table t)). rewrite cased_fks, map_map. apply map_ext. intros k. unfold gen_foreign_key. rewrite !plain_ok, !cn_ok. reflexivity.
Qed.
Lemma cased_rel_texts t : rel_texts no_case (cased_table t) = rel_texts o t.
Proof.
  unfold rel_texts. fold (relationships_iter (cased_table t)). rewrite cased_rels, map_map. apply map_ext. intros k. unfold gen_relationships. rewrite !plain_ok, !cn_ok. reflexivity.
Qed.
Lemma cased_texts b d s : get_schema_names d = [s] -> (s = DEFAULT_SCHEMA \/ cn s <> DEFAULT_SCHEMA) -> tql_texts no_case b (cased_db d) = tql_texts o b d.
Proof.
  intros S D. assert (E : get_schema_names (cased_db d) = [cn s]) by (unfold get_schema_names, cased_db; cbn [db_schemas]; rewrite mapped_keys; unfold get_schema_names in S; rewrite S; reflexivity).
  unfold tql_texts. rewrite E, S, cased_iter. rewrite !flat_map_concat_map, !map_map. rewrite (map_ext _ _ cased_table_texts), (map_ext _ _ cased_fk_texts), (map_ext _ _ cased_rel_texts).
  unfold gen_create_database, gen_use_database. cbn [cased_db db_name]. rewrite !plain_ok, !cn_ok. do 2 f_equal. f_equal. destruct b; [|reflexivity]. cbn [filter].
  destruct D as [-> |D].
  - assert (Z : cn DEFAULT_SCHEMA = DEFAULT_SCHEMA) by reflexivity. rewrite Z. reflexivity.
  - assert (Z : str_eqb (cn s) DEFAULT_SCHEMA = false) by (apply Bool.not_true_iff_false; intros Q; apply D, str_eqb_eq, Q). rewrite Z.
    assert (Y : str_eqb s DEFAULT_SCHEMA = false) by (apply Bool.not_true_iff_false; intros Q; apply str_eqb_eq in Q; subst s; apply D; reflexivity). rewrite Y. cbn [negb map].
    unfold gen_create_schema. rewrite plain_ok, cn_ok. reflexivity.
Qed.
End Cased.
