(** * Specification: ddldiff (C87, C88) *)
From Verif Require Export SpecCli SpecDiff.

(** the same model, but for the identity of the shard key objects *)
Record same_table (t t' : table) : Prop := {
  st_name : t_name t' = t_name t; st_schema : t_schema t' = t_schema t; st_pk : t_pk t' = t_pk t; st_cols : t_cols t' = t_cols t;
  st_fks : t_fks t' = t_fks t; st_rels : t_rels t' = t_rels t; st_shard : shard_of t' = shard_of t }.
Definition same_model (d d' : database) : Prop :=
  db_name d' = db_name d /\ db_schemas d' = db_schemas d /\ Forall2 (fun x y => fst y = fst x /\ same_table (snd x) (snd y)) (db_tables d) (db_tables d').
(** no shard key object is in both *)
Definition own_shards (d1 d2 : database) : Prop :=
  forall t1 t2 s1 s2, In t1 (db_iter d1) -> In t2 (db_iter d2) -> t_shard t1 = Some s1 -> t_shard t2 = Some s2 -> sk_id s1 <> sk_id s2.
(** the differences between two models read from files *)
Definition differences (d1 d2 : database) (l1 l2 : list difference) : Prop :=
  exists d1' d2', same_model d1 d1' /\ same_model d2 d2' /\ own_shards d1' d2' /\ compare_databases d1' d2' = Ok (l1, l2).

(** both files are read *)
Record both_read (a : diff_args) (st : state) (d1 d2 : database) : Prop := {
  br_given : is_given (ddl1 a) /\ is_given (ddl2 a);
  br_first : exists t, files st (text (ddl1 a)) = Some (Text t) /\ parse_text (database1 a) (schema1 a) t = Ok d1;
  br_second : exists t, files st (text (ddl2 a)) = Some (Text t) /\ parse_text (database1 a) (schema1 a) t = Ok d2 }.
(** what the parser says about the files *)
Definition said_about (H : host) (a : diff_args) (st : state) (f : str) : list str :=
  match files st f with Some (Text t) => complaints H (database1 a) (schema1 a) t | _ => [] end.
Definition both_said (H : host) (a : diff_args) (st : state) : list str :=
  said_about H a st (text (ddl1 a)) ++ said_about H a st (text (ddl2 a)).
Definition listing (title : str) (l : list difference) : list output := says title :: map (fun d => says ([chr 9] ++ diff_repr d)) l.
(** the output, where [s1] and [s2] are the ALTER statements *)
Definition diff_output (a : diff_args) (l1 l2 : list difference) (s1 s2 : str) : list output :=
  if_true (alter1 a) [says ($"-- changes needed for first schema to match the second"); Printed s1]
  ++ if_true (alter2 a) [says ($"-- changes needed for second schema to match the first"); Printed s2]
  ++ if_true (negb (alter1 a) && negb (alter2 a)) (listing ($"Database differences for DB 1:") l1 ++ listing ($"Database differences for DB 2:") l2).

(** two tables about which nothing is reported *)
Record looks_same (t1 t2 : table) : Prop := {
  ls_cols : forall k, get_column t1 k = get_column t2 k;
  ls_pk : t_pk t1 = t_pk t2;
  ls_rels : forall k, get_relationship t1 k = get_relationship t2 k;
  ls_fks : forall k, match get_foreign_key t1 k, get_foreign_key t2 k with
                     | Some f1, Some f2 => taken_as_same f1 f2
                     | None, None => True
                     | _, _ => False
                     end;
  ls_unsharded : t_shard t1 = None /\ t_shard t2 = None }.
Definition look_same (d1 d2 : database) : Prop :=
  forall n, match get_table d1 n, get_table d2 n with
            | Some t1, Some t2 => looks_same t1 t2
            | None, None => True
            | _, _ => False
            end.
