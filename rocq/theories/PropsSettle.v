(** * C116: converting what convert_ddl wrote writes it again *)
From Verif Require Import StrFacts ParsedFacts RoundDemo SpecRound SpecCliDiff SpecCliFlow ScriptFacts CliFacts GenFacts PropsValidate PropsRound PropsCli PropsCliDiff PropsCliFlow CasedFacts SettleFacts.
From Coq Require Import List Lia. Import ListNotations.

Lemma names_cased a x : lower_option a = true \/ upper_option a = true \/ camel_option a = false -> cased (case_of a) x = names_by_option a x.
Proof.
  intros O. unfold cased, to_case, case_of, names_by_option, all_but_default. cbn [lowercase uppercase camelcase]. change DEFAULT_SCHEMA with default_schema.
  destruct (lower_option a), (upper_option a), (camel_option a); try (destruct O as [Q|[Q|Q]]; discriminate Q); destruct (str_eqb x default_schema); reflexivity.
Qed.

(** The file [g] made of a DDL file [f] that defines a table and uses plain names, the file [h] made of [g],
    and the file [i] made of [h], all with the same options (not camel case alone), if the option keeps
    different tables, and different columns of a table, apart: [i] and [h] are the same text, and [h] and [g]
    are exactly if no column of [f] was written as INT.  The schema is not a variant of falcon_default_schema
    in other letters. *)
Theorem C116_settles : forall H message st f n s g h i o t d,
  no_failures H -> f <> [] -> n <> [] -> g <> [] -> g <> $"-" -> h <> [] -> h <> $"-" -> i <> [] -> i <> $"-" ->
  o_lower o = true \/ o_upper o = true \/ o_camel o = false ->
  files st f = Some (Text t) -> parse_text n s t = Ok d -> plain_db d -> db_iter d <> [] ->
  NoDup (map (names_by_option (file_to_tql f n s g o)) (get_table_names d)) ->
  (forall t, In t (db_iter d) -> NoDup (map (columns_by_option (file_to_tql f n s g o)) (get_column_names t))) ->
  s = default_schema \/ names_by_option (file_to_tql f n s g o) s <> default_schema ->
  exists st1 st2 st3 x y,
    convert H message (file_to_tql f n s g o) st = (st1, Ok tt)
    /\ convert H message (file_to_tql g n s h o) st1 = (st2, Ok tt)
    /\ convert H message (file_to_tql h n s i o) st2 = (st3, Ok tt)
    /\ files st1 g = Some (Text x) /\ files st2 h = Some (Text y) /\ files st3 i = Some (Text y)
    /\ (y = x <-> forall t c, In t (db_iter d) -> In c (table_iter t) -> column_type c <> $"INT").
Proof.
  intros H message st f n s g h i o t d NF F N G G1 Hh Hh1 I I1 O T P PL NE A1 A2 Ds.
  set (c := case_of (file_to_tql f n s g o)). assert (Oc : lowercase c = true \/ uppercase c = true \/ camelcase c = false) by exact O.
  assert (Nc : forall x, cased c x = names_by_option (file_to_tql f n s g o) x) by (intros x; apply names_cased; exact O).
  assert (Kc : forall x, col_cased c x = columns_by_option (file_to_tql f n s g o) x).
  { intros x. unfold col_cased, columns_by_option. change (lowercase c) with (o_lower o). change (uppercase c) with (o_upper o). cbn [file_to_tql lower_option upper_option]. destruct (o_lower o); [reflexivity|]. destruct (o_upper o); reflexivity. }
  assert (AP : apart c d) by (split; [rewrite (map_ext _ _ Nc); exact A1|intros u J; rewrite (map_ext _ _ Kc); exact (A2 u J)]).
  assert (Dc : s = DEFAULT_SCHEMA \/ cased c s <> DEFAULT_SCHEMA) by (rewrite Nc; exact Ds).
  assert (ONE : forall f g st t d x, f <> [] -> g <> [] -> g <> $"-" -> files st f = Some (Text t) -> parse_text n s t = Ok d -> tql_script c (o_create o) d = Ok x ->
    exists st1, convert H message (file_to_tql f n s g o) st = (st1, Ok tt) /\ files st1 g = Some (Text x)).
  { clear - NF N. intros f' g' st t d x F G G1 T P S. destruct (c44 _ _ _ _ P) as [_ [W _]]. set (a := file_to_tql f' n s g' o).
    assert (A : convert_accepts a) by (split; [right; right; left; exact F|intros _; exact N]). pose proof (reads_ddl H message a st t d F T P) as R.
    destruct (C09_validation_issues d) as [r [V _]]; [intros u fk I J; apply (wf_paired u); [apply (wf_tables _ W), I|exact J]|].
    destruct (C79_converted H message a st d _ x [] r [] NF A eq_refl R) as [st1 [E1 C1]]; [intros _; exact V|intros _; exact S|intros D; destruct (D eq_refl)|intros k []|].
    exists st1. split; [exact E1|]. apply (cv_tql _ _ _ _ _ _ _ _ _ C1); [split; [exact G|split; [exact G1|reflexivity]]|intros [D _]; exact (D eq_refl)|intros [D _]; exact (D eq_refl)]. }
  destruct (step n s (o_create o) c Oc Dc t d P PL NE AP) as [x [d1 [S1 [P1 [PL1 [NE1 [AP1 [NI1 [y [S2 Q]]]]]]]]]].
  destruct (step n s (o_create o) c Oc Dc x d1 P1 PL1 NE1 AP1) as [y0 [d2 [S2' [P2 [_ [_ [_ [_ [z [S3 Q2]]]]]]]]]]. rewrite S2 in S2'. injection S2' as <-.
  rewrite (proj2 Q2 NI1) in S3.
  destruct (ONE f g st t d x F G G1 T P S1) as [st1 [E1 F1]]. destruct (ONE g h st1 x d1 y G Hh Hh1 F1 P1 S2) as [st2 [E2 F2]]. destruct (ONE h i st2 y d2 y Hh I I1 F2 P2 S3) as [st3 [E3 F3]].
  exists st1, st2, st3, x, y. split; [exact E1|]. split; [exact E2|]. split; [exact E3|]. split; [exact F1|]. split; [exact F2|]. split; [exact F3|exact Q].
Qed.
Print Assumptions C116_settles.
(** a file with all kinds of keys meets the hypotheses, with --lowercase; the INT columns make a difference *)
Definition in_lower : tql_options := {| o_create := true; o_lower := true; o_upper := false; o_camel := false; o_validate := true |}.
Definition settle_ddl (a b ty : str) : str :=
  $"create table " ++ a ++ $" (Id " ++ ty ++ $", v varchar(5), primary key (Id)) partition by hash (2) key (Id);" ++ [newline_char]
  ++ $"create table " ++ b ++ $" (Id " ++ ty ++ $", primary key (Id));" ++ [newline_char]
  ++ $"alter table " ++ a ++ $" add constraint F foreign key (Id) references " ++ b ++ $" (Id);" ++ [newline_char]
  ++ $"alter table " ++ a ++ $" add relationship R with " ++ b ++ $" as (T.id = U.id);" ++ [newline_char].
Example C116_case : exists d, parse_text ($"D") ($"S") (settle_ddl ($"T") ($"Us") ($"serial")) = Ok d /\ plain_db d /\ db_iter d <> []
  /\ NoDup (map (names_by_option (file_to_tql ($"in.ddl") ($"D") ($"S") ($"out.tql") in_lower)) (get_table_names d))
  /\ (forall t, In t (db_iter d) -> NoDup (map (columns_by_option (file_to_tql ($"in.ddl") ($"D") ($"S") ($"out.tql") in_lower)) (get_column_names t)))
  /\ names_by_option (file_to_tql ($"in.ddl") ($"D") ($"S") ($"out.tql") in_lower) ($"S") <> default_schema
  /\ flat_map foreign_keys_iter (db_iter d) <> [] /\ flat_map relationships_iter (db_iter d) <> []
  /\ exists t c, In t (db_iter d) /\ In c (table_iter t) /\ column_type c = $"INT".
Proof.
  destruct (parse_text ($"D") ($"S") (settle_ddl ($"T") ($"Us") ($"serial"))) as [d|] eqn:P; [|vm_compute in P; discriminate]. vm_compute in P. injection P as <-.
  eexists. split; [reflexivity|]. split; [apply plain_db_ok; vm_compute; reflexivity|]. split; [discriminate|].
  split; [vm_compute; repeat (constructor; [intros I; repeat (destruct I as [I|I]; [discriminate I|]); destruct I|]); constructor|].
  split; [intros t [<-|[<-|[]]]; vm_compute; repeat (constructor; [intros I; repeat (destruct I as [I|I]; [discriminate I|]); destruct I|]); constructor|].
  split; [vm_compute; discriminate|]. split; [vm_compute; discriminate|]. split; [vm_compute; discriminate|].
  eexists _, _. split; [left; reflexivity|]. split; [left; reflexivity|reflexivity].
Qed.

(** the texts of the files [g] and [h] when "in.ddl" holds [ddl] *)
Definition twice (ddl : str) (o : tql_options) : option content * option content :=
  let st := {| files := fun n => if str_eqb n ($"in.ddl") then Some (Text ddl) else None; out := []; err := []; sent := []; objects := 0 |} in
  let st1 := fst (convert quiet (fun _ => []) (file_to_tql ($"in.ddl") ($"d") ($"s") ($"g") o) st) in
  let st2 := fst (convert quiet (fun _ => []) (file_to_tql ($"g") ($"d") ($"s") ($"h") o) st1) in
  (files st1 ($"g"), files st2 ($"h")).
Definition in_camel_case : tql_options := {| o_create := true; o_lower := false; o_upper := false; o_camel := true; o_validate := true |}.
(** Without the conditions this is false: two tables whose names differ only in letter case become one, and
    camel case takes away the underscores of a name one by one. *)
Theorem C116_together_refuted : exists x y d, parse_text ($"d") ($"s") (settle_ddl ($"T") ($"t") ($"bigint")) = Ok d /\ plain_db d /\ no_ints d
  /\ twice (settle_ddl ($"T") ($"t") ($"bigint")) in_lower = (Some (Text x), Some (Text y)) /\ y <> x.
Proof.
  destruct (parse_text ($"d") ($"s") (settle_ddl ($"T") ($"t") ($"bigint"))) as [d|] eqn:P; [|vm_compute in P; discriminate]. vm_compute in P. injection P as <-.
  eexists _, _, _. split; [reflexivity|]. split; [apply plain_db_ok; vm_compute; reflexivity|]. split; [|split; [vm_compute; reflexivity|discriminate]].
  intros t c [<-|[<-|[]]] I; repeat (destruct I as [<-|I]; [discriminate|]); destruct I.
Qed.
Print Assumptions C116_together_refuted.
Theorem C116_camel_refuted : exists x y d, parse_text ($"d") ($"s") (settle_ddl ($"my__table") ($"other") ($"bigint")) = Ok d /\ plain_db d /\ no_ints d
  /\ twice (settle_ddl ($"my__table") ($"other") ($"bigint")) in_camel_case = (Some (Text x), Some (Text y)) /\ y <> x.
Proof.
  destruct (parse_text ($"d") ($"s") (settle_ddl ($"my__table") ($"other") ($"bigint"))) as [d|] eqn:P; [|vm_compute in P; discriminate]. vm_compute in P. injection P as <-.
  eexists _, _, _. split; [reflexivity|]. split; [apply plain_db_ok; vm_compute; reflexivity|]. split; [|split; [vm_compute; reflexivity|discriminate]].
  intros t c [<-|[<-|[]]] I; repeat (destruct I as [<-|I]; [discriminate|]); destruct I.
Qed.
Print Assumptions C116_camel_refuted.
