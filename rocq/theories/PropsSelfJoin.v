(** * C59: joins of a table with itself *)
From Verif Require Import JoinFacts PropsJoin.
From Coq Require Import Lia.

(** a server that answers the same query in the same way whenever it is asked *)
Definition same_answers (ask : oracle) : Prop := forall h h' q, ask h q = ask h' q.
(** a row of the from side is related to several rows of the to side, and none of the to side to several of the from
    side *)
Definition one_to_many (related : drow -> drow -> bool) (froms tos : list drow) : Prop :=
  (exists x, In x froms /\ 2 <= length (filter (related x) tos))
  /\ (forall y, In y tos -> length (filter (fun x => related x y) froms) <= 1).

Lemma same_table d j : filed d -> In j (joins_of d) -> t_name (jb_from j) = t_name (jb_to j) -> jb_from j = jb_to j.
Proof.
  intros [F1 F2] I E. apply in_flat_map in I. destruct I as [t [It I]].
  apply dvals_in in It. destruct It as [k It]. apply dget_nodup in It; [|exact F1]. pose proof (F2 _ _ It) as N.
  apply in_app_or in I. destruct I as [I|I]; apply in_flat_map in I; destruct I as [x [_ I]];
    [destruct (get_table d (fk_to_table x)) as [u|] eqn:G; [destruct I as [<-|[]]|destruct I]|destruct (get_table d (rel_to_table x)) as [u|] eqn:G; [destruct I as [<-|[]]|destruct I]]; cbn [jb_from jb_to] in *;
    pose proof (F2 _ _ G) as N'; unfold get_table in G; congruence.
Qed.
Lemma same_query d t w q1 q2 : query_of_join d t t w q1 -> query_of_join d t t w q2 -> q1 = q2.
Proof.
  intros [c [l [A [B E]]]] [c' [l' [A' [B' E']]]]. apply standing_columns in A, B, A', B'. rewrite E, E'. congruence.
Qed.

(** The two queries about such a join are one and the same, so it is never called a 1:M join, whatever the data: only
    that it returns no data, that it is a M:M join, or nothing is said. *)
Theorem C59_self_join : forall ask d h, filed d -> no_dangling d ->
  (forall t fk, In t (db_iter d) -> In fk (foreign_keys_iter t) -> length (fk_from_keys fk) = length (fk_to_keys fk)) ->
  (forall t, In t (db_iter d) -> t_pk t <> [] \/ get_column_names t <> []) -> same_answers ask ->
  exists ls, fst (review_table_joins ask d h) = Ok (concat ls)
    /\ Forall2 (fun j said => t_name (jb_from j) = t_name (jb_to j) ->
         said = [jb_name j ++ $" didn't return data."] \/ said = [jb_name j ++ $" is a M:M join."] \/ said = []) (joins_of d) ls.
Proof.
  intros ask d h F D P C S. destruct (C93_any_server ask d h F D P C) as [ls [h' [J R]]]. exists ls. split; [rewrite R; reflexivity|].
  assert (T : forall j, In j (joins_of d) -> t_name (jb_from j) = t_name (jb_to j) -> jb_from j = jb_to j) by (intros j; apply same_table, F).
  revert T. clear R. induction J as [|h j js q1 q2 said ls h' Q1 Q2 V J IH]; intros T; constructor.
  - intros E. pose proof (T j (or_introl eq_refl) E) as Z. rewrite <- Z in Q1, Q2. pose proof (same_query _ _ _ _ _ Q1 Q2) as Q. rewrite <- Q, (S (h ++ [count_text q1]) h) in V.
    destruct V as [[_ V]|[n [m [[[r [l [s [A1 [A2 A3]]]]] _] [[[r' [l' [s' [B1 [B2 B3]]]]] _] V]]]]]; [left; exact V|].
    assert (N : n = m) by congruence. subst m. destruct V as [[_ V]|[[V1 [V2 _]]|[_ [_ V]]]]; [right; right; exact V|destruct (V1 V2)|right; left; exact V].
  - apply IH. intros j' I. apply T. right. exact I.
Qed.
Print Assumptions C59_self_join.

(** A table of people with a foreign key from their number to the number of people's boss is such a join.  Where
    somebody is the boss of two others it is 1:M, but no server that answers consistently gets that reported. *)
Definition people : table :=
  plain_table ($"people") [$"id"] [$"id"; $"boss"] [($"leads", {| fk_name := $"leads"; fk_from_table := $"people"; fk_from_keys := [$"id"]; fk_to_table := $"people"; fk_to_keys := [$"boss"] |})].
Definition firm : database := {| db_name := $"db"; db_schemas := [($"s", 0%Z)]; db_tables := [($"people", people)] |}.
Definition person (id : str) (boss : option str) : drow := fun c => if str_eqb c ($"id") then Some id else if str_eqb c ($"boss") then boss else None.
Definition three_people : list drow := [person ($"1") None; person ($"2") (Some ($"1")); person ($"3") (Some ($"1"))].
Definition is_boss (x y : drow) : bool := match x ($"id"), y ($"boss") with Some a, Some b => str_eqb a b | _, _ => false end.

Theorem C59_self_refuted : exists j, joins_of firm = [j] /\ jb_from j = people /\ jb_to j = people /\ jb_where j = $"(""people"".""id"" = ""people"".""boss"")"
  /\ one_to_many is_boss three_people three_people
  /\ forall ask h, same_answers ask -> exists said, fst (review_table_joins ask firm h) = Ok said /\ ~ In (jb_name j ++ $" is a 1:M join.") said.
Proof.
  eexists. split; [reflexivity|]. split; [reflexivity|]. split; [reflexivity|]. split; [vm_compute; reflexivity|]. split.
  { split; [exists (person ($"1") None); split; [left; reflexivity|vm_compute; apply le_n]|]. intros y [<-|[<-|[<-|[]]]]; vm_compute; lia. }
  intros ask h S.
  destruct (C59_self_join ask firm h) as [ls [E V]]; [| | | |exact S|].
  - split; [apply nodup_spec; vm_compute; reflexivity|]. intros n t G. apply dget_in in G. destruct G as [G|[]]; apply pair_equal_spec in G; destruct G as [<- <-]; reflexivity.
  - intros a b [t [G K]]. apply dget_in in G. destruct G as [G|[]]; apply pair_equal_spec in G; destruct G as [_ <-]; destruct K as [[x [K <-]]|[x [[] _]]]; destruct K as [<-|[]]; cbn; auto.
  - intros t fk [<-|[]] [<-|[]]; reflexivity.
  - intros t [<-|[]]. left. discriminate.
  - exists (concat ls). split; [exact E|]. change (joins_of firm) with [{| jb_name := $"leads"; jb_from := people; jb_to := people; jb_where := fk_text ($"people") ($"people") {| fk_name := $"leads"; fk_from_table := $"people"; fk_from_keys := [$"id"]; fk_to_table := $"people"; fk_to_keys := [$"boss"] |} |}] in V.
    inversion V as [|j0 said0 js0 ls0 V1 V2]. subst. inversion V2. subst. cbn [concat]. rewrite app_nil_r. intros I.
    destruct (V1 eq_refl) as [Z|[Z|Z]]; rewrite Z in I; [destruct I as [I|[]]; vm_compute in I; discriminate I|destruct I as [I|[]]; vm_compute in I; discriminate I|destruct I].
Qed.
Print Assumptions C59_self_refuted.
