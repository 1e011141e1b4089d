(** * Exact conditions for C19 and C20, whose plain statements are false *)
From Verif Require Import StrFacts GenFacts CatalogFacts CheckFacts TypeFacts.
From Coq Require Import List. Import ListNotations.

(** the tables a script must create for the targets of its constraints to exist *)
Definition targets_found (o : case_opts) (d : database) : Prop :=
  forall t n, In t (db_iter d) -> In n (get_all_related_tables t) ->
    exists tot, In tot (db_iter d) /\ cased o (t_name tot) = cased o n /\ cased o (t_schema tot) = cased o (t_schema t).
(** no foreign key crosses a schema border *)
Definition fks_local (d : database) : Prop :=
  forall t fk tot, In t (db_iter d) -> In fk (foreign_keys_iter t) -> In tot (db_iter d) -> t_name tot = fk_to_table fk -> t_schema tot = t_schema t.

Lemma col_cased_again o n : col_cased o (col_cased o n) = col_cased o n.
Proof.
  unfold col_cased. destruct (lowercase o); [|destruct (uppercase o); [|reflexivity]]; [unfold lower|unfold upper]; rewrite map_map; apply map_ext; intros c.
  - assert (F : forall c, Ascii.eqb (lower_char (lower_char c)) (lower_char c) = true) by (apply all_chars; reflexivity). apply Ascii.eqb_eq, F.
  - assert (F : forall c, Ascii.eqb (upper_char (upper_char c)) (upper_char c) = true) by (apply all_chars; reflexivity). apply Ascii.eqb_eq, F.
Qed.
Lemma unique_table d t u : well_formed d -> In t (db_iter d) -> In u (db_iter d) -> t_name t = t_name u -> t = u.
Proof.
  intros W It Iu E. destruct (wf_names _ W) as [N K]. unfold db_iter in *. apply dvals_in in It, Iu. destruct It as [a It], Iu as [b Iu]. apply (dget_nodup _ _ _ N) in It. apply (dget_nodup _ _ _ N) in Iu.
  pose proof (K _ _ It). pose proof (K _ _ Iu). congruence.
Qed.

(** C19: the clauses of the script resolve exactly when no case option changes the name of a key column. *)
Theorem C19_exact : forall o b d s, well_formed d -> writable d -> consistent_db d -> own_fks d -> schema_local d ->
  tql_script o b d = Ok s -> exists l, read_script s = Some l /\ (clauses_resolve l <-> forall n, In n (key_columns d) -> col_cased o n = n).
Proof.
  intros o b d s W Wr C Own L Hs. exists (script_stmts (cased o) (col_cased o) b d). pose proof (script_reads o b d s Wr Hs) as R. split; [exact R|]. split.
  - intros [P F]. assert (K : forall t k, In k (map (fun c : column => col_cased o (column_name c)) (table_iter t)) -> col_cased o k = k).
    { intros t k I. apply in_map_iff in I. destruct I as [c [<- _]]. apply col_cased_again. }
    assert (Kc : forall s' t' cols k, created (script_stmts (cased o) (col_cased o) b d) s' t' cols -> In k cols -> col_cased o k = k).
    { intros s' t' cols k [defs [pk [sh [I ->]]]] Ik. apply script_in_create in I. destruct I as [tb (_ & _ & _ & -> & _ & _)]. rewrite map_map in Ik. exact (K tb k Ik). }
    intros n I. apply in_flat_map in I. destruct I as [t [It I]].
    assert (Ic : In (SCreateTable (cased o (t_schema t)) (cased o (t_name t)) (map (fun c => (col_cased o (column_name c), column_type c)) (table_iter t)) (t_pk t) (shard_of t)) (script_stmts (cased o) (col_cased o) b d)).
    { unfold script_stmts. do 3 (apply in_app_iff; right). apply in_app_iff; left. apply in_flat_map. exists t. split; [exact It|]. right. left. reflexivity. }
    apply P in Ic. rewrite map_map in Ic. cbn [fst] in Ic. destruct Ic as [P1 P2]. apply in_app_iff in I. destruct I as [I|I]; [exact (K t n (P1 n I))|]. apply in_app_iff in I. destruct I as [I|I].
    + unfold shard_of in P2. destruct (t_shard t) as [sk|]; [exact (K t n (P2 n I))|destruct I].
    + apply in_flat_map in I. destruct I as [fk [Ifk I]].
      assert (If : In (fk_stmt (cased o) t fk) (script_stmts (cased o) (col_cased o) b d)).
      { unfold script_stmts. do 4 (apply in_app_iff; right). apply in_app_iff; left. apply in_flat_map. exists t. split; [exact It|]. apply in_map, Ifk. }
      unfold fk_stmt in If. apply F in If. destruct If as [[c1 [A1 B1]] [c2 [A2 B2]]]. apply in_app_iff in I. destruct I as [I|I]; [exact (Kc _ _ _ _ A1 (B1 _ I))|exact (Kc _ _ _ _ A2 (B2 _ I))].
  - intros H. destruct (clauses_ok o b d s W Wr C Own L H Hs) as [l [Rl Q]]. assert (script_stmts (cased o) (col_cased o) b d = l) as -> by congruence. exact Q.
Qed.
Print Assumptions C19_exact.
(** Without case options they resolve exactly when no foreign key crosses a schema border. *)
Theorem C19_plain : forall b d s, well_formed d -> writable d -> consistent_db d -> own_fks d ->
  tql_script no_case b d = Ok s -> exists l, read_script s = Some l /\ (clauses_resolve l <-> fks_local d).
Proof.
  intros b d s W Wr C Own Hs. exists (script_stmts (cased no_case) (col_cased no_case) b d). split; [exact (script_reads no_case b d s Wr Hs)|]. split.
  - intros [_ F] t fk tot It Ifk Itot E.
    assert (If : In (fk_stmt (cased no_case) t fk) (script_stmts (cased no_case) (col_cased no_case) b d)).
    { unfold script_stmts. do 4 (apply in_app_iff; right). apply in_app_iff; left. apply in_flat_map. exists t. split; [exact It|]. apply in_map, Ifk. }
    unfold fk_stmt in If. apply F in If. destruct If as [_ [c2 [[defs [pk [sh [A _]]]] _]]]. apply script_in_create in A. destruct A as [tb (Itb & S & N & _)]. rewrite !cased_none in S, N. rewrite <- E in N. rewrite (unique_table d tot tb W Itot Itb N). congruence.
  - intros L. assert (Kin : forall tb k, In tb (db_iter d) -> In k (get_column_names tb) -> In k (map (fun c => col_cased no_case (column_name c)) (table_iter tb))).
    { intros tb k Ht Hc. apply (names_in d tb W Ht) in Hc. exact Hc. }
    split.
    + intros s' t cols pk sh Hin. apply script_in_create in Hin. destruct Hin as [tb (Ht & -> & -> & -> & -> & ->)]. rewrite map_map. cbn [fst]. split.
      * intros k Hkk. apply Kin; [exact Ht | apply (ok_pk _ _ (C _ Ht)), Hkk].
      * unfold shard_of. destruct (t_shard tb) as [sk|] eqn:Esk; [|exact I]. intros k Hkk. apply Kin; [exact Ht | apply (ok_shard _ _ (C _ Ht) _ Esk), Hkk].
    + intros s' t n fc ts tot tc Hin. apply script_in_fk in Hin. destruct Hin as [tb [fk (Ht & Hfk & E)]]. unfold fk_stmt in E. injection E as -> -> -> -> -> -> ->. destruct (ok_fks _ _ (C _ Ht) _ Hfk) as [tt [Htt [_ Hp]]].
      destruct (get_table_iter _ _ _ W Htt) as [Hti Htn]. assert (Hsch : t_schema tt = t_schema tb) by (exact (L tb fk tt Ht Hfk Hti Htn)). split.
      * exists (map (fun c => col_cased no_case (column_name c)) (table_iter tb)). split; [rewrite (Own _ _ Ht Hfk); apply script_creates, Ht|].
        intros k Hkk. destruct (forall2_left _ _ _ _ Hp Hkk) as [y [_ [fc [tc [Hf _]]]]]. apply Kin; [exact Ht | apply get_column_names_in; eauto].
      * exists (map (fun c => col_cased no_case (column_name c)) (table_iter tt)). split; [rewrite <- Htn, <- Hsch; apply script_creates, Hti|].
        intros k Hkk. destruct (forall2_in_r _ _ _ _ Hp Hkk) as [y [_ [fc [tc [_ [Hf _]]]]]]. apply Kin; [exact Hti | apply get_column_names_in; eauto].
Qed.
Print Assumptions C19_plain.

(** C20: every target is created exactly when some table has, after conversion, the name of the target
    and the schema of the table that refers to it. *)
Theorem C20_exact : forall o b d s, writable d -> tql_script o b d = Ok s ->
  exists l, read_script s = Some l /\ (targets_created l <-> targets_found o d).
Proof.
  intros o b d s Wr Hs. exists (script_stmts (cased o) (col_cased o) b d). split; [exact (script_reads o b d s Wr Hs)|].
  assert (Q : forall s' t' cols, created (script_stmts (cased o) (col_cased o) b d) s' t' cols -> exists tot, In tot (db_iter d) /\ cased o (t_name tot) = t' /\ cased o (t_schema tot) = s').
  { intros s' t' cols [defs [pk [sh [I _]]]]. apply script_in_create in I. destruct I as [tb (It & -> & -> & _)]. exists tb. auto. }
  split.
  - intros [F R] t n It In_. unfold get_all_related_tables in In_. apply in_app_iff in In_. destruct In_ as [I|I]; apply in_map_iff in I; destruct I as [x [<- I]].
    + assert (If : In (fk_stmt (cased o) t x) (script_stmts (cased o) (col_cased o) b d)).
      { unfold script_stmts. do 4 (apply in_app_iff; right). apply in_app_iff; left. apply in_flat_map. exists t. split; [exact It|]. apply in_map, I. }
      unfold fk_stmt in If. apply F in If. destruct If as [cols A]. exact (Q _ _ _ A).
    + assert (If : In (rel_stmt (cased o) t x) (script_stmts (cased o) (col_cased o) b d)).
      { unfold script_stmts. do 5 (apply in_app_iff; right). apply in_flat_map. exists t. split; [exact It|]. apply in_map, I. }
      unfold rel_stmt in If. apply R in If. destruct If as [cols A]. exact (Q _ _ _ A).
  - intros H. split.
    + intros s' t n fc ts tot tc Hin. apply script_in_fk in Hin. destruct Hin as [tb [fk (Ht & Hfk & E)]]. unfold fk_stmt in E. injection E as -> -> -> -> -> -> ->.
      destruct (H tb (fk_to_table fk) Ht) as [u [Iu [<- <-]]]; [unfold get_all_related_tables; apply in_app_iff; left; apply in_map, Hfk|]. eexists. apply script_creates, Iu.
    + intros s' t n ts tot c Hin. apply script_in_rel in Hin. destruct Hin as [tb [r (Ht & Hr & E)]]. unfold rel_stmt in E. injection E as -> -> -> -> -> ->.
      destruct (H tb (rel_to_table r) Ht) as [u [Iu [<- <-]]]; [unfold get_all_related_tables; apply in_app_iff; right; apply in_map, Hr|]. eexists. apply script_creates, Iu.
Qed.
Print Assumptions C20_exact.
(** Without case options, for a valid model, exactly when no constraint crosses a schema border. *)
Theorem C20_plain : forall b d s, well_formed d -> writable d -> consistent_db d -> tql_script no_case b d = Ok s ->
  exists l, read_script s = Some l /\ (targets_created l <-> schema_local d).
Proof.
  intros b d s W Wr C Hs. destruct (C20_exact no_case b d s Wr Hs) as [l [R E]]. exists l. split; [exact R|]. rewrite E. split.
  - intros F t tot It In_ Itot. destruct (F t (t_name tot) It In_) as [u [Iu [N S]]]. rewrite !cased_none in N, S. rewrite <- (unique_table d u tot W Iu Itot N). exact S.
  - intros L t n It In_. assert (X : exists u, get_table d n = Some u).
    { unfold get_all_related_tables in In_. apply in_app_iff in In_. destruct In_ as [I|I]; apply in_map_iff in I; destruct I as [x [<- I]].
      - destruct (ok_fks _ _ (C _ It) _ I) as [u [Hu _]]. eauto.
      - destruct (ok_rels _ _ (C _ It) _ I) as [_ Hto]. apply dget_some_in in Hto. exact Hto. }
    destruct X as [u G]. destruct (get_table_iter _ _ _ W G) as [Iu <-]. exists u. rewrite !cased_none. split; [exact Iu|]. split; [reflexivity|]. exact (L t u It In_ Iu).
Qed.
Print Assumptions C20_plain.

(** ** Cases: upper case changes key columns of the shop, camel case none; and a shop over two schemas *)
Definition orders_fk : foreign_key := {| fk_name := $"fk1"; fk_from_table := $"Orders"; fk_from_keys := [$"Cust"]; fk_to_table := $"Customers"; fk_to_keys := [$"Id"] |}.
Example C19_exact_case : (exists n, In n (key_columns shop) /\ col_cased all_upper n <> n) /\ (forall n, In n (key_columns shop) -> col_cased all_camel n = n)
  /\ fks_local shop /\ ~ fks_local shop2.
Proof.
  split; [exists ($"Id"); split; [vm_compute; tauto|discriminate]|]. split; [reflexivity|]. split.
  - intros t fk tot It If Itot. destruct It as [<-|[<-|[<-|[]]]]; [|destruct If|destruct If]. destruct If as [<-|[]]. destruct Itot as [<-|[<-|[<-|[]]]]; [reflexivity|reflexivity|discriminate].
  - intros H. discriminate (H shop_orders orders_fk (nth 1 (db_iter shop2) shop_orders) (or_introl eq_refl) (or_introl eq_refl) (or_intror (or_introl eq_refl)) eq_refl).
Qed.
Example C20_exact_case : targets_found all_upper shop /\ ~ targets_found no_case shop2 /\ schema_local shop /\ ~ schema_local shop2.
Proof.
  split; [|split; [|split]].
  - intros t n It In_. exists shop_customers. destruct It as [<-|[<-|[<-|[]]]]; [|destruct In_|destruct In_]. destruct In_ as [<-|[<-|[]]]; (split; [right; left; reflexivity|split; reflexivity]).
  - intros H. destruct (H shop_orders ($"Customers") (or_introl eq_refl) (or_introl eq_refl)) as [u [[<-|[<-|[]]] [N S]]]; [vm_compute in N|vm_compute in S]; discriminate.
  - apply shop_usable.
  - intros H. discriminate (H shop_orders (nth 1 (db_iter shop2) shop_orders) (or_introl eq_refl) (or_introl eq_refl) (or_intror (or_introl eq_refl))).
Qed.
