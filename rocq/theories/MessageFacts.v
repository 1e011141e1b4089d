(** * Lemmas for C96 *)
From Verif Require Export MessageSame.
From Verif Require Import SpecMessages ParseFacts RoundText StrFacts ModelFacts GenFacts.
From Coq Require Import List Lia. Import ListNotations.

(** ** One statement *)
Lemma stored d n t t' : get_table d n = Some t -> one_changed d (store_table d n t') n t t'.
Proof.
  intros G. constructor; unfold get_table, get_table_names, store_table; cbn [db_name db_tables db_schemas]; try reflexivity; try exact G.
  - rewrite dget_dset, str_eqb_refl. reflexivity.
  - intros m M. rewrite dget_dset. destruct (str_eqb_spec m n); [contradiction | reflexivity].
  - apply dkeys_dset_mem. apply dget_some_in. exists t. exact G.
Qed.
Lemma again d n t t' d' t'' : one_changed d d' n t t' -> one_changed d (store_table d' n t'') n t t''.
Proof.
  intros [A B C D E F]. destruct (stored d' n t' t'' B) as [A' B' C' D' E' F']. constructor; try congruence.
  intros m M. rewrite C' by exact M. apply C, M.
Qed.
Lemma key_columns_some s : key_columns_of s <> [].
Proof. unfold key_columns_of. intros E. apply map_eq_nil in E. exact (split_char_nonnil _ _ E). Qed.
Lemma pk_heard d s d' ms : heard_primary_key d s = (d', ms) ->
  (ms = [] /\ key_set d d') \/ (d' = d /\ exists m, ms = [m] /\ concerns PrimaryKey s d m).
Proof.
  unfold heard_primary_key. intros E.
  assert (U : forall m, (d, [m]) = (d', ms) -> concerns PrimaryKey s d m -> (ms = [] /\ key_set d d') \/ (d' = d /\ exists m, ms = [m] /\ concerns PrimaryKey s d m)).
  { intros m H C. apply pair_equal_spec in H. destruct H as [<- <-]. right. split; [reflexivity|]. exists m. auto. }
  destruct (rmatch pk_pattern s) as [[|g1 [|g2 [|? ?]]]|]; try (apply (U _ E); left; reflexivity).
  destruct (extract_table_name g1) as [n|e]; [|apply (U _ E); right; left; exists e; reflexivity].
  destruct (get_table d n) as [t|] eqn:G; [|apply (U _ E); right; right; exists n; auto].
  cbn [set_primary_key keys_list] in E. apply pair_equal_spec in E. destruct E as [<- <-]. left. split; [reflexivity|].
  exists n, t, (key_columns_of g2). split; [apply key_columns_some | apply stored, G].
Qed.
Lemma rel_heard d s d' ms : heard_relationship d s = (d', ms) ->
  (ms = [] /\ relationship_added d d') \/ (d' = d /\ exists m, ms = [m] /\ concerns Relationship s d m).
Proof.
  unfold heard_relationship. intros E.
  assert (U : forall m, (d, [m]) = (d', ms) -> concerns Relationship s d m -> (ms = [] /\ relationship_added d d') \/ (d' = d /\ exists m, ms = [m] /\ concerns Relationship s d m)).
  { intros m H C. apply pair_equal_spec in H. destruct H as [<- <-]. right. split; [reflexivity|]. exists m. auto. }
  destruct (rel_parts s) as [[[[[n|e] nm] [tot|e']] c]|]; try (apply (U _ E); right; left; eexists; reflexivity); [|apply (U _ E); left; reflexivity].
  destruct (get_table d n) as [t|] eqn:G; [|apply (U _ E); right; right; exists n; auto].
  unfold add_rel_parts, mk_relationship in E. cbn [bind] in E. apply pair_equal_spec in E. destruct E as [<- <-]. left. split; [reflexivity|].
  exists n, t. eexists. split; [|apply stored, G]. reflexivity.
Qed.
Lemma loop_heard s n cs : forall d0 t0 d t fs d' ms,
  one_changed d0 d n t0 t -> t = fold_left add_fk_obj fs t0 -> (forall f, In f fs -> fk_from_table f = t_name t0) -> t_name t = t_name t0 ->
  heard_fk_loop s n cs d = (d', ms) ->
  exists gs, (forall f, In f gs -> fk_from_table f = t_name t0) /\ one_changed d0 d' n t0 (fold_left add_fk_obj (fs ++ gs) t0)
    /\ ((ms = [] /\ length gs = length cs) \/ (length gs < length cs /\ exists m, ms = [m] /\ (m = Unable ForeignKey s \/ exists e, m = Failed ForeignKey e s))).
Proof.
  induction cs as [|c cs IH]; intros d0 t0 d t fs d' ms O T F N E.
  - apply pair_equal_spec in E. destruct E as [<- <-]. exists []. rewrite app_nil_r, <- T. split; [intros f []|]. split; [exact O|]. left. auto.
  - cbn [heard_fk_loop] in E. cbn zeta in E.
    assert (U : forall m, (d, [m]) = (d', ms) -> (m = Unable ForeignKey s \/ exists e, m = Failed ForeignKey e s) ->
      exists gs, (forall f, In f gs -> fk_from_table f = t_name t0) /\ one_changed d0 d' n t0 (fold_left add_fk_obj (fs ++ gs) t0)
        /\ ((ms = [] /\ length gs = length (c :: cs)) \/ (length gs < length (c :: cs) /\ exists m, ms = [m] /\ (m = Unable ForeignKey s \/ exists e, m = Failed ForeignKey e s)))).
    { intros m H C. apply pair_equal_spec in H. destruct H as [<- <-]. exists []. rewrite app_nil_r, <- T. split; [intros f []|]. split; [exact O|].
      right. split; [cbn [length]; lia|]. exists m. auto. }
    destruct (fk_parts _) as [[[[nm fc] [tot|e]] tc]|]; [|apply (U _ E); right; eexists; reflexivity|apply (U _ E); left; reflexivity].
    rewrite (oc_is _ _ _ _ _ O) in E. unfold add_fk_parts in E.
    destruct (mk_foreign_key _ _ _ _ nm) as [f|e] eqn:M; cbn [bind] in E; [|apply (U _ E); right; eexists; reflexivity].
    assert (Ff : fk_from_table f = t_name t0).
    { unfold mk_foreign_key in M. destruct (negb _); [discriminate|]. injection M as <-. exact N. }
    destruct (IH d0 t0 (store_table d n (add_fk_obj t f)) (add_fk_obj t f) (fs ++ [f]) d' ms) as (gs & G1 & G2 & G3).
    + eapply again, O.
    + rewrite fold_left_app, <- T. reflexivity.
    + intros g I. apply in_app_iff in I. destruct I as [I|[<-|[]]]; [apply F, I | exact Ff].
    + exact N.
    + exact E.
    + exists (f :: gs). rewrite <- app_assoc in G2. split; [intros g [<-|I]; [exact Ff | apply G1, I]|]. split; [exact G2|].
      destruct G3 as [[A B]|[A B]]; [left; cbn [length]; auto | right; cbn [length]; split; [lia | exact B]].
Qed.
Lemma loop_missing s n cs : forall d d' ms, get_table d n = None -> heard_fk_loop s n cs d = (d', ms) ->
  d' = d /\ (cs <> [] -> ms <> []) /\ (forall m, In m ms -> concerns ForeignKey s d m).
Proof.
  induction cs as [|c cs IH]; intros d d' ms G E.
  - apply pair_equal_spec in E. destruct E as [<- <-]. split; [reflexivity|]. split; [contradiction | intros m []].
  - cbn [heard_fk_loop] in E. cbn zeta in E.
    assert (U : forall m, (d, [m]) = (d', ms) -> concerns ForeignKey s d m -> d' = d /\ (c :: cs <> [] -> ms <> []) /\ (forall m, In m ms -> concerns ForeignKey s d m)).
    { intros m H C. apply pair_equal_spec in H. destruct H as [<- <-]. split; [reflexivity|]. split; [discriminate|]. intros x [<-|[]]. exact C. }
    destruct (fk_parts _) as [[[[nm fc] [tot|e]] tc]|]; [|apply (U _ E); right; left; eexists; reflexivity|apply (U _ E); left; reflexivity].
    rewrite G in E. destruct (heard_fk_loop s n cs d) as [d1 m1] eqn:E1. apply pair_equal_spec in E. destruct E as [<- <-].
    destruct (IH d d1 m1 G E1) as (A & B & C). split; [exact A|]. split; [discriminate|]. intros m [<-|I]; [right; right; exists n; auto | apply C, I].
Qed.

(** the number of constraints *)
Lemma starts_lit p s : starts_with (lower p) (lower s) = match lit_prefix p s with Some _ => true | None => false end.
Proof.
  revert s. induction p as [|x p IH]; intros [|y s]; try reflexivity. unfold lower. cbn [map starts_with lit_prefix]. unfold ci_eqb.
  destruct (Ascii.eqb (lower_char x) (lower_char y)); [apply IH | reflexivity].
Qed.
Lemma resplit_count s : forall k, (forall i c, i < k -> nth_error (lower s) i = Some c -> c <> "c"%char) ->
  length (resplit_aux ($"constraint") k s) = S (beginnings ($"constraint") (lower s)).
Proof.
  induction s as [|c s IH]; intros k K; [reflexivity|].
  unfold lower. cbn [map]. fold (lower s). cbn [resplit_aux beginnings].
  pose proof (starts_lit ($"constraint") (c :: s)) as SL. change (lower ($"constraint")) with ($"constraint") in SL.
  unfold lower in SL. cbn [map] in SL. fold (lower s) in SL. destruct k as [|k].
  - rewrite SL. destruct (lit_prefix ($"constraint") (c :: s)) as [r|] eqn:L.
    + cbn [length]. rewrite IH; [reflexivity|]. intros i x Hi Hx. destruct (lit_prefix_some _ _ _ L) as (p0 & E & Lo).
      assert (X : lower (c :: s) = $"constraint" ++ lower r) by (rewrite E, lower_app, Lo; reflexivity).
      unfold lower in X. cbn [map] in X. fold (lower s) in X.
      assert (Y : lower s = $"onstraint" ++ lower r) by (apply (f_equal (@tl _)) in X; exact X). rewrite Y in Hx.
      change (length ($"constraint") - 1) with 9 in Hi. rewrite nth_error_app1 in Hx by (change (length ($"onstraint")) with 9; exact Hi).
      apply nth_error_In in Hx. cbv in Hx. intuition congruence.
    + assert (I0 : length (resplit_aux ($"constraint") 0 s) = S (beginnings ($"constraint") (lower s))) by (apply IH; intros i x Hi; lia).
      destruct (resplit_aux ($"constraint") 0 s) as [|w ws]; [discriminate | exact I0].
  - assert (C : lower_char c <> "c"%char) by (apply (K 0); [lia | reflexivity]).
    assert (SW : starts_with ($"constraint") (lower_char c :: lower s) = false).
    { change ($"constraint") with ("c"%char :: $"onstraint"). cbn [starts_with]. destruct (Ascii.eqb_spec "c" (lower_char c)); [congruence | reflexivity]. }
    rewrite SW. rewrite (IH k); [reflexivity|]. intros i x Hi Hx. apply (K (S i)); [lia | exact Hx].
Qed.
Lemma constraints_split s : length (tl (resplit ($"constraint") s)) = constraints s.
Proof.
  assert (H : length (resplit ($"constraint") s) = S (constraints s)) by (apply resplit_count; intros; lia).
  destruct (resplit ($"constraint") s) as [|w ws]; [discriminate|]. cbn [tl length] in *. lia.
Qed.
Lemma fk_heard d s d' ms : heard_foreign_key d s = (d', ms) ->
  (ms = [] /\ (foreign_keys_added (constraints s) d d' \/ (constraints s = 0 /\ d' = d)))
  \/ (d' = d /\ ms <> [] /\ forall m, In m ms -> concerns ForeignKey s d m)
  \/ (exists k m, k < constraints s /\ foreign_keys_added k d d' /\ ms = [m] /\ concerns ForeignKey s d m).
Proof.
  unfold heard_foreign_key. intros E.
  assert (U : (d, [Failed ForeignKey TypeError s]) = (d', ms) -> d' = d /\ ms <> [] /\ forall m, In m ms -> concerns ForeignKey s d m).
  { intros H. apply pair_equal_spec in H. destruct H as [<- <-]. split; [reflexivity|]. split; [discriminate|]. intros m [<-|[]]. right. left. eexists. reflexivity. }
  destruct (rmatch add_pattern s) as [[|g [|? ?]]|]; try (right; left; exact (U E)).
  destruct (get_table d (clean_name g)) as [t|] eqn:G.
  - destruct (loop_heard s (clean_name g) (tl (resplit ($"constraint") s)) d t d t [] d' ms) as (gs & A & B & C); try exact E; try reflexivity; try (intros f []).
    + constructor; try reflexivity; exact G.
    + cbn [app] in B. rewrite constraints_split in C. destruct C as [[-> L]|[L (m & -> & M)]].
      * left. split; [reflexivity|]. left. exists (clean_name g), t, gs. auto.
      * right. right. exists (length gs), m. split; [exact L|]. split; [exists (clean_name g), t, gs; auto|]. split; [reflexivity|].
        destruct M as [->|[e ->]]; [left; reflexivity | right; left; exists e; reflexivity].
  - destruct (loop_missing _ _ _ _ _ _ G E) as (A & B & C). destruct ms as [|m ms].
    + left. split; [reflexivity|]. right. split; [|exact A]. rewrite <- constraints_split. destruct (tl _); [reflexivity|]. exfalso. apply B; [discriminate | reflexivity].
    + right. left. split; [exact A|]. split; [discriminate | exact C].
Qed.

(** ** Statements by kind *)
Ltac by_words := repeat match goal with
  | H : occurs _ _ |- _ => apply contains_true in H
  | H : ~ occurs _ _ |- _ => apply contains_false in H
  end.
Lemma heard_pk schema id d s : about_primary_key s -> heard_statement schema id d s = let '(d', ms) := heard_primary_key d s in (Ok d', ms).
Proof. intros [[A B C D] P]. by_words. unfold heard_statement. cbn zeta. rewrite B, C, D, A, P. reflexivity. Qed.
Lemma heard_fk schema id d s : about_foreign_key s -> heard_statement schema id d s = let '(d', ms) := heard_foreign_key d s in (Ok d', ms).
Proof. intros ([A B C D] & P & F). by_words. unfold heard_statement. cbn zeta. rewrite B, C, D, A, P, F. reflexivity. Qed.
Lemma heard_rel schema id d s : about_relationship s -> heard_statement schema id d s = let '(d', ms) := heard_relationship d s in (Ok d', ms).
Proof. intros ([A B C D] & P & F & R). by_words. unfold heard_statement. cbn zeta. rewrite B, C, D, A, P, F, R. reflexivity. Qed.
Lemma heard_shard schema id d s : about_shard_key s -> heard_statement schema id d s = (Ok d, heard_shard_key d).
Proof. intros ([A B C D] & P & F & R & H). by_words. unfold heard_statement. cbn zeta. rewrite B, C, D, A, P, F, R, H. reflexivity. Qed.
Lemma heard_create schema id d s : creates s -> heard_statement schema id d s = heard_create_table schema id d s.
Proof.
  intros (B & C). unfold heard_statement. cbn zeta. apply contains_false in B. rewrite B. destruct C as [C|C]; apply contains_true in C; rewrite C; [reflexivity|].
  rewrite orb_true_r. reflexivity.
Qed.
Lemma heard_other schema id d s : ~ about_primary_key s -> ~ about_foreign_key s -> ~ about_relationship s -> ~ about_shard_key s -> ~ creates s ->
  heard_statement schema id d s = (Ok d, []).
Proof.
  intros N1 N2 N3 N4 N5. unfold heard_statement. cbn zeta.
  destruct (contains_spec ($"create database") (lower s)) as [|A]; [reflexivity|].
  destruct (contains_spec ($"create table") (lower s)) as [B|B]; [exfalso; apply N5; split; auto|].
  destruct (contains_spec ($"create or replace table") (lower s)) as [C|C]; [exfalso; apply N5; split; auto|]. cbn [orb].
  destruct (contains_spec ($"alter table") (lower s)) as [D|]; [|reflexivity].
  assert (L : SpecMessages.alters s) by (constructor; assumption).
  destruct (contains_spec ($"primary key") (lower s)) as [P|P]; [exfalso; apply N1; split; assumption|].
  destruct (contains_spec ($"foreign") (lower s)) as [F|F]; [exfalso; apply N2; repeat (split; try assumption)|].
  destruct (contains_spec ($"relationship") (lower s)) as [R|R]; [exfalso; apply N3; repeat (split; try assumption)|].
  destruct (contains_spec ($"hash") (lower s)) as [H|]; [exfalso; apply N4; repeat (split; try assumption) | reflexivity].
Qed.

(** ** The statement that is lost *)
Lemma star_some {A} (k : str -> option A) w r a : dots w -> k r = Some a -> exists p, star dot k (w ++ r) = Some p.
Proof.
  intros D K. induction w as [|c w IH].
  - cbn [app]. destruct r as [|c r]; cbn [star]; rewrite K; [eexists; reflexivity|]. destruct (dot c); [|eexists; reflexivity]. destruct (star dot k r) as [[? ?]|]; eexists; reflexivity.
  - unfold dots in D. cbn [forallb] in D. apply andb_true_iff in D. destruct D as [C D]. destruct (IH D) as [[v b] E]. cbn [app star]. rewrite C, E. eexists. reflexivity.
Qed.
Lemma add_any s g : rmatch [RLit ($" add"); RAny] s = Some g -> g = [].
Proof. cbn [rmatch]. destruct (lit_prefix _ s) as [r|]; [|discriminate]. destruct (star dot _ r) as [[w x]|] eqn:E; [|discriminate]. intros [= <-].
  clear -E. revert w E. induction r as [|c r IH]; intros w; cbn [star]; [intros [= _ <-]; reflexivity|]. destruct (dot c); [|intros [= _ <-]; reflexivity].
  destruct (star dot _ r) as [[w' y]|]; [|intros [= _ <-]; reflexivity]. intros [= <- <-]. apply (IH w' eq_refl).
Qed.
Lemma noch_app_r a b : noch newline (a ++ b) = true -> noch newline a = true /\ noch newline b = true.
Proof. unfold noch. rewrite !negb_true_iff, existsb_app, orb_false_iff. tauto. Qed.
Lemma star_groups s w g : star dot (rmatch [RLit ($" add"); RAny]) s = Some (w, g) -> g = [].
Proof.
  revert w. induction s as [|c s IH]; intros w H; cbn [star] in H.
  - destruct (rmatch _ _) as [x|] eqn:E; [|discriminate]. injection H as _ <-. exact (add_any _ _ E).
  - destruct (dot c).
    + destruct (star dot _ s) as [[w' y]|]; [injection H as _ <-; apply (IH w' eq_refl)|]. destruct (rmatch _ _) as [x|] eqn:E; [|discriminate]. injection H as _ <-. exact (add_any _ _ E).
    + destruct (rmatch _ _) as [x|] eqn:E; [|discriminate]. injection H as _ <-. exact (add_any _ _ E).
Qed.
Lemma add_pattern_fits s : noch newline s = true -> adds_to_table s <-> exists g, rmatch add_pattern s = Some [g].
Proof.
  intros N. split.
  - intros (x & y & E). unfold lower in E. apply map_eq_app in E. destruct E as (p & r & -> & Ep & E).
    apply map_eq_app in E. destruct E as (w & q & -> & Ew & E). apply map_eq_app in E. destruct E as (p' & z & -> & Ep' & Ez).
    apply noch_app_r in N. destruct N as [_ N]. apply noch_app_r in N. destruct N as [Nw N]. apply noch_app_r in N. destruct N as [_ Nz].
    unfold add_pattern. rewrite rmatch_lit by exact Ep.
    destruct (star_some (rmatch [RLit ($" add"); RAny]) w (p' ++ z) []) as [[v g] S].
    + apply dots_noch, Nw.
    + rewrite rmatch_lit by exact Ep'. apply any_end, Nz.
    + cbn [rmatch] in *. rewrite S. pose proof (star_groups (w ++ p' ++ z) v g) as G. cbn [rmatch] in G. rewrite (G S). eexists. reflexivity.
  - intros [g E]. unfold add_pattern in E. cbn [rmatch] in E. destruct (lit_prefix ($"alter table ") s) as [r|] eqn:L; [|discriminate].
    destruct (lit_prefix_some _ _ _ L) as (p & -> & Ep). destruct (contains_spec ($" add") (lower r)) as [(a & b & Er)|O].
    + exists a, b. rewrite lower_app, Ep, Er. reflexivity.
    + exfalso. apply contains_false in O. destruct (group_none ($" add") [RAny] r O) as [X _]. cbn [rmatch] in X. rewrite X in E. discriminate.
Qed.
Lemma fk_silent d s : noch newline s = true -> constraints s = 0 ->
  fst (heard_foreign_key d s) = d /\ (snd (heard_foreign_key d s) = [] <-> adds_to_table s).
Proof.
  intros N C. rewrite (add_pattern_fits s N). unfold heard_foreign_key. pose proof (constraints_split s) as T. rewrite C in T. apply length_zero_iff_nil in T.
  destruct (rmatch add_pattern s) as [[|g [|? ?]]|]; cbn [fst snd]; try (split; [reflexivity|]; split; [discriminate | intros [g' E]; discriminate]).
  rewrite T. cbn [heard_fk_loop fst snd]. split; [reflexivity|]. split; [intros _; exists g; reflexivity | reflexivity].
Qed.

(** ** Shard keys of new tables *)
From Verif Require Import CreateFacts.
Lemma hash_heard schema id d s d' ms : creates s -> heard_statement schema id d s = (Ok d', ms) ->
  exists t, d' = add_table d t
    /\ (occurs ($"partition by hash") (lower s) -> (ms = [] /\ t_shard t <> None) \/ (t_shard t = None /\ exists e, ms = [Failed HashKey e (with_quotes s)]))
    /\ (~ occurs ($"partition by hash") (lower s) -> ms = [] /\ t_shard t = None).
Proof.
  intros C E. rewrite (heard_create schema id d s C) in E. unfold heard_create_table in E. rewrite unbracket_map in E. cbn zeta in E.
  rewrite lower_unbracket in E by (apply not_in_b; reflexivity).
  destruct (parse_columns _ (map ub s)) as [t|] eqn:P; [|apply pair_equal_spec in E; destruct E; discriminate].
  pose proof (columns_shard _ _ _ P) as Q. cbn [mk_table t_shard] in Q.
  destruct (contains_spec ($"partition by hash") (lower s)) as [O|O]; apply pair_equal_spec in E; destruct E as [E <-]; injection E as <-.
  - exists (add_hashkey id t (map ub s)). split; [reflexivity|]. split; [|contradiction]. intros _. unfold add_hashkey, heard_hashkey.
    destruct (rsearch hash_pattern (map ub s)) as [[|g1 [|g2 [|? ?]]]|]; try (right; split; [exact Q|]; eexists; reflexivity).
    destruct (py_int g1) as [z|e]; [left; split; [reflexivity|]; cbn [with_shard t_shard]; discriminate | right; split; [exact Q|]; eexists; reflexivity].
  - exists t. split; [reflexivity|]. split; [contradiction|]. intros _. auto.
Qed.

(** ** Whole files *)
Lemma quiet_file schema l : forall id d d' , heard_statements schema id l d = (Ok d', []) ->
  forall l1 s l2, l = l1 ++ s :: l2 -> exists d1 d2, heard_statements schema id l1 d = (Ok d1, [])
    /\ heard_statement schema (id + length l1) d1 s = (Ok d2, []) /\ heard_statements schema (id + S (length l1)) l2 d2 = (Ok d', []).
Proof.
  induction l as [|x l IH]; intros id d d' E l1 s l2 S; [destruct l1; discriminate|].
  cbn [heard_statements] in E. destruct (heard_statement schema id d x) as [[d0|e] ms] eqn:X; [|apply pair_equal_spec in E; destruct E; discriminate].
  destruct (heard_statements schema (Datatypes.S id) l d0) as [r ms'] eqn:R. apply pair_equal_spec in E. destruct E as [-> E]. apply app_eq_nil in E. destruct E as [-> ->].
  destruct l1 as [|y l1].
  - apply (f_equal (@Some _)) in S. injection S as -> ->. exists d, d0. cbn [length heard_statements]. rewrite Nat.add_0_r, Nat.add_1_r. auto.
  - cbn [app] in S. injection S as -> S. destruct (IH _ _ _ R l1 s l2 S) as (d1 & d2 & A & B & C). exists d1, d2. cbn [heard_statements length]. rewrite X, A.
    rewrite Nat.add_succ_r, <- (Nat.add_succ_l id (length l1)). split; [reflexivity|]. split; [exact B|]. rewrite Nat.add_succ_r, <- (Nat.add_succ_l id (Datatypes.S (length l1))). exact C.
Qed.
