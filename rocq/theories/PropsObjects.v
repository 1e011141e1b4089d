(** * C110: objects, copies and sharing *)
From Verif Require Import SpecObjects ObjectFacts StrFacts RenumFacts.

Lemma reach_sound cs h : runs no_objects cs h -> sound h.
Proof. intros R. exact (proj1 (runs_sound _ _ _ R no_objects_sound)). Qed.

(** A table changes only by a call on it, and then as the functions of [Model] say. *)
Theorem C110_tables cs h c t : runs no_objects cs h -> fits h c -> decent h c -> is_tab h t ->
  table_of (run_call c h) t = match c with OnTable t' a => if Nat.eqb t' t then table_after h a (table_of h t) else table_of h t | _ => table_of h t end.
Proof.
  intros R F D T. pose proof (reach_sound _ _ R) as S. destruct (call_step c h S F D) as [_ V].
  pose proof (fun K => makes_step c h S K F) as MK.
  assert (Same : mem (run_call c h) t = mem h t -> table_of (run_call c h) t = table_of h t) by (apply table_same; assumption).
  destruct T as [o T]. assert (L : mem h t <> Nothing) by (rewrite T; discriminate).
  destruct c as [l|r x|k n|ft fk tb tk n|n s pk sk|t' c|n|d t'|d n]; try (apply Same, (proj2 (MK I)), L).
  - apply Same. destruct D as [l E]. cbn [run_call]. rewrite E. apply store_else. intros ->. congruence.
  - destruct F as [[o' E] F]. destruct (call_table_step h t' o' c S E F) as (_ & _ & Q & W).
    destruct (Nat.eqb_spec t' t) as [->|N].
    + cbn [run_call]. rewrite E. rewrite W. unfold table_of. rewrite E. reflexivity.
    + apply Same. cbn [run_call]. rewrite E. apply Q; congruence.
  - apply Same. destruct F as [[b E] [o' E']]. cbn [run_call]. rewrite E, E'. apply store_else. intros ->. congruence.
  - apply Same. destruct F as [b E]. cbn [run_call]. rewrite E. destruct (dget n (bo_tables b)) as [r|]; [|reflexivity].
    destruct (mem h r); try reflexivity. apply store_else. intros ->. congruence.
Qed.
Print Assumptions C110_tables.

(** A database changes only by a call on it or on a table it holds, and then as the functions of [Model] say. *)
Theorem C110_databases cs h c d : runs no_objects cs h -> fits h c -> decent h c -> is_base h d -> base_after h d c (base_of (run_call c h) d).
Proof.
  intros R F D B. pose proof (reach_sound _ _ R) as S. destruct (call_step c h S F D) as [_ V].
  pose proof (fun K => makes_step c h S K F) as MK.
  assert (Same : mem (run_call c h) d = mem h d -> (forall t, holds h d t -> mem (run_call c h) t = mem h t) -> base_of (run_call c h) d = base_of h d)
    by (apply base_same; assumption).
  assert (HT : forall t, holds h d t -> is_tab h t) by (intros t (b & n & E & I); exact (proj2 (holds_name h d t b n S E I))).
  pose proof B as [b E]. assert (L : mem h d <> Nothing) by (rewrite E; discriminate).
  destruct c as [l|r x|k n|ft fk tb tk n|n s pk sk|t' c|n|d' t'|d' n];
    try (rewrite Same; [apply after_other; exact I | apply (proj2 (MK I)), L | intros t H; apply (proj2 (MK I)); destruct (HT t H) as [o T]; rewrite T; discriminate]).
  - rewrite Same; [apply after_other; exact I|..]; destruct D as [l M]; cbn [run_call]; rewrite M; [apply store_else; intros ->; congruence|].
    intros t H. apply store_else. intros ->. destruct (HT r H). congruence.
  - destruct F as [[o' E'] F]. destruct (call_table_step h t' o' c S E' F) as (_ & _ & Q & W).
    assert (M : mem (run_call (OnTable t' c) h) d = mem h d) by (cbn [run_call]; rewrite E'; apply Q; [intros ->; congruence | exact L]).
    destruct (holds_dec h d t') as [H|N].
    + replace (base_of (run_call (OnTable t' c) h) d) with (changed (base_of h d) (t_name (table_of h t')) (table_after h c)); [apply after_change, H|].
      unfold base_of. rewrite M, E. unfold changed. cbn [db_name db_tables db_schemas]. f_equal. rewrite map_map. apply map_ext_in. intros [n t] I. cbn [fst snd].
      destruct (holds_name h d t b n S E I) as [Nt T]. f_equal. destruct (str_eqb n (t_name (table_of h t'))) eqn:K.
      * apply str_eqb_eq in K. assert (t' = t).
        { destruct H as (b' & n' & E2 & I2). rewrite E in E2. injection E2 as <-. destruct (holds_name h d t' b n' S E I2) as [N2 _].
          pose proof (proj2 S d) as Z. rewrite E in Z. destruct Z as [Z _].
          pose proof (dget_nodup _ _ _ Z I) as G1. pose proof (dget_nodup _ _ _ Z I2) as G2. rewrite K, N2 in G1. congruence. }
        subst t'. cbn [run_call]. rewrite E', W. unfold table_of. rewrite E'. reflexivity.
      * symmetry. apply table_same; [exact V | exact S | exact T|]. cbn [run_call]. rewrite E'. destruct T as [o T]. apply Q; [|rewrite T; discriminate].
        intros ->. rewrite Nt, str_eqb_refl in K. discriminate.
    + rewrite Same; [apply after_other, N | exact M |]. intros t H. cbn [run_call]. rewrite E'. destruct (HT t H) as [o T]. apply Q; [|rewrite T; discriminate].
      intros ->. apply N, H.
  - destruct F as [[b' E'] [o T]]. destruct (Nat.eq_dec d' d) as [->|N].
    + replace (base_of (run_call (AddTable d t') h) d) with (add_table (base_of h d) (table_of h t')); [apply after_add|].
      cbn [run_call]. rewrite E', T. symmetry. apply (add_step h d t' b' o S E' T).
    + rewrite Same; [apply after_other, N|..]; cbn [run_call]; rewrite E', T; [apply store_else; congruence|].
      intros t H. destruct (HT t H) as [o2 T2]. apply store_else. intros ->. congruence.
  - destruct F as [b' E']. destruct (Nat.eq_dec d' d) as [->|N].
    + replace (base_of (run_call (DropTable d n) h) d) with (without_table (base_of h d) n); [apply after_drop|].
      rewrite E in E'. injection E' as <-.
      cbn [run_call]. rewrite E. destruct (dget n (bo_tables b)) as [t|] eqn:G.
      * destruct (holds_name h d t b n S E (dget_in _ _ _ G)) as [_ [o T]]. rewrite T. symmetry. apply (drop_step h d n b t o S E G T).
      * unfold without_table, drop_table, base_of. rewrite E. cbn [db_tables]. rewrite (dget_map (table_of h)), G. reflexivity.
    + assert (K : forall r, r <> d' -> mem (run_call (DropTable d' n) h) r = mem h r).
      { intros r Nr. cbn [run_call]. rewrite E'. destruct (dget n (bo_tables b')) as [t|]; [|reflexivity]. destruct (mem h t); try reflexivity. apply store_else, Nr. }
      rewrite Same; [apply after_other, N | apply K; congruence |]. intros t H. destruct (HT t H) as [o2 T2]. apply K. intros ->. congruence.
Qed.
Print Assumptions C110_databases.

(** [base_after] names one database *)
Lemma base_after_unique h d c v v' : base_after h d c v -> base_after h d c v' -> v = v'.
Proof.
  intros A B. destruct A as [t|n|t c H|c N]; inversion B as [t2|n2|t2 c2 H2|c2 N2]; subst; try reflexivity; try congruence;
    cbn in *; try contradiction; try congruence.
Qed.
Lemma runs_snoc h cs h' : runs h cs h' -> forall c, fits h' c -> decent h' c -> runs h (cs ++ [c]) (run_call c h').
Proof.
  induction 1 as [h|h c cs h' F D R IH]; intros c' F' D'; cbn [app].
  - constructor; [exact F' | exact D' | constructor].
  - constructor; [exact F | exact D | apply IH; assumption].
Qed.

(** Calls that are not on a database nor on its tables leave it alone, whatever else they do: a list handed over
    earlier, a dropped table, another database. *)
Theorem C110_away cs h cs' h' d : runs no_objects cs h -> runs h cs' h' -> is_base h d -> away d h cs' -> base_of h' d = base_of h d.
Proof.
  intros R R'. revert cs R. induction R' as [h|h c cs' h' F D R' IH]; intros cs R B A; [reflexivity|].
  inversion A as [|h0 c0 cs0 N A']; subst. pose proof (runs_snoc _ _ _ R c F D) as R2.
  destruct (call_step c h (reach_sound _ _ R) F D) as [_ V].
  rewrite (IH _ R2 (base_evolves _ _ V d B) A'). pose proof (C110_databases cs h c d R F D B) as K.
  apply (base_after_unique _ _ _ _ _ K). apply after_other. destruct c; cbn in *; auto.
Qed.
Print Assumptions C110_away.

(** no table is in two databases as long as none is added to a second one; then a call that regards one database
    does not change another *)
Lemma holds_after h c d t : sound h -> fits h c -> decent h c -> holds (run_call c h) d t ->
  holds h d t \/ c = AddTable d t.
Proof.
  intros S F D (b' & n & E & I). pose proof (fun K => makes_step c h S K F) as MK.
  destruct (mem h d) as [|m l|s|f|o|b] eqn:M.
  { (* a new object *)
    exfalso. destruct c as [l|r x|k m|ft fk tb tk m|m s pk sk|t' c|m|d' t'|d' m]; cbn [run_call] in E.
    - cbn in E. destruct (Nat.eqb d (next h)); congruence.
    - destruct D as [l L]. rewrite L in E. cbn in E. destruct (Nat.eqb d r); congruence.
    - unfold new_shard, copied in E. cbn in E. repeat (match type of E with context [Nat.eqb d ?x] => destruct (Nat.eqb d x) end; try congruence).
    - unfold new_fk, copied in E. destruct ft, fk, tb, tk; try (cbn in E; congruence). cbn -[list_of] in E.
      destruct (negb _); cbn in E; repeat (match type of E with context [Nat.eqb d ?x] => destruct (Nat.eqb d x) end; try congruence).
    - unfold new_table, copied in E. destruct pk; cbn in E; repeat (match type of E with context [Nat.eqb d ?x] => destruct (Nat.eqb d x) end; try congruence).
    - destruct F as [[o T] F]. rewrite T in E.
      assert (St : forall x h1, mem (store t' (OTable x) h1) d = OBase b' -> mem h1 d = OBase b') by (intros x h1 Q; cbn in Q; destruct (Nat.eqb d t'); [discriminate | exact Q]).
      assert (Fk : forall ft fk tb tk n0, mem (snd (new_fk ft fk tb tk n0 h)) d = OBase b' -> False).
      { intros ft fk tb tk n0 Q. unfold new_fk, copied in Q. destruct ft, fk, tb, tk; try (cbn in Q; congruence). cbn -[list_of] in Q.
        destruct (negb _); cbn in Q; repeat (match type of Q with context [Nat.eqb d ?x] => destruct (Nat.eqb d x) end; try congruence). }
      destruct c as [c|cs|m|k|s|f|fk tb tk m|r|tb m c]; cbn [call_table] in E; try (apply St in E; congruence).
      + destruct k as [k|]; [|congruence]. unfold copied in E. cbn in E. repeat (match type of E with context [Nat.eqb d ?x] => destruct (Nat.eqb d x) end; try congruence).
      + destruct (mem h f); try congruence. apply St in E. congruence.
      + destruct (new_fk (Some (ob_name o)) fk tb tk m h) as [[f|e] h1] eqn:Q.
        * apply (Fk (Some (ob_name o)) fk tb tk m). rewrite Q. cbn [snd]. destruct (mem h1 f); try exact E. exact (St _ _ E).
        * apply (Fk (Some (ob_name o)) fk tb tk m). rewrite Q. exact E.
      + destruct (mk_relationship _ _ _ _); [apply St in E|]; congruence.
    - cbn in E. destruct (Nat.eqb d (next h)); [|congruence]. injection E as <-. destruct I.
    - destruct F as [[b E1] [o E2]]. rewrite E1, E2 in E. cbn in E. destruct (Nat.eqb_spec d d'); congruence.
    - destruct F as [b E1]. rewrite E1 in E. destruct (dget m (bo_tables b)) as [r|]; [|congruence]. destruct (mem h r); try congruence. cbn in E. destruct (Nat.eqb_spec d d'); congruence. }
  all: destruct (call_step c h S F D) as [_ V]; pose proof (V d) as W; rewrite M in W; try congruence; try (destruct W as (o' & W & _); congruence).
  { destruct m; [destruct W|]; congruence. }
  clear W V.
  assert (Same : mem (run_call c h) d = mem h d -> holds h d t) by (intros Q; rewrite E in Q; exists b', n; split; [symmetry; exact Q | exact I]).
  destruct c as [l|r x|k m|ft fk tb tk m|m s pk sk|t' c|m|d' t'|d' m]; try (left; apply Same, (proj2 (MK Logic.I)); rewrite M; discriminate).
  - left. apply Same. destruct D as [l L]. cbn [run_call]. rewrite L. apply store_else. intros ->. congruence.
  - left. apply Same. destruct F as [[o' E'] F]. destruct (call_table_step h t' o' c S E' F) as (_ & _ & Q & _). cbn [run_call]. rewrite E'. apply Q; [intros ->; congruence | rewrite M; discriminate].
  - destruct F as [[b1 E1] [o E2]]. cbn [run_call] in E. rewrite E1, E2 in E. cbn in E. destruct (Nat.eqb_spec d d') as [<-|N].
    + injection E as <-. rewrite M in E1. injection E1 as <-. cbn [add_to_base bo_tables] in I.
      pose proof (proj2 S d) as Z. rewrite M in Z. destruct Z as [Z _].
      pose proof (dget_nodup _ _ _ (nodup_dset (ob_name o) t' _ Z) I) as G. rewrite dget_dset in G. destruct (str_eqb n (ob_name o)).
      * right. injection G as ->. reflexivity.
      * left. exists b, n. split; [exact M | apply dget_in, G].
    + left. exists b', n. auto.
  - left. destruct F as [b1 E1]. cbn [run_call] in E. rewrite E1 in E. destruct (dget m (bo_tables b1)) as [r|]; [|exists b', n; auto].
    destruct (mem h r); try (exists b', n; auto; fail). cbn in E. destruct (Nat.eqb_spec d d') as [<-|N]; [|exists b', n; auto].
    injection E as <-. rewrite M in E1. injection E1 as <-. exists b, n. split; [exact M | apply (ddel_incl m), I].
Qed.
Lemma unshared_apart h cs h' : runs h cs h' -> sound h -> unshared h cs ->
  (forall d1 d2 t, holds h d1 t -> holds h d2 t -> d1 = d2) -> forall d1 d2 t, holds h' d1 t -> holds h' d2 t -> d1 = d2.
Proof.
  induction 1 as [h|h c cs h' F D R IH]; intros S U A; [exact A|].
  inversion U as [|h0 c0 cs0 N U']; subst. destruct (call_step c h S F D) as [S' _]. apply (IH S' U').
  intros d1 d2 t H1 H2. destruct (holds_after h c d1 t S F D H1) as [K1|K1], (holds_after h c d2 t S F D H2) as [K2|K2].
  - exact (A d1 d2 t K1 K2).
  - exact (N d2 t d1 K2 K1).
  - symmetry. exact (N d1 t d2 K1 K2).
  - congruence.
Qed.
Theorem C110_apart cs h c d d' : runs no_objects cs h -> unshared no_objects cs -> fits h c -> decent h c -> is_base h d' ->
  regards h d c -> d <> d' -> base_of (run_call c h) d' = base_of h d'.
Proof.
  intros R U F D B G N. pose proof (C110_databases cs h c d' R F D B) as K. apply (base_after_unique _ _ _ _ _ K). apply after_other.
  destruct c; cbn in *; try contradiction; subst; auto. intros H. apply N.
  apply (unshared_apart _ _ _ R no_objects_sound U) with (t := t); [|exact G | exact H]. intros d1 d2 x (b & n & E & _). discriminate.
Qed.
Print Assumptions C110_apart.

(** A list the client made and handed over is copied: changing it later changes nothing in the model. *)
Theorem C110_copied cs h r l x : runs no_objects cs h -> mem h r = OList true l ->
  (forall t, is_tab h t -> table_of (run_call (Append r x) h) t = table_of h t) /\
  (forall d, is_base h d -> base_of (run_call (Append r x) h) d = base_of h d) /\
  list_of (run_call (Append r x) h) r = l ++ [x].
Proof.
  intros R E. assert (F : fits h (Append r x)) by (exists true, l; exact E). assert (D : decent h (Append r x)) by (exists l; exact E).
  split; [|split].
  - intros t T. exact (C110_tables cs h (Append r x) t R F D T).
  - intros d B. pose proof (C110_databases cs h (Append r x) d R F D B) as K. apply (base_after_unique _ _ _ _ _ K). apply after_other. exact I.
  - cbn [run_call]. rewrite E. unfold list_of. rewrite store_at. reflexivity.
Qed.
Print Assumptions C110_copied.

(** ** A program with two databases *)
Definition col (n : string) : column := {| column_name := $n; column_type := $"INT" |}.
(** objects: 0 the client's list, 1-2 a shard key, 3-4 a table, 5 and 6 two databases *)
Definition start : list call :=
  [NewList [$"id"]; NewShardKey (ListAt 0) 4; NewTable ($"t") ($"s") (Some (ListAt 0)) (Some 2); NewDatabase ($"a"); NewDatabase ($"b");
   OnTable 4 (AddColumn (col "id")); AddTable 5 4].
Definition run_calls (cs : list call) (h : heap) : heap := fold_left (fun h c => run_call c h) cs h.
Definition h_start : heap := run_calls start no_objects.
Ltac run_it := repeat (apply runs_call; [cbn; repeat split; try exact I; try (eexists; reflexivity); try (eexists _, _; reflexivity) | cbn; try exact I; try (eexists; reflexivity) |]); try apply runs_nil.
Lemma start_runs : runs no_objects start h_start.
Proof. unfold start, h_start. run_it. Qed.
Lemma start_unshared : unshared no_objects start.
Proof.
  unfold start. repeat (apply unshared_call; [intros d t d' Q; try discriminate|]); try apply unshared_nil.
  injection Q as <- <-. intros (b & n & E & I). cbn in E. do 8 (destruct d' as [|d']; [cbn in E; try discriminate; try reflexivity; injection E as <-; destruct I|]). discriminate.
Qed.

(** the same table object in two databases: a call on it shows in both; hypotheses and refusal of the stronger claim *)
Theorem C110_shared_refuted : ~ (forall cs h c d d', runs no_objects cs h -> fits h c -> decent h c -> is_base h d -> is_base h d' ->
  regards h d c -> d <> d' -> base_of (run_call c h) d' = base_of h d').
Proof.
  intros A. specialize (A (start ++ [AddTable 6 4]) (run_call (AddTable 6 4) h_start) (OnTable 4 (AddColumn (col "x"))) 5 6).
  enough (Q : db_tables (base_of (run_call (OnTable 4 (AddColumn (col "x"))) (run_call (AddTable 6 4) h_start)) 6) = db_tables (base_of (run_call (AddTable 6 4) h_start) 6)) by (vm_compute in Q; discriminate).
  f_equal. apply A.
  - apply runs_snoc; [exact start_runs | split; eexists; reflexivity | exact I].
  - split; [eexists; reflexivity | exact I].
  - exact I.
  - eexists; reflexivity.
  - eexists; reflexivity.
  - exists {| bo_name := $"a"; bo_tables := [($"t", 4)]; bo_schemas := [($"s", 1%Z)] |}, ($"t"). split; [vm_compute; reflexivity | left; reflexivity].
  - discriminate.
Qed.
Print Assumptions C110_shared_refuted.

(** the list that [get_shard_key_columns] returns is the model's own: changing it changes the table *)
Theorem C110_inner_refuted : ~ (forall cs h t r x, runs no_objects cs h -> is_tab h t -> shard_columns_at h t = Some r ->
  table_of (run_call (Append r x) h) t = table_of h t).
Proof.
  intros A. specialize (A start h_start 4 1 ($"x") start_runs (ex_intro _ _ eq_refl) eq_refl). apply (f_equal get_shard_key_columns) in A. vm_compute in A. discriminate.
Qed.
Print Assumptions C110_inner_refuted.

(** what [get_table_names] returned earlier follows later changes, unlike the list its documentation promises *)
Theorem C110_view_refuted : ~ (forall cs h c d, runs no_objects cs h -> fits h c -> decent h c -> is_base h d -> names_seen (run_call c h) d = names_seen h d).
Proof.
  intros A. specialize (A start h_start (DropTable 5 ($"t")) 5 start_runs (ex_intro _ _ eq_refl) I (ex_intro _ _ eq_refl)). vm_compute in A. discriminate.
Qed.
Print Assumptions C110_view_refuted.

(** a case of each: the client's list is changed, the other database is used, and nothing shows in the first *)
Example C110_case :
  is_base h_start 5 /\ is_base h_start 6 /\ is_tab h_start 4 /\ mem h_start 0 = OList true [$"id"] /\
  away 5 h_start [Append 0 ($"x"); NewTable ($"u") ($"s") (Some (ListAt 0)) None; AddTable 6 8; OnTable 8 (AddColumn (col "y"))] /\
  runs h_start [Append 0 ($"x"); NewTable ($"u") ($"s") (Some (ListAt 0)) None; AddTable 6 8; OnTable 8 (AddColumn (col "y"))]
       (run_calls [Append 0 ($"x"); NewTable ($"u") ($"s") (Some (ListAt 0)) None; AddTable 6 8; OnTable 8 (AddColumn (col "y"))] h_start) /\
  base_of h_start 5 = {| db_name := $"a"; db_tables := [($"t", {| t_name := $"t"; t_schema := $"s"; t_pk := [$"id"];
     t_shard := Some {| sk_id := 2; sk_keys := [$"id"]; sk_shards := 4 |}; t_cols := [($"id", col "id")]; t_fks := []; t_rels := [] |})]; db_schemas := [($"s", 1%Z)] |}.
Proof.
  split; [eexists; reflexivity|]. split; [eexists; reflexivity|]. split; [eexists; reflexivity|]. split; [reflexivity|]. split; [|split].
  - repeat (apply away_call; [cbn; try tauto; try discriminate|]); [|apply away_nil].
    intros (b & n & E & I). vm_compute in E. injection E as <-. destruct I as [I|[]]. discriminate.
  - run_it.
  - vm_compute. reflexivity.
Qed.
