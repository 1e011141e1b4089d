(** * Properties C53 - C57: the reviews of relationships and primary keys *)
From Verif Require Import GraphProps.

(** C53: the review of circular relationships ends and reports exactly the tables that can reach
    themselves, each once and in the order of the tables, whatever order sets are iterated in. *)
Theorem C53_exact : forall order d, iteration_order order -> filed d -> no_dangling d ->
  exists names, ends_as (fun fuel => review_circular_relationships order fuel d)
                        (Ok (map (fun n => n ++ $" has circular relationship back to itself.") names))
  /\ (forall n, In n names <-> reaches d n n)
  /\ exists keep, names = filter keep (get_table_names d).
Proof. intros order d Ho Fd Hd. apply (circular_exact order Ho d Fd Hd). Qed.
Print Assumptions C53_exact.
(** With a constraint to a table that is not there it fails. *)
Theorem C53_dangling : forall order d a b, iteration_order order -> filed d -> related d a b -> ~ In b (get_table_names d) ->
  ends_as (fun fuel => review_circular_relationships order fuel d) (Err KeyError).
Proof. intros order d a b Ho Fd. apply (circular_fails order Ho d Fd). Qed.
Print Assumptions C53_dangling.

(** a database with the given constraints *)
Definition graph (edges : list (str * list str)) : database :=
  fold_left (fun d e => add_table d (fold_left (fun t b => match add_fk_parts t (Some (OneKey ($"k"))) (Some b) (Some (OneKey ($"k"))) None with Ok t => t | Err _ => t end)
                                               (snd e) (mk_table (fst e) ($"s") None None))) edges (empty_database ($"db")).
(** a reaches itself through b and c; d does not, though it reaches them *)
Definition ring : database := graph [($"a", [$"b"]); ($"b", [$"c"]); ($"c", [$"a"]); ($"d", [$"a"; $"e"]); ($"e", [])].
Definition closed_b (d : database) : bool := forallb (fun t => forallb (fun n => str_in n (get_table_names d)) (get_all_related_tables t)) (db_iter d).
Lemma closed_spec d : closed_b d = true -> no_dangling d.
Proof.
  intros H a b [t [G K]]. unfold closed_b in H. rewrite forallb_forall in H. apply str_in_true. assert (I : In t (db_iter d)) by (apply dget_in in G; apply (in_map snd) in G; exact G).
  specialize (H t I). rewrite forallb_forall in H. apply H. apply in_app_iff. destruct K as [[x [K E]]|[x [K E]]]; [left|right]; rewrite <- E; apply in_map, K.
Qed.
Fixpoint nodup_b (l : list str) : bool := match l with [] => true | x :: l => negb (str_in x l) && nodup_b l end.
Lemma nodup_spec l : nodup_b l = true -> NoDup l.
Proof. induction l as [|x l IH]; intros H; [constructor|]. cbn [nodup_b] in H. apply andb_prop in H. destruct H as [H1 H2]. constructor; [apply str_in_false; destruct (str_in x l); [discriminate|reflexivity]|apply IH, H2]. Qed.
Definition filed_b (d : database) : bool := nodup_b (get_table_names d) && forallb (fun kv => str_eqb (t_name (snd kv)) (fst kv)) (db_tables d).
Lemma filed_spec d : filed_b d = true -> filed d.
Proof.
  intros H. apply andb_prop in H. destruct H as [H1 H2]. split; [apply nodup_spec, H1|]. intros n t G. apply dget_in in G. rewrite forallb_forall in H2. specialize (H2 _ G). cbn [fst snd] in H2. apply str_eqb_eq, H2.
Qed.
Lemma same_order : iteration_order (fun l => l).
Proof. intros l _. apply Permutation_refl. Qed.
Example C53_case : filed ring /\ no_dangling ring /\ reaches ring ($"a") ($"a") /\ iteration_order (@rev str)
  /\ review_circular_relationships (@rev str) 6 ring
     = Ok [$"a has circular relationship back to itself."; $"b has circular relationship back to itself."; $"c has circular relationship back to itself."].
Proof.
  split; [apply filed_spec; vm_compute; reflexivity|]. split; [apply closed_spec; vm_compute; reflexivity|]. split; [|split; [intros l _; apply Permutation_sym, Permutation_rev|vm_compute; reflexivity]].
  assert (F : filed ring) by (apply filed_spec; vm_compute; reflexivity).
  apply t_trans with ($"b"); [|apply t_trans with ($"c")]; apply t_step, (related_get ring _ _ F); vm_compute; eexists; (split; [reflexivity|left; reflexivity]).
Qed.

(** C54: the review of long chains ends and reports exactly the paths of constraints that visit no
    table twice and are longer than the limit, each once. *)
Theorem C54_exact : forall order d c q, iteration_order order -> filed d -> no_dangling d ->
  (dget ($"max_reference_chain") c = Some (SNum q) \/ dget ($"max_reference_chain") c = None /\ q = 3%Q) ->
  exists ps, ends_as (fun fuel => review_long_chain_relationships order fuel d c)
    (Ok (map (fun p => $"Long path (" ++ n_to_str (N.of_nat (length p)) ++ $"):  " ++ list_repr p ++ $".") ps))
  /\ NoDup ps /\ forall p, In p ps <-> simple_path d p /\ (q < inject_Z (Z.of_nat (length p) - 1))%Q.
Proof. intros order d c q Ho Fd Hd Hq. apply (long_exact order Ho d Fd c q Hd). unfold limit. destruct Hq as [Hq|[Hq ->]]; rewrite Hq; reflexivity. Qed.
Print Assumptions C54_exact.
Theorem C54_dangling : forall order d c a b, iteration_order order -> filed d -> related d a b -> ~ In b (get_table_names d) ->
  ends_as (fun fuel => review_long_chain_relationships order fuel d c) (Err KeyError).
Proof. intros order d c a b Ho Fd. apply (long_fails order Ho d Fd). Qed.
Print Assumptions C54_dangling.
Example C54_case : review_long_chain_relationships (fun l => l) 6 ring [] = Ok []
  /\ review_long_chain_relationships (fun l => l) 6 ring [($"max_reference_chain", SNum 2)] = Ok [$"Long path (4):  ['d', 'a', 'b', 'c']."].
Proof. split; vm_compute; reflexivity. Qed.

(** C55: a limit from a configuration file is a text; the review cannot compare with it and fails as
    soon as there is a path at all.  (Numbers stored in the configuration object are honoured: C54.) *)
Theorem C55_chain_refuted : forall order d files filename c ws v, iteration_order order -> filed d -> no_dangling d ->
  load_from_file files [] filename = (c, true, ws) -> dget ($"max_reference_chain") c = Some v ->
  (exists p, simple_path d p) ->
  ends_as (fun fuel => review_long_chain_relationships order fuel d (file_settings c)) (Err TypeError).
Proof.
  intros order d files filename c ws v Ho Fd Hd _ G P. destruct (long_text order Ho d Fd (file_settings c) v Hd) as [[_ K]|[K _]]; [|destruct P as [p P]; destruct (K p P)|exact K].
  unfold limit. assert (E : dget ($"max_reference_chain") (file_settings c) = Some (SText v)); [|rewrite E; reflexivity].
  clear - G. unfold file_settings. induction c as [|[k x] c IH]; [discriminate|]. cbn [dget map fst snd] in *. destruct (str_eqb _ k); [injection G as ->; reflexivity|apply IH, G].
Qed.
Print Assumptions C55_chain_refuted.
Example C55_case : let text := $"max_reference_chain = 5" in
  exists c, load_from_file (fun _ => Some text) [] ($"f") = (c, true, []) /\ dget ($"max_reference_chain") c = Some ($"5")
  /\ simple_path ring [$"a"; $"b"] /\ review_long_chain_relationships (fun l => l) 6 ring (file_settings c) = Err TypeError.
Proof.
  eexists. split; [vm_compute; reflexivity|]. split; [vm_compute; reflexivity|]. split; [|vm_compute; reflexivity]. split; [apply le_n|]. split; [|apply nodup_spec; vm_compute; reflexivity].
  split; [|exact I]. apply (related_get ring); [apply filed_spec; vm_compute; reflexivity|]. vm_compute. eexists. split; [reflexivity|left; reflexivity].
Qed.

(** C56: without cycles [relates_to_previous] ends and tells whether the second table can be reached. *)
Theorem C56_acyclic : forall m from to, complete_map m -> (forall a, ~ map_reaches m a a) -> In from (map fst m) ->
  exists b, ends_as (fun fuel => relates_to_previous fuel m from to) (Ok b) /\ (b = true <-> map_reaches m from to).
Proof.
  intros m from to Cm A F. destruct (relates_ok m Cm to A (S (length (dkeys m))) from []) as [b [E B]]; [constructor|intros x []|intros x []|exact F|cbn; apply Nat.lt_succ_r; rewrite Nat.add_0_r; apply le_n|].
  exists b. split; [|exact B]. exists (S (length (dkeys m))). intros fuel L.
  destruct (relates_ok m Cm to A fuel from []) as [b' [E' B']]; [constructor|intros x []|intros x []|exact F|cbn; rewrite Nat.add_0_r; exact L|]. rewrite E'. f_equal. destruct b, b'; try reflexivity; [apply B', B, eq_refl|symmetry; apply B, B', eq_refl].
Qed.
Print Assumptions C56_acyclic.
(** A cycle on the way makes it run for ever when the second table cannot be reached. *)
Theorem C56_cycle : forall m from to c, complete_map m -> In from (map fst m) -> ~ map_reaches m from to ->
  from = c \/ map_reaches m from c -> map_reaches m c c ->
  never_ends (fun fuel => relates_to_previous fuel m from to).
Proof. intros m from to c Cm F N W C fuel. apply (relates_runs m Cm to fuel from c); assumption. Qed.
Print Assumptions C56_cycle.
Example C56_case : let m := [($"a", [$"b"; $"c"]); ($"b", []); ($"c", [$"d"]); ($"d", [])] in
  relates_to_previous 5 m ($"a") ($"d") = Ok true /\ relates_to_previous 5 m ($"b") ($"d") = Ok false
  /\ relates_to_previous 50 [($"a", [$"a"]); ($"b", [])] ($"a") ($"b") = Err OutOfFuel.
Proof. split; [|split]; vm_compute; reflexivity. Qed.
(** the hypotheses of C56_acyclic are met: every step goes to a later letter *)
Example C56_acyclic_case : let m := [($"a", [$"b"; $"c"]); ($"b", []); ($"c", [$"d"]); ($"d", [])] in
  complete_map m /\ (forall a, ~ map_reaches m a a).
Proof.
  intros m. assert (S : forall a b, map_related m a b -> str_ltb a b = true /\ In b (map fst m)).
  { intros a b [l [I J]]. repeat (destruct I as [I|I]; [apply pair_equal_spec in I; destruct I as [<- <-]; repeat (destruct J as [<-|J]; [split; [vm_compute; reflexivity|apply str_in_true; vm_compute; reflexivity]|]); destruct J|]). destruct I. }
  split; [split; [apply nodup_spec; vm_compute; reflexivity|intros a b H; apply (S a b H)]|]. intros a H.
  assert (T : forall x y, map_reaches m x y -> str_ltb x y = true) by (intros x y K; induction K as [x y K|x y z K1 IH1 K2 IH2]; [apply (S x y K)|apply (str_ltb_trans x y z IH1 IH2)]).
  apply T in H. rewrite str_ltb_irrefl in H. discriminate.
Qed.

(** C57: exactly the tables without primary key are reported, each once and in order. *)
Theorem C57_exact : forall d,
  review_pks d = map (fun t => $"No primary key on table " ++ db_name d ++ $"." ++ t_schema t ++ $"." ++ t_name t)
                     (filter (fun t => Nat.eqb (length (t_pk t)) 0) (db_iter d)).
Proof. intros d. unfold review_pks. induction (db_iter d) as [|t ts IH]; [reflexivity|]. cbn [flat_map filter]. destruct (t_pk t) as [|k ks]; cbn [length Nat.eqb app map]; rewrite IH; reflexivity. Qed.
Print Assumptions C57_exact.
Example C57_case : length (review_pks ring) = 5 /\ hd [] (review_pks ring) = $"No primary key on table db.s.a".
Proof. split; vm_compute; reflexivity. Qed.
