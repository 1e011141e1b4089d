(** * Lemmas about the reviews of relationship graphs *)
From Verif Require Export SpecReview ReviewGraph StrFacts.
From Coq Require Import Lia.

(** ** Sets *)
Lemma set_add_in s x y : In y (set_add s x) <-> y = x \/ In y s.
Proof. unfold set_add. destruct (str_in_spec x s) as [H|H]; [split; [auto|intros [->|]; assumption]|]. rewrite in_app_iff. cbn. intuition congruence. Qed.
Lemma set_adds_in l : forall s y, In y (fold_left set_add l s) <-> In y l \/ In y s.
Proof. induction l as [|x l IH]; intros s y; cbn [fold_left In]; [tauto|]. rewrite IH, set_add_in. intuition congruence. Qed.
Lemma set_add_nodup s x : NoDup s -> NoDup (set_add s x).
Proof.
  intros N. unfold set_add. destruct (str_in_spec x s) as [H|H]; [exact N|]. apply (Permutation_NoDup (Permutation_cons_append s x)). constructor; assumption.
Qed.
Lemma set_adds_nodup l : forall s, NoDup s -> NoDup (fold_left set_add l s).
Proof. induction l as [|x l IH]; intros s N; [exact N|]. apply IH, set_add_nodup, N. Qed.
Lemma set_add_length s x : length s <= length (set_add s x).
Proof. unfold set_add. destruct (str_in x s); [lia|rewrite app_length; lia]. Qed.
Lemma set_adds_length l : forall s, length s <= length (fold_left set_add l s).
Proof. induction l as [|x l IH]; intros s; [cbn; lia|]. cbn [fold_left]. pose proof (set_add_length s x). specialize (IH (set_add s x)). lia. Qed.
Lemma set_of_in l y : In y (set_of l) <-> In y l.
Proof. unfold set_of. rewrite set_adds_in. cbn. tauto. Qed.
Lemma set_of_nodup l : NoDup (set_of l).
Proof. apply set_adds_nodup. constructor. Qed.

Section Order.
Variable order : list str -> list str.
Hypothesis Ho : iteration_order order.

Lemma order_in l x : NoDup l -> (In x (order l) <-> In x l).
Proof. intros N. split; apply Permutation_in; [|apply Permutation_sym]; apply Ho, N. Qed.

(** ** Maps of a database *)
Section Map.
Variable d : database.
Variable f : table -> list str.
Lemma mapping_from ts : forall m, (forall t, In t ts -> ~ In (t_name t) (dkeys m)) -> NoDup (map t_name ts) ->
  fold_left (fun m t => dset (t_name t) (f t) m) ts m = m ++ map (fun t => (t_name t, f t)) ts.
Proof.
  induction ts as [|t ts IH]; intros m H N; cbn [fold_left map]; [symmetry; apply app_nil_r|]. rewrite dset_new by (apply H; left; reflexivity). cbn [map] in N. inversion N as [|? ? N1 N2]; subst.
  rewrite IH; [rewrite <- app_assoc; reflexivity| |exact N2]. intros u Hu. unfold dkeys. rewrite map_app, in_app_iff. cbn [map fst In]. intros [K|[K|[]]]; [apply (H u); [right; exact Hu|exact K]|].
  apply N1. rewrite K. apply in_map, Hu.
Qed.
Lemma filed_names : filed d -> map t_name (db_iter d) = get_table_names d.
Proof.
  intros [N H]. unfold get_table, db_iter, get_table_names, dvals, dkeys in *. rewrite map_map. apply map_ext_in. intros [k t] I. cbn [fst snd]. apply H. apply dget_nodup; assumption.
Qed.
Lemma mapping : filed d -> fold_left (fun m t => dset (t_name t) (f t) m) (db_iter d) [] = map (fun t => (t_name t, f t)) (db_iter d).
Proof. intros F. apply (mapping_from (db_iter d) []); [intros t _ []|]. rewrite (filed_names F). apply F. Qed.
Lemma mapping_keys : filed d -> dkeys (map (fun t => (t_name t, f t)) (db_iter d)) = get_table_names d.
Proof. intros F. rewrite <- filed_names by exact F. unfold dkeys. rewrite map_map. reflexivity. Qed.
Lemma mapping_get n : filed d -> dget n (map (fun t => (t_name t, f t)) (db_iter d)) = match get_table d n with Some t => Some (f t) | None => None end.
Proof.
  intros F. pose proof (mapping_keys F) as K. destruct (get_table d n) as [t|] eqn:G.
  - apply dget_nodup; [rewrite K; apply F|]. assert (E : n = t_name t) by (symmetry; apply F, G). rewrite E. apply (in_map (fun t => (t_name t, f t))). apply dget_in in G. apply (in_map snd) in G. exact G.
  - apply dget_none. rewrite K. apply dget_none, G.
Qed.
End Map.

Lemma direct_map d : filed d -> direct_relationships d = map (fun t => (t_name t, set_of (get_all_related_tables t))) (db_iter d).
Proof. apply mapping. Qed.
Lemma dset_twice {A} k (a b : A) m : dset k b (dset k a m) = dset k b m.
Proof. induction m as [|[k' v] m IH]; cbn [dset]; [rewrite str_eqb_refl; reflexivity|]. destruct (str_eqb k k') eqn:E; cbn [dset]; rewrite E; [reflexivity|rewrite IH; reflexivity]. Qed.
Lemma adds_app l1 l2 s : fold_left set_add l2 (fold_left set_add l1 s) = fold_left set_add (l1 ++ l2) s.
Proof. symmetry. apply fold_left_app. Qed.
Lemma get_map d : filed d -> get_relationships order d = map (fun t => (t_name t, order (set_of (get_all_related_tables t)))) (db_iter d).
Proof.
  intros F. rewrite <- mapping by exact F. unfold get_relationships, db_iter. generalize (@nil (str * list str)). induction (dvals (db_tables d)) as [|t ts IH]; intros m; [reflexivity|]. cbn [fold_left]. rewrite <- IH. rewrite dset_twice, adds_app. reflexivity.
Qed.

Lemma related_get d a b : filed d -> (related d a b <-> exists s, dget a (direct_relationships d) = Some s /\ In b s).
Proof.
  intros F. rewrite direct_map, mapping_get by exact F. unfold related. destruct (get_table d a) as [t|].
  - split.
    + intros [t' [[= <-] H]]. eexists. split; [reflexivity|]. apply set_of_in. unfold get_all_related_tables. apply in_app_iff. destruct H as [[x [I E]]|[x [I E]]]; [left|right]; rewrite <- E; apply in_map, I.
    + intros [s [[= <-] H]]. exists t. split; [reflexivity|]. rewrite set_of_in in H. unfold get_all_related_tables in H. apply in_app_iff in H. destruct H as [H|H]; apply in_map_iff in H; destruct H as [x [E I]]; [left|right]; exists x; auto.
  - split; [intros [t [? _]]; discriminate|intros [s [? _]]; discriminate].
Qed.
Lemma direct_nodup d a s : filed d -> dget a (direct_relationships d) = Some s -> NoDup s.
Proof. intros F. rewrite direct_map, mapping_get by exact F. destruct (get_table d a); [intros [= <-]; apply set_of_nodup|discriminate]. Qed.
Lemma direct_keys d : filed d -> dkeys (direct_relationships d) = get_table_names d.
Proof. intros F. rewrite direct_map by exact F. apply mapping_keys, F. Qed.
Lemma related_from d a b : related d a b -> In a (get_table_names d).
Proof. intros [t [G _]]. apply dget_some_in. exists t. exact G. Qed.
Lemma get_get d a : filed d -> dget a (get_relationships order d) = match dget a (direct_relationships d) with Some s => Some (order s) | None => None end.
Proof. intros F. rewrite get_map, direct_map, !mapping_get by exact F. destruct (get_table d a); reflexivity. Qed.
Lemma get_keys d : filed d -> dkeys (get_relationships order d) = get_table_names d.
Proof. intros F. rewrite get_map by exact F. apply mapping_keys, F. Qed.
Lemma get_nodup d a s : filed d -> dget a (get_relationships order d) = Some s -> NoDup s.
Proof.
  intros F. rewrite get_get by exact F. destruct (dget a (direct_relationships d)) as [s'|] eqn:E; [|discriminate]. intros [= <-]. pose proof (direct_nodup _ _ _ F E) as N.
  apply (Permutation_NoDup (Permutation_sym (Ho _ N))), N.
Qed.
Lemma related_get' d a b : filed d -> (related d a b <-> exists s, dget a (get_relationships order d) = Some s /\ In b s).
Proof.
  intros F. rewrite related_get, get_get by exact F. destruct (dget a (direct_relationships d)) as [s|] eqn:E; [|split; intros [s [? _]]; discriminate].
  pose proof (order_in s b (direct_nodup _ _ _ F E)) as O. split; intros [x [[= <-] H]]; eexists; (split; [reflexivity|]); apply O, H.
Qed.

(** ** Circles *)
Section Circle.
Variable d : database.
Hypothesis Fd : filed d.
Let m := direct_relationships d.

Lemma expand_ok l : forall new, (forall x, In x l -> In x (dkeys m)) -> NoDup new ->
  exists new', expand order m new l = Ok new' /\ NoDup new' /\ (forall y, In y new' <-> In y new \/ exists x, In x l /\ related d x y) /\ length new <= length new'.
Proof.
  induction l as [|x l IH]; intros new H N; cbn [expand].
  - exists new. split; [reflexivity|]. split; [exact N|]. split; [|lia]. intros y. split; [auto|]. intros [I|[x [[] _]]]. exact I.
  - destruct (dget x m) as [s|] eqn:E; [|exfalso; apply dget_none in E; apply E, H; left; reflexivity].
    destruct (IH (fold_left set_add (order s) new)) as [new' [R [N' [I' L]]]]; [intros y Hy; apply H; right; exact Hy|apply set_adds_nodup, N|].
    exists new'. split; [exact R|]. split; [exact N'|]. split; [|pose proof (set_adds_length (order s) new); lia]. pose proof (direct_nodup d x s Fd E) as Ns. intros y. rewrite I', set_adds_in, (order_in s y Ns). split.
    + intros [[A|A]|[z [A B]]]; [|auto|].
      * right. exists x. split; [left; reflexivity|]. apply related_get; [exact Fd|]. exists s. auto.
      * right. exists z. split; [right; exact A|exact B].
    + intros [A|[z [[->|A] B]]]; [auto| |].
      * left. left. apply related_get in B; [|exact Fd]. destruct B as [s' [B C]]. change (dget z m = Some s') in B. rewrite E in B. injection B as <-. exact C.
      * right. exists z. auto.
Qed.
Lemma expand_fails l new x : In x l -> ~ In x (dkeys m) -> expand order m new l = Err KeyError.
Proof.
  revert new. induction l as [|y l IH]; intros new I K; [destruct I|]. cbn [expand]. destruct I as [->|I].
  - apply dget_none in K. rewrite K. reflexivity.
  - destruct (dget y m); [apply IH; assumption|reflexivity].
Qed.

Lemma reaches_step a b : reaches d a b -> related d a b \/ exists c, reaches d a c /\ related d c b.
Proof. intros R. apply clos_trans_tn1 in R. destruct R as [b R|b c R H]; [left; exact R|right]. exists b. split; [apply clos_tn1_trans, H|exact R]. Qed.

Lemma circle_ok (Hd : no_dangling d) n : forall fuel rel, NoDup rel -> (forall x, In x rel -> reaches d n x) -> (forall x, related d n x -> In x rel) ->
  length (get_table_names d) < fuel + length rel ->
  exists b, circle order fuel m n rel = Ok b /\ (b = true <-> reaches d n n).
Proof.
  assert (Kn : forall x, reaches d n x -> In x (dkeys m)).
  { intros x R. unfold m. rewrite direct_keys by exact Fd. apply reaches_step in R. destruct R as [R|[c [_ R]]]; eapply Hd, R. }
  assert (Small : forall rel, NoDup rel -> (forall x, In x rel -> reaches d n x) -> length rel <= length (get_table_names d)).
  { intros rel N H. rewrite <- (direct_keys d Fd). apply NoDup_incl_length; [exact N|]. intros x I. apply Kn, H, I. }
  induction fuel as [|fuel IH]; intros rel N S D L.
  - pose proof (Small rel N S). lia.
  - cbn [circle]. destruct (expand_ok (order rel) rel) as [new [E [N' [I' L']]]]; [intros x Hx; apply Kn, S, (order_in rel x N), Hx|exact N|]. rewrite E. cbn [bind].
    assert (S' : forall x, In x new -> reaches d n x).
    { intros x Hx. apply I' in Hx. destruct Hx as [Hx|[y [Hy R]]]; [apply S, Hx|]. apply t_trans with y; [apply S, (order_in rel y N), Hy|apply t_step, R]. }
    destruct (str_in_spec n new) as [H|H].
    + exists true. split; [reflexivity|]. split; [intros _; apply S', H|reflexivity].
    + destruct (Nat.eqb_spec (length new) (length rel)) as [Q|Q].
      * exists false. split; [reflexivity|]. split; [discriminate|]. intros R. exfalso. apply H.
        assert (Inc : incl new rel) by (apply NoDup_length_incl; [exact N|lia|intros x Hx; apply I'; left; exact Hx]).
        assert (C : forall x, reaches d n x -> In x rel).
        { intros x Rx. apply clos_trans_tn1 in Rx. induction Rx as [x Rx|x y Rx _ IHx]; [apply D, Rx|]. apply Inc, I'. right. exists x. split; [apply (order_in rel x N), IHx|exact Rx]. }
        apply I'. left. apply C, R.
      * apply IH; [exact N'|exact S'|intros x Hx; apply I'; left; apply D, Hx|]. lia.
Qed.
Lemma circle_fails n x rel fuel : NoDup rel -> In x rel -> ~ In x (dkeys m) -> circle order (S fuel) m n rel = Err KeyError.
Proof. intros N I K. cbn [circle]. rewrite (expand_fails _ rel x); [reflexivity|apply (order_in rel x N), I|exact K]. Qed.

Lemma circles_ok (Hd : no_dangling d) fuel names : incl names (get_table_names d) -> length (get_table_names d) < fuel ->
  exists ns, circles order fuel m names = Ok (map circular_issue ns) /\ exists keep, ns = filter keep names /\ forall n, In n names -> (keep n = true <-> reaches d n n).
Proof.
  intros I L. induction names as [|n names IH]; [exists []; split; [reflexivity|]; exists (fun _ => true); split; [reflexivity|intros n []]|].
  destruct IH as [ns [E [keep [K1 K2]]]]; [intros x Hx; apply I; right; exact Hx|]. cbn [circles].
  assert (Kn : In n (dkeys m)) by (unfold m; rewrite direct_keys by exact Fd; apply I; left; reflexivity). apply dget_some_in in Kn. destruct Kn as [rel G]. rewrite G.
  destruct (circle_ok Hd n fuel rel) as [b [C B]].
  - apply (direct_nodup d n rel Fd G).
  - intros x Hx. apply t_step, related_get; [exact Fd|]. exists rel. auto.
  - intros x Hx. apply related_get in Hx; [|exact Fd]. destruct Hx as [s [G' Hx]]. fold m in G'. congruence.
  - lia.
  - rewrite C. cbn [bind]. rewrite E. cbn [bind]. exists (if b then n :: ns else ns). split; [destruct b; reflexivity|]. exists (fun x => if str_eqb x n then b else keep x). split.
    + cbn [filter]. rewrite str_eqb_refl. rewrite K1.
      assert (Ex : filter keep names = filter (fun x => if str_eqb x n then b else keep x) names).
      { apply filter_ext_in. intros x Hx. destruct (str_eqb_spec x n) as [->|]; [|reflexivity]. destruct (K2 n Hx) as [A1 A2]. destruct b, (keep n); try reflexivity; [apply A2, B, eq_refl|symmetry; apply B, A1, eq_refl]. }
      rewrite Ex. destruct b; reflexivity.
    + intros x Hx. destruct (str_eqb_spec x n) as [->|Ne]; [exact B|]. apply K2. destruct Hx as [->|Hx]; [contradiction|exact Hx].
Qed.
(** ends, with or without a failure *)
Definition all_names : list str := get_table_names d ++ flat_map (fun t => get_all_related_tables t) (db_iter d).
Lemma related_names a b : related d a b -> In b all_names.
Proof.
  intros [t [G H]]. apply in_app_iff. right. apply in_flat_map. exists t. split; [apply dget_in in G; apply (in_map snd) in G; exact G|].
  apply in_app_iff. destruct H as [[x [I E]]|[x [I E]]]; [left|right]; rewrite <- E; apply in_map, I.
Qed.
Lemma circle_ends n : forall fuel rel, NoDup rel -> incl rel all_names -> length all_names < fuel + length rel ->
  circle order fuel m n rel = Err KeyError \/ exists b, circle order fuel m n rel = Ok b.
Proof.
  induction fuel as [|fuel IH]; intros rel N I L; [pose proof (NoDup_incl_length N I); lia|].
  destruct (Forall_Exists_dec (fun x => In x (dkeys m)) (fun x => in_dec str_dec x (dkeys m)) rel) as [A|A].
  - rewrite Forall_forall in A. cbn [circle]. destruct (expand_ok (order rel) rel) as [new [E [N' [I' L']]]]; [intros x Hx; apply A, (order_in rel x N), Hx|exact N|]. rewrite E. cbn [bind].
    destruct (str_in n new); [right; eauto|]. destruct (Nat.eqb_spec (length new) (length rel)) as [Q|Q]; [right; eauto|]. apply IH; [exact N'| |lia].
    intros x Hx. apply I' in Hx. destruct Hx as [Hx|[y [_ R]]]; [apply I, Hx|apply (related_names _ _ R)].
  - apply Exists_exists in A. destruct A as [x [Hx Nx]]. left. apply (circle_fails n x); assumption.
Qed.
Lemma circles_fail fuel names : length all_names < fuel -> incl names (get_table_names d) -> (exists a b, In a names /\ related d a b /\ ~ In b (get_table_names d)) ->
  circles order fuel m names = Err KeyError.
Proof.
  intros L. induction names as [|n names IH]; intros Ks [a [b [I [R Nb]]]]; [destruct I|]. cbn [circles].
  pose proof (Ks n (or_introl eq_refl)) as Kn. rewrite <- (direct_keys d Fd) in Kn. apply dget_some_in in Kn. destruct Kn as [rel G]. fold m in G. rewrite G. destruct I as [->|I].
  - apply related_get in R; [|exact Fd]. destruct R as [s [G' Hb]]. fold m in G'. rewrite G in G'. injection G' as <-. destruct fuel as [|fuel]; [lia|].
    rewrite (circle_fails a b rel fuel); [reflexivity|apply (direct_nodup d a rel Fd G)|exact Hb|unfold m; rewrite direct_keys by exact Fd; exact Nb].
  - destruct (circle_ends n fuel rel) as [E|[c E]]; [apply (direct_nodup d n rel Fd G)| |lia| |].
    + intros x Hx. apply (related_names n), related_get; [exact Fd|]. exists rel. auto.
    + rewrite E. reflexivity.
    + rewrite E. cbn [bind]. rewrite IH; [reflexivity|intros x Hx; apply Ks; right; exact Hx|]. exists a, b. auto.
Qed.
End Circle.
End Order.
