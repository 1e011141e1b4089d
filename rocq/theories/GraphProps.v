(** * The reviews of relationship graphs, put together *)
From Verif Require Export ReachFacts.
From Coq Require Import Lia.

Section Order.
Variable order : list str -> list str.
Hypothesis Ho : iteration_order order.
Variable d : database.
Hypothesis Fd : filed d.

Lemma circular_exact : no_dangling d ->
  exists names, ends_as (fun fuel => review_circular_relationships order fuel d) (Ok (map circular_issue names))
  /\ (forall n, In n names <-> reaches d n n) /\ exists keep, names = filter keep (get_table_names d).
Proof.
  intros Hd. destruct (circles_ok order Ho d Fd Hd (S (length (get_table_names d))) (get_table_names d) (incl_refl _)) as [ns [_ [keep [K1 K2]]]]; [lia|].
  assert (Kx : forall fuel, S (length (get_table_names d)) <= fuel -> circles order fuel (direct_relationships d) (get_table_names d) = Ok (map circular_issue ns)).
  { intros fuel L. destruct (circles_ok order Ho d Fd Hd fuel (get_table_names d) (incl_refl _)) as [ns' [E' [keep' [K1' K2']]]]; [lia|]. rewrite E'. do 2 f_equal. rewrite K1, K1'. apply filter_ext_in. intros n Hn.
    destruct (K2 n Hn) as [A1 A2], (K2' n Hn) as [B1 B2]. destruct (keep n), (keep' n); try reflexivity; [apply B2, A1, eq_refl|symmetry; apply A2, B1, eq_refl]. }
  exists ns. split; [exists (S (length (get_table_names d))); intros fuel L; unfold review_circular_relationships; rewrite direct_keys by exact Fd; apply Kx, L|].
  split; [|exists keep; exact K1]. intros n. rewrite K1, filter_In. split; [intros [A B]; apply (K2 n A), B|]. intros H.
  assert (I : In n (get_table_names d)) by (apply reaches_step in H; destruct H as [H|[c [_ H]]]; eapply Hd, H). split; [exact I|]. apply (K2 n I), H.
Qed.
Lemma circular_fails a b : related d a b -> ~ In b (get_table_names d) -> ends_as (fun fuel => review_circular_relationships order fuel d) (Err KeyError).
Proof.
  intros H N. exists (S (length (all_names d))). intros fuel L. unfold review_circular_relationships. rewrite direct_keys by exact Fd. apply circles_fail; [exact Ho|exact Fd|lia|apply incl_refl|].
  exists a, b. split; [apply (related_from d a b H)|auto].
Qed.

Let m := get_relationships order d.
Lemma R_related a b : R m a b <-> related d a b.
Proof. symmetry. apply related_get'; assumption. Qed.
Lemma linked_R p : linked (R m) p <-> linked (related d) p.
Proof. induction p as [|a [|b p] IH]; [reflexivity|reflexivity|]. cbn [linked]. cbn [linked] in IH. rewrite IH, R_related. reflexivity. Qed.
Lemma extends_simple p : (exists n, In n (get_table_names d) /\ extends m [n] p) <-> simple_path d p.
Proof.
  unfold extends, simple_path. split.
  - intros [n [I [q [Q1 [-> [Q2 Q3]]]]]]. cbn [last app] in *. destruct q as [|b q]; [contradiction|]. split; [cbn; lia|]. split; [apply linked_R, Q2|exact Q3].
  - intros [L [P N]]. destruct p as [|a [|b p]]; [cbn in L; lia|cbn in L; lia|]. exists a. destruct P as [P1 P2]. split; [apply (related_from d a b P1)|]. exists (b :: p). split; [discriminate|]. split; [reflexivity|]. split; [|exact N].
    cbn [last]. apply linked_R. split; assumption.
Qed.
Lemma long_paths_num q ps : long_paths (SNum q) ps = Ok (map long_path_issue (filter (fun p => negb (Qle_bool (inject_Z (Z.of_nat (length p) - 1)) q)) ps)).
Proof. induction ps as [|p ps IH]; [reflexivity|]. cbn [long_paths above bind filter]. rewrite IH. cbn [bind]. destruct (negb _); reflexivity. Qed.
Lemma paths_mono : forall f path ps, get_related_paths f m path = Ok ps -> forall f', f <= f' -> get_related_paths f' m path = Ok ps.
Proof.
  induction f as [|f IH]; intros path ps E f' L; [discriminate|]. destruct f' as [|f']; [lia|]. rewrite paths_unfold in *. destruct (dget (last path []) m) as [s|]; [|discriminate].
  revert ps E. induction s as [|x s IHs]; intros ps E; [exact E|]. rewrite nexts_cons in *. destruct (str_in x path); [apply IHs, E|]. destruct (get_related_paths f m (path ++ [x])) as [a|] eqn:Ea; [|discriminate]. cbn [bind] in E.
  rewrite (IH _ _ Ea f') by lia. cbn [bind]. destruct (nexts _ path s) as [r|] eqn:Er; [|discriminate]. rewrite (IHs r eq_refl). exact E.
Qed.
Lemma all_mono f names ps : all_paths f m names = Ok ps -> forall f', f <= f' -> all_paths f' m names = Ok ps.
Proof.
  intros E f' L. revert ps E. induction names as [|n names IH]; intros ps E; [exact E|]. cbn [all_paths] in *. destruct (get_related_paths f m [n]) as [a|] eqn:Ea; [|discriminate]. cbn [bind] in E. rewrite (paths_mono _ _ _ Ea f' L). cbn [bind].
  destruct (all_paths f m names) as [r|]; [|discriminate]. rewrite (IH r eq_refl). exact E.
Qed.
Lemma paths_all : no_dangling d -> exists ps, ends_as (fun fuel => all_paths fuel m (dkeys m)) (Ok ps) /\ NoDup ps /\ (forall p, In p ps <-> simple_path d p).
Proof.
  intros Hd. destruct (all_paths_ok m (fun a s => get_nodup order Ho d a s Fd)) with (fuel := S (length (get_table_names d))) (names := dkeys m) as [ps [E [N I]]].
  - intros a b H. unfold m. rewrite get_keys by exact Fd. apply (Hd a b), R_related, H.
  - unfold m. rewrite get_keys by exact Fd. apply Fd.
  - apply incl_refl.
  - unfold m. rewrite get_keys by exact Fd. lia.
  - exists ps. split; [exists (S (length (get_table_names d))); intros fuel L; apply (all_mono _ _ _ E _ L)|]. split; [exact N|]. intros p. rewrite I. unfold m at 1. rewrite get_keys by exact Fd. apply extends_simple.
Qed.
Lemma long_exact c q : no_dangling d -> limit c ($"max_reference_chain") MAX_REFERENCE_CHAIN = SNum q ->
  exists ps, ends_as (fun fuel => review_long_chain_relationships order fuel d c) (Ok (map long_path_issue ps))
  /\ NoDup ps /\ forall p, In p ps <-> simple_path d p /\ (q < inject_Z (Z.of_nat (length p) - 1))%Q.
Proof.
  intros Hd Hq. destruct (paths_all Hd) as [ps [[n E] [N I]]]. exists (filter (fun p => negb (Qle_bool (inject_Z (Z.of_nat (length p) - 1)) q)) ps). split; [|split].
  - exists n. intros fuel L. unfold review_long_chain_relationships. fold m. rewrite (E fuel L). cbn [bind]. rewrite Hq. apply long_paths_num.
  - apply NoDup_filter, N.
  - intros p. rewrite filter_In, I, negb_true_iff. split; intros [A B]; (split; [exact A|]).
    + apply Qnot_le_lt. intros K. apply Qle_bool_iff in K. congruence.
    + apply not_true_is_false. intros K. apply Qle_bool_iff in K. apply (Qlt_not_le _ _ B K).
Qed.
Lemma long_text c s : no_dangling d -> limit c ($"max_reference_chain") MAX_REFERENCE_CHAIN = SText s ->
  ends_as (fun fuel => review_long_chain_relationships order fuel d c) (Ok []) /\ (forall p, ~ simple_path d p)
  \/ ends_as (fun fuel => review_long_chain_relationships order fuel d c) (Err TypeError) /\ exists p, simple_path d p.
Proof.
  intros Hd Hs. destruct (paths_all Hd) as [ps [[n E] [N I]]]. destruct ps as [|p ps].
  - left. split; [exists n; intros fuel L; unfold review_long_chain_relationships; fold m; rewrite (E fuel L); reflexivity|]. intros p P. apply I in P. destruct P.
  - right. split; [exists n; intros fuel L; unfold review_long_chain_relationships; fold m; rewrite (E fuel L); cbn [bind]; rewrite Hs; reflexivity|]. exists p. apply I. left. reflexivity.
Qed.
Lemma long_fails c a b : related d a b -> ~ In b (get_table_names d) -> ends_as (fun fuel => review_long_chain_relationships order fuel d c) (Err KeyError).
Proof.
  intros H N. exists (S (length (all_names d))). intros fuel L. unfold review_long_chain_relationships. fold m. rewrite (all_paths_fail m) with (U := all_names d); [reflexivity| | | | |].
  - intros x y K. apply (related_names d x y), R_related, K.
  - lia.
  - intros x Hx. unfold m in Hx. rewrite get_keys in Hx by exact Fd. apply in_app_iff. left. exact Hx.
  - apply incl_refl.
  - exists a, b. unfold m at 1 3. rewrite get_keys by exact Fd. split; [apply (related_from d a b H)|]. split; [apply R_related, H|exact N].
Qed.
End Order.
