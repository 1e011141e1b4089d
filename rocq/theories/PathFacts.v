(** * Lemmas about paths and reachability in maps (C54, C56) *)
From Verif Require Export GraphFacts.
From Coq Require Import Lia.

Section Paths.
Variable m : dict (list str).
Definition R (a b : str) : Prop := exists s, dget a m = Some s /\ In b s.

Definition nexts (rec : list str -> result (list (list str))) (path : list str) : list str -> result (list (list str)) :=
  fix next l :=
    match l with
    | [] => Ok []
    | x :: l' =>
        if str_in x path then next l'
        else added <- rec (path ++ [x]) ;; rest <- next l' ;; Ok ((path ++ [x]) :: added ++ rest)
    end.
Lemma paths_unfold fuel path : get_related_paths (S fuel) m path =
  match dget (last path []) m with None => Err KeyError | Some related => nexts (get_related_paths fuel m) path related end.
Proof. reflexivity. Qed.

Lemma nexts_cons (rec : list str -> result (list (list str))) (path : list str) x l : nexts rec path (x :: l) =
  if str_in x path then nexts rec path l else added <- rec (path ++ [x]) ;; rest <- nexts rec path l ;; Ok ((path ++ [x]) :: added ++ rest).
Proof. reflexivity. Qed.
Lemma nodup_app {A} (l1 l2 : list A) : NoDup l1 -> NoDup l2 -> (forall x, In x l1 -> ~ In x l2) -> NoDup (l1 ++ l2).
Proof.
  intros N1 N2 H. induction N1 as [|x l1 Nx N1 IH]; [exact N2|]. cbn. constructor; [rewrite in_app_iff; intros [K|K]; [contradiction|apply (H x); [left; reflexivity|exact K]]|].
  apply IH. intros y Hy. apply H. right. exact Hy.
Qed.

Definition extends (path p : list str) : Prop := exists q, q <> [] /\ p = path ++ q /\ linked R (last path [] :: q) /\ NoDup p.

Lemma app_snoc {A} (l : list A) x q : (l ++ [x]) ++ q = l ++ x :: q.
Proof. rewrite <- app_assoc. reflexivity. Qed.

Lemma nexts_ok (rec : list str -> result (list (list str))) (path : list str) : forall l, NoDup l -> NoDup path -> (forall x, In x l -> R (last path []) x) ->
  (forall x, In x l -> ~ In x path -> exists ps, rec (path ++ [x]) = Ok ps /\ NoDup ps /\ forall p, In p ps <-> extends (path ++ [x]) p) ->
  exists ps, nexts rec path l = Ok ps /\ NoDup ps /\
    forall p, In p ps <-> exists x q, In x l /\ p = path ++ x :: q /\ linked R (x :: q) /\ NoDup p.
Proof.
  induction l as [|x l IH]; intros N Np Rx H.
  - exists []. split; [reflexivity|]. split; [constructor|]. intros p. split; [intros []|intros [x [q [[] _]]]].
  - inversion N as [|? ? N1 N2]; subst. destruct IH as [ps [E [Nps I]]]; [exact N2|exact Np|intros y Hy; apply Rx; right; exact Hy|intros y Hy; apply H; right; exact Hy|].
    rewrite nexts_cons. destruct (str_in_spec x path) as [Hx|Hx].
    + exists ps. split; [exact E|]. split; [exact Nps|]. intros p. rewrite I. split; intros [y [q [A [B [C D]]]]]; exists y, q; split; auto; [right; exact A|]. destruct A as [->|A]; [|exact A].
      exfalso. rewrite B in D. apply NoDup_remove_2 in D. apply D, in_app_iff. left. exact Hx.
    + destruct (H x (or_introl eq_refl) Hx) as [added [Ea [Na Ia]]]. rewrite Ea. cbn [bind]. rewrite E. cbn [bind]. exists ((path ++ [x]) :: added ++ ps). split; [reflexivity|].
      assert (Pa : forall p, In p added -> exists q, q <> [] /\ p = path ++ x :: q /\ linked R (x :: q) /\ NoDup p).
      { intros p Hp. apply Ia in Hp. destruct Hp as [q [Q1 [Q2 [Q3 Q4]]]]. exists q. rewrite last_last in Q3. rewrite app_snoc in Q2. auto. }
      split.
      * constructor.
        -- rewrite in_app_iff. intros [K|K].
           ++ apply Pa in K. destruct K as [q [Q1 [Q2 _]]]. apply app_inv_head in Q2. injection Q2 as <-. apply Q1. reflexivity.
           ++ apply I in K. destruct K as [y [q [A [B _]]]]. apply app_inv_head in B. injection B as <- <-. contradiction.
        -- apply nodup_app; [exact Na|exact Nps|]. intros p K1 K2. apply Pa in K1. destruct K1 as [q [_ [Q2 _]]]. apply I in K2. destruct K2 as [y [q' [A [B _]]]]. rewrite Q2 in B. apply app_inv_head in B. injection B as <- _. contradiction.
      * intros p. cbn [In]. rewrite in_app_iff, I. split.
        -- intros [<-|[K|[y [q [A [B C]]]]]].
           ++ exists x, []. split; [left; reflexivity|]. split; [reflexivity|]. split; [exact Logic.I|]. apply (Permutation_NoDup (Permutation_cons_append path x)). constructor; assumption.
           ++ apply Pa in K. destruct K as [q [_ [Q2 [Q3 Q4]]]]. exists x, q. split; [left; reflexivity|]. auto.
           ++ exists y, q. split; [right; exact A|]. auto.
        -- intros [y [q [[<-|A] [B [C D]]]]]; [|right; right; exists y, q; auto]. destruct q as [|z q]; [left; symmetry; exact B|]. right. left. apply Ia. exists (z :: q). split; [discriminate|]. rewrite last_last, app_snoc. auto.
Qed.

Lemma linked_R_keys a q x : linked R (a :: q) -> In x (removelast (a :: q)) -> In x (dkeys m).
Proof.
  revert a. induction q as [|b q IH]; intros a L I; [destruct I|]. cbn [linked] in L. destruct L as [[s [G _]] L]. change (removelast (a :: b :: q)) with (a :: removelast (b :: q)) in I. destruct I as [<-|I]; [|apply (IH b L I)].
  apply dget_some_in. exists s. exact G.
Qed.
Hypothesis Nm : forall a s, dget a m = Some s -> NoDup s.

Lemma snoc_nodup (l : list str) x : NoDup l -> ~ In x l -> NoDup (l ++ [x]).
Proof. intros N H. apply (Permutation_NoDup (Permutation_cons_append l x)). constructor; assumption. Qed.

Section Closed.
Hypothesis Cm : forall a b, R a b -> In b (dkeys m).
Lemma paths_ok : forall fuel (path : list str), path <> [] -> NoDup path -> incl path (dkeys m) -> length (dkeys m) < fuel + length path ->
  exists ps, get_related_paths fuel m path = Ok ps /\ NoDup ps /\ forall p, In p ps <-> extends path p.
Proof.
  induction fuel as [|fuel IH]; intros path Ne N I L; [pose proof (NoDup_incl_length N I); lia|]. rewrite paths_unfold.
  assert (Kl : In (last path []) (dkeys m)) by (apply I; destruct (exists_last Ne) as [l [x ->]]; rewrite last_last; apply in_app_iff; right; left; reflexivity).
  apply dget_some_in in Kl. destruct Kl as [s G]. rewrite G.
  destruct (nexts_ok (get_related_paths fuel m) path s) as [ps [E [Np Ip]]].
  - apply (Nm _ _ G).
  - exact N.
  - intros x Hx. exists s. auto.
  - intros x Hx Nx. apply IH; [destruct path; discriminate|apply snoc_nodup; assumption| |rewrite app_length; cbn; lia].
    intros y Hy. apply in_app_iff in Hy. destruct Hy as [Hy|[<-|[]]]; [apply I, Hy|]. apply (Cm (last path [])). exists s. auto.
  - exists ps. split; [exact E|]. split; [exact Np|]. intros p. rewrite Ip. unfold extends. split.
    + intros [x [q [A [B [C D]]]]]. exists (x :: q). split; [discriminate|]. split; [exact B|]. split; [|exact D]. split; [exists s; auto|exact C].
    + intros [[|x q] [A [B [C D]]]]; [contradiction|]. exists x, q. destruct C as [[s' [G' C1]] C2]. rewrite G in G'. injection G' as <-. auto.
Qed.
Lemma all_paths_ok fuel names : NoDup names -> incl names (dkeys m) -> length (dkeys m) < fuel ->
  exists ps, all_paths fuel m names = Ok ps /\ NoDup ps /\ forall p, In p ps <-> exists n, In n names /\ extends [n] p.
Proof.
  intros N I L. induction names as [|n names IH]; [exists []; split; [reflexivity|]; split; [constructor|]; intros p; split; [intros []|intros [n [[] _]]]|].
  inversion N as [|? ? N1 N2]; subst. destruct IH as [ps [E [Np Ip]]]; [exact N2|intros x Hx; apply I; right; exact Hx|].
  destruct (paths_ok fuel [n]) as [added [Ea [Na Ia]]]; [discriminate|repeat constructor; intros []|intros x [<-|[]]; apply I; left; reflexivity|lia|].
  cbn [all_paths]. rewrite Ea. cbn [bind]. rewrite E. cbn [bind]. exists (added ++ ps). split; [reflexivity|]. split.
  - apply nodup_app; [exact Na|exact Np|]. intros p K1 K2. apply Ia in K1. apply Ip in K2. destruct K1 as [q [_ [-> _]]]. destruct K2 as [n' [K [q' [_ [Q _]]]]]. injection Q as <- _. contradiction.
  - intros p. rewrite in_app_iff, Ia, Ip. split; [intros [K|[x [K1 K2]]]; [exists n; split; [left; reflexivity|exact K]|exists x; split; [right; exact K1|exact K2]]|].
    intros [x [[<-|K1] K2]]; [left; exact K2|right; exists x; auto].
Qed.
End Closed.

(** ends, with or without a failure *)
Section Open.
Variable U : list str.
Hypothesis HU : forall a b, R a b -> In b U.
Lemma paths_end : forall fuel (path : list str), NoDup path -> incl path U -> length U < fuel + length path ->
  get_related_paths fuel m path = Err KeyError \/ exists ps, get_related_paths fuel m path = Ok ps.
Proof.
  induction fuel as [|fuel IH]; intros path N I L; [pose proof (NoDup_incl_length N I); lia|]. rewrite paths_unfold. destruct (dget (last path []) m) as [s|] eqn:G; [|left; reflexivity].
  assert (Hs : forall x, In x s -> In x U) by (intros x Hx; apply (HU (last path [])); exists s; auto). clear G. induction s as [|x s IHs]; [right; exists []; reflexivity|]. rewrite nexts_cons. destruct (str_in_spec x path) as [Hx|Hx]; [apply IHs; intros y Hy; apply Hs; right; exact Hy|].
  destruct (IH (path ++ [x])) as [E|[ps E]]; [apply snoc_nodup; assumption| |rewrite app_length; cbn; lia| |].
  - intros y Hy. apply in_app_iff in Hy. destruct Hy as [Hy|[<-|[]]]; [apply I, Hy|apply Hs; left; reflexivity].
  - rewrite E. left. reflexivity.
  - rewrite E. cbn [bind]. destruct IHs as [E'|[ps' E']]; [intros y Hy; apply Hs; right; exact Hy| |]; rewrite E'; cbn [bind]; eauto.
Qed.
Lemma path_fails fuel a b : length U < fuel + 1 -> In a U -> R a b -> ~ In b (dkeys m) -> a <> b -> get_related_paths (S fuel) m [a] = Err KeyError.
Proof.
  intros L Ha [s [G Hb]] Nb Nab. rewrite paths_unfold. cbn [last]. rewrite G. assert (Hs : forall x, In x s -> In x U) by (intros x Hx; apply (HU a); exists s; auto). clear G. induction s as [|x s IHs]; [destruct Hb|]. rewrite nexts_cons.
  destruct (str_in_spec x [a]) as [Hx|Hx].
  - apply IHs; [|intros y Hy; apply Hs; right; exact Hy]. destruct Hb as [->|Hb]; [|exact Hb]. destruct Hx as [Hx|[]]; congruence.
  - destruct Hb as [->|Hb].
    + destruct fuel as [|fuel]; [destruct U; [destruct Ha|cbn in L; lia]|]. rewrite paths_unfold. rewrite last_last. apply dget_none in Nb. rewrite Nb. reflexivity.
    + destruct (paths_end fuel ([a] ++ [x])) as [E|[ps E]].
      * repeat constructor; [|intros []]. intros [K|[]]. apply Hx. left. symmetry. exact K.
      * intros y [<-|[<-|[]]]; [exact Ha|apply Hs; left; reflexivity].
      * cbn. lia.
      * rewrite E. reflexivity.
      * rewrite E. cbn [bind]. rewrite IHs; [reflexivity|exact Hb|intros y Hy; apply Hs; right; exact Hy].
Qed.
Lemma all_paths_fail fuel names : length U < fuel -> incl names U -> incl names (dkeys m) -> (exists a b, In a names /\ R a b /\ ~ In b (dkeys m)) -> all_paths fuel m names = Err KeyError.
Proof.
  intros L. induction names as [|n names IH]; intros IU Ik [a [b [I [Rab Nb]]]]; [destruct I|]. cbn [all_paths]. destruct I as [->|I].
  - destruct fuel as [|fuel]; [lia|]. rewrite (path_fails fuel a b); [reflexivity|lia|apply IU; left; reflexivity|exact Rab|exact Nb|]. intros ->. apply Nb, Ik. left. reflexivity.
  - destruct (paths_end fuel [n]) as [E|[ps E]]; [repeat constructor; intros []|intros x [<-|[]]; apply IU; left; reflexivity|lia|rewrite E; reflexivity|].
    rewrite E. cbn [bind]. rewrite IH; [reflexivity|intros x Hx; apply IU; right; exact Hx|intros x Hx; apply Ik; right; exact Hx|]. exists a, b. auto.
Qed.
End Open.
End Paths.
