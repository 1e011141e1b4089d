(** * Lemmas about [relates_to_previous] (C56) *)
From Verif Require Export PathFacts.
From Coq Require Import Lia.

Section Reach.
Variable m : dict (list str).
Hypothesis Cm : complete_map m.

Lemma related_R a b : map_related m a b <-> R m a b.
Proof.
  split; intros [s [H I]]; exists s; (split; [|exact I]).
  - apply dget_nodup; [apply Cm|exact H].
  - apply dget_in, H.
Qed.
Lemma reach_first a b : map_reaches m a b -> exists x, R m a x /\ (x = b \/ map_reaches m x b).
Proof. intros H. apply clos_trans_t1n in H. destruct H as [b H|x b H T]; [exists b|exists x]; rewrite <- related_R; split; auto. right. apply clos_t1n_trans, T. Qed.
Lemma reach_cons a x b : R m a x -> x = b \/ map_reaches m x b -> map_reaches m a b.
Proof. intros H [<-|K]; [apply t_step, related_R, H|apply t_trans with x; [apply t_step, related_R, H|exact K]]. Qed.

Definition kids (rec : str -> result bool) : list str -> result bool :=
  fix children l := match l with [] => Ok false | x :: l' => found <- rec x ;; if found then Ok true else children l' end.
Lemma kids_cons (rec : str -> result bool) x l : kids rec (x :: l) = (found <- rec x ;; if found then Ok true else kids rec l).
Proof. reflexivity. Qed.
Lemma relates_unfold fuel from to : relates_to_previous (S fuel) m from to =
  match dget from m with
  | None => Err KeyError
  | Some related => if str_in to related then Ok true else kids (fun x => relates_to_previous fuel m x to) related
  end.
Proof. reflexivity. Qed.

Lemma relates_ok to (A : forall a, ~ map_reaches m a a) : forall fuel from visited, NoDup visited -> incl visited (dkeys m) -> (forall v, In v visited -> map_reaches m v from) ->
  In from (dkeys m) -> length (dkeys m) < fuel + length visited ->
  exists b, relates_to_previous fuel m from to = Ok b /\ (b = true <-> map_reaches m from to).
Proof.
  induction fuel as [|fuel IH]; intros from visited N I V F L; [pose proof (NoDup_incl_length N I); lia|]. rewrite relates_unfold.
  apply dget_some_in in F as G. destruct G as [s G]. rewrite G. destruct (str_in_spec to s) as [T|T].
  - exists true. split; [reflexivity|]. split; [intros _; apply t_step, related_R; exists s; auto|reflexivity].
  - assert (K : forall l, incl l s -> exists b, kids (fun x => relates_to_previous fuel m x to) l = Ok b /\ (b = true <-> exists x, In x l /\ map_reaches m x to)).
    { induction l as [|x l IHl]; intros Hl; [exists false; split; [reflexivity|]; split; [discriminate|intros [x [[] _]]]|].
      assert (Rx : R m from x) by (exists s; split; [exact G|apply Hl; left; reflexivity]).
      destruct (IH x (from :: visited)) as [b [E B]].
      - constructor; [|exact N]. intros H. apply (A from), V, H.
      - intros y [<-|Hy]; [exact F|apply I, Hy].
      - intros v [<-|Hv]; [apply t_step, related_R, Rx|apply t_trans with from; [apply V, Hv|apply t_step, related_R, Rx]].
      - apply (proj2 Cm from). apply related_R, Rx.
      - cbn [length]. lia.
      - rewrite kids_cons, E. cbn [bind]. destruct b.
        + exists true. split; [reflexivity|]. split; [intros _; exists x; split; [left; reflexivity|apply B; reflexivity]|reflexivity].
        + destruct IHl as [b' [E' B']]; [intros y Hy; apply Hl; right; exact Hy|]. exists b'. split; [exact E'|]. rewrite B'. split; intros [y [Y1 Y2]]; exists y; (split; [|exact Y2]); [right; exact Y1|].
          destruct Y1 as [<-|Y1]; [|exact Y1]. apply B in Y2. discriminate. }
    destruct (K s (incl_refl s)) as [b [E B]]. exists b. split; [exact E|]. rewrite B. split.
    + intros [x [X1 X2]]. apply (reach_cons from x); [exists s; auto|right; exact X2].
    + intros H. apply reach_first in H. destruct H as [x [[s' [G' X]] H]]. rewrite G in G'. injection G' as <-. destruct H as [->|H]; [contradiction|]. exists x. auto.
Qed.

Lemma relates_not to : forall fuel from, In from (dkeys m) -> ~ map_reaches m from to ->
  relates_to_previous fuel m from to = Ok false \/ relates_to_previous fuel m from to = Err OutOfFuel.
Proof.
  induction fuel as [|fuel IH]; intros from F N; [right; reflexivity|]. rewrite relates_unfold. apply dget_some_in in F as G. destruct G as [s G]. rewrite G.
  destruct (str_in_spec to s) as [T|T]; [exfalso; apply N, t_step, related_R; exists s; auto|].
  assert (H : forall x, In x s -> In x (dkeys m) /\ ~ map_reaches m x to).
  { intros x Hx. assert (Rx : R m from x) by (exists s; auto). split; [apply (proj2 Cm from), related_R, Rx|]. intros K. apply N, (reach_cons from x); auto. }
  clear G T. induction s as [|x s IHs]; [left; reflexivity|]. rewrite kids_cons. destruct (H x (or_introl eq_refl)) as [H1 H2]. destruct (IH x H1 H2) as [E|E]; rewrite E; cbn [bind]; [|right; reflexivity].
  apply IHs. intros y Hy. apply H. right. exact Hy.
Qed.
Lemma relates_runs to : forall fuel from c, In from (dkeys m) -> ~ map_reaches m from to -> from = c \/ map_reaches m from c -> map_reaches m c c ->
  relates_to_previous fuel m from to = Err OutOfFuel.
Proof.
  induction fuel as [|fuel IH]; intros from c F N W C; [reflexivity|]. rewrite relates_unfold. apply dget_some_in in F as G. destruct G as [s G]. rewrite G.
  destruct (str_in_spec to s) as [T|T]; [exfalso; apply N, t_step, related_R; exists s; auto|].
  assert (X : map_reaches m from c) by (destruct W as [->|W]; assumption). apply reach_first in X. destruct X as [x [[s' [G' Hx]] X]]. rewrite G in G'. injection G' as <-.
  assert (H : forall x, In x s -> In x (dkeys m) /\ ~ map_reaches m x to).
  { intros y Hy. assert (Ry : R m from y) by (exists s; auto). split; [apply (proj2 Cm from), related_R, Ry|]. intros K. apply N, (reach_cons from y); auto. }
  clear G T. induction s as [|y s IHs]; [destruct Hx|]. rewrite kids_cons. destruct (H y (or_introl eq_refl)) as [H1 H2]. destruct (relates_not to fuel y H1 H2) as [E|E]; rewrite E; cbn [bind]; [|reflexivity].
  destruct Hx as [->|Hx]; [rewrite (IH x c H1 H2) in E by assumption; discriminate|]. apply IHs; [exact Hx|]. intros z Hz. apply H. right. exact Hz.
Qed.
End Reach.
