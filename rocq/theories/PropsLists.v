(** * C54 and C122: how messages show a list of names *)
From Verif Require Import StrFacts.
From Verif Require Import SpecLists DetailFacts SpecFaults.

Lemma items_of s l : items (s :: l) (join ($", ") (map py_repr (s :: l)) ++ $"]").
Proof.
  revert s. induction l as [|x l IH]; intros s; [apply it_last; exact (repr_read s _)|].
  change (map py_repr (s :: x :: l)) with (py_repr s :: map py_repr (x :: l)). change (join ($", ") (py_repr s :: map py_repr (x :: l))) with (py_repr s ++ $", " ++ join ($", ") (map py_repr (x :: l))). rewrite <- !app_assoc. eapply it_more; [apply repr_read|apply IH].
Qed.
(** C54, C122: the text of a list of names, in the path of a review and in the primary key of a message about
    a model, is a Python list of literals for exactly these names. *)
Theorem C54_lists : forall l, is_list l (list_repr l).
Proof. intros [|s l]; [left; split; reflexivity|right]. eexists. split; [reflexivity|]. apply items_of. Qed.
Print Assumptions C54_lists.
Example C54_lists_case : is_list [$"a"; $"it's"] ($"['a', " ++ [dquote] ++ $"it's" ++ [dquote] ++ $"]") /\ ~ is_list [$"a"] ($"[x'a']").
Proof.
  split; [exact (C54_lists [$"a"; $"it's"])|]. intros [[E _]|(rest & E & I)]; [discriminate|]. apply (f_equal (@tl ascii)) in E. vm_compute in E. subst rest. inversion I as [s text R|s l text rest R J]; subst; vm_compute in R; discriminate.
Qed.
