(** * C41, exactly: where the fields of a CREATE TABLE are cut *)
From Verif Require Import StrFacts FieldFacts PropsParse FieldsExact.
From Coq Require Import List ZArith Lia. Import ListNotations.

(** In every text the fields are cut exactly at the commas before which no parenthesis is open, where
    the first closing parenthesis closes all that were opened. *)
Theorem C41_cut : forall s, exists fs, cut_where shut s fs /\ fields_of fs (raw_fields s) /\ forall gs, cut_where shut s gs -> gs = fs.
Proof. intros s. destruct (fields_shut s) as [fs [C F]]. exists fs. split; [exact C|]. split; [exact F|]. intros gs G. apply (cut_fun shut shut s); [exact G|exact C|]. intros a b _. reflexivity. Qed.
Print Assumptions C41_cut.

(** So for any text cut at its commas outside parentheses the fields are those if and only if at every
    comma the two ways to see parentheses agree. *)
Theorem C41_exact : forall s fs, cut_at_top s fs ->
  (fields_of fs (raw_fields s) <-> forall a b, s = a ++ ","%char :: b -> (shut a <-> depth a = 0%Z)).
Proof.
  intros s fs T. pose proof (top_where s fs T) as W. destruct (fields_shut s) as [gs [C G]]. split.
  - intros F. assert (fs = gs) as <- by (apply (fields_fun fs gs (raw_fields s)); [rewrite <- (proj1 (proj2 W)), <- (proj1 (proj2 C)); reflexivity|exact F|exact G]).
    intros a b E. rewrite (proj2 (proj2 C) a b E). symmetry. exact (proj2 (proj2 W) a b E).
  - intros H. assert (fs = gs) as -> by (apply (cut_fun (fun a => depth a = 0%Z) shut s); [exact W|exact C|]; intros a b E; symmetry; exact (H a b E)). exact G.
Qed.
Print Assumptions C41_exact.
(** a test of what stands before the commas of a text *)
Fixpoint at_commas (p : str -> bool) (pre s : str) : bool :=
  match s with [] => true | c :: s' => (negb (Ascii.eqb c ",") || p pre) && at_commas p (pre ++ [c]) s' end.
Lemma at_commas_ok p s : forall pre, at_commas p pre s = true -> forall a b, s = a ++ ","%char :: b -> p (pre ++ a) = true.
Proof.
  induction s as [|c s IH]; intros pre H a b E; [destruct a; discriminate|]. cbn [at_commas] in H. apply andb_true_iff in H. destruct H as [H1 H2]. destruct a as [|x a]; cbn [app] in E.
  - injection E as -> _. rewrite app_nil_r. exact H1.
  - injection E as <- E. change (c :: a) with ([c] ++ a). rewrite app_assoc. exact (IH _ H2 a b E).
Qed.
Definition not_top (a : str) : bool := negb (depth a =? 0)%Z.
Lemma two_at_top f g : depth f = 0%Z -> at_commas not_top [] f = true -> at_commas not_top [] g = true -> cut_at_top (join ($",") [f; g]) [f; g].
Proof.
  intros D F G. split; [discriminate|reflexivity| |].
  - intros [|x [|y pre]] h post E N; cbn [app] in E; [injection E as <- _; exact D|injection E as _ _ <-; contradiction|destruct pre; discriminate].
  - intros h a b [<-|[<-|[]]] E; [pose proof (at_commas_ok _ _ _ F a b E) as X|pose proof (at_commas_ok _ _ _ G a b E) as X]; cbn [app] in X; unfold not_top in X; apply negb_true_iff, Z.eqb_neq in X; exact X.
Qed.
(** nested parentheses do no harm unless a comma follows the first of them that is closed *)
Example C41_exact_case : cut_at_top ($"a f(g(1)), b") [$"a f(g(1))"; $" b"] /\ fields_of [$"a f(g(1))"; $" b"] (raw_fields ($"a f(g(1)), b"))
  /\ cut_at_top ($"a f(g(1),2), b") [$"a f(g(1),2)"; $" b"] /\ ~ fields_of [$"a f(g(1),2)"; $" b"] (raw_fields ($"a f(g(1),2), b")).
Proof.
  split; [apply (two_at_top ($"a f(g(1))") ($" b")); reflexivity|]. split; [exists [$"a f(g(1))"], ($" b"); split; reflexivity|].
  split; [apply (two_at_top ($"a f(g(1),2)") ($" b")); reflexivity|]. intros [i [l [E R]]]. apply (f_equal (@length str)) in E, R. rewrite app_length in E, R. rewrite map_length in R.
  assert (Q : length (raw_fields ($"a f(g(1),2), b")) = 3) by (vm_compute; reflexivity). rewrite Q in R. cbn [length] in E. destruct (str_eqb l []); cbn [length] in R; lia.
Qed.
