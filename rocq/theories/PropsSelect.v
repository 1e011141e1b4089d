(** * C126: tests selected by name *)
From Verif Require Import StrFacts.
From Verif Require Import SpecSelect PropsReviewer Parser.

Lemma is_in x l : In x l <-> str_in x l = true.
Proof. destruct (str_in_spec x l) as [I|I]; split; auto; discriminate. Qed.
Lemma loop_keeps names ws rtql : forall l recs h ev r h' ev', review_loop names ws rtql l recs h ev = (r, h', ev') -> incl ev ev'.
Proof.
  induction l as [|r l IH]; intros recs h ev x h' ev' E; cbn [review_loop] in E; [injection E as _ _ <-; apply incl_refl|].
  assert (K : forall recs h e, review_loop names ws rtql l recs h (ev ++ [e]) = (x, h', ev') -> incl ev ev') by (intros recs0 h0 e E0; apply IH in E0; intros y Y; apply E0, in_app_iff; left; exact Y).
  destruct (_ && _); [exact (IH _ _ _ _ _ _ E)|]. destruct (starts_with _ _); [|exact (IH _ _ _ _ _ _ E)]. destruct (_ && _); [exact (K _ _ _ E)|]. destruct (_ && _); [exact (K _ _ _ E)|].
  destruct (rv_params r) as [|p ps] eqn:P; [exact (IH _ _ _ _ _ _ E)|]. rewrite <- P in E. destruct (rv_run r _ _ h) as [[issues|e] h1]; [exact (K _ _ _ E)|]. injection E as _ _ <-. apply incl_appl, incl_refl.
Qed.
Lemma loop_mentions names ws rtql : forall l recs h ev res h' ev' r, review_loop names ws rtql l recs h ev = (Ok res, h', ev') ->
  In r l -> In (rv_name r) names -> starts_with ($"review_") (rv_name r) = true -> rv_params r <> [] -> mentioned (rv_name r) ev'.
Proof.
  induction l as [|r0 l IH]; intros recs h ev res h' ev' r E I N S0 P; [destruct I|]. cbn [review_loop] in E. destruct I as [->|I].
  - assert (K : forall recs h e, review_loop names ws rtql l recs h (ev ++ [e]) = (Ok res, h', ev') -> In e ev') by (intros recs0 h0 e E0; apply loop_keeps in E0; apply E0, in_app_iff; right; left; reflexivity).
    apply is_in in N. rewrite N in E. cbn [negb] in E. rewrite Bool.andb_false_r, S0 in E. destruct (_ && _); [right; exact (K _ _ _ E)|]. destruct (_ && _); [right; exact (K _ _ _ E)|].
    destruct (rv_params r) as [|p ps] eqn:Q; [contradiction|]. rewrite <- Q in E. destruct (rv_run r _ _ h) as [[issues|e] h1]; [left; exact (K _ _ _ E)|discriminate].
  - destruct (_ && _); [exact (IH _ _ _ _ _ _ _ E I N S0 P)|]. destruct (starts_with _ (rv_name r0)); [|exact (IH _ _ _ _ _ _ _ E I N S0 P)].
    destruct (_ && _); [exact (IH _ _ _ _ _ _ _ E I N S0 P)|]. destruct (_ && _); [exact (IH _ _ _ _ _ _ _ E I N S0 P)|].
    destruct (rv_params r0) as [|p ps] eqn:Q; [exact (IH _ _ _ _ _ _ _ E I N S0 P)|]. rewrite <- Q in E. destruct (rv_run r0 _ _ h) as [[issues|e] h1]; [exact (IH _ _ _ _ _ _ _ E I N S0 P)|discriminate].
Qed.
Lemma loop_nothing names ws rtql : names <> [] -> forall l recs h ev, (forall r, In r l -> ~ In (rv_name r) names) -> review_loop names ws rtql l recs h ev = (Ok recs, h, ev).
Proof.
  intros Q. induction l as [|r l IH]; intros recs h ev N; cbn [review_loop]; [reflexivity|]. destruct names as [|n names]; [contradiction|].
  destruct (str_in (rv_name r) (n :: names)) eqn:B; [exfalso; apply is_in in B; exact (N r (or_introl eq_refl) B)|]. cbn [negb andb]. apply IH. intros x X. apply N. right. exact X.
Qed.
Lemma with_mentions module names ws rtql res h ev r : review_with module names ws rtql = (Ok res, h, ev) -> In r module -> In (rv_name r) names -> starts_with ($"review_") (rv_name r) = true -> rv_params r <> [] -> mentioned (rv_name r) ev.
Proof. intros E. exact (loop_mentions names ws rtql module [] [] [] res h ev r E). Qed.
Lemma with_nothing module names ws rtql : names <> [] -> (forall r, In r module -> ~ In (rv_name r) names) -> review_with module names ws rtql = (Ok [], [], []).
Proof. intros Q N. exact (loop_nothing names ws rtql Q module [] [] [] N). Qed.
Lemma tests_names order rnd commas float_str fuel d c : map rv_name (review_tests order rnd commas float_str fuel d c) = existing_tests.
Proof. reflexivity. Qed.
Lemma tests_fit order rnd commas float_str fuel d c r : In r (review_tests order rnd commas float_str fuel d c) -> starts_with ($"review_") (rv_name r) = true /\ rv_params r <> [].
Proof.
  unfold review_tests. cbn [In]. intros [<-|[<-|[<-|[<-|[<-|[<-|[<-|[]]]]]]]]; (split; [vm_compute; reflexivity|cbn [rv_params]; discriminate]).
Qed.
(** C126: a test that exists and is asked for is run, or the user is told that it is skipped, unless an exception
    ends the review. *)
Theorem C126_partial : forall order rnd commas float_str fuel c d names ws rtql results h ev n,
  review_model order rnd commas float_str fuel c d names ws rtql = (Ok results, h, ev) -> In n names -> In n existing_tests -> mentioned n ev.
Proof.
  intros order rnd commas float_str fuel c d names ws rtql results h ev n E N T. rewrite model_with in E. rewrite <- (tests_names order rnd commas float_str fuel d c) in T. apply in_map_iff in T. destruct T as (r & <- & I).
  destruct (tests_fit _ _ _ _ _ _ _ _ I) as [S0 P]. exact (with_mentions _ _ _ _ _ _ _ _ E I N S0 P).
Qed.
Print Assumptions C126_partial.
(** ... but names of tests that do not exist are passed over in silence, on every database *)
Theorem C126_refuted : forall order rnd commas float_str fuel c d names ws rtql, names <> [] -> (forall n, In n names -> ~ In n existing_tests) ->
  review_model order rnd commas float_str fuel c d names ws rtql = (Ok [], [], []).
Proof.
  intros order rnd commas float_str fuel c d names ws rtql Q N. rewrite model_with. apply with_nothing; [exact Q|]. intros r I M. apply (N _ M). rewrite <- (tests_names order rnd commas float_str fuel d c). apply in_map, I.
Qed.
Print Assumptions C126_refuted.
(** README.md:200, 235: a test listed there that does not exist *)
Example C126_case : ~ In ($"review_many_to_many_relationships") existing_tests /\ In ($"review_pks") existing_tests.
Proof. split; [intros I; apply is_in in I; vm_compute in I; discriminate|]. right; right; left; reflexivity. Qed.
Example C126_partial_case : review_model (fun l => l) (fun q => q) (fun _ => []) (fun _ => []) 9 [] (empty_database ($"d")) [$"review_sharding"; $"review_pks"] None None
  = (Ok [], [], [Called ($"review_pks"); Skipped ($"review_sharding")]).
Proof. vm_compute. reflexivity. Qed.
