(** * C125: relationships that can be replaced with foreign keys *)
From Verif Require Import StrFacts PyDict.
From Verif Require Import SpecReplace Reviewer Parser PropsReviewer.

Lemma loop_silent n names ws rtql : forall l recs h ev res h' ev',
  (forall r, In r l -> rv_name r = n -> forall q w h0, exists h1, rv_run r q w h0 = (Ok [], h1)) -> dget n recs = None ->
  review_loop names ws rtql l recs h ev = (Ok res, h', ev') -> dget n res = None.
Proof.
  induction l as [|r l IH]; intros recs h ev res h' ev' S0 N E; cbn [review_loop] in E.
  - injection E as <- _ _. exact N.
  - assert (S1 : forall r, In r l -> rv_name r = n -> forall q w h0, exists h1, rv_run r q w h0 = (Ok [], h1)) by (intros x X; apply S0; right; exact X).
    destruct (_ && _); [exact (IH _ _ _ _ _ _ S1 N E)|]. destruct (starts_with _ _); [|exact (IH _ _ _ _ _ _ S1 N E)].
    destruct (_ && _); [exact (IH _ _ _ _ _ _ S1 N E)|]. destruct (_ && _); [exact (IH _ _ _ _ _ _ S1 N E)|].
    destruct (rv_params r) as [|p ps] eqn:P; [exact (IH _ _ _ _ _ _ S1 N E)|]. rewrite <- P in E.
    match type of E with context [rv_run r ?q ?w h] => destruct (rv_run r q w h) as [[issues|e] h1] eqn:R end; [|discriminate]. refine (IH _ _ _ _ _ _ S1 _ E).
    destruct issues as [|x issues]; [exact N|]. rewrite dget_dset. destruct (str_eqb_spec n (rv_name r)) as [Q|_]; [|exact N].
    match type of R with rv_run r ?q ?w h = _ => destruct (S0 r (or_introl eq_refl) (eq_sym Q) q w h) as [h2 X] end. rewrite X in R. discriminate.
Qed.
Lemma with_silent n module names ws rtql res h ev : (forall r, In r module -> rv_name r = n -> forall q w h0, exists h1, rv_run r q w h0 = (Ok [], h1)) ->
  review_with module names ws rtql = (Ok res, h, ev) -> dget n res = None.
Proof. intros S0 E. exact (loop_silent n names ws rtql module [] [] [] res h ev S0 eq_refl E). Qed.
Lemma tests_silent order rnd commas float_str fuel d c r : In r (review_tests order rnd commas float_str fuel d c) -> rv_name r = $"review_relationships" ->
  forall q w h0, exists h1, rv_run r q w h0 = (Ok [], h1).
Proof.
  intros I Q q w h0. apply (f_equal (fun n => str_eqb n ($"review_relationships"))) in Q. rewrite str_eqb_refl in Q. revert I Q. unfold review_tests. cbn [In].
  intros [<-|[<-|[<-|[<-|[<-|[<-|[<-|[]]]]]]]]; cbn [rv_name rv_run]; intros Q; [vm_compute in Q; discriminate Q|vm_compute in Q; discriminate Q|vm_compute in Q; discriminate Q|exists h0; reflexivity|vm_compute in Q; discriminate Q|vm_compute in Q; discriminate Q|vm_compute in Q; discriminate Q].
Qed.
(** C125: the review never recommends anything, whatever relationships there are, alone and among the others. *)
Theorem C125_refuted : forall order rnd commas float_str fuel c d names ws rtql results h ev,
  review_model order rnd commas float_str fuel c d names ws rtql = (Ok results, h, ev) -> ~ recommended results.
Proof.
  intros order rnd commas float_str fuel c d names ws rtql results h ev E (x & l & R). assert (N : dget ($"review_relationships") results = None); [|congruence].
  rewrite model_with in E. exact (with_silent _ _ _ _ _ _ _ _ (tests_silent order rnd commas float_str fuel d c) E).
Qed.
Print Assumptions C125_refuted.
(** ... although it is among the reviews that run without a connection and a worksheet *)
Theorem C125_called : forall order rnd commas float_str fuel c d,
  review_model order rnd commas float_str fuel c d [$"review_relationships"] None None = (Ok [], [], [Called ($"review_relationships")]).
Proof. intros. reflexivity. Qed.
Print Assumptions C125_called.
Definition linked_ddl : str := $"create table ""t"" (""a"" int);" ++ [newline] ++ $"create table ""u"" (""id"" int, primary key (""id""));" ++ [newline]
  ++ $"alter table ""t"" add relationship ""r"" with ""u"" as ""t"".""a"" = ""u"".""id"";" ++ [newline].
Example C125_case : exists d r res, parse_text ($"d") ($"s") linked_ddl = Ok d /\ replaceable d r
  /\ fst (fst (review_model (fun l => l) (fun q => q) (fun _ => []) (fun _ => []) 9 [] d [] None None)) = Ok res /\ map fst res = [$"review_pks"].
Proof.
  eexists _, {| rel_name := $"r"; rel_from_table := $"t"; rel_to_table := $"u"; rel_conditions := $"""t"".""a"" = ""u"".""id""" |}, _.
  split; [vm_compute; reflexivity|]. split; [|split; vm_compute; reflexivity]. eexists _, _, ($"a"), ($"id").
  split; [vm_compute; reflexivity|]. split; [vm_compute; reflexivity|]. split; [left; vm_compute; reflexivity|]. split; [left; reflexivity|]. split; vm_compute; reflexivity.
Qed.
