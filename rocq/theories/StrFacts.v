(** * Lemmas about strings, sorting and dictionaries *)
From Coq Require Export Permutation Sorted.
From Verif Require Export PyDict.

Lemma str_eqb_spec a b : reflect (a = b) (str_eqb a b).
Proof.
  revert b; induction a as [|x a IH]; intros [|y b]; simpl; try (constructor; congruence).
  destruct (Ascii.eqb_spec x y) as [->|Hne]; simpl.
  - destruct (IH b) as [->|Hne]; constructor; congruence.
  - constructor; congruence.
Qed.

Lemma str_eqb_eq a b : str_eqb a b = true <-> a = b.
Proof. destruct (str_eqb_spec a b); split; congruence. Qed.
Lemma str_eqb_neq a b : str_eqb a b = false <-> a <> b.
Proof. destruct (str_eqb_spec a b); split; congruence. Qed.
Lemma str_eqb_refl a : str_eqb a a = true.
Proof. apply str_eqb_eq; reflexivity. Qed.
Lemma str_eqb_sym a b : str_eqb a b = str_eqb b a.
Proof. destruct (str_eqb_spec a b), (str_eqb_spec b a); congruence. Qed.

Lemma str_dec (a b : str) : {a = b} + {a <> b}.
Proof. destruct (str_eqb_spec a b); [left|right]; assumption. Defined.

Lemma strs_eqb_spec a b : reflect (a = b) (strs_eqb a b).
Proof.
  revert b; induction a as [|x a IH]; intros [|y b]; simpl; try (constructor; congruence).
  destruct (str_eqb_spec x y) as [->|Hne]; simpl.
  - destruct (IH b) as [->|Hne]; constructor; congruence.
  - constructor; congruence.
Qed.
Lemma strs_eqb_eq a b : strs_eqb a b = true <-> a = b.
Proof. destruct (strs_eqb_spec a b); split; congruence. Qed.
Lemma strs_eqb_refl a : strs_eqb a a = true.
Proof. apply strs_eqb_eq; reflexivity. Qed.

Lemma str_in_spec x l : reflect (In x l) (str_in x l).
Proof.
  unfold str_in. destruct (existsb (str_eqb x) l) eqn:E; constructor.
  - apply existsb_exists in E. destruct E as [y [Hy He]]. apply str_eqb_eq in He; subst; assumption.
  - intros HI. assert (existsb (str_eqb x) l = true) by
      (apply existsb_exists; exists x; split; [assumption | apply str_eqb_refl]). congruence.
Qed.
Lemma str_in_true x l : str_in x l = true <-> In x l.
Proof. destruct (str_in_spec x l); split; congruence. Qed.
Lemma str_in_false x l : str_in x l = false <-> ~ In x l.
Proof. destruct (str_in_spec x l); split; congruence. Qed.

(** ** Order *)
Lemma ord_inj x y : ord x = ord y -> x = y.
Proof.
  unfold ord. intros H. rewrite <- (ascii_nat_embedding x), <- (ascii_nat_embedding y), H. reflexivity.
Qed.

Definition str_lt (a b : str) : Prop := str_ltb a b = true.

Lemma str_ltb_irrefl a : str_ltb a a = false.
Proof. induction a as [|x a IH]; simpl; [reflexivity|]. rewrite Ascii.eqb_refl. exact IH. Qed.

Lemma str_ltb_trans a b c : str_ltb a b = true -> str_ltb b c = true -> str_ltb a c = true.
Proof.
  revert b c; induction a as [|x a IH]; intros [|y b] [|z c]; simpl; try congruence.
  destruct (Ascii.eqb_spec x y) as [->|Hxy]; destruct (Ascii.eqb_spec y z) as [->|Hyz].
  - apply IH.
  - auto.
  - intros H _. destruct (Ascii.eqb_spec x z); congruence.
  - intros H1 H2. apply Nat.ltb_lt in H1, H2.
    destruct (Ascii.eqb_spec x z) as [->|]; [lia|]. apply Nat.ltb_lt; lia.
Qed.

Lemma str_ltb_total a b : str_ltb a b = false -> str_ltb b a = false -> a = b.
Proof.
  revert b; induction a as [|x a IH]; intros [|y b]; simpl; try congruence.
  destruct (Ascii.eqb_spec x y) as [->|Hxy].
  - rewrite Ascii.eqb_refl. intros H1 H2. f_equal. apply IH; assumption.
  - destruct (Ascii.eqb_spec y x); [congruence|].
    intros H1 H2. apply Nat.ltb_ge in H1, H2. exfalso. apply Hxy, ord_inj. lia.
Qed.

Lemma str_ltb_asym a b : str_ltb a b = true -> str_ltb b a = false.
Proof.
  intros H. destruct (str_ltb b a) eqn:E; [|reflexivity].
  pose proof (str_ltb_trans _ _ _ H E) as Hc. rewrite str_ltb_irrefl in Hc. discriminate.
Qed.

Lemma str_ltb_neq a b : str_ltb a b = true -> a <> b.
Proof. intros H ->. rewrite str_ltb_irrefl in H. discriminate. Qed.

(** ** sorted *)
Lemma insert_perm x l : Permutation (insert_str x l) (x :: l).
Proof.
  induction l as [|y l IH]; simpl; [reflexivity|].
  destruct (str_leb x y); [reflexivity|]. rewrite IH. apply perm_swap.
Qed.
Lemma sorted_perm l : Permutation (sorted l) l.
Proof.
  induction l as [|x l IH]; simpl; [reflexivity|]. rewrite insert_perm, IH. reflexivity.
Qed.
Lemma sorted_in x l : In x (sorted l) <-> In x l.
Proof.
  split; apply Permutation_in; [apply sorted_perm | apply Permutation_sym, sorted_perm].
Qed.

Definition str_le (a b : str) : Prop := str_ltb b a = false.

Lemma str_le_trans a b c : str_le a b -> str_le b c -> str_le a c.
Proof.
  unfold str_le. intros H1 H2. destruct (str_ltb c a) eqn:E; [|reflexivity].
  destruct (str_ltb a b) eqn:Eab.
  - rewrite (str_ltb_trans _ _ _ E Eab) in H2. discriminate.
  - pose proof (str_ltb_total _ _ Eab H1) as ->. congruence.
Qed.

Lemma insert_hd x y l : str_le y x -> HdRel str_le y l -> HdRel str_le y (insert_str x l).
Proof.
  intros Hyx Hl. destruct l as [|z l]; simpl; [constructor; assumption|].
  destruct (str_leb x z); constructor; [assumption | inversion Hl; assumption].
Qed.
Lemma insert_sorted x l : Sorted str_le l -> Sorted str_le (insert_str x l).
Proof.
  induction 1 as [|y l Hs IH Hh]; simpl; [repeat constructor|].
  unfold str_leb. destruct (str_ltb y x) eqn:E; simpl.
  - constructor; [exact IH|]. apply insert_hd; [unfold str_le; apply str_ltb_asym; exact E | exact Hh].
  - constructor; [constructor; assumption|]. constructor. exact E.
Qed.
Lemma sorted_sorted l : Sorted str_le (sorted l).
Proof. induction l as [|x l IH]; simpl; [constructor | apply insert_sorted, IH]. Qed.

Lemma sorted_nodup l : NoDup l -> NoDup (sorted l).
Proof. intros H. eapply Permutation_NoDup; [apply Permutation_sym, sorted_perm | exact H]. Qed.

Lemma sorted_strict l : NoDup l -> StronglySorted str_lt (sorted l).
Proof.
  intros Hnd. apply sorted_nodup in Hnd.
  pose proof (sorted_sorted l) as Hs.
  apply Sorted_StronglySorted in Hs; [|intros a b c; apply str_le_trans].
  induction Hs as [|a m Hs IH Hf]; [constructor|].
  inversion Hnd as [|? ? Hni Hnd']; subst.
  constructor; [apply IH; assumption|].
  rewrite Forall_forall in *. intros x Hx. specialize (Hf x Hx).
  unfold str_lt. destruct (str_ltb a x) eqn:E; [reflexivity|].
  exfalso. apply Hni. rewrite (str_ltb_total _ _ E Hf). exact Hx.
Qed.

(** two strictly sorted lists with the same elements are equal *)
Lemma strict_sorted_unique l m :
  StronglySorted str_lt l -> StronglySorted str_lt m -> (forall x, In x l <-> In x m) -> l = m.
Proof.
  intros Hl; revert m; induction Hl as [|a l Hl IH Hfa]; intros m Hm Heq.
  - destruct m as [|b m]; [reflexivity|]. exfalso. apply (Heq b). left; reflexivity.
  - destruct Hm as [|b m Hm Hfb]; [exfalso; apply (Heq a); left; reflexivity|].
    rewrite Forall_forall in *.
    assert (a = b) as ->.
    { destruct (proj1 (Heq a) (or_introl eq_refl)) as [->|Ha]; [reflexivity|].
      destruct (proj2 (Heq b) (or_introl eq_refl)) as [->|Hb]; [reflexivity|].
      pose proof (str_ltb_trans _ _ _ (Hfa _ Hb) (Hfb _ Ha)) as Hc.
      rewrite str_ltb_irrefl in Hc. discriminate. }
    f_equal. apply IH; [assumption|].
    intros x; split; intros Hx.
    + destruct (proj1 (Heq x) (or_intror Hx)) as [->|]; [|assumption].
      specialize (Hfa _ Hx). unfold str_lt in Hfa. rewrite str_ltb_irrefl in Hfa. discriminate.
    + destruct (proj2 (Heq x) (or_intror Hx)) as [->|]; [|assumption].
      specialize (Hfb _ Hx). unfold str_lt in Hfb. rewrite str_ltb_irrefl in Hfb. discriminate.
Qed.

(** [sorted] is a function of the multiset: equal sorted lists iff permutations *)
Lemma le_sorted_unique l m :
  StronglySorted str_le l -> StronglySorted str_le m -> Permutation l m -> l = m.
Proof.
  intros Hl; revert m; induction Hl as [|a l Hl IH Hfa]; intros m Hm Hp.
  - apply Permutation_nil in Hp. symmetry; exact Hp.
  - destruct Hm as [|b m Hm Hfb]; [apply Permutation_sym, Permutation_nil in Hp; discriminate|].
    rewrite Forall_forall in *.
    assert (a = b) as ->.
    { assert (In a (b :: m)) as Ha by (eapply Permutation_in; [exact Hp | left; reflexivity]).
      assert (In b (a :: l)) as Hb by
        (eapply Permutation_in; [apply Permutation_sym; exact Hp | left; reflexivity]).
      destruct Ha as [->|Ha]; [reflexivity|]. destruct Hb as [->|Hb]; [reflexivity|].
      apply str_ltb_total; [apply (Hfb _ Ha) | apply (Hfa _ Hb)]. }
    f_equal. apply IH; [assumption|]. eapply Permutation_cons_inv; exact Hp.
Qed.
Lemma sorted_eq_iff l m : sorted l = sorted m <-> Permutation l m.
Proof.
  split; intros H.
  - rewrite <- (sorted_perm l), <- (sorted_perm m), H. reflexivity.
  - apply le_sorted_unique.
    + apply Sorted_StronglySorted; [intros a b c; apply str_le_trans | apply sorted_sorted].
    + apply Sorted_StronglySorted; [intros a b c; apply str_le_trans | apply sorted_sorted].
    + rewrite !sorted_perm. exact H.
Qed.

(** ** Dictionaries *)
Section DictFacts.
Context {A : Type}.
Implicit Types d : dict A.

Lemma dget_in k d v : dget k d = Some v -> In (k, v) d.
Proof.
  induction d as [|[k' v'] d IH]; simpl; [congruence|].
  destruct (str_eqb_spec k k') as [->|]; intros H; [left; congruence | right; auto].
Qed.
Lemma dget_none k d : dget k d = None <-> ~ In k (dkeys d).
Proof.
  induction d as [|[k' v'] d IH]; simpl; [tauto|].
  destruct (str_eqb_spec k k') as [->|Hne].
  - split; [congruence | intros H; exfalso; apply H; left; reflexivity].
  - rewrite IH. split; [intros H [?|?]; congruence || auto | tauto].
Qed.
Lemma dget_some_in k d : In k (dkeys d) <-> exists v, dget k d = Some v.
Proof.
  split.
  - intros H. destruct (dget k d) eqn:E; [eauto|]. apply dget_none in E. contradiction.
  - intros [v Hv]. destruct (in_dec str_dec k (dkeys d)) as [|n]; [assumption|].
    apply dget_none in n. congruence.
Qed.
Lemma dget_nodup k v d : NoDup (dkeys d) -> In (k, v) d -> dget k d = Some v.
Proof.
  induction d as [|[k' v'] d IH]; simpl; [tauto|].
  intros Hnd Hin. inversion Hnd as [|? ? Hni Hnd']; subst.
  destruct Hin as [Heq|Hin].
  - inversion Heq; subst. rewrite str_eqb_refl. reflexivity.
  - destruct (str_eqb_spec k k') as [->|]; [|auto].
    exfalso. apply Hni. apply (in_map fst) in Hin. exact Hin.
Qed.

Lemma dget_dset k k' v d : dget k (dset k' v d) = if str_eqb k k' then Some v else dget k d.
Proof.
  induction d as [|[k2 v2] d IH]; simpl.
  - destruct (str_eqb k k'); reflexivity.
  - destruct (str_eqb_spec k' k2) as [->|Hne]; simpl.
    + destruct (str_eqb_spec k k2); reflexivity.
    + rewrite IH. destruct (str_eqb_spec k k2) as [->|Hn2]; [|reflexivity].
      destruct (str_eqb_spec k2 k'); congruence.
Qed.
Lemma dkeys_dset_mem k v d : In k (dkeys d) -> dkeys (dset k v d) = dkeys d.
Proof.
  induction d as [|[k' v'] d IH]; simpl; [tauto|].
  destruct (str_eqb_spec k k') as [->|Hne]; simpl; [reflexivity|].
  intros [?|H]; [congruence|]. f_equal; auto.
Qed.
Lemma dkeys_dset_new k v d : ~ In k (dkeys d) -> dkeys (dset k v d) = dkeys d ++ [k].
Proof.
  induction d as [|[k' v'] d IH]; simpl; [reflexivity|].
  intros H. destruct (str_eqb_spec k k') as [->|Hne]; simpl; [tauto|]. f_equal. tauto.
Qed.
Lemma dset_new k v d : ~ In k (dkeys d) -> dset k v d = d ++ [(k, v)].
Proof.
  induction d as [|[k' v'] d IH]; simpl; [reflexivity|].
  intros H. destruct (str_eqb_spec k k') as [->|Hne]; simpl; [tauto|]. f_equal. tauto.
Qed.
Lemma dkeys_dset_in k v d x : In x (dkeys (dset k v d)) <-> x = k \/ In x (dkeys d).
Proof.
  destruct (in_dec str_dec k (dkeys d)) as [Hi|Hi].
  - rewrite dkeys_dset_mem by assumption. split; [tauto | intros [->|]; assumption].
  - rewrite dkeys_dset_new by assumption. rewrite in_app_iff. simpl. intuition congruence.
Qed.
Lemma nodup_dset k v d : NoDup (dkeys d) -> NoDup (dkeys (dset k v d)).
Proof.
  intros H. destruct (in_dec str_dec k (dkeys d)) as [Hi|Hi].
  - rewrite dkeys_dset_mem; assumption.
  - rewrite dkeys_dset_new by assumption. eapply Permutation_NoDup; [apply Permutation_cons_append|]. constructor; assumption.
Qed.

Lemma dget_ddel k k' d : NoDup (dkeys d) -> dget k (ddel k' d) = if str_eqb k k' then None else dget k d.
Proof.
  induction d as [|[k2 v2] d IH]; simpl; intros Hnd.
  - destruct (str_eqb k k'); reflexivity.
  - inversion Hnd as [|? ? Hni Hnd']; subst.
    destruct (str_eqb_spec k' k2) as [->|Hne]; simpl.
    + destruct (str_eqb_spec k k2) as [->|]; [apply dget_none; assumption | reflexivity].
    + rewrite IH by assumption. destruct (str_eqb_spec k k2) as [->|]; [|reflexivity].
      destruct (str_eqb_spec k2 k'); congruence.
Qed.
Lemma dkeys_ddel_in k d x : NoDup (dkeys d) -> In x (dkeys (ddel k d)) <-> x <> k /\ In x (dkeys d).
Proof.
  intros Hnd. rewrite !dget_some_in. setoid_rewrite dget_ddel; [|assumption].
  destruct (str_eqb_spec x k) as [->|Hne].
  - split; [intros [v Hv]; discriminate | tauto].
  - tauto.
Qed.
Lemma ddel_not_in k d : ~ In k (dkeys d) -> ddel k d = d.
Proof.
  induction d as [|[k' v'] d IH]; simpl; [reflexivity|]. intros H.
  destruct (str_eqb_spec k k') as [->|]; [tauto|]. f_equal; tauto.
Qed.
Lemma ddel_incl k d x : In x (ddel k d) -> In x d.
Proof.
  induction d as [|[k' v'] d IH]; simpl; [tauto|].
  destruct (str_eqb k k'); simpl; tauto.
Qed.
Lemma nodup_ddel k d : NoDup (dkeys d) -> NoDup (dkeys (ddel k d)).
Proof.
  induction d as [|[k' v'] d IH]; simpl; [constructor|].
  intros H. inversion H as [|? ? Hni Hnd]; subst.
  destruct (str_eqb_spec k k') as [->|]; simpl; [assumption|].
  constructor; [|auto]. intros Hi. apply Hni.
  unfold dkeys in *. apply in_map_iff in Hi. destruct Hi as [p [<- Hp]].
  apply in_map. eapply ddel_incl; exact Hp.
Qed.
(** removing keeps the order of the others *)
Lemma dkeys_ddel k d : NoDup (dkeys d) ->
  dkeys (ddel k d) = filter (fun x => negb (str_eqb k x)) (dkeys d).
Proof.
  induction d as [|[k' v'] d IH]; simpl; [reflexivity|].
  intros H. inversion H as [|? ? Hni Hnd]; subst.
  destruct (str_eqb_spec k k') as [->|]; simpl.
  - clear -Hni. unfold dkeys in *. induction (map fst d) as [|x l IHl]; simpl; [reflexivity|].
    simpl in Hni. destruct (str_eqb_spec k' x) as [->|]; simpl; [tauto|]. f_equal. tauto.
  - f_equal; auto.
Qed.

Lemma dvals_in v d : In v (dvals d) <-> exists k, In (k, v) d.
Proof.
  unfold dvals. rewrite in_map_iff. split.
  - intros [[k v'] [<- H]]. exists k; exact H.
  - intros [k H]. exists (k, v). split; [reflexivity | exact H].
Qed.
Lemma length_dkeys d : length (dkeys d) = length d.
Proof. apply map_length. Qed.
Lemma length_dvals d : length (dvals d) = length d.
Proof. apply map_length. Qed.

Lemma dict_ext d1 d2 : NoDup (dkeys d1) -> dkeys d1 = dkeys d2 ->
  (forall k, In k (dkeys d1) -> dget k d1 = dget k d2) -> d1 = d2.
Proof.
  revert d2; induction d1 as [|[k v] d1 IH]; intros [|[k2 v2] d2]; simpl; try discriminate; [reflexivity|].
  intros Hnd Hk Hg. inversion Hk; subst k2. inversion Hnd as [|? ? Hni Hnd']; subst.
  pose proof (Hg k (or_introl eq_refl)) as Hv. rewrite !str_eqb_refl in Hv. inversion Hv; subst v2.
  f_equal. apply IH; [assumption | assumption |].
  intros x Hx. specialize (Hg x (or_intror Hx)).
  destruct (str_eqb_spec x k) as [Hxk|]; [rewrite Hxk in Hx; contradiction | exact Hg].
Qed.
End DictFacts.
