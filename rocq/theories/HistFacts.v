(** * Dictionaries refine histories *)
From Verif Require Export SpecHist StrFacts.

Lemma snoc_inv {B} (h1 h2 : list B) (x : B) (h : list B) (e : B) :
  h ++ [e] = h1 ++ x :: h2 -> (h2 = [] /\ h = h1 /\ e = x) \/ (exists h2', h2 = h2' ++ [e] /\ h = h1 ++ x :: h2').
Proof.
  destruct h2 as [|y h2 _] using rev_ind; intros H.
  - apply app_inj_tail in H. destruct H as [-> ->]. left; auto.
  - right. exists h2. rewrite app_comm_cons, app_assoc in H.
    apply app_inj_tail in H. destruct H as [-> ->]. auto.
Qed.

Section HF.
Context {A : Type}.
Implicit Types (h : list (kv_event A)) (d : dict A).

Definition dict_event (d : dict A) (e : kv_event A) : dict A :=
  match e with Put k v => dset k v d | Remove k => ddel k d end.
Definition dict_run (h : list (kv_event A)) (d : dict A) : dict A := fold_left dict_event h d.

Lemma dict_run_snoc h e d : dict_run (h ++ [e]) d = dict_event (dict_run h d) e.
Proof. unfold dict_run. rewrite fold_left_app. reflexivity. Qed.

Lemma dict_run_nodup h d : NoDup (dkeys d) -> NoDup (dkeys (dict_run h d)).
Proof.
  revert d; induction h as [|e h IH]; simpl; intros d H; [assumption|].
  apply IH. destruct e; simpl; [apply nodup_dset | apply nodup_ddel]; assumption.
Qed.

Lemma holds_put h k v k' v' : Holds (h ++ [Put k v]) k' v' <-> (k = k' /\ v = v') \/ (k <> k' /\ Holds h k' v').
Proof.
  split.
  - intros [h1 [h2 [He Hn]]]. apply snoc_inv in He. destruct He as [[-> [-> Hp]]|[h2' [-> ->]]].
    + inversion Hp; auto.
    + right. split.
      * intros ->. apply (Hn (Put k' v)); [apply in_app_iff; right; left; reflexivity | reflexivity].
      * exists h1, h2'. split; [reflexivity|]. intros e He. apply Hn, in_app_iff. left; exact He.
  - intros [[-> ->]|[Hne [h1 [h2 [-> Hn]]]]].
    + exists h, []. split; [reflexivity | intros e []].
    + exists h1, (h2 ++ [Put k v]). split; [rewrite <- app_assoc; reflexivity|].
      intros e He. apply in_app_iff in He. destruct He as [He|[<-|[]]]; [auto | exact Hne].
Qed.
Lemma holds_remove h k k' v' : Holds (h ++ [Remove k]) k' v' <-> k <> k' /\ Holds h k' v'.
Proof.
  split.
  - intros [h1 [h2 [He Hn]]]. apply snoc_inv in He. destruct He as [[_ [_ Hp]]|[h2' [-> ->]]]; [discriminate|].
    split.
    + intros ->. apply (Hn (Remove k')); [apply in_app_iff; right; left; reflexivity | reflexivity].
    + exists h1, h2'. split; [reflexivity|]. intros e He. apply Hn, in_app_iff. left; exact He.
  - intros [Hne [h1 [h2 [-> Hn]]]].
    exists h1, (h2 ++ [Remove k]). split; [rewrite <- app_assoc; reflexivity|].
    intros e He. apply in_app_iff in He. destruct He as [He|[<-|[]]]; [auto | exact Hne].
Qed.
Lemma holds_nil k (v : A) : ~ Holds [] k v.
Proof. intros [h1 [h2 [H _]]]. destruct h1; discriminate. Qed.

Lemma dict_run_holds h k v : dget k (dict_run h []) = Some v <-> Holds h k v.
Proof.
  revert k v; induction h as [|e h IH] using rev_ind; intros k v.
  - simpl. split; [discriminate | intros H; destruct (holds_nil _ _ H)].
  - rewrite dict_run_snoc. destruct e as [k' v'|k']; simpl.
    + rewrite dget_dset, holds_put, <- IH. destruct (str_eqb_spec k k') as [->|Hne].
      * split; [intros H; inversion H; auto | intros [[_ ->]|[? _]]; congruence].
      * split; [intros H; right; split; congruence | intros [[? _]|[_ H]]; congruence].
    + rewrite dget_ddel by (apply dict_run_nodup; constructor). rewrite holds_remove, <- IH.
      destruct (str_eqb_spec k k') as [->|Hne].
      * split; [discriminate | intros [? _]; congruence].
      * split; [intros H; split; congruence | tauto].
Qed.

Lemma dict_run_live h k : In k (dkeys (dict_run h [])) <-> Live h k.
Proof.
  rewrite dget_some_in. unfold Live. split; intros [v Hv]; exists v; apply dict_run_holds; exact Hv.
Qed.

Lemma born_live h k i : Born h k i -> Live h k.
Proof.
  intros [h1 [v [h2 [-> [_ [_ Hn]]]]]].
  induction h2 as [|e h2 IH] using rev_ind.
  - exists v, h1, []. split; [reflexivity | intros e []].
  - destruct IH as [v' Hv']; [intros e' He'; apply Hn, in_app_iff; left; exact He'|].
    rewrite app_comm_cons, app_assoc. destruct e as [k' v2|k'].
    + destruct (str_dec k' k) as [->|Hne].
      * exists v2. apply holds_put. left; auto.
      * exists v'. apply holds_put. right; auto.
    + exists v'. apply holds_remove. split; [|exact Hv'].
      intros ->. apply (Hn (Remove k)); [apply in_app_iff; right; left; reflexivity | reflexivity].
Qed.

Lemma born_snoc h e k i : Born (h ++ [e]) k i ->
  (Born h k i /\ e <> Remove k) \/ (exists v, e = Put k v /\ i = length h /\ ~ Live h k).
Proof.
  intros [h1 [v [h2 [He [Hi [Hnl Hn]]]]]]. apply snoc_inv in He.
  destruct He as [[-> [-> Hp]]|[h2' [-> ->]]].
  - right. exists v. auto.
  - left. split.
    + exists h1, v, h2'. repeat split; auto. intros e' He'. apply Hn, in_app_iff. left; exact He'.
    + apply Hn, in_app_iff. right; left; reflexivity.
Qed.
Lemma born_lt h k i : Born h k i -> i < length h.
Proof. intros [h1 [v [h2 [-> [-> _]]]]]. rewrite app_length. simpl. lia. Qed.

Lemma born_snoc_keep h e k i : Born h k i -> e <> Remove k -> Born (h ++ [e]) k i.
Proof.
  intros [h1 [v [h2 [-> [-> [Hnl Hn]]]]]] He.
  exists h1, v, (h2 ++ [e]). rewrite <- app_assoc. repeat split; auto.
  intros e' He'. apply in_app_iff in He'. destruct He' as [|[<-|[]]]; auto.
Qed.

Lemma live_born h k : Live h k -> exists i, Born h k i.
Proof.
  induction h as [|e h IH] using rev_ind; intros [v Hv]; [destruct (holds_nil _ _ Hv)|].
  destruct e as [k' v'|k'].
  - apply holds_put in Hv. destruct Hv as [[-> ->]|[Hne Hv]].
    + destruct (in_dec str_dec k (dkeys (dict_run h []))) as [Hl|Hl].
      * apply dict_run_live in Hl. destruct (IH Hl) as [i Hi]. exists i.
        apply born_snoc_keep; [exact Hi | discriminate].
      * rewrite dict_run_live in Hl. exists (length h), h, v, []. repeat split; auto.
    + destruct (IH (ex_intro _ v Hv)) as [i Hi]. exists i. apply born_snoc_keep; [exact Hi | discriminate].
  - apply holds_remove in Hv. destruct Hv as [Hne Hv].
    destruct (IH (ex_intro _ v Hv)) as [i Hi]. exists i. apply born_snoc_keep; [exact Hi | congruence].
Qed.

Lemma born_unique h k i j : Born h k i -> Born h k j -> i = j.
Proof.
  revert i j; induction h as [|e h IH] using rev_ind; intros i j Hi Hj.
  - destruct Hi as [h1 [v [h2 [H _]]]]. destruct h1; discriminate.
  - apply born_snoc in Hi, Hj.
    destruct Hi as [[Hi Hr]|[v [-> [-> Hn]]]], Hj as [[Hj Hr']|[v' [E [-> Hn']]]].
    + eauto.
    + destruct (Hn' (born_live _ _ _ Hi)).
    + destruct (Hn (born_live _ _ _ Hj)).
    + reflexivity.
Qed.

(** the keys stand in the order of their births *)
Definition births_ordered h (a b : str) : Prop := forall i j, Born h a i -> Born h b j -> i < j.

Lemma sorted_filter {B} (R : B -> B -> Prop) f l : StronglySorted R l -> StronglySorted R (filter f l).
Proof.
  induction 1 as [|a l Hs IH Hf]; simpl; [constructor|].
  destruct (f a); [|assumption]. constructor; [assumption|].
  rewrite Forall_forall in *. intros x Hx. apply filter_In in Hx. apply Hf, Hx.
Qed.
Lemma strongly_sorted_impl_in {B} (R S : B -> B -> Prop) l :
  (forall a b, In a l -> In b l -> R a b -> S a b) -> StronglySorted R l -> StronglySorted S l.
Proof.
  intros Himp H; induction H as [|a l Hs IH Hf]; [constructor|].
  constructor.
  - apply IH. intros x y Hx Hy. apply Himp; right; assumption.
  - rewrite Forall_forall in *. intros x Hx. apply Himp; [left; reflexivity | right; exact Hx | auto].
Qed.
Lemma sorted_snoc {B} (R : B -> B -> Prop) l x :
  StronglySorted R l -> (forall y, In y l -> R y x) -> StronglySorted R (l ++ [x]).
Proof.
  induction 1 as [|a l Hs IH Hf]; simpl; intros H; [repeat constructor|].
  constructor; [apply IH; intros y Hy; apply H; right; exact Hy|].
  apply Forall_app. split; [exact Hf|]. constructor; [apply H; left; reflexivity | constructor].
Qed.

Lemma dict_run_births h : StronglySorted (births_ordered h) (dkeys (dict_run h [])).
Proof.
  induction h as [|e h IH] using rev_ind; [constructor|].
  rewrite dict_run_snoc. destruct e as [k v|k]; simpl.
  - destruct (in_dec str_dec k (dkeys (dict_run h []))) as [Hl|Hl].
    + rewrite dkeys_dset_mem by assumption. eapply strongly_sorted_impl_in; [|exact IH].
      intros a b Ha Hb Hab i j Hi Hj. apply born_snoc in Hi, Hj.
      destruct Hi as [[Hi _]|[v1 [E1 [-> Hn1]]]], Hj as [[Hj _]|[v2 [E2 [-> Hn2]]]].
      * auto.
      * destruct Hn2. apply dict_run_live; assumption.
      * destruct Hn1. apply dict_run_live; assumption.
      * destruct Hn1. apply dict_run_live; assumption.
    + rewrite dkeys_dset_new by assumption. apply sorted_snoc.
      * eapply strongly_sorted_impl_in; [|exact IH].
        intros a b Ha Hb Hab i j Hi Hj. apply born_snoc in Hi, Hj.
        destruct Hi as [[Hi _]|[v1 [E1 [-> Hn1]]]], Hj as [[Hj _]|[v2 [E2 [-> Hn2]]]].
        -- auto.
        -- destruct Hn2. apply dict_run_live; assumption.
        -- destruct Hn1. apply dict_run_live; assumption.
        -- destruct Hn1. apply dict_run_live; assumption.
      * intros a Ha i j Hi Hj. apply born_snoc in Hi, Hj.
        destruct Hi as [[Hi _]|[v1 [E1 [-> Hn1]]]]; [|inversion E1; subst; contradiction].
        destruct Hj as [[Hj _]|[v2 [E2 [-> Hn2]]]]; [|apply born_lt in Hi; exact Hi].
        apply born_live, dict_run_live in Hj. contradiction.
  - rewrite dkeys_ddel by (apply dict_run_nodup; constructor).
    eapply strongly_sorted_impl_in; [|apply sorted_filter; exact IH].
    intros a b Ha Hb Hab i j Hi Hj. apply born_snoc in Hi, Hj.
    destruct Hi as [[Hi _]|[v1 [E1 _]]]; [|discriminate].
    destruct Hj as [[Hj _]|[v2 [E2 _]]]; [|discriminate]. auto.
Qed.

Lemma dict_run_order h : StronglySorted (born_before h) (dkeys (dict_run h [])).
Proof.
  eapply strongly_sorted_impl_in; [|apply dict_run_births].
  intros a b Ha Hb Hab. apply dict_run_live, live_born in Ha. apply dict_run_live, live_born in Hb.
  destruct Ha as [i Hi], Hb as [j Hj]. exists i, j. auto.
Qed.

End HF.
