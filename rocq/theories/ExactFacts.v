(** * Lemmas for C07_exact and C14_exact *)
From Verif Require Export SpecExact ModelFacts GenFacts.

(** ** Leaks *)
Definition b2n (b : bool) : nat := if b then 1 else 0.
Lemma count_dset_over s k t old d : NoDup (dkeys d) -> dget k d = Some old ->
  count_schema s (dset k t d) + b2n (str_eqb (t_schema old) s) = count_schema s d + b2n (str_eqb (t_schema t) s).
Proof.
  induction d as [|[k' t'] d IH]; cbn [dget dset]; [discriminate|]. intros Hnd Hg.
  inversion Hnd as [|? ? Hni Hnd']; subst. destruct (str_eqb k k').
  - inversion Hg; subst. unfold count_schema, dvals, b2n. cbn [map snd filter].
    destruct (str_eqb (t_schema t) s), (str_eqb (t_schema old) s); cbn [length]; lia.
  - specialize (IH Hnd' Hg). unfold count_schema, dvals in *. cbn [map snd filter].
    destruct (str_eqb (t_schema t') s); cbn [length]; lia.
Qed.
Definition counted (d : database) (s : str) : Z := match dget s (db_schemas d) with Some n => n | None => 0%Z end.

Lemma counted_add d t s : counted (add_table d t) s = (counted d s + Z.of_nat (b2n (str_eqb (t_schema t) s)))%Z.
Proof.
  unfold counted, add_table; cbn [db_schemas]. rewrite dget_dset, (str_eqb_sym s).
  destruct (str_eqb_spec (t_schema t) s) as [->|Hne]; cbn [b2n]; [destruct (dget s (db_schemas d)); lia|lia].
Qed.
Lemma counted_drop d n d' r s : db_inv d -> drop_table d n = Ok (d', r) ->
  counted d' s = (counted d s - match get_table d n with Some t => Z.of_nat (b2n (str_eqb (t_schema t) s)) | None => 0 end)%Z.
Proof.
  intros Hi. unfold drop_table, get_table. destruct (dget n (db_tables d)) as [t|].
  2:{ intros H; inversion H; subst; lia. }
  pose proof (inv_snodup _ Hi) as Hsn. destruct (dget (t_schema t) (db_schemas d)) as [m|] eqn:Em; [|discriminate].
  intros H; inversion H; subst. unfold counted. cbn [db_schemas].
  destruct (Z.eqb_spec (m - 1) 0) as [E0|E0].
  - rewrite dget_ddel by assumption. rewrite (str_eqb_sym s). destruct (str_eqb_spec (t_schema t) s) as [<-|]; cbn [b2n]; [rewrite Em|]; lia.
  - rewrite dget_dset, (str_eqb_sym s). destruct (str_eqb_spec (t_schema t) s) as [<-|]; cbn [b2n]; [rewrite Em|]; lia.
Qed.

Lemma replaced_snoc ops o s : replaced (ops ++ [o]) s <->
  replaced ops s \/ exists t old, o = AddTable t /\ Holds (db_history ops) (t_name t) old /\ t_schema old = s.
Proof.
  split.
  - intros (o1 & t & o2 & old & E & H & Hs). destruct o2 as [|x o2] using rev_ind.
    + apply app_inj_tail in E. destruct E as [-> ->]. right. eauto.
    + clear IHo2. rewrite app_comm_cons, app_assoc in E. apply app_inj_tail in E. destruct E as [-> ->].
      left. exists o1, t, o2, old. auto.
  - intros [(o1 & t & o2 & old & -> & H & Hs)|(t & old & -> & H & Hs)].
    + exists o1, t, (o2 ++ [o]), old. rewrite <- app_assoc. auto.
    + exists ops, t, [], old. auto.
Qed.

Lemma leaks ops n0 : exists d L, run_db_ops ops (empty_database n0) = Ok d /\ db_inv d
  /\ db_tables d = dict_run (db_history ops) []
  /\ (forall s, counted d s = Z.of_nat (count_schema s (db_tables d) + L s))
  /\ (forall s, L s > 0 <-> replaced ops s).
Proof.
  induction ops as [|o ops IH] using rev_ind.
  - exists (empty_database n0), (fun _ => 0). split; [reflexivity|]. split; [apply db_inv_empty|]. split; [reflexivity|].
    split; [reflexivity|]. intros s. split; [intros H; inversion H|].
    intros (o1 & t & o2 & old & E & _). destruct o1; discriminate.
  - destruct IH as (d & L & Hr & Hi & Ht & Hc & HL).
    destruct (run_db_op_inv d o Hi) as [d' [Hr' [Hi' [_ Ht']]]].
    assert (Hg : forall n t, get_table d n = Some t <-> Holds (db_history ops) n t).
    { destruct (database_refine ops n0) as (d0 & E & _ & G & _). rewrite Hr in E. inversion E; subst. exact G. }
    exists d', (fun s => L s + match o with
                               | AddTable t => match get_table d (t_name t) with
                                               | Some old => b2n (str_eqb (t_schema old) s) | None => 0 end
                               | DropTable _ => 0 end).
    split. { rewrite run_db_ops_app, Hr. cbn [bind run_db_ops]. rewrite Hr'. reflexivity. }
    split; [exact Hi'|].
    split. { rewrite Ht', Ht. unfold db_history. rewrite map_app. symmetry. apply dict_run_snoc. }
    split.
    + intros s. specialize (Hc s). destruct o as [t|n]; cbn [run_db_op] in Hr'.
      * inversion Hr'; subst d'. rewrite counted_add, Hc. cbn [add_table db_tables]. unfold get_table.
        destruct (dget (t_name t) (db_tables d)) as [old|] eqn:Eg.
        -- pose proof (count_dset_over s _ t old _ (inv_nodup _ Hi) Eg). lia.
        -- rewrite count_dset_new by (apply dget_none; exact Eg). fold (b2n (str_eqb (t_schema t) s)). lia.
      * destruct (drop_table d n) as [[d1 r]|] eqn:E; cbn [bind] in Hr'; [|discriminate].
        inversion Hr'; subst d1. rewrite (counted_drop _ _ _ _ s Hi E), Hc. cbn [db_event dict_event] in Ht'. rewrite Ht'.
        unfold get_table. destruct (dget n (db_tables d)) as [t|] eqn:Eg.
        -- pose proof (count_ddel s n t (db_tables d) (inv_nodup _ Hi) Eg) as G. fold (b2n (str_eqb (t_schema t) s)) in G. lia.
        -- rewrite ddel_not_in by (apply dget_none; exact Eg). lia.
    + intros s. rewrite replaced_snoc, <- HL. destruct o as [t|n].
      * destruct (get_table d (t_name t)) as [old|] eqn:Eg.
        -- destruct (str_eqb_spec (t_schema old) s) as [Es|Es]; cbn [b2n].
           ++ split; [|lia]. intros _. right. exists t, old. repeat split; [apply Hg; exact Eg|exact Es].
           ++ rewrite Nat.add_0_r. split; [auto|]. intros [H|(t' & old' & E & H & Hs)]; [exact H|].
              inversion E; subst t'. apply Hg in H. congruence.
        -- rewrite Nat.add_0_r. split; [auto|]. intros [H|(t' & old' & E & H & Hs)]; [exact H|].
           inversion E; subst t'. apply Hg in H. congruence.
      * rewrite Nat.add_0_r. split; [auto|]. intros [H|(t' & old' & E & _)]; [exact H|discriminate].
Qed.

Lemma c07_exact ops n0 d s : run_db_ops ops (empty_database n0) = Ok d ->
  (In s (get_schema_names d) <-> (exists t, In t (db_iter d) /\ t_schema t = s) \/ replaced ops s).
Proof.
  intros Hr. destruct (leaks ops n0) as (d' & L & Hr' & Hi & _ & Hc & HL). rewrite Hr in Hr'. inversion Hr'; subst d'.
  rewrite <- HL. specialize (Hc s). unfold get_schema_names. rewrite dget_some_in.
  assert (Hlive : (exists t, In t (db_iter d) /\ t_schema t = s) <-> count_schema s (db_tables d) > 0).
  { unfold count_schema. fold (db_iter d). split.
    - intros [t [Hin Hs]].
      assert (In t (filter (fun t => str_eqb (t_schema t) s) (db_iter d))) as Hi'
        by (apply filter_In; split; [exact Hin | apply str_eqb_eq; exact Hs]).
      destruct (filter _ _); [destruct Hi' | cbn [length]; lia].
    - intros H. destruct (filter (fun t => str_eqb (t_schema t) s) (db_iter d)) as [|t l] eqn:E; [inversion H|].
      assert (In t (filter (fun t => str_eqb (t_schema t) s) (db_iter d))) as Hi' by (rewrite E; left; reflexivity).
      apply filter_In in Hi'. destruct Hi' as [Hin Hs]. exists t. split; [exact Hin | apply str_eqb_eq; exact Hs]. }
  rewrite Hlive. unfold counted in Hc. split.
  - intros [n Hn]. rewrite Hn in Hc. pose proof (inv_pos _ Hi _ _ Hn). lia.
  - intros H. destruct (dget s (db_schemas d)) as [n|]; [eauto|]. exfalso. lia.
Qed.

(** ** Camel case *)
Notation us := "_"%char.
Lemma lstrip_split c s : exists n, s = repeat c n ++ lstrip_char c s
  /\ (forall x r, lstrip_char c s = x :: r -> x <> c).
Proof.
  induction s as [|y s [n [E H]]]; [exists 0; split; [reflexivity|discriminate]|]. cbn [lstrip_char].
  destruct (Ascii.eqb_spec y c) as [->|Hne].
  - exists (S n). split; [cbn [repeat app]; f_equal; exact E|exact H].
  - exists 0. split; [reflexivity|]. intros x r Hx. inversion Hx; subst. exact Hne.
Qed.
Lemma strip_split c s : exists m n, s = repeat c m ++ strip_char c s ++ repeat c n
  /\ (forall x r, strip_char c s = x :: r -> x <> c)
  /\ (forall x r, strip_char c s = r ++ [x] -> x <> c).
Proof.
  destruct (lstrip_split c s) as [m [E H]]. destruct (lstrip_split c (rev (lstrip_char c s))) as [n [E' H']].
  apply (f_equal (@rev ascii)) in E'. rewrite rev_involutive, rev_app_distr, rev_repeat in E'. fold (strip_char c s) in E'.
  exists m, n. split; [rewrite <- E'; exact E|]. split.
  - intros x r Hx. rewrite Hx in E'. apply (H x (r ++ repeat c n)). exact E'.
  - intros x r Hx. unfold strip_char in Hx. apply (f_equal (@rev ascii)) in Hx. rewrite rev_involutive, rev_app_distr in Hx.
    exact (H' x (rev r) Hx).
Qed.

Definition ends_well (s : str) : Prop := forall x r, s = r ++ [x] -> x <> us.
Definition pair_in (s : str) : Prop := exists a b, s = a ++ [us; us] ++ b.
Lemma ends_cons c s : ends_well (c :: s) -> ends_well s.
Proof. intros H x r ->. apply (H x (c :: r)). reflexivity. Qed.
Lemma pair_cons c s : c <> us -> (pair_in (c :: s) <-> pair_in s).
Proof.
  intros Hc. split.
  - intros [a [b E]]. destruct a as [|x a]; [inversion E; congruence|]. inversion E. exists a, b. reflexivity.
  - intros [a [b ->]]. exists (c :: a), b. reflexivity.
Qed.
Lemma pair_skip c s : c <> us -> (pair_in (us :: c :: s) <-> pair_in s).
Proof.
  intros Hc. rewrite <- (pair_cons c s Hc). split.
  - intros [a [b E]]. destruct a as [|x a]; [inversion E; congruence|]. exists a, b. inversion E. assumption.
  - intros [a [b E]]. exists (us :: a), b. rewrite E. reflexivity.
Qed.
Lemma camel_loop_pair n : forall s, length s <= n -> ends_well s -> (In us (camel_loop s) <-> pair_in s).
Proof.
  induction n as [|n IH]; intros s Hl Hw.
  { destruct s; [|cbn in Hl; lia]. cbn. split; [intros []|]. intros [[|? a] [b E]]; discriminate. }
  destruct s as [|c s]; [cbn; split; [intros []|]; intros [[|? a] [b E]]; discriminate|].
  cbn [length] in Hl. cbn [camel_loop]. destruct (Ascii.eqb_spec c us) as [->|Hc]; cbn [negb].
  - destruct s as [|d s]; [exfalso; apply (Hw us []); reflexivity|]. cbn [length] in Hl.
    destruct (ascii_dec d us) as [->|Hd].
    + split; [|left; reflexivity]. intros _. exists [], s. reflexivity.
    + rewrite (pair_skip d s Hd), <- (IH s); [|lia|do 2 apply ends_cons in Hw; exact Hw].
      cbn [In]. split; [intros [E|H]; [|exact H]|auto]. destruct (upper_char_underscore d Hd E).
  - rewrite (pair_cons c s Hc), <- (IH s); [|lia|apply ends_cons in Hw; exact Hw].
    cbn [In]. split; [intros [E|H]; [contradiction|exact H]|auto].
Qed.
Lemma camel_loop_len n : forall s, length s <= n ->
  length (camel_loop s) <= length s /\ (In us s -> length (camel_loop s) < length s).
Proof.
  induction n as [|n IH]; intros s Hl.
  { destruct s; [|cbn in Hl; lia]. cbn. split; [lia|intros []]. }
  destruct s as [|c s]; [cbn; split; [lia|intros []]|]. cbn [length] in Hl. cbn [camel_loop].
  destruct (Ascii.eqb_spec c us) as [->|Hc]; cbn [negb].
  - destruct s as [|d s]; [cbn; split; lia|]. cbn [length] in *. destruct (IH s) as [G _]; [lia|]. split; lia.
  - destruct (IH s) as [G G']; [lia|]. cbn [length In]. split; [lia|]. intros [E|H]; [congruence|]. specialize (G' H). lia.
Qed.
Lemma to_camel_shorter v r : to_camel v = Ok r -> In us v -> length r < length v.
Proof.
  unfold to_camel. destruct (strip_split us v) as (m & n & E & H & _). destruct (strip_char us v) as [|c s] eqn:Es; [discriminate|].
  intros Hr Hin. apply Ok_inj in Hr. subst r. apply (f_equal (@length ascii)) in E as El.
  rewrite !app_length, !repeat_length in El. cbn [length] in *. destruct (camel_loop_len (length s) s (le_n _)) as [G G'].
  destruct (Nat.eq_dec (m + n) 0) as [Z|Z]; [|lia].
  assert (m = 0) as -> by lia. assert (n = 0) as -> by lia. cbn [repeat app] in E. rewrite app_nil_r in E.
  rewrite E in Hin. destruct Hin as [Hc|Hin]; [destruct (H c s eq_refl Hc)|]. specialize (G' Hin). lia.
Qed.
Lemma to_camel_plain r : r <> [] -> ~ In us r -> (forall c s, r = c :: s -> upper_char c = c) -> to_camel r = Ok r.
Proof.
  intros Hn Hu Hc. assert (Hw : word r) by (split; assumption).
  pose proof (to_camel_words r [] 0 0 (Forall_cons _ Hw (Forall_nil _))) as G.
  cbn [underscores repeat join app flat_map] in G. rewrite !app_nil_r in G. rewrite G. f_equal.
  destruct r as [|c s]; [contradiction|]. cbn [capitalised]. rewrite (Hc c s eq_refl). reflexivity.
Qed.
(** the pair is inside the stripped text exactly when it is an inner pair of the whole *)
Lemma drop_lead m (s : str) : forall a x r, repeat us m ++ s = a ++ x :: r -> x <> us -> exists a', s = a' ++ x :: r.
Proof.
  induction m as [|m IH]; intros a x r E Hx; [exists a; exact E|]. destruct a as [|z a]; cbn [repeat app] in E; inversion E; [congruence|].
  eapply IH; eassumption.
Qed.
Lemma drop_tail n (s : str) a y : y <> us -> forall d, s ++ repeat us n = a ++ y :: d -> exists d', s = a ++ y :: d'.
Proof.
  intros Hy. induction n as [|n IH]; intros d E; [cbn in E; rewrite app_nil_r in E; eauto|].
  cbn [repeat] in E. rewrite repeat_cons, app_assoc in E. destruct d as [|z d] using rev_ind.
  - apply app_inj_tail in E. destruct E as [_ E]. congruence.
  - clear IHd. rewrite app_comm_cons, app_assoc in E. apply app_inj_tail in E. destruct E as [E _]. apply (IH d E).
Qed.
Lemma inner_core m n (s : str) : (forall x r, s = x :: r -> x <> us) -> ends_well s ->
  (inner_pair (repeat us m ++ s ++ repeat us n) <-> pair_in s).
Proof.
  intros Hs Hw. split.
  - intros (a & x & b & c & y & d & E & Hx & Hy). rewrite <- app_assoc in E. cbn [app] in E.
    destruct (drop_lead m _ a x _ E Hx) as [a' E']. cbn [app] in E'.
    destruct (drop_tail n s (a' ++ x :: b ++ [us; us] ++ c) y Hy d) as [d' ->].
    { rewrite E'. rewrite <- app_assoc. cbn [app]. rewrite <- app_assoc. reflexivity. }
    exists (a' ++ x :: b), (c ++ y :: d'). rewrite <- ?app_assoc. cbn [app]. rewrite <- ?app_assoc. reflexivity.
  - intros [a [b ->]]. destruct a as [|x a]; [destruct (Hs us (us :: b) eq_refl eq_refl)|].
    destruct b as [|y b _] using rev_ind.
    { destruct (Hw us ((x :: a) ++ [us])); [|reflexivity]. rewrite <- app_assoc. reflexivity. }
    exists (repeat us m), x, a, b, y, (repeat us n). split; [rewrite <- ?app_assoc; cbn [app]; rewrite <- ?app_assoc; reflexivity|].
    split; [apply (Hs x (a ++ [us; us] ++ b ++ [y])); reflexivity|].
    apply (Hw y ((x :: a) ++ [us; us] ++ b)). rewrite <- !app_assoc. reflexivity.
Qed.

Lemma c14_exact v r : to_camel v = Ok r -> (exists r', to_camel r = Ok r') /\ (to_camel r = Ok r <-> ~ inner_pair v).
Proof.
  intros Hr. split.
  { unfold to_camel in Hr. destruct (strip_split us v) as (m & n & _ & H & _). destruct (strip_char us v) as [|c s]; [discriminate|].
    apply Ok_inj in Hr. subst r. destruct (to_camel_index (upper_char c :: camel_loop s)) as [G1 G2].
    destruct (to_camel (upper_char c :: camel_loop s)) as [r'|e] eqn:E; [eauto|]. exfalso.
    apply (upper_char_underscore c (H c s eq_refl)). apply (proj1 G1); [f_equal; apply G2; reflexivity|left; reflexivity]. }
  destruct (strip_split us v) as (m & n & E & H & Hw). change (ends_well (strip_char us v)) in Hw.
  unfold to_camel in Hr. rewrite E, (inner_core m n _ H Hw). clear E.
  destruct (strip_char us v) as [|c s]; [discriminate|]. apply Ok_inj in Hr. subst r.
  pose proof (H c s eq_refl) as Hc. rewrite (pair_cons c s Hc), <- (camel_loop_pair (length s) s (le_n _) (ends_cons _ _ Hw)).
  split.
  - intros Hi Hin. assert (Hin' : In us (upper_char c :: camel_loop s)) by (right; exact Hin).
    pose proof (to_camel_shorter _ _ Hi Hin'). lia.
  - intros Hn. apply to_camel_plain; [discriminate| |].
    + intros [Hu|Hin]; [exact (upper_char_underscore c Hc Hu)|exact (Hn Hin)].
    + intros c' s' E. inversion E. apply upper_char_idem.
Qed.
