(** * Facts about the comparison of databases *)
From Verif Require Import SpecDiff StrFacts.
From Coq Require Import Sorting.Sorted.
From Coq Require Import List. Import ListNotations.

(** ** The merge of two sorted name lists *)
Fixpoint mu (l1 : list str) : list str -> list str :=
  match l1 with
  | [] => fun l2 => l2
  | n1 :: l1' =>
      fix inner (l2 : list str) : list str :=
        match l2 with
        | [] => n1 :: l1'
        | n2 :: l2' =>
            if str_ltb n1 n2 then n1 :: mu l1' (n2 :: l2')
            else if str_ltb n2 n1 then n2 :: inner l2'
            else n1 :: mu l1' l2'
        end
  end.
Lemma mu_nil_r l : mu l [] = l. Proof. destruct l; reflexivity. Qed.
Lemma mu_cons n1 l1 n2 l2 : mu (n1 :: l1) (n2 :: l2) =
  if str_ltb n1 n2 then n1 :: mu l1 (n2 :: l2) else if str_ltb n2 n1 then n2 :: mu (n1 :: l1) l2 else n1 :: mu l1 l2.
Proof. reflexivity. Qed.
Lemma mu_in n : forall l1 l2, In n (mu l1 l2) <-> In n l1 \/ In n l2.
Proof.
  induction l1 as [|a l1 IH]; intros l2; [cbn [mu]; split; [auto | intros [[]|]; auto]|].
  induction l2 as [|b l2 IH2]; [rewrite mu_nil_r; split; [auto | intros [|[]]; auto]|].
  rewrite mu_cons. destruct (str_ltb a b) eqn:E1; [|destruct (str_ltb b a) eqn:E2].
  - cbn [In]. rewrite IH. cbn [In]. tauto.
  - cbn [In] in *. rewrite IH2. tauto.
  - apply str_ltb_total in E1; [|exact E2]. subst b. cbn [In]. rewrite IH. tauto.
Qed.
Definition SS := StronglySorted str_lt.
Lemma ss_head a l : SS (a :: l) -> forall x, In x l -> str_lt a x.
Proof. intros H. inversion H as [|? ? ? Hf]; subst. intros x. apply Forall_forall, Hf. Qed.
Lemma ss_tail a l : SS (a :: l) -> SS l.
Proof. intros H. inversion H; assumption. Qed.
Lemma ss_head_not a l : SS (a :: l) -> ~ In a l.
Proof. intros H Hin. apply (ss_head _ _ H) in Hin. unfold str_lt in Hin. rewrite str_ltb_irrefl in Hin. discriminate. Qed.
Lemma lt_not_in a b l : str_lt a b -> SS (b :: l) -> ~ In a (b :: l).
Proof.
  intros Hab Hs [<-|Hin].
  - unfold str_lt in Hab. rewrite str_ltb_irrefl in Hab. discriminate.
  - apply (ss_head _ _ Hs) in Hin. unfold str_lt in *. apply str_ltb_asym in Hin. congruence.
Qed.
Lemma mu_sorted : forall l1 l2, SS l1 -> SS l2 -> SS (mu l1 l2).
Proof.
  induction l1 as [|a l1 IH]; intros l2 H1; [auto|].
  induction l2 as [|b l2 IH2]; intros H2; [exact H1|].
  rewrite mu_cons. destruct (str_ltb a b) eqn:E1; [|destruct (str_ltb b a) eqn:E2].
  - constructor; [apply IH; [apply (ss_tail _ _ H1) | exact H2]|]. apply Forall_forall. intros x Hx. apply mu_in in Hx.
    destruct Hx as [Hx|[<-|Hx]]; [apply (ss_head _ _ H1), Hx | exact E1|].
    apply (str_ltb_trans a b x E1). apply (ss_head _ _ H2), Hx.
  - constructor; [apply IH2, (ss_tail _ _ H2)|]. apply Forall_forall. intros x Hx. apply mu_in in Hx.
    destruct Hx as [[<-|Hx]|Hx]; [exact E2 | | apply (ss_head _ _ H2), Hx].
    apply (str_ltb_trans b a x E2). apply (ss_head _ _ H1), Hx.
  - apply str_ltb_total in E1; [|exact E2]. subst b.
    constructor; [apply IH; eapply ss_tail; eassumption|]. apply Forall_forall. intros x Hx. apply mu_in in Hx.
    destruct Hx as [Hx|Hx]; [apply (ss_head _ _ H1), Hx | apply (ss_head _ _ H2), Hx].
Qed.
Lemma ss_nodup l : SS l -> NoDup l.
Proof. induction 1 as [|a l Hs IH Hf]; constructor; [|exact IH]. apply ss_head_not. constructor; assumption. Qed.
Lemma mu_sym l1 l2 : SS l1 -> SS l2 -> mu l1 l2 = mu l2 l1.
Proof.
  intros H1 H2. apply strict_sorted_unique; [apply mu_sorted; assumption | apply mu_sorted; assumption|].
  intros x. rewrite !mu_in. tauto.
Qed.

(** ** The loop, for handlers that only append *)
Definition tag (db : str) (l : list change) : list difference :=
  map (fun c => {| diff_db := db; diff_change := c |}) l.
Lemma tag_app db a b : tag db (a ++ b) = tag db a ++ tag db b.
Proof. apply map_app. Qed.
Lemma changes_tag db l : changes (tag db l) = l.
Proof. unfold changes, tag. rewrite map_map. apply map_id. Qed.

Definition ext (db1 db2 : str) (l1 l2 : list change) (s : diffs) : diffs :=
  (fst s ++ tag db1 l1, snd s ++ tag db2 l2).
Lemma ext_ext db1 db2 a b a' b' s : ext db1 db2 a' b' (ext db1 db2 a b s) = ext db1 db2 (a ++ a') (b ++ b') s.
Proof. unfold ext. cbn [fst snd]. rewrite !tag_app, !app_assoc. reflexivity. Qed.
Lemma ext_nil db1 db2 s : ext db1 db2 [] [] s = s.
Proof. unfold ext. cbn [tag map]. rewrite !app_nil_r. destruct s; reflexivity. Qed.

Section Merge.
Variables left right both : str -> diffs -> result diffs.
Variables db1 db2 : str.
Variables e1 e2 : str -> list change.
Let step n s := ext db1 db2 (e1 n) (e2 n) s.
Lemma rest_ok h : forall l s, (forall n s, In n l -> h n s = Ok (step n s)) ->
  rest_loop h l s = Ok (ext db1 db2 (flat_map e1 l) (flat_map e2 l) s).
Proof.
  induction l as [|n l IH]; intros s H; cbn [rest_loop flat_map]; [rewrite ext_nil; reflexivity|].
  rewrite H by (left; reflexivity). cbn [bind]. rewrite IH by (intros; apply H; right; assumption).
  unfold step. rewrite ext_ext. reflexivity.
Qed.
Lemma merge_ok : forall l1 l2 s, SS l1 -> SS l2 ->
  (forall n s, In n l1 -> ~ In n l2 -> left n s = Ok (step n s)) ->
  (forall n s, ~ In n l1 -> In n l2 -> right n s = Ok (step n s)) ->
  (forall n s, In n l1 -> In n l2 -> both n s = Ok (step n s)) ->
  merge_loop left right both l1 l2 s = Ok (ext db1 db2 (flat_map e1 (mu l1 l2)) (flat_map e2 (mu l1 l2)) s).
Proof.
  induction l1 as [|a l1 IH]; intros l2 s H1.
  - intros _ _ HR _. cbn [merge_loop mu]. apply rest_ok. intros. apply HR; auto.
  - revert s. induction l2 as [|b l2 IH2]; intros s H2 HL HR HB.
    + rewrite mu_nil_r. cbn [merge_loop]. apply rest_ok. intros. apply HL; auto.
    + rewrite mu_cons. cbn [merge_loop]. destruct (str_ltb a b) eqn:E1; [|destruct (str_ltb b a) eqn:E2].
      * assert (Hn : ~ In a (b :: l2)) by (apply lt_not_in; assumption).
        rewrite HL by (cbn [In]; auto). cbn [bind].
        rewrite IH; [cbn [flat_map]; unfold step; rewrite ext_ext; reflexivity | apply (ss_tail _ _ H1) | exact H2 | | | ].
        -- intros n s' Hi Hni. apply HL; [right; exact Hi | exact Hni].
        -- intros n s' Hni Hi. apply HR; [|exact Hi]. intros [->|Hin]; contradiction.
        -- intros n s' Hi Hi2. apply HB; [right; exact Hi | exact Hi2].
      * assert (Hn : ~ In b (a :: l1)) by (apply lt_not_in; assumption).
        rewrite HR by (cbn [In]; auto). cbn [bind].
        specialize (IH2 (step b s) (ss_tail _ _ H2)). cbn [merge_loop] in IH2.
        rewrite IH2; [cbn [flat_map]; unfold step; rewrite ext_ext; reflexivity | | | ].
        -- intros n s' Hi Hni. apply HL; [exact Hi|]. intros [->|Hin]; contradiction.
        -- intros n s' Hni Hi. apply HR; [exact Hni | right; exact Hi].
        -- intros n s' Hi Hi2. apply HB; [exact Hi | right; exact Hi2].
      * apply str_ltb_total in E1; [|exact E2]. subst b.
        pose proof (ss_head_not _ _ H1) as N1. pose proof (ss_head_not _ _ H2) as N2.
        rewrite HB by (left; reflexivity). cbn [bind].
        rewrite IH; [cbn [flat_map]; unfold step; rewrite ext_ext; reflexivity | apply (ss_tail _ _ H1) | apply (ss_tail _ _ H2) | | | ].
        -- intros n s' Hi Hni. apply HL; [right; exact Hi|]. intros [->|Hin]; contradiction.
        -- intros n s' Hni Hi. apply HR; [|right; exact Hi]. intros [->|Hin]; contradiction.
        -- intros n s' Hi Hi2. apply HB; right; assumption.
Qed.
End Merge.

Lemma app1_ext db1 db2 c s : app1 db1 c s = ext db1 db2 [c] [] s.
Proof. unfold app1, ext. cbn [tag map]. rewrite app_nil_r. reflexivity. Qed.
Lemma app2_ext db1 db2 c s : app2 db2 c s = ext db1 db2 [] [c] s.
Proof. unfold app2, ext. cbn [tag map]. rewrite app_nil_r. reflexivity. Qed.

(** ** The comparison as a list over the union of names *)
Definition names {A} (d1 d2 : dict A) : list str := mu (sorted (dkeys d1)) (sorted (dkeys d2)).
Lemma names_sym {A} (d1 d2 : dict A) : NoDup (dkeys d1) -> NoDup (dkeys d2) -> names d1 d2 = names d2 d1.
Proof. intros. apply mu_sym; apply sorted_strict; assumption. Qed.
Lemma names_in {A} (d1 d2 : dict A) n : In n (names d1 d2) <-> dget n d1 <> None \/ dget n d2 <> None.
Proof.
  unfold names. rewrite mu_in, !sorted_in, !dget_some_in.
  split; intros [H|H]; [left|right|left|right].
  - destruct H as [v ->]. discriminate.
  - destruct H as [v ->]. discriminate.
  - destruct (dget n d1) as [v|]; [exists v; reflexivity | contradiction].
  - destruct (dget n d2) as [v|]; [exists v; reflexivity | contradiction].
Qed.
Lemma names_nodup {A} (d1 d2 : dict A) : NoDup (dkeys d1) -> NoDup (dkeys d2) -> NoDup (names d1 d2).
Proof. intros. apply ss_nodup, mu_sorted; apply sorted_strict; assumption. Qed.

Section MergeDicts.
Context {A : Type}.
Variables (d1 d2 : dict A) (left right both : str -> diffs -> result diffs) (db1 db2 : str) (e1 e2 : str -> list change).
Lemma merge_dicts s : NoDup (dkeys d1) -> NoDup (dkeys d2) ->
  (forall n x s, dget n d1 = Some x -> dget n d2 = None -> left n s = Ok (ext db1 db2 (e1 n) (e2 n) s)) ->
  (forall n x s, dget n d1 = None -> dget n d2 = Some x -> right n s = Ok (ext db1 db2 (e1 n) (e2 n) s)) ->
  (forall n x y s, dget n d1 = Some x -> dget n d2 = Some y -> both n s = Ok (ext db1 db2 (e1 n) (e2 n) s)) ->
  merge_loop left right both (sorted (dkeys d1)) (sorted (dkeys d2)) s
  = Ok (ext db1 db2 (flat_map e1 (names d1 d2)) (flat_map e2 (names d1 d2)) s).
Proof.
  intros N1 N2 HL HR HB. apply merge_ok; try (apply sorted_strict; assumption).
  - intros n s' Hi Hn. rewrite sorted_in in Hi, Hn. apply dget_some_in in Hi. destruct Hi as [x Hx].
    apply (HL n x); [exact Hx | apply dget_none, Hn].
  - intros n s' Hn Hi. rewrite sorted_in in Hi, Hn. apply dget_some_in in Hi. destruct Hi as [x Hx].
    apply (HR n x); [apply dget_none, Hn | exact Hx].
  - intros n s' Hi Hi2. rewrite sorted_in in Hi, Hi2. apply dget_some_in in Hi, Hi2.
    destruct Hi as [x Hx], Hi2 as [y Hy]. apply (HB n x y); assumption.
Qed.
End MergeDicts.

Lemma rel_eqb_dec a b : rel_eqb a b = if rel_dec a b then true else false.
Proof.
  destruct (rel_dec a b) as [->|N].
  - unfold rel_eqb. rewrite !str_eqb_refl. reflexivity.
  - unfold rel_eqb. destruct a as [a1 a2 a3 a4], b as [b1 b2 b3 b4]; cbn [rel_name rel_from_table rel_to_table rel_conditions] in *.
    repeat match goal with |- context [str_eqb ?x ?y] => destruct (str_eqb_spec x y) end; try reflexivity.
    subst. contradiction.
Qed.

(** the parts of one comparison; [alike] says which foreign keys are not reported *)
Definition table_changes (alike : foreign_key -> foreign_key -> bool) (t1 t2 : table) : list change :=
  pk_expected t1 t2 ++ shard_expected t1 t2
  ++ flat_map (fun k => fk_expected alike k t1 t2) (names (t_fks t1) (t_fks t2))
  ++ flat_map (fun k => rel_expected k t1 t2) (names (t_rels t1) (t_rels t2))
  ++ flat_map (fun k => column_expected k t1 t2) (names (t_cols t1) (t_cols t2)).
Definition entry_changes (alike : foreign_key -> foreign_key -> bool) (d1 d2 : database) (n : str) : list change :=
  table_expected (get_table d1 n) (get_table d2 n)
  ++ in_both (get_table d1 n) (get_table d2 n) (table_changes alike).
Definition db_changes (alike : foreign_key -> foreign_key -> bool) (d1 d2 : database) : list change :=
  flat_map (entry_changes alike d1 d2) (names (db_tables d1) (db_tables d2)).
Definition flip_eq (f : foreign_key -> foreign_key -> bool) : foreign_key -> foreign_key -> bool := fun a b => f b a.

Section Tables.
Variables n1 n2 : str.
Variables t1 t2 : table.
Hypothesis W1 : well_formed_table t1.
Hypothesis W2 : well_formed_table t2.

Lemma cmp_pk s : compare_primary_keys n1 n2 t1 t2 s = ext n1 n2 (pk_expected t1 t2) (pk_expected t2 t1) s.
Proof using.
  unfold compare_primary_keys, pk_expected.
  destruct (list_eq_dec eq_str (t_pk t1) (t_pk t2)) as [E|N].
  - rewrite E, strs_eqb_refl. cbn [negb]. destruct (list_eq_dec eq_str (t_pk t2) (t_pk t2)); [|contradiction].
    rewrite ext_nil. reflexivity.
  - destruct (list_eq_dec eq_str (t_pk t2) (t_pk t1)) as [E|_]; [symmetry in E; contradiction|].
    destruct (strs_eqb_spec (t_pk t1) (t_pk t2)) as [E|_]; [contradiction|]. cbn [negb].
    destruct (t_pk t1) as [|a l], (t_pk t2) as [|b m]; cbn [is_nil negb andb app];
      rewrite ?(app1_ext n1 n2), ?(app2_ext n1 n2), ?ext_ext; try reflexivity. contradiction.
Qed.
Lemma cmp_shard s : compare_shard_keys n1 n2 t1 t2 s = ext n1 n2 (shard_expected t1 t2) (shard_expected t2 t1) s.
Proof using.
  unfold compare_shard_keys, shard_expected, shard_eqb.
  destruct (t_shard t1) as [a|], (t_shard t2) as [b|]; cbn [negb];
    rewrite ?(app1_ext n1 n2), ?(app2_ext n1 n2), ?ext_ext, ?ext_nil; try reflexivity.
  destruct (Nat.eqb_spec (sk_id a) (sk_id b)) as [E|N]; cbn [negb].
  - destruct (Nat.eq_dec (sk_id a) (sk_id b)); [|contradiction].
    destruct (Nat.eq_dec (sk_id b) (sk_id a)); [|congruence]. rewrite ext_nil. reflexivity.
  - destruct (Nat.eq_dec (sk_id a) (sk_id b)); [contradiction|].
    destruct (Nat.eq_dec (sk_id b) (sk_id a)); [congruence|].
    rewrite ?(app1_ext n1 n2), ?(app2_ext n1 n2), ?ext_ext. reflexivity.
Qed.
Lemma cmp_fks s : compare_foreign_keys n1 n2 t1 t2 s = Ok (ext n1 n2
   (flat_map (fun k => fk_expected fk_eqb k t1 t2) (names (t_fks t1) (t_fks t2)))
   (flat_map (fun k => fk_expected (flip_eq fk_eqb) k t2 t1) (names (t_fks t1) (t_fks t2))) s).
Proof.
  destruct (wf_fks _ W1) as [D1 K1]. destruct (wf_fks _ W2) as [D2 K2].
  unfold compare_foreign_keys. apply merge_dicts; try assumption; intros n; unfold fk_expected, get_foreign_key in *.
  - intros x s' E1 E2. rewrite E1, E2. cbn [some_or_attr bind]. rewrite (K1 _ _ E1).
    rewrite (app1_ext n1 n2), (app2_ext n1 n2), ext_ext. reflexivity.
  - intros x s' E1 E2. rewrite E1, E2. cbn [some_or_attr bind]. rewrite (K2 _ _ E2).
    rewrite (app1_ext n1 n2), (app2_ext n1 n2), ext_ext. reflexivity.
  - intros x y s' E1 E2. rewrite E1, E2. cbn [some_or_attr bind]. rewrite (K1 _ _ E1), (K2 _ _ E2).
    unfold flip_eq. destruct (fk_eqb x y); cbn [negb]; [rewrite ext_nil; reflexivity|].
    rewrite !(app1_ext n1 n2), !(app2_ext n1 n2), !ext_ext. reflexivity.
Qed.
Lemma cmp_rels s : compare_relationships n1 n2 t1 t2 s = Ok (ext n1 n2
   (flat_map (fun k => rel_expected k t1 t2) (names (t_rels t1) (t_rels t2)))
   (flat_map (fun k => rel_expected k t2 t1) (names (t_rels t1) (t_rels t2))) s).
Proof.
  destruct (wf_rels _ W1) as [D1 K1]. destruct (wf_rels _ W2) as [D2 K2].
  unfold compare_relationships. apply merge_dicts; try assumption; intros n; unfold rel_expected, get_relationship in *.
  - intros x s' E1 E2. rewrite E1, E2. cbn [some_or_attr bind]. rewrite (K1 _ _ E1).
    rewrite (app1_ext n1 n2), (app2_ext n1 n2), ext_ext. reflexivity.
  - intros x s' E1 E2. rewrite E1, E2. cbn [some_or_attr bind]. rewrite (K2 _ _ E2).
    rewrite (app1_ext n1 n2), (app2_ext n1 n2), ext_ext. reflexivity.
  - intros x y s' E1 E2. rewrite E1, E2. cbn [some_or_attr bind]. rewrite (K1 _ _ E1), (K2 _ _ E2), rel_eqb_dec.
    destruct (rel_dec x y) as [->|N]; cbn [negb].
    + destruct (rel_dec y y); [|contradiction]. rewrite ext_nil. reflexivity.
    + destruct (rel_dec y x); [congruence|].
      rewrite !(app1_ext n1 n2), !(app2_ext n1 n2), !ext_ext. reflexivity.
Qed.
Lemma cmp_cols s : compare_columns n1 n2 t1 t2 s = Ok (ext n1 n2
   (flat_map (fun k => column_expected k t1 t2) (names (t_cols t1) (t_cols t2)))
   (flat_map (fun k => column_expected k t2 t1) (names (t_cols t1) (t_cols t2))) s).
Proof.
  destruct (wf_cols _ W1) as [D1 K1]. destruct (wf_cols _ W2) as [D2 K2]. unfold get_column_names in *.
  unfold compare_columns, get_column_names. apply merge_dicts; try assumption; intros n; unfold column_expected, get_column in *.
  - intros x s' E1 E2. rewrite E1, E2. cbn [some_or_attr bind].
    rewrite (app1_ext n1 n2), (app2_ext n1 n2), ext_ext. reflexivity.
  - intros x s' E1 E2. rewrite E1, E2. cbn [some_or_attr bind].
    rewrite (app1_ext n1 n2), (app2_ext n1 n2), ext_ext. reflexivity.
  - intros x y s' E1 E2. rewrite E1, E2. cbn [some_or_attr bind].
    destruct (str_eqb_spec (column_type x) (column_type y)) as [E|N]; cbn [negb].
    + destruct (eq_str (column_type x) (column_type y)); [|contradiction].
      destruct (eq_str (column_type y) (column_type x)); [|congruence]. rewrite ext_nil. reflexivity.
    + destruct (eq_str (column_type x) (column_type y)); [contradiction|].
      destruct (eq_str (column_type y) (column_type x)); [congruence|].
      rewrite !(app1_ext n1 n2), !(app2_ext n1 n2), !ext_ext. reflexivity.
Qed.
Lemma cmp_tables s : compare_tables n1 n2 t1 t2 s
  = Ok (ext n1 n2 (table_changes fk_eqb t1 t2) (table_changes (flip_eq fk_eqb) t2 t1) s).
Proof.
  unfold compare_tables. rewrite cmp_pk, cmp_shard, cmp_fks. cbn [bind]. rewrite cmp_rels. cbn [bind].
  rewrite cmp_cols. rewrite !ext_ext. unfold table_changes.
  rewrite (names_sym (t_fks t2)), (names_sym (t_rels t2)), (names_sym (t_cols t2))
    by first [apply (wf_fks _ W1) | apply (wf_fks _ W2) | apply (wf_rels _ W1) | apply (wf_rels _ W2) | apply (wf_cols _ W1) | apply (wf_cols _ W2)].
  reflexivity.
Qed.
End Tables.

Lemma get_table_wf d n t : well_formed d -> get_table d n = Some t -> well_formed_table t.
Proof. intros W H. apply (wf_tables _ W). apply dvals_in. exists n. apply dget_in, H. Qed.

Theorem compare_refines d1 d2 : well_formed d1 -> well_formed d2 ->
  compare_databases d1 d2 = Ok (tag (db_name d1) (db_changes fk_eqb d1 d2), tag (db_name d2) (db_changes (flip_eq fk_eqb) d2 d1)).
Proof.
  intros W1 W2. unfold compare_databases, get_table_names.
  destruct (wf_names _ W1) as [D1 K1]. destruct (wf_names _ W2) as [D2 K2]. unfold get_table_names in *.
  rewrite (merge_dicts (db_tables d1) (db_tables d2) _ _ _ (db_name d1) (db_name d2)
    (entry_changes fk_eqb d1 d2) (entry_changes (flip_eq fk_eqb) d2 d1)).
  - unfold ext. cbn [fst snd app]. unfold db_changes. rewrite (names_sym (db_tables d2)) by assumption. reflexivity.
  - exact D1.
  - exact D2.
  - intros n x s E1 E2. unfold entry_changes, get_table. rewrite E1, E2. cbn [some_or_attr bind table_expected in_both app].
    rewrite (app1_ext _ (db_name d2)), (app2_ext (db_name d1)), ext_ext. reflexivity.
  - intros n x s E1 E2. unfold entry_changes, get_table. rewrite E1, E2. cbn [some_or_attr bind table_expected in_both app].
    rewrite (app1_ext _ (db_name d2)), (app2_ext (db_name d1)), ext_ext. reflexivity.
  - intros n x y s E1 E2. unfold entry_changes, get_table. rewrite E1, E2. cbn [some_or_attr bind table_expected in_both app].
    apply cmp_tables; [apply (get_table_wf d1 n) | apply (get_table_wf d2 n)]; assumption.
Qed.

(** ** Picking the changes about one object *)
Definition kind (c : change) : nat :=
  match c with
  | TableCreated _ | TableDropped _ => 0
  | PrimaryKeyAdded _ _ | PrimaryKeyDropped _ => 1
  | ShardKeyAdded _ _ _ | ShardKeyDropped _ => 2
  | ForeignKeyAdded _ _ | ForeignKeyDropped _ _ => 3
  | RelationshipAdded _ _ | RelationshipDropped _ _ => 4
  | ColumnAdded _ _ | ColumnDropped _ _ | ColumnModified _ _ => 5
  end.
Definition obj (c : change) : str :=
  match c with
  | ForeignKeyAdded _ f => fk_name f
  | RelationshipAdded _ r => rel_name r
  | ForeignKeyDropped _ k | RelationshipDropped _ k => k
  | ColumnAdded _ c | ColumnDropped _ c | ColumnModified _ c => column_name c
  | _ => []
  end.
Definition tname (c : change) : str := t_name (change_table c).
(** the changes of one kind about one table, or about one object of it *)
Definition pick (n : str) (kd : nat) (k : option str) (c : change) : bool :=
  str_eqb (tname c) n && Nat.eqb (kind c) kd && match k with Some k => str_eqb (obj c) k | None => true end.
Lemma pick_true n kd k c : pick n kd k c = true <-> tname c = n /\ kind c = kd /\ (forall x, k = Some x -> obj c = x).
Proof.
  unfold pick. rewrite !andb_true_iff, str_eqb_eq, Nat.eqb_eq. destruct k as [x|].
  - rewrite str_eqb_eq. split; [intros [[? ?] ?]; repeat split; auto; intros y [= <-]; assumption|].
    intros (? & ? & H). repeat split; auto.
  - split; [intros [[? ?] _]; repeat split; auto; discriminate | intros (? & ? & _); auto].
Qed.
Ltac pick_tac := intros c; unfold pick, tname; destruct c; cbn [change_table kind obj Nat.eqb];
  rewrite ?andb_true_r, ?andb_false_r; cbn [andb]; reflexivity.
Lemma about_table_pick n : forall c, about_table n c = pick n 0 None c. Proof. pick_tac. Qed.
Lemma about_pk_pick n : forall c, about_pk n c = pick n 1 None c. Proof. pick_tac. Qed.
Lemma about_shard_pick n : forall c, about_shard n c = pick n 2 None c. Proof. pick_tac. Qed.
Lemma about_fk_pick n k : forall c, about_fk n k c = pick n 3 (Some k) c. Proof. pick_tac. Qed.
Lemma about_rel_pick n k : forall c, about_rel n k c = pick n 4 (Some k) c. Proof. pick_tac. Qed.
Lemma about_column_pick n k : forall c, about_column n k c = pick n 5 (Some k) c. Proof. pick_tac. Qed.

Lemma filter_none {A} (p : A -> bool) l : (forall c, In c l -> p c = false) -> filter p l = [].
Proof.
  induction l as [|a l IH]; intros H; [reflexivity|]. cbn [filter]. rewrite H by (left; reflexivity).
  apply IH. intros. apply H. right. assumption.
Qed.
Lemma filter_all {A} (p : A -> bool) l : (forall c, In c l -> p c = true) -> filter p l = l.
Proof.
  induction l as [|a l IH]; intros H; [reflexivity|]. cbn [filter]. rewrite H by (left; reflexivity).
  f_equal. apply IH. intros. apply H. right. assumption.
Qed.
Lemma filter_flat_map {A} (p : A -> bool) (f : str -> list A) l n : NoDup l ->
  (forall m, m <> n -> filter p (f m) = []) -> (~ In n l -> filter p (f n) = []) ->
  filter p (flat_map f l) = filter p (f n).
Proof.
  intros Hn Ho Hi.
  assert (H0 : forall l, ~ In n l -> filter p (flat_map f l) = []).
  { clear -Ho. induction l as [|a l IH]; intros Hni; [reflexivity|]. cbn [flat_map]. rewrite filter_app, Ho, IH; [reflexivity | |].
    - intros H. apply Hni. right. exact H.
    - intros ->. apply Hni. left. reflexivity. }
  destruct (in_dec eq_str n l) as [Hin|Hni]; [|rewrite H0, Hi by assumption; reflexivity].
  clear Hi. induction Hn as [|a l Ha Hn IH]; [destruct Hin|]. cbn [flat_map]. rewrite filter_app.
  destruct (eq_str a n) as [->|N].
  - rewrite H0 by exact Ha. apply app_nil_r.
  - rewrite Ho by exact N. cbn [app]. apply IH. destruct Hin as [->|Hin]; [contradiction | exact Hin].
Qed.

(** what the parts contain *)
Section Parts.
Variables t1 t2 : table.
Lemma in_pk_expected c : In c (pk_expected t1 t2) -> change_table c = t1 /\ kind c = 1.
Proof.
  unfold pk_expected. destruct (list_eq_dec _ _ _); [intros []|]. rewrite in_app_iff.
  destruct (t_pk t1), (t_pk t2); cbn [In]; intros [H|H]; repeat destruct H as [<-|H]; try destruct H; split; reflexivity.
Qed.
Lemma in_shard_expected c : In c (shard_expected t1 t2) -> change_table c = t1 /\ kind c = 2.
Proof.
  unfold shard_expected. destruct (t_shard t1), (t_shard t2); try destruct (Nat.eq_dec _ _); cbn [In];
    intros H; repeat destruct H as [<-|H]; try destruct H; split; reflexivity.
Qed.
Hypothesis W1 : well_formed_table t1.
Hypothesis W2 : well_formed_table t2.
Lemma in_fk_expected al k c : In c (fk_expected al k t1 t2) -> change_table c = t1 /\ kind c = 3 /\ obj c = k.
Proof.
  unfold fk_expected. destruct (get_foreign_key t1 k) eqn:E1, (get_foreign_key t2 k) eqn:E2; try destruct (al _ _); cbn [In];
    intros H; repeat destruct H as [<-|H]; try destruct H; repeat split; try reflexivity; apply (wf_fks _ W2), E2.
Qed.
Lemma in_rel_expected k c : In c (rel_expected k t1 t2) -> change_table c = t1 /\ kind c = 4 /\ obj c = k.
Proof.
  unfold rel_expected. destruct (get_relationship t1 k) eqn:E1, (get_relationship t2 k) eqn:E2; try destruct (rel_dec _ _); cbn [In];
    intros H; repeat destruct H as [<-|H]; try destruct H; repeat split; try reflexivity; apply (wf_rels _ W2), E2.
Qed.
Lemma in_column_expected k c : In c (column_expected k t1 t2) -> change_table c = t1 /\ kind c = 5 /\ obj c = k.
Proof.
  unfold column_expected. destruct (get_column t1 k) eqn:E1, (get_column t2 k) eqn:E2; try destruct (eq_str _ _); cbn [In];
    intros H; repeat destruct H as [<-|H]; try destruct H; repeat split; try reflexivity;
    first [apply (wf_cols _ W2), E2 | apply (wf_cols _ W1), E1].
Qed.
Lemma in_table_changes al c : In c (table_changes al t1 t2) -> change_table c = t1 /\ kind c <> 0.
Proof.
  unfold table_changes. rewrite !in_app_iff, !in_flat_map. intros [H|[H|[H|[H|H]]]].
  - apply in_pk_expected in H. destruct H as [-> ->]. split; [reflexivity | discriminate].
  - apply in_shard_expected in H. destruct H as [-> ->]. split; [reflexivity | discriminate].
  - destruct H as [k [_ H]]. apply in_fk_expected in H. destruct H as (-> & -> & _). split; [reflexivity | discriminate].
  - destruct H as [k [_ H]]. apply in_rel_expected in H. destruct H as (-> & -> & _). split; [reflexivity | discriminate].
  - destruct H as [k [_ H]]. apply in_column_expected in H. destruct H as (-> & -> & _). split; [reflexivity | discriminate].
Qed.

Lemma pick_wrong_kind n kd o l : (forall c, In c l -> kind c <> kd) -> filter (pick n kd o) l = [].
Proof using.
  intros H. apply filter_none. intros c Hc. destruct (pick n kd o c) eqn:E; [|reflexivity].
  apply pick_true in E. destruct E as (_ & E & _). apply H in Hc. contradiction.
Qed.
Lemma fks_kind al c l : In c (flat_map (fun k => fk_expected al k t1 t2) l) -> kind c = 3.
Proof. rewrite in_flat_map. intros [k [_ H]]. apply in_fk_expected in H. tauto. Qed.
Lemma rels_kind c l : In c (flat_map (fun k => rel_expected k t1 t2) l) -> kind c = 4.
Proof. rewrite in_flat_map. intros [k [_ H]]. apply in_rel_expected in H. tauto. Qed.
Lemma cols_kind c l : In c (flat_map (fun k => column_expected k t1 t2) l) -> kind c = 5.
Proof. rewrite in_flat_map. intros [k [_ H]]. apply in_column_expected in H. tauto. Qed.

Ltac wrong := rewrite pick_wrong_kind by
  (let c := fresh "c" in let H := fresh "H" in let E := fresh "E" in
   intros c H E; first [apply in_pk_expected, proj2 in H | apply in_shard_expected, proj2 in H | apply fks_kind in H | apply rels_kind in H | apply cols_kind in H];
   congruence).

Lemma pick_pk al : filter (pick (t_name t1) 1 None) (table_changes al t1 t2) = pk_expected t1 t2.
Proof.
  unfold table_changes. rewrite !filter_app. rewrite filter_all.
  2:{ intros c H. apply in_pk_expected in H. destruct H as [H1 H2]. apply pick_true. unfold tname. rewrite H1. repeat split; [exact H2 | discriminate]. }
  do 4 wrong. apply app_nil_r.
Qed.
Lemma pick_shard al : filter (pick (t_name t1) 2 None) (table_changes al t1 t2) = shard_expected t1 t2.
Proof.
  unfold table_changes. rewrite !filter_app. rewrite (filter_all _ (shard_expected t1 t2)).
  2:{ intros c H. apply in_shard_expected in H. destruct H as [H1 H2]. apply pick_true. unfold tname. rewrite H1. repeat split; [exact H2 | discriminate]. }
  do 4 wrong. apply app_nil_r.
Qed.
Lemma pick_fk al k : filter (pick (t_name t1) 3 (Some k)) (table_changes al t1 t2) = fk_expected al k t1 t2.
Proof.
  unfold table_changes. rewrite !filter_app. rewrite (filter_flat_map _ _ _ k).
  - rewrite (filter_all _ (fk_expected al k t1 t2)).
    + do 4 wrong. apply app_nil_r.
    + intros c H. apply in_fk_expected in H. destruct H as (H1 & H2 & H3). apply pick_true. unfold tname. rewrite H1, H3. repeat split; [exact H2 | intros x [= ->]; reflexivity].
  - apply names_nodup; [apply (wf_fks _ W1) | apply (wf_fks _ W2)].
  - intros m Hm. apply filter_none. intros c H. apply in_fk_expected in H. destruct H as (_ & _ & H).
    destruct (pick _ _ _ c) eqn:E; [|reflexivity]. apply pick_true in E. destruct E as (_ & _ & E). specialize (E k eq_refl). congruence.
  - rewrite names_in. intros H. unfold fk_expected, get_foreign_key.
    destruct (dget k (t_fks t1)); [destruct H; left; discriminate|]. destruct (dget k (t_fks t2)); [destruct H; right; discriminate|]. reflexivity.
Qed.
Lemma pick_rel al k : filter (pick (t_name t1) 4 (Some k)) (table_changes al t1 t2) = rel_expected k t1 t2.
Proof.
  unfold table_changes. rewrite !filter_app. rewrite (filter_flat_map _ (fun k => rel_expected k t1 t2) _ k).
  - rewrite (filter_all _ (rel_expected k t1 t2)).
    + do 4 wrong. apply app_nil_r.
    + intros c H. apply in_rel_expected in H. destruct H as (H1 & H2 & H3). apply pick_true. unfold tname. rewrite H1, H3. repeat split; [exact H2 | intros x [= ->]; reflexivity].
  - apply names_nodup; [apply (wf_rels _ W1) | apply (wf_rels _ W2)].
  - intros m Hm. apply filter_none. intros c H. apply in_rel_expected in H. destruct H as (_ & _ & H).
    destruct (pick _ _ _ c) eqn:E; [|reflexivity]. apply pick_true in E. destruct E as (_ & _ & E). specialize (E k eq_refl). congruence.
  - rewrite names_in. intros H. unfold rel_expected, get_relationship.
    destruct (dget k (t_rels t1)); [destruct H; left; discriminate|]. destruct (dget k (t_rels t2)); [destruct H; right; discriminate|]. reflexivity.
Qed.
Lemma pick_column al k : filter (pick (t_name t1) 5 (Some k)) (table_changes al t1 t2) = column_expected k t1 t2.
Proof.
  unfold table_changes. rewrite !filter_app. rewrite (filter_flat_map _ (fun k => column_expected k t1 t2) _ k).
  - rewrite (filter_all _ (column_expected k t1 t2)).
    + do 4 wrong. reflexivity.
    + intros c H. apply in_column_expected in H. destruct H as (H1 & H2 & H3). apply pick_true. unfold tname. rewrite H1, H3. repeat split; [exact H2 | intros x [= ->]; reflexivity].
  - apply names_nodup; [apply (wf_cols _ W1) | apply (wf_cols _ W2)].
  - intros m Hm. apply filter_none. intros c H. apply in_column_expected in H. destruct H as (_ & _ & H).
    destruct (pick _ _ _ c) eqn:E; [|reflexivity]. apply pick_true in E. destruct E as (_ & _ & E). specialize (E k eq_refl). congruence.
  - rewrite names_in. intros H. unfold column_expected, get_column.
    destruct (dget k (t_cols t1)); [destruct H; left; discriminate|]. destruct (dget k (t_cols t2)); [destruct H; right; discriminate|]. reflexivity.
Qed.
End Parts.

Section Dbs.
Variables d1 d2 : database.
Hypothesis W1 : well_formed d1.
Hypothesis W2 : well_formed d2.
Variable al : foreign_key -> foreign_key -> bool.

Lemma entry_tname n c : In c (entry_changes al d1 d2 n) -> tname c = n.
Proof.
  unfold entry_changes. rewrite in_app_iff. unfold tname.
  destruct (get_table d1 n) as [t1|] eqn:E1, (get_table d2 n) as [t2|] eqn:E2; cbn [table_expected in_both In];
    intros [H|H]; try (destruct H as [<-|[]]; cbn [change_table]; first [apply (wf_names _ W1), E1 | apply (wf_names _ W2), E2]);
    try destruct H.
  apply in_table_changes in H; [|apply (get_table_wf d1 n); assumption | apply (get_table_wf d2 n); assumption].
  destruct H as [-> _]. apply (wf_names _ W1), E1.
Qed.
(** all changes about one table name *)
Lemma pick_name p n : (forall c, p c = true -> tname c = n) ->
  filter p (db_changes al d1 d2) = filter p (entry_changes al d1 d2 n).
Proof.
  intros Hp. unfold db_changes. apply filter_flat_map.
  - apply names_nodup; [apply (wf_names _ W1) | apply (wf_names _ W2)].
  - intros m Hm. apply filter_none. intros c H. apply entry_tname in H. destruct (p c) eqn:E; [|reflexivity].
    apply Hp in E. congruence.
  - rewrite names_in. intros H. unfold entry_changes, get_table.
    destruct (dget n (db_tables d1)); [destruct H; left; discriminate|]. destruct (dget n (db_tables d2)); [destruct H; right; discriminate|]. reflexivity.
Qed.
Lemma pick_entry n kd o : filter (pick n kd o) (db_changes al d1 d2) = filter (pick n kd o) (entry_changes al d1 d2 n).
Proof. apply pick_name. intros c H. apply pick_true in H. tauto. Qed.

Lemma pick_table n : filter (pick n 0 None) (db_changes al d1 d2) = table_expected (get_table d1 n) (get_table d2 n).
Proof.
  rewrite pick_entry. unfold entry_changes. rewrite filter_app.
  destruct (get_table d1 n) as [t1|] eqn:E1, (get_table d2 n) as [t2|] eqn:E2; cbn [table_expected in_both filter app]; try reflexivity.
  - apply pick_wrong_kind. intros c H. apply in_table_changes in H; [tauto | apply (get_table_wf d1 n); assumption | apply (get_table_wf d2 n); assumption].
  - apply (wf_names _ W1) in E1. unfold pick, tname. cbn [change_table kind Nat.eqb andb]. rewrite E1, str_eqb_refl. reflexivity.
  - apply (wf_names _ W2) in E2. unfold pick, tname. cbn [change_table kind Nat.eqb andb]. rewrite E2, str_eqb_refl. reflexivity.
Qed.
Lemma pick_in_both n kd o (e : table -> table -> list change) : kd <> 0 ->
  (forall t1 t2, well_formed_table t1 -> well_formed_table t2 -> t_name t1 = n -> filter (pick n kd o) (table_changes al t1 t2) = e t1 t2) ->
  filter (pick n kd o) (db_changes al d1 d2) = in_both (get_table d1 n) (get_table d2 n) e.
Proof.
  intros Hk He. rewrite pick_entry. unfold entry_changes. rewrite filter_app.
  rewrite pick_wrong_kind.
  2:{ intros c H Hc. apply Hk. rewrite <- Hc. destruct (get_table d1 n), (get_table d2 n); cbn [table_expected In] in H; try destruct H as [<-|[]]; try destruct H; reflexivity. }
  cbn [app]. destruct (get_table d1 n) as [t1|] eqn:E1, (get_table d2 n) as [t2|] eqn:E2; cbn [in_both filter]; try reflexivity.
  apply He; [apply (get_table_wf d1 n); assumption | apply (get_table_wf d2 n); assumption | apply (wf_names _ W1), E1].
Qed.
Lemma db_pk n : filter (about_pk n) (db_changes al d1 d2) = in_both (get_table d1 n) (get_table d2 n) pk_expected.
Proof. rewrite (filter_ext _ _ (about_pk_pick n)). apply pick_in_both; [discriminate|]. intros. subst n. apply pick_pk; assumption. Qed.
Lemma db_shard n : filter (about_shard n) (db_changes al d1 d2) = in_both (get_table d1 n) (get_table d2 n) shard_expected.
Proof. rewrite (filter_ext _ _ (about_shard_pick n)). apply pick_in_both; [discriminate|]. intros. subst n. apply pick_shard; assumption. Qed.
Lemma db_fk n k : filter (about_fk n k) (db_changes al d1 d2) = in_both (get_table d1 n) (get_table d2 n) (fk_expected al k).
Proof. rewrite (filter_ext _ _ (about_fk_pick n k)). apply pick_in_both; [discriminate|]. intros. subst n. apply pick_fk; assumption. Qed.
Lemma db_rel n k : filter (about_rel n k) (db_changes al d1 d2) = in_both (get_table d1 n) (get_table d2 n) (rel_expected k).
Proof. rewrite (filter_ext _ _ (about_rel_pick n k)). apply pick_in_both; [discriminate|]. intros. subst n. apply pick_rel; assumption. Qed.
Lemma db_column n k : filter (about_column n k) (db_changes al d1 d2) = in_both (get_table d1 n) (get_table d2 n) (column_expected k).
Proof. rewrite (filter_ext _ _ (about_column_pick n k)). apply pick_in_both; [discriminate|]. intros. subst n. apply pick_column; assumption. Qed.
Lemma db_table n : filter (about_table n) (db_changes al d1 d2) = table_expected (get_table d1 n) (get_table d2 n).
Proof. rewrite (filter_ext _ _ (about_table_pick n)). apply pick_table. Qed.
End Dbs.
