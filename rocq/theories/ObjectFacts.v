(** * Lemmas about objects (for C110) *)
From Verif Require Import SpecObjects StrFacts RenumFacts.
From Coq Require Import Lia.

Definition inner (h : heap) (r : nat) : Prop := exists l, mem h r = OList false l.
(** what an object refers to exists, is of the right kind, and its lists are not the client's *)
Definition obj_ok (h : heap) (x : obj) : Prop :=
  match x with
  | Nothing | OList _ _ => True
  | OShard s => inner h (so_keys s)
  | OFk f => inner h (fo_from_keys f) /\ inner h (fo_to_keys f)
  | OTable o => inner h (ob_pk o) /\ match ob_shard o with Some s => is_shard h s | None => True end /\ Forall (fun x => is_fk h (snd x)) (ob_fks o)
  | OBase b => NoDup (dkeys (bo_tables b)) /\ Forall (fun x => exists o, mem h (snd x) = OTable o /\ ob_name o = fst x) (bo_tables b)
  end.
Definition sound (h : heap) : Prop := (forall r, next h <= r -> mem h r = Nothing) /\ forall r, obj_ok h (mem h r).
Definition evolves (h h' : heap) : Prop :=
  forall r, match mem h r with
            | Nothing => True
            | OList true _ => exists l, mem h' r = OList true l
            | OTable o => exists o', mem h' r = OTable o' /\ ob_name o' = ob_name o /\ ob_schema o' = ob_schema o
            | OBase _ => exists b, mem h' r = OBase b
            | x => mem h' r = x
            end.
Definition extends (h h' : heap) : Prop := forall r, mem h r <> Nothing -> mem h' r = mem h r.

Lemma extends_refl h : extends h h.
Proof. intros r _. reflexivity. Qed.
Lemma extends_trans a b c : extends a b -> extends b c -> extends a c.
Proof. intros X Y r N. rewrite <- (X r N). apply Y. rewrite (X r N). exact N. Qed.
Lemma extends_evolves h h' : extends h h' -> evolves h h'.
Proof.
  intros X r. specialize (X r). destruct (mem h r) as [|[] l|s|f|o|b] eqn:E; try (apply X; discriminate).
  - exact I.
  - exists l. apply X. discriminate.
  - exists o. rewrite X by discriminate. auto.
  - exists b. apply X. discriminate.
Qed.
Lemma evolves_trans a b c : evolves a b -> evolves b c -> evolves a c.
Proof.
  intros X Y r. specialize (X r). specialize (Y r). destruct (mem a r) as [|[] l|s|f|o|b0].
  - exact I.
  - destruct X as [l' E]. rewrite E in Y. exact Y.
  - rewrite X in Y. exact Y.
  - rewrite X in Y. exact Y.
  - rewrite X in Y. exact Y.
  - destruct X as (o' & E & N & S). rewrite E in Y. destruct Y as (o2 & E2 & N2 & S2). exists o2. split; [exact E2|]. split; congruence.
  - destruct X as [b' E]. rewrite E in Y. exact Y.
Qed.

Section Evolve.
Variables h h' : heap.
Hypothesis V : evolves h h'.
Lemma inner_evolves r : inner h r -> inner h' r.
Proof. intros [l E]. specialize (V r). rewrite E in V. exists l. exact V. Qed.
Lemma inner_list r : inner h r -> list_of h' r = list_of h r.
Proof. intros [l E]. specialize (V r). unfold list_of. rewrite E in *. rewrite V. reflexivity. Qed.
Lemma shard_evolves r : is_shard h r -> is_shard h' r.
Proof. intros [l E]. specialize (V r). rewrite E in V. exists l. exact V. Qed.
Lemma fk_evolves r : is_fk h r -> is_fk h' r.
Proof. intros [l E]. specialize (V r). rewrite E in V. exists l. exact V. Qed.
Lemma tab_evolves r : is_tab h r -> is_tab h' r.
Proof. intros [l E]. specialize (V r). rewrite E in V. destruct V as (o' & E' & _). exists o'. exact E'. Qed.
Lemma base_evolves r : is_base h r -> is_base h' r.
Proof. intros [l E]. specialize (V r). rewrite E in V. exact V. Qed.
Lemma obj_evolves x : obj_ok h x -> obj_ok h' x.
Proof.
  destruct x as [|m l|s|f|o|b]; cbn [obj_ok].
  - auto.
  - auto.
  - apply inner_evolves.
  - intros [A B]. split; apply inner_evolves; assumption.
  - intros (A & B & C). split; [apply inner_evolves, A|]. split.
    + destruct (ob_shard o); [apply shard_evolves, B | exact I].
    + eapply Forall_impl; [|exact C]. intros x. apply fk_evolves.
  - intros [A B]. split; [exact A|]. eapply Forall_impl; [|exact B]. intros x (o & E & N). pose proof (V (snd x)) as W. rewrite E in W.
    destruct W as (o' & E' & N' & _). exists o'. split; [exact E' | congruence].
Qed.
Hypothesis S : sound h.
Lemma shard_same r : is_shard h r -> shard_of h' r = shard_of h r.
Proof.
  intros [s E]. pose proof (V r) as W. pose proof (proj2 S r) as K. unfold shard_of. rewrite E in *. rewrite W. cbn [obj_ok] in K.
  rewrite (inner_list _ K). reflexivity.
Qed.
Lemma fk_same r : is_fk h r -> fk_of h' r = fk_of h r.
Proof.
  intros [s E]. pose proof (V r) as W. pose proof (proj2 S r) as K. unfold fk_of. rewrite E in *. rewrite W. cbn [obj_ok] in K. destruct K as [K1 K2].
  rewrite (inner_list _ K1), (inner_list _ K2). reflexivity.
Qed.
Lemma shown_same o : obj_ok h (OTable o) -> shown h' o = shown h o.
Proof.
  cbn [obj_ok]. intros (A & B & C). unfold shown. rewrite (inner_list _ A). f_equal.
  - destruct (ob_shard o); [apply shard_same, B | reflexivity].
  - apply map_ext_in. intros x I. f_equal. apply fk_same. rewrite Forall_forall in C. exact (C x I).
Qed.
Lemma table_same t : is_tab h t -> mem h' t = mem h t -> table_of h' t = table_of h t.
Proof. intros [o E] M. unfold table_of. rewrite M, E. apply shown_same. rewrite <- E. apply (proj2 S). Qed.
End Evolve.

Lemma live h r : sound h -> mem h r <> Nothing -> r < next h.
Proof. intros [F _] N. destruct (Nat.lt_ge_cases r (next h)) as [L|G]; [exact L | exfalso; apply N, F, G]. Qed.
Lemma alloc_extends o h : sound h -> extends h (snd (alloc o h)).
Proof.
  intros S r N. cbn. destruct (Nat.eqb_spec r (next h)) as [->|]; [|reflexivity]. exfalso. apply N, (proj1 S). lia.
Qed.
Lemma alloc_at o h : mem (snd (alloc o h)) (fst (alloc o h)) = o.
Proof. cbn. rewrite Nat.eqb_refl. reflexivity. Qed.
Lemma alloc_sound o h : sound h -> obj_ok h o -> sound (snd (alloc o h)).
Proof.
  intros S K. pose proof (extends_evolves _ _ (alloc_extends o h S)) as V. split.
  - intros r L. cbn in *. destruct (Nat.eqb_spec r (next h)); [lia|]. apply (proj1 S). lia.
  - intros r. apply (obj_evolves _ _ V). cbn. destruct (Nat.eqb r (next h)); [exact K | apply (proj2 S)].
Qed.
Lemma store_sound r x h : sound h -> mem h r <> Nothing -> evolves h (store r x h) -> obj_ok h x -> sound (store r x h).
Proof.
  intros S N V K. split.
  - intros y L. cbn in *. destruct (Nat.eqb_spec y r) as [->|]; [|apply (proj1 S), L]. exfalso. pose proof (live h r S N). lia.
  - intros y. apply (obj_evolves _ _ V). cbn. destruct (Nat.eqb y r); [exact K | apply (proj2 S)].
Qed.
Lemma store_evolves r x h :
  match mem h r, x with
  | OList true _, OList true _ => True
  | OTable o, OTable o' => ob_name o' = ob_name o /\ ob_schema o' = ob_schema o
  | OBase _, OBase _ => True
  | _, _ => False
  end -> evolves h (store r x h).
Proof.
  intros K y. cbn. destruct (Nat.eqb_spec y r) as [->|].
  - destruct (mem h r) as [|[] l|s|f|o|b], x as [|[] l'|s'|f'|o'|b']; try contradiction; eauto.
  - destruct (mem h y) as [|[] l|s|f|o|b]; eauto.
Qed.
Lemma store_at r x h : mem (store r x h) r = x.
Proof. cbn. rewrite Nat.eqb_refl. reflexivity. Qed.
Lemma store_else r x h y : y <> r -> mem (store r x h) y = mem h y.
Proof. intros N. cbn. destruct (Nat.eqb_spec y r); congruence. Qed.

(** ** Constructors *)
Definition news (h : heap) (r : nat) (h' : heap) (x : obj) : Prop := sound h' /\ extends h h' /\ mem h' r = x /\ mem h r = Nothing.
Lemma alloc_news o h : sound h -> obj_ok h o -> news h (fst (alloc o h)) (snd (alloc o h)) o.
Proof.
  intros S K. split; [apply alloc_sound; assumption|]. split; [apply alloc_extends, S|]. split; [apply alloc_at|]. apply (proj1 S). cbn. lia.
Qed.
Lemma copied_news k h : sound h -> news h (fst (copied k h)) (snd (copied k h)) (OList false (names_of h k)).
Proof. intros S. apply alloc_news; [exact S | exact I]. Qed.
Lemma names_value h k : keys_list (keys_value h k) = names_of h k.
Proof. destruct k; reflexivity. Qed.
Lemma names_extends h h' k : extends h h' -> fit_keys h (Some k) -> names_of h' k = names_of h k.
Proof. intros X F. destruct k as [s|r]; [reflexivity|]. destruct F as (m & l & E). cbn. unfold list_of. rewrite X; [reflexivity | rewrite E; discriminate]. Qed.

Lemma new_fk_spec ft fk tb tk n h : sound h -> fit_keys h fk -> fit_keys h tk ->
  sound (snd (new_fk ft fk tb tk n h)) /\ extends h (snd (new_fk ft fk tb tk n h)) /\
  match fst (new_fk ft fk tb tk n h), mk_foreign_key ft (option_map (keys_value h) fk) tb (option_map (keys_value h) tk) n with
  | Ok f, Ok v => is_fk (snd (new_fk ft fk tb tk n h)) f /\ fk_of (snd (new_fk ft fk tb tk n h)) f = v
  | Err e, Err e' => e = e'
  | _, _ => False
  end.
Proof.
  intros S F1 F2. destruct ft as [ft|], fk as [fk|], tb as [tb|], tk as [tk|]; try (cbn; repeat split; solve [apply S | apply extends_refl]).
  unfold new_fk, mk_foreign_key. cbn [option_map]. rewrite !names_value.
  pose proof (copied_news fk h S) as C1. destruct (copied fk h) as [l1 h1]. cbn [fst snd] in C1. destruct C1 as (S1 & X1 & M1 & _).
  pose proof (copied_news tk h1 S1) as C2. destruct (copied tk h1) as [l2 h2]. cbn [fst snd] in C2. destruct C2 as (S2 & X2 & M2 & _).
  assert (M1' : mem h2 l1 = OList false (names_of h fk)) by (rewrite X2; [exact M1 | rewrite M1; discriminate]).
  rewrite (names_extends h h1 tk X1 F2) in M2.
  replace (list_of h2 l1) with (names_of h fk) by (unfold list_of; rewrite M1'; reflexivity).
  replace (list_of h2 l2) with (names_of h tk) by (unfold list_of; rewrite M2; reflexivity).
  destruct (Nat.eqb _ _); cbn [negb].
  - match goal with |- context [alloc (OFk ?o) h2] => pose proof (alloc_news (OFk o) h2 S2) as C3; destruct (alloc (OFk o) h2) as [f h3] eqn:E3 end.
    cbn [fst snd] in *. destruct C3 as (S3 & X3 & M3 & _); [split; eexists; eassumption|].
    split; [exact S3|]. split; [exact (extends_trans _ _ _ X1 (extends_trans _ _ _ X2 X3))|].
    split; [eexists; exact M3|]. unfold fk_of. rewrite M3. cbn [fo_name fo_from fo_to fo_from_keys fo_to_keys]. unfold list_of.
    rewrite (X3 l1), (X3 l2) by (rewrite ?M1', ?M2; discriminate). rewrite M1', M2. reflexivity.
  - cbn [fst snd]. split; [exact S2|]. split; [exact (extends_trans _ _ _ X1 X2) | reflexivity].
Qed.

(** ** Calls on a table *)
Lemma put_columns_shown cs : forall h o, shown h (fold_left put_column cs o) = add_columns (shown h o) cs /\ ob_name (fold_left put_column cs o) = ob_name o
  /\ ob_schema (fold_left put_column cs o) = ob_schema o /\ (obj_ok h (OTable o) -> obj_ok h (OTable (fold_left put_column cs o))).
Proof.
  induction cs as [|c cs IH]; intros h o; [cbn; auto|]. cbn [fold_left]. unfold add_columns in *. cbn [fold_left].
  destruct (IH h (put_column o c)) as (A & B & C & D). rewrite A, B, C. split; [reflexivity|]. split; [reflexivity|]. split; [reflexivity|]. intros K. apply D, K.
Qed.

Definition table_step (h h' : heap) (t : nat) (v : table) : Prop :=
  sound h' /\ evolves h h' /\ (forall r, r <> t -> mem h r <> Nothing -> mem h' r = mem h r) /\ table_of h' t = v.
Lemma step_store h h1 t o o' v : sound h -> sound h1 -> extends h h1 -> mem h t = OTable o -> ob_name o' = ob_name o -> ob_schema o' = ob_schema o ->
  obj_ok h1 (OTable o') -> shown h1 o' = v -> table_step h (store t (OTable o') h1) t v.
Proof.
  intros S S1 X E N C K W. assert (E1 : mem h1 t = OTable o) by (rewrite X; [exact E | rewrite E; discriminate]).
  assert (V1 : evolves h1 (store t (OTable o') h1)) by (apply store_evolves; rewrite E1; split; assumption).
  split; [apply store_sound; [exact S1 | rewrite E1; discriminate | exact V1 | exact K]|].
  split; [exact (evolves_trans _ _ _ (extends_evolves _ _ X) V1)|]. split.
  - intros r D L. rewrite store_else by exact D. apply X, L.
  - unfold table_of. rewrite store_at. rewrite (shown_same _ _ V1 S1 o' K). exact W.
Qed.
Lemma step_none h h1 t o v : sound h -> sound h1 -> extends h h1 -> mem h t = OTable o -> shown h o = v -> table_step h h1 t v.
Proof.
  intros S S1 X E W. split; [exact S1|]. split; [exact (extends_evolves _ _ X)|]. split; [intros r _; apply X|].
  rewrite (table_same _ _ (extends_evolves _ _ X) S t (ex_intro _ o E)); [unfold table_of; rewrite E; exact W | apply X; rewrite E; discriminate].
Qed.
Lemma Forall_dset {A} (P : str * A -> Prop) k v (d : dict A) : (forall k', P (k', v)) -> Forall P d -> Forall P (dset k v d).
Proof.
  intros H. induction 1 as [|[k' v'] d Hx Hd IH]; cbn [dset].
  - constructor; [apply H | constructor].
  - destruct (str_eqb k k'); constructor; auto.
Qed.
Lemma step_fk h h1 t o f : sound h -> sound h1 -> extends h h1 -> mem h t = OTable o -> is_fk h1 f ->
  table_step h (match mem h1 f with OFk x => store t (OTable (set_fks o (dset (fo_name x) f (ob_fks o)))) h1 | _ => h1 end) t (add_fk_obj (shown h o) (fk_of h1 f)).
Proof.
  intros S S1 X E (x & F). rewrite F. pose proof (extends_evolves _ _ X) as V.
  pose proof (proj2 S t) as K. rewrite E in K. pose proof (obj_evolves _ _ V _ K) as K1. cbn [obj_ok] in K1. destruct K1 as (K1 & K2 & K3).
  eapply step_store with (o := o); try assumption; try reflexivity.
  - cbn [obj_ok ob_pk ob_shard ob_fks set_fks]. split; [exact K1|]. split; [exact K2|].
    apply Forall_dset; [|exact K3]. intros k'. exists x. exact F.
  - rewrite <- (shown_same _ _ V S o K). unfold shown, add_fk_obj, with_fks, set_fks. cbn [t_name t_schema t_pk t_shard t_cols t_fks t_rels ob_name ob_schema ob_pk ob_shard ob_cols ob_fks ob_rels].
    f_equal. replace (fk_name (fk_of h1 f)) with (fo_name x) by (unfold fk_of; rewrite F; reflexivity). symmetry. apply dset_map.
Qed.

Lemma call_table_step h t o c : sound h -> mem h t = OTable o -> fit_table_call h c -> table_step h (call_table t o c h) t (table_after h c (shown h o)).
Proof.
  intros S E F. pose proof (proj2 S t) as K. rewrite E in K.
  destruct c as [c|cs|n|k|s|f|fk tb tk n|r|tb n c]; cbn [call_table table_after].
  - eapply step_store with (o := o); try eassumption; try reflexivity. apply extends_refl.
  - destruct (put_columns_shown cs h o) as (A & B & C & D). eapply step_store with (o := o); try eassumption; [apply extends_refl | apply D, K].
  - eapply step_store with (o := o); try eassumption; try reflexivity. apply extends_refl.
  - destruct k as [k|]; [|eapply step_none; try eassumption; [apply extends_refl | reflexivity]].
    pose proof (copied_news k h S) as C. destruct (copied k h) as [l h1]. cbn [fst snd] in C. destruct C as (S1 & X & M & _).
    pose proof (obj_evolves _ _ (extends_evolves _ _ X) _ K) as K1. destruct K1 as (K1 & K2 & K3).
    eapply step_store with (o := o); try eassumption; try reflexivity.
    + split; [eexists; exact M|]. split; [exact K2 | exact K3].
    + cbn [option_map set_primary_key or_same]. rewrite names_value. rewrite <- (shown_same _ _ (extends_evolves _ _ X) S o K).
      unfold shown, with_pk, set_pk. cbn [t_name t_schema t_pk t_shard t_cols t_fks t_rels ob_name ob_schema ob_pk ob_shard ob_cols ob_fks ob_rels].
      unfold list_of at 1. rewrite M. reflexivity.
  - eapply step_store with (o := o); try eassumption; try reflexivity; [apply extends_refl|].
    destruct K as (K1 & K2 & K3). split; [exact K1|]. split; [|exact K3]. cbn [set_shard ob_shard]. destruct s; [exact F | exact I].
  - apply (step_fk h h t o f S S (extends_refl h) E F).
  - destruct F as [F1 F2]. pose proof (new_fk_spec (Some (ob_name o)) fk tb tk n h S F1 F2) as N.
    unfold add_fk_parts. change (t_name (shown h o)) with (ob_name o).
    destruct (new_fk _ _ _ _ _ _) as [[f|e] h1]; cbn [fst snd] in N; destruct N as (S1 & X & N).
    + destruct (mk_foreign_key _ _ _ _ _) as [v|]; [|contradiction]. destruct N as [N <-]. cbn [or_same]. apply (step_fk h h1 t o f S S1 X E N).
    + destruct (mk_foreign_key _ _ _ _ _) as [v|]; [contradiction|]. cbn [or_same]. exact (step_none h h1 t o _ S S1 X E eq_refl).
  - eapply step_store with (o := o); try eassumption; try reflexivity. apply extends_refl.
  - unfold add_rel_parts. change (t_name (shown h o)) with (ob_name o). destruct (mk_relationship _ _ _ _) as [r|e]; cbn [or_same].
    + eapply step_store with (o := o); try eassumption; try reflexivity. apply extends_refl.
    + exact (step_none h h t o _ S S (extends_refl h) E eq_refl).
Qed.

(** ** Databases *)
Lemma in_dkeys {A} k (v : A) d : In (k, v) d -> In k (dkeys d).
Proof. intros I. exact (in_map fst _ _ I). Qed.
Lemma base_same h h' d : sound h -> evolves h h' -> is_base h d -> mem h' d = mem h d ->
  (forall t, holds h d t -> mem h' t = mem h t) -> base_of h' d = base_of h d.
Proof.
  intros S V [b E] M T. unfold base_of. rewrite M, E. f_equal. apply map_ext_in. intros [n t] I. cbn [fst snd]. f_equal.
  pose proof (proj2 S d) as K. rewrite E in K. destruct K as [_ K]. rewrite Forall_forall in K. destruct (K _ I) as (o & O & _). cbn [snd] in O.
  apply table_same; [exact V | exact S | exists o; exact O|]. apply T. exists b, n. auto.
Qed.
Lemma holds_name h d t b n : sound h -> mem h d = OBase b -> In (n, t) (bo_tables b) -> t_name (table_of h t) = n /\ is_tab h t.
Proof.
  intros S E I. pose proof (proj2 S d) as K. rewrite E in K. destruct K as [_ K]. rewrite Forall_forall in K. destruct (K _ I) as (o & O & N).
  cbn [fst snd] in *. split; [unfold table_of; rewrite O; exact N | exists o; exact O].
Qed.
Lemma ddel_map {A B} (f : A -> B) n (d : dict A) : ddel n (map (fun x => (fst x, f (snd x))) d) = map (fun x => (fst x, f (snd x))) (ddel n d).
Proof. induction d as [|[k v] d IH]; [reflexivity|]. cbn. destruct (str_eqb n k); [reflexivity|]. cbn. rewrite IH. reflexivity. Qed.

(** the new objects of a call that makes something change no object that is there *)
Definition makes (c : call) : Prop :=
  match c with NewList _ | NewShardKey _ _ | NewForeignKey _ _ _ _ _ | NewTable _ _ _ _ | NewDatabase _ => True | _ => False end.
Lemma new_shard_news k n h : sound h ->
  sound (snd (new_shard k n h)) /\ extends h (snd (new_shard k n h)) /\
  shard_of (snd (new_shard k n h)) (fst (new_shard k n h)) = Some {| sk_id := fst (new_shard k n h); sk_keys := names_of h k; sk_shards := n |}.
Proof.
  intros S. unfold new_shard. pose proof (copied_news k h S) as C. destruct (copied k h) as [l h1]. cbn [fst snd] in C. destruct C as (S1 & X & M & _).
  match goal with |- context [alloc ?o h1] => pose proof (alloc_news o h1 S1) as D; destruct (alloc o h1) as [s h2] end.
  cbn [fst snd] in *. destruct D as (S2 & X2 & M2 & _); [eexists; exact M|].
  split; [exact S2|]. split; [exact (extends_trans _ _ _ X X2)|].
  unfold shard_of. rewrite M2. cbn [so_keys so_number]. unfold list_of. rewrite X2 by (rewrite M; discriminate). rewrite M. reflexivity.
Qed.
Lemma new_table_news n s pk sk h : sound h -> match sk with Some s => is_shard h s | None => True end ->
  sound (snd (new_table n s pk sk h)) /\ extends h (snd (new_table n s pk sk h)) /\ is_tab (snd (new_table n s pk sk h)) (fst (new_table n s pk sk h)) /\
  mem h (fst (new_table n s pk sk h)) = Nothing /\
  table_of (snd (new_table n s pk sk h)) (fst (new_table n s pk sk h)) = mk_table n s (option_map (keys_value h) pk) (match sk with Some s => shard_of h s | None => None end).
Proof.
  intros S F. unfold new_table.
  assert (C : exists l h1, match pk with None => alloc (OList false []) h | Some k => copied k h end = (l, h1) /\
    news h l h1 (OList false (match pk with None => [] | Some k => names_of h k end))).
  { destruct pk as [k|].
    - destruct (copied k h) as [l h1] eqn:E. exists l, h1. split; [reflexivity|]. pose proof (copied_news k h S) as C. rewrite E in C. exact C.
    - eexists _, _. split; [reflexivity|]. apply (alloc_news (OList false []) h S I). }
  destruct C as (l & h1 & -> & S1 & X & M & L). pose proof (extends_evolves _ _ X) as V.
  match goal with |- context [alloc ?o h1] => pose proof (alloc_news o h1 S1) as D; destruct (alloc o h1) as [r h2] end.
  cbn [fst snd] in *. destruct D as (S2 & X2 & M2 & L2).
  { split; [eexists; exact M|]. split; [|constructor]. cbn [ob_shard]. destruct sk; [apply (shard_evolves _ _ V), F | exact I]. }
  split; [exact S2|]. split; [exact (extends_trans _ _ _ X X2)|]. split; [eexists; exact M2|].
  split.
  - destruct (mem h r) eqn:Q; [reflexivity|..]; rewrite X in L2 by (rewrite Q; discriminate); congruence.
  - unfold table_of. rewrite M2. unfold shown, mk_table. cbn [ob_name ob_schema ob_pk ob_shard ob_cols ob_fks ob_rels map]. f_equal.
    + unfold list_of. rewrite X2 by (rewrite M; discriminate). rewrite M. destruct pk; cbn [option_map]; [rewrite names_value|]; reflexivity.
    + destruct sk as [s0|]; [|reflexivity]. apply shard_same; [exact (extends_evolves _ _ (extends_trans _ _ _ X X2)) | exact S | exact F].
Qed.
Lemma makes_step c h : sound h -> makes c -> fits h c -> sound (run_call c h) /\ extends h (run_call c h).
Proof.
  intros S K F. destruct c; try contradiction; cbn [run_call].
  - destruct (alloc_news (OList true l) h S I) as (A & B & _). auto.
  - destruct (new_shard_news k n h S) as (A & B & _). auto.
  - destruct F as [F1 F2]. destruct (new_fk_spec from_table from_keys to_table to_keys name h S F1 F2) as (A & B & _). auto.
  - destruct F as [F1 F2]. destruct (new_table_news name schema pk shard h S F2) as (A & B & _). auto.
  - match goal with |- context [alloc ?o h] => destruct (alloc_news o h S) as (A & B & _); [|auto] end. split; constructor.
Qed.

Lemma add_step h d t b o : sound h -> mem h d = OBase b -> mem h t = OTable o ->
  let h' := store d (OBase (add_to_base b t o)) h in sound h' /\ evolves h h' /\ base_of h' d = add_table (base_of h d) (table_of h t).
Proof.
  intros S E T h'. assert (V : evolves h h') by (apply store_evolves; rewrite E; exact I).
  pose proof (proj2 S d) as K. rewrite E in K. destruct K as [K1 K2].
  assert (S' : sound h').
  { apply store_sound; [exact S | rewrite E; discriminate | exact V|]. split; cbn [add_to_base bo_tables]; [apply nodup_dset, K1|].
    rewrite Forall_forall in *. intros [n r] I. destruct (str_eqb (ob_name o) n) eqn:Q.
    - apply str_eqb_eq in Q. subst n. assert (G : dget (ob_name o) (dset (ob_name o) t (bo_tables b)) = Some r) by (apply dget_nodup; [apply nodup_dset, K1 | exact I]).
      rewrite dget_dset, str_eqb_refl in G. injection G as <-. exists o. split; [exact T | reflexivity].
    - apply K2. apply dget_in. assert (G : dget n (dset (ob_name o) t (bo_tables b)) = Some r) by (apply dget_nodup; [apply nodup_dset, K1 | exact I]).
      rewrite dget_dset in G. rewrite str_eqb_sym in Q. rewrite Q in G. exact G. }
  split; [exact S'|]. split; [exact V|].
  assert (W : forall r, is_tab h r -> table_of h' r = table_of h r).
  { intros r R. apply table_same; [exact V | exact S | exact R|]. apply store_else. intros ->. destruct R as [o' R]. congruence. }
  unfold base_of at 1. unfold h' at 1. rewrite store_at. unfold base_of. rewrite E. unfold add_table, add_to_base. cbn [bo_name bo_tables bo_schemas db_name db_tables db_schemas].
  replace (t_schema (table_of h t)) with (ob_schema o) by (unfold table_of; rewrite T; reflexivity).
  replace (t_name (table_of h t)) with (ob_name o) by (unfold table_of; rewrite T; reflexivity).
  f_equal. rewrite (dset_map (table_of h)). apply map_ext_in. intros [n r] I. cbn [fst snd]. f_equal. apply W.
  pose proof (proj2 S' d) as Z. unfold h' in Z at 2. rewrite store_at in Z. destruct Z as [_ Z]. rewrite Forall_forall in Z. destruct (Z _ I) as (o' & O & _).
  cbn [snd] in O. exists o'. rewrite <- O. symmetry. apply store_else. intros ->. unfold h' in O. rewrite store_at in O. discriminate.
Qed.
Lemma drop_step h d n b t o : sound h -> mem h d = OBase b -> dget n (bo_tables b) = Some t -> mem h t = OTable o ->
  let h' := store d (OBase (drop_from_base b n o)) h in sound h' /\ evolves h h' /\ base_of h' d = without_table (base_of h d) n.
Proof.
  intros S E G T h'. assert (V : evolves h h') by (apply store_evolves; rewrite E; exact I).
  pose proof (proj2 S d) as K. rewrite E in K. destruct K as [K1 K2].
  assert (S' : sound h').
  { apply store_sound; [exact S | rewrite E; discriminate | exact V|]. split; cbn [drop_from_base bo_tables]; [apply nodup_ddel, K1|].
    rewrite Forall_forall in *. intros x I. apply K2, (ddel_incl n), I. }
  split; [exact S'|]. split; [exact V|].
  assert (W : map (fun x => (fst x, table_of h' (snd x))) (ddel n (bo_tables b)) = ddel n (map (fun x => (fst x, table_of h (snd x))) (bo_tables b))).
  { rewrite (ddel_map (table_of h)). apply map_ext_in. intros [m r] I. cbn [fst snd]. f_equal. apply ddel_incl in I.
    destruct (holds_name h d r b m S E I) as [_ R].
    apply table_same; [exact V | exact S | exact R|]. apply store_else. intros ->. destruct R as [o' R]. congruence. }
  unfold base_of at 1. unfold h' at 1. rewrite store_at. unfold drop_from_base. cbn [bo_name bo_tables bo_schemas]. rewrite W.
  unfold without_table, drop_table, base_of. rewrite E. cbn [db_name db_tables db_schemas]. rewrite (dget_map (table_of h)), G. cbn [option_map].
  replace (t_schema (table_of h t)) with (ob_schema o) by (unfold table_of; rewrite T; reflexivity).
  destruct (dget (ob_schema o) (bo_schemas b)) as [k|]; reflexivity.
Qed.

(** ** One call *)
Lemma holds_dec h d t : holds h d t \/ ~ holds h d t.
Proof.
  unfold holds. destruct (mem h d) as [|m l|s|f|o|b] eqn:E; try (right; intros (b' & n & D & _); discriminate).
  destruct (in_dec Nat.eq_dec t (map snd (bo_tables b))) as [I|N].
  - left. apply in_map_iff in I. destruct I as ([n r] & <- & I). exists b, n. auto.
  - right. intros (b' & n & [= <-] & I). apply N, in_map_iff. exists (n, t). auto.
Qed.
Lemma append_evolves h r l x : mem h r = OList true l -> evolves h (store r (OList true (l ++ [x])) h).
Proof. intros E. apply store_evolves. rewrite E. exact I. Qed.
Theorem call_step c h : sound h -> fits h c -> decent h c -> sound (run_call c h) /\ evolves h (run_call c h).
Proof.
  intros S F D. pose proof (fun K => makes_step c h S K F) as MK. destruct c as [l|r x|k n|ft fk tb tk n|n s pk sk|t c|n|d t|d n];
    try (destruct (MK I) as [A B]; split; [exact A | exact (extends_evolves _ _ B)]); cbn [run_call].
  - destruct D as [l E]. rewrite E. pose proof (append_evolves h r l x E) as V. split; [|exact V]. apply store_sound; [exact S | rewrite E; discriminate | exact V | exact I].
  - destruct F as [[o E] F]. rewrite E. destruct (call_table_step h t o c S E F) as (A & B & _). auto.
  - destruct F as [[b E] [o T]]. rewrite E, T. destruct (add_step h d t b o S E T) as (A & B & _). auto.
  - destruct F as [b E]. rewrite E. destruct (dget n (bo_tables b)) as [t|] eqn:G; [|split; [exact S | apply extends_evolves, extends_refl]].
    destruct (holds_name h d t b n S E (dget_in _ _ _ G)) as [_ [o T]]. rewrite T. destruct (drop_step h d n b t o S E G T) as (A & B & _). auto.
Qed.
Theorem runs_sound h cs h' : runs h cs h' -> sound h -> sound h' /\ evolves h h'.
Proof.
  induction 1 as [h|h c cs h' F D R IH]; intros S; [split; [exact S | apply extends_evolves, extends_refl]|].
  destruct (call_step c h S F D) as [A B]. destruct (IH A) as [C V]. split; [exact C | exact (evolves_trans _ _ _ B V)].
Qed.
Lemma no_objects_sound : sound no_objects.
Proof. split; [reflexivity | intros r; exact I]. Qed.
