(** * Lemmas: databases the parser builds (C42-C44) *)
From Verif Require Export FieldFacts SpecParsed ApiFacts.

(** ** Characters *)
Lemma in_remove x c s : In x (replace_char c [] s) <-> In x s /\ x <> c.
Proof.
  unfold replace_char. induction s as [|y s IH]; [cbn; tauto|]. cbn [flat_map]. rewrite in_app_iff, IH.
  destruct (Ascii.eqb_spec y c) as [->|N]; cbn; intuition congruence.
Qed.
Lemma free_remove cs c s : free_of cs s -> free_of (c :: cs) (replace_char c [] s).
Proof. intros H x [<-|Hx] Hin; apply in_remove in Hin; [tauto|]. apply (H x Hx), Hin. Qed.
Lemma free_sub cs s s' : (forall c, In c s' -> In c s) -> free_of cs s -> free_of cs s'.
Proof. intros H F c Hc Hin. exact (F c Hc (H c Hin)). Qed.
Lemma free_less cs cs' s : (forall c, In c cs' -> In c cs) -> free_of cs s -> free_of cs' s.
Proof. intros H F c Hc. apply F, H, Hc. Qed.
Lemma in_lstrip c s : In c (lstrip s) -> In c s.
Proof. induction s as [|x s IH]; [tauto|]. cbn [lstrip]. destruct (is_space x); [right; auto|tauto]. Qed.
Lemma in_rstrip c s : In c (rstrip s) -> In c s.
Proof. unfold rstrip. rewrite <- in_rev. intros H. apply in_lstrip in H. rewrite <- in_rev in H. exact H. Qed.
Lemma in_strip c s : In c (strip s) -> In c s.
Proof. unfold strip. intros H. apply in_rstrip, in_lstrip in H. exact H. Qed.
Lemma in_firstn {A} (c : A) n s : In c (firstn n s) -> In c s.
Proof. revert s. induction n as [|n IH]; intros [|x s]; cbn; try tauto. intros [H|H]; auto. Qed.
Lemma in_skipn {A} (c : A) n s : In c (skipn n s) -> In c s.
Proof. revert s. induction n as [|n IH]; intros [|x s]; cbn; try tauto. intros H. auto. Qed.
Lemma in_slice c i j s : In c (slice i j s) -> In c s.
Proof. unfold slice. intros H. apply in_firstn in H. apply in_skipn in H. exact H. Qed.
Lemma last_in (l : list str) : l <> [] -> In (last_of l) l.
Proof. unfold last_of. induction l as [|x [|y l] IH]; [contradiction|left; reflexivity|]. intros _. right. apply IH. discriminate. Qed.
Lemma in_parts c d w s : In w (split_char d s) -> In c w -> In c s.
Proof.
  revert w. induction s as [|x s IH]; intros w; cbn [split_char]; [intros [<-|[]] []|].
  destruct (Ascii.eqb_spec x d) as [->|N].
  - intros [<-|H] Hc; [destruct Hc|]. right. eapply IH; eassumption.
  - destruct (split_char d s) as [|v vs] eqn:E; [intros [<-|[]] [<-|[]]; left; reflexivity|]. intros [<-|H] Hc.
    + destruct Hc as [<-|Hc]; [left; reflexivity|]. right. apply (IH v); [left; reflexivity|exact Hc].
    + right. apply (IH w); [right; exact H|exact Hc].
Qed.
Lemma last_part c s : free_of [c] (last_of (split_char c s)).
Proof.
  intros x [<-|[]]. pose proof (split_char_parts c s) as P. rewrite Forall_forall in P. apply P, last_in, split_nonnil.
Qed.
Lemma parts_free cs c s w : free_of cs s -> In w (split_char c s) -> free_of (c :: cs) w.
Proof.
  intros F H x [<-|Hx] Hin.
  - pose proof (split_char_parts c s) as P. rewrite Forall_forall in P. exact (P w H Hin).
  - apply (F x Hx). eapply in_parts; eassumption.
Qed.

(** ** Names *)
Lemma clean_name_free s : free_of alter_marks (clean_name s).
Proof.
  assert (H : free_of ["]"; "["; squote; dquote; tab; "."]%char (clean_name s)).
  { unfold clean_name. do 5 apply free_remove. apply (free_sub _ (last_of (split_char "." s))); [intros x; apply in_strip|]. apply last_part. }
  revert H. apply free_less. intros c. cbn. tauto.
Qed.
Lemma in_clean_name c s : In c (clean_name s) -> In c s.
Proof.
  unfold clean_name. intros H. do 5 (apply in_remove in H; destruct H as [H _]). apply in_strip in H.
  eapply in_parts; [apply last_in, split_nonnil|exact H].
Qed.
Lemma key_columns_free s k : In k (key_columns_of s) -> free_of (","%char :: alter_marks) k.
Proof.
  unfold key_columns_of. intros H. apply in_map_iff in H. destruct H as [w [<- Hw]]. intros c [<-|Hc].
  - intros Hin. apply in_clean_name in Hin. revert Hin. apply (parts_free [] _ _ _ ltac:(intros ? []) Hw). left. reflexivity.
  - apply clean_name_free, Hc.
Qed.
Lemma extract_table_name_free s n : extract_table_name s = Ok n -> free_of alter_marks n.
Proof.
  unfold extract_table_name. destruct (extract_name _) as [m|e]; [|discriminate]. cbn [bind]. intros H. apply ok_inj in H. subst n. apply clean_name_free.
Qed.
Lemma marks_common c : In c common_marks -> In c alter_marks. Proof. right. assumption. Qed.
Lemma unbracket_free s : free_of ["["; "]"]%char (replace_char "]" [dquote] (replace_char "[" [dquote] s)).
Proof.
  assert (E : forall x c s, In x (replace_char c [dquote] s) -> (In x s /\ x <> c) \/ x = dquote).
  { clear. intros x c s. unfold replace_char. induction s as [|y s IH]; [intros []|]. cbn [flat_map]. rewrite in_app_iff. intros [H|H].
    - destruct (Ascii.eqb_spec y c) as [->|N]; destruct H as [<-|[]]; [right; reflexivity|]. left. split; [left; reflexivity|exact N].
    - destruct (IH H) as [[H1 H2]| ->]; [|tauto]. left. split; [right; exact H1|exact H2]. }
  intros c Hc Hin. apply E in Hin. destruct Hin as [[Hin N]| ->]; [|destruct Hc as [H|[H|[]]]; discriminate].
  apply E in Hin. destruct Hin as [[Hin N']| ->]; [|destruct Hc as [H|[H|[]]]; discriminate]. destruct Hc as [<-|[<-|[]]]; contradiction.
Qed.
Lemma get_table_name_free s : free_of ["["; "]"]%char s -> free_of create_marks (get_table_name s).
Proof.
  intros F. unfold get_table_name. cbn zeta.
  match goal with |- context [split_char "." ?x] => set (w := x) end.
  assert (W : free_of ["."; "["; "]"]%char (last_of (split_char "." w))).
  { apply (parts_free ["["; "]"]%char _ w); [|apply last_in, split_nonnil]. apply (free_sub _ s); [|exact F]. intros c H. unfold w in H.
    apply in_skipn, in_rstrip, in_slice in H. exact H. }
  unfold strip_quotes. apply (free_less (dquote :: backquote :: squote :: ["."; "["; "]"]%char)).
  - intros c. cbn. tauto.
  - do 3 apply free_remove. exact W.
Qed.

(** ** CREATE *)
Lemma target_accepted ty : In ty target_types -> forall n, mk_column (Some n) (Some ty) = Ok {| column_name := n; column_type := ty |}.
Proof. intros H n. repeat (destruct H as [<-|H]; [reflexivity|]). destruct H. Qed.
Lemma convert_cases s : (exists ty, convert_type s = Ok ty /\ In ty target_types) \/ convert_type s = Err ValueError.
Proof.
  destruct (looked_at_exists s) as [t L]. destruct (convert_type s) as [ty|e] eqn:E.
  - left. exists ty. split; [reflexivity|]. exact (proj1 (proj1 (c39 _ _ L) _ E)).
  - right. f_equal. apply (proj1 (proj2 (c39 _ _ L) e) E).
Qed.
Lemma in_join c sep f (fs : list str) : In f fs -> In c f -> In c (join sep fs).
Proof.
  induction fs as [|g fs IH]; [intros []|]. intros [->|H] Hc.
  - destruct fs; [exact Hc|]. rewrite join_cons by discriminate. apply in_or_app. left. exact Hc.
  - destruct fs as [|g' fs]; [destruct H|]. rewrite join_cons by discriminate. apply in_or_app. right. apply in_or_app. right. auto.
Qed.
Lemma in_raw_fields c rf s : In rf (raw_fields s) -> In c rf -> In c s.
Proof.
  destruct (c41_keeps s) as [fs [E [init [lst [-> R]]]]]. intros H Hc. rewrite R in H. rewrite E.
  assert (X : exists f, In f (init ++ [lst]) /\ rf = strip f).
  { apply in_app_or in H. destruct H as [H|H].
    - apply in_map_iff in H. destruct H as [f [<- Hf]]. exists f. split; [apply in_or_app; left; exact Hf|reflexivity].
    - destruct (str_eqb lst []); [destruct H|]. destruct H as [<-|[]]. exists lst. split; [apply in_or_app; right; left; reflexivity|reflexivity]. }
  destruct X as [f [Hf ->]]. apply in_strip in Hc. eapply in_join; eassumption.
Qed.
Lemma field_pk_free rf k : free_of ["["; "]"]%char rf -> In k (field_pk rf) -> free_of [","; dq; "["; "]"]%char k.
Proof.
  intros F. unfold field_pk. apply parts_free. change dq with dquote. apply free_remove.
  apply (free_sub _ rf); [|exact F]. intros c H. apply in_remove in H. destruct H as [H _].
  assert (B : forall p x, In c (before p x) -> In c x).
  { intros p x. unfold before, py_partition. destruct (find_opt p x); cbn [fst]; [apply in_firstn|tauto]. }
  assert (A : forall p x, In c (after p x) -> In c x).
  { intros p x. unfold after, py_partition. destruct (find_opt p x); cbn [snd]; [apply in_skipn|intros []]. }
  apply B, A in H. exact H.
Qed.
Definition good_pk (k : str) : Prop := free_of [","; dq; "["; "]"]%char k.
Lemma fields_loop_ok rfs : forall t cols, (forall rf, In rf rfs -> free_of ["["; "]"]%char rf) ->
  Forall (fun c => In (column_type c) target_types) cols ->
  match fields_loop rfs t cols with
  | Ok (t', cols') => (exists pk, t' = with_pk t pk /\ (pk = t_pk t \/ forall k, In k pk -> good_pk k))
       /\ Forall (fun c => In (column_type c) target_types) cols'
  | Err e => e = IndexError \/ e = ValueError
  end.
Proof.
  induction rfs as [|rf rfs IH]; intros t cols F C; cbn [fields_loop].
  - split; [|exact C]. exists (t_pk t). split; [destruct t; reflexivity|left; reflexivity].
  - assert (F' : forall rf, In rf rfs -> free_of ["["; "]"]%char rf) by (intros; apply F; right; assumption).
    destruct (contains ($"key ") (lower rf)).
    + destruct (contains ($"primary") (lower rf)); [|apply IH; assumption]. cbn [set_primary_key bind keys_list].
      specialize (IH (with_pk t (field_pk rf)) cols F' C). destruct (fields_loop rfs (with_pk t (field_pk rf)) cols) as [[t' cols']|e]; [|exact IH].
      destruct IH as [[pk [-> P]] C']. split; [|exact C']. exists pk. split; [reflexivity|]. right. destruct P as [->|P]; [|exact P].
      intros k Hk. apply (field_pk_free rf k); [apply F; left; reflexivity|exact Hk].
    + destruct rf as [|q rf']; [left; reflexivity|]. assert (N : exists n h, field_name (q :: rf') = Ok (n, h)).
      { cbn [field_name]. destruct (existsb (Ascii.eqb q) [dquote; squote; backquote]); eexists _, _; reflexivity. }
      destruct N as [n [h N]]. rewrite N. cbn [bind]. destruct (convert_cases (field_type (q :: rf') n h)) as [[ty [E T]]|E]; rewrite E; cbn [bind].
      * rewrite target_accepted by exact T. cbn [bind]. apply IH; [exact F'|]. apply Forall_app. split; [exact C|]. constructor; [exact T|constructor].
      * right. reflexivity.
Qed.
Definition col_ok (c : column) : Prop := In (column_type c) target_types.
Lemma add_columns_types cs : forall t, Forall col_ok (table_iter t) -> Forall col_ok cs -> Forall col_ok (table_iter (add_columns t cs)).
Proof.
  unfold add_columns. induction cs as [|c cs IH]; intros t T C; [exact T|]. cbn [fold_left]. inversion C; subst. apply IH; [|assumption].
  rewrite Forall_forall in *. intros x Hx. apply in_dvals_dset in Hx. destruct Hx as [->|Hx]; [assumption|apply T, Hx].
Qed.
Lemma add_columns_rest cs : forall t, t_name (add_columns t cs) = t_name t /\ t_schema (add_columns t cs) = t_schema t /\ t_pk (add_columns t cs) = t_pk t
  /\ t_shard (add_columns t cs) = t_shard t /\ t_fks (add_columns t cs) = t_fks t /\ t_rels (add_columns t cs) = t_rels t.
Proof.
  unfold add_columns. induction cs as [|c cs IH]; intros t; [cbn; auto 10|]. cbn [fold_left]. destruct (IH (add_column t c)) as [A [B [C [D [E F]]]]].
  rewrite A, B, C, D, E, F. cbn. auto 10.
Qed.
Lemma hashkey_ok id t s : add_hashkey id t s = t \/ exists n ks, add_hashkey id t s = with_shard t (Some {| sk_id := id; sk_keys := ks; sk_shards := n |})
  /\ forall k, In k ks -> free_of (","%char :: alter_marks) k.
Proof.
  unfold add_hashkey. destruct (rsearch _ _) as [[|g1 [|g2 [|]]]|]; try (left; reflexivity).
  destruct (py_int g1); [|left; reflexivity]. right. eexists _, _. split; [reflexivity|]. apply key_columns_free.
Qed.
(** the tables CREATE builds *)
Lemma create_ok schema id d s :
  match parse_create_table schema id d s with
  | Ok d' => exists t, d' = add_table d t /\ well_formed_table t /\ parsed_table schema t /\ t_fks t = [] /\ t_rels t = []
       /\ (forall sk, t_shard t = Some sk -> sk_id sk = id)
  | Err e => e = IndexError \/ e = ValueError
  end.
Proof.
  unfold parse_create_table. cbn zeta. pose proof (unbracket_free s) as U. set (s' := replace_char "]" [dquote] (replace_char "[" [dquote] s)) in *.
  unfold parse_columns. set (t0 := mk_table (get_table_name s') schema None None).
  assert (F : forall rf, In rf (raw_fields (column_text s')) -> free_of ["["; "]"]%char rf).
  { intros rf Hrf. apply (free_sub _ s'); [|exact U]. intros c Hc. pose proof (in_raw_fields _ _ _ Hrf Hc) as X. unfold column_text in X.
    apply in_strip, in_slice in X. exact X. }
  pose proof (fields_loop_ok _ t0 [] F (Forall_nil _)) as L. destruct (fields_loop (raw_fields (column_text s')) t0 []) as [[t1 cols]|e]; cbn [bind]; [|exact L].
  destruct L as [[pk [-> P]] C]. set (t2 := add_columns (with_pk t0 pk) cols).
  assert (Pk : forall k, In k pk -> good_pk k) by (destruct P as [->|P]; [intros k []|exact P]).
  assert (W : well_formed_table t2) by (apply wf_cols_all; exact (wf_table_op t0 (SetPrimaryKey (Some (KeyList pk))) (wf_table_new _ _ _ _))).
  assert (T : Forall col_ok (table_iter t2)) by (apply add_columns_types; [constructor|exact C]).
  destruct (add_columns_rest cols (with_pk t0 pk)) as [R1 [R2 [R3 [R4 [R5 R6]]]]]. fold t2 in R1, R2, R3, R4, R5, R6.
  assert (Pt : forall sh, (forall sk, sh = Some sk -> forall k, In k (sk_keys sk) -> free_of (","%char :: alter_marks) k) -> parsed_table schema (with_shard t2 sh)).
  { intros sh Hsh. rewrite Forall_forall in T. constructor; cbn [with_shard t_name t_schema t_pk t_shard].
    - exact R2.
    - rewrite R1. apply get_table_name_free, U.
    - exact T.
    - rewrite R3. exact Pk.
    - exact Hsh.
    - intros fk. unfold foreign_keys_iter. cbn [t_fks with_shard]. rewrite R5. intros [].
    - intros r. unfold relationships_iter. cbn [t_rels with_shard]. rewrite R6. intros []. }
  assert (K : with_shard t2 None = t2) by (destruct t2; cbn in R4; subst; reflexivity).
  assert (D : exists t, add_table d t2 = add_table d t /\ well_formed_table t /\ parsed_table schema t /\ t_fks t = [] /\ t_rels t = []
       /\ (forall sk, t_shard t = Some sk -> sk_id sk = id)).
  { exists t2. split; [reflexivity|]. split; [exact W|]. split; [rewrite <- K; apply Pt; discriminate|]. split; [exact R5|]. split; [exact R6|]. rewrite R4. discriminate. }
  destruct (contains ($"partition by hash") (lower s')); [|exact D].
  destruct (hashkey_ok id t2 s') as [->|[n [ks [-> Hk]]]]; [exact D|]. eexists. split; [reflexivity|].
  split; [exact (wf_table_op t2 (SetShardKey _) W)|]. split; [apply Pt; intros sk E; injection E as <-; exact Hk|].
  split; [exact R5|]. split; [exact R6|]. cbn [with_shard t_shard]. intros sk E. injection E as <-. reflexivity.
Qed.

(** ** The other statements *)
Inductive alters (schema : str) (d : database) : database -> Prop :=
| al_none : alters schema d d
| al_step n t t' d' : get_table d n = Some t -> t_name t' = t_name t -> t_schema t' = t_schema t -> t_cols t' = t_cols t -> t_shard t' = t_shard t ->
    (well_formed_table t -> well_formed_table t') -> (parsed_table schema t -> parsed_table schema t') ->
    alters schema (store_table d n t') d' -> alters schema d d'.
Lemma same_part_refl {A} (part : table -> A) d : same_part part d d.
Proof. intros n t t' E E'. rewrite E in E'. injection E' as <-. reflexivity. Qed.
Lemma primary_key_ok schema d s : alters schema d (parse_primary_key d s) /\ same_part t_fks d (parse_primary_key d s) /\ same_part t_rels d (parse_primary_key d s).
Proof.
  assert (N : alters schema d d /\ same_part t_fks d d /\ same_part t_rels d d) by (split; [apply al_none|split; apply same_part_refl]).
  unfold parse_primary_key. destruct (rmatch pk_pattern s) as [[|g1 [|g2 [|]]]|]; try exact N. destruct (extract_table_name g1) as [n|]; [|exact N].
  destruct (get_table d n) as [t|] eqn:G; [|exact N]. cbn [set_primary_key]. split; [|split].
  - apply (al_step schema d n t (with_pk t (key_columns_of g2))); [exact G|reflexivity|reflexivity|reflexivity|reflexivity| | |apply al_none].
    + exact (wf_table_op t (SetPrimaryKey (Some (KeyList (key_columns_of g2))))).
    + intros [A1 A2 A3 A4 A5 A6 A7]. constructor; try assumption.
      * intros k Hk. apply key_columns_free in Hk. revert Hk. apply free_less. cbn. tauto.
      * intros fk Hf. destruct (A6 fk Hf). constructor; assumption.
      * intros r Hr. destruct (A7 r Hr). constructor; assumption.
  - intros m u u' E E'. unfold store_table, get_table in *. cbn [db_tables] in E'. rewrite dget_dset in E'. destruct (str_eqb_spec m n) as [->|]; [|congruence].
    injection E' as <-. assert (u = t) by congruence. subst u. reflexivity.
  - intros m u u' E E'. unfold store_table, get_table in *. cbn [db_tables] in E'. rewrite dget_dset in E'. destruct (str_eqb_spec m n) as [->|]; [|congruence].
    injection E' as <-. assert (u = t) by congruence. subst u. reflexivity.
Qed.
Lemma app_free cs a b : free_of cs a -> free_of cs b -> free_of cs (a ++ b).
Proof. intros A B c Hc Hin. apply in_app_or in Hin. destruct Hin; [eapply A|eapply B]; eassumption. Qed.
Lemma free_lit cs s : existsb (fun c => existsb (Ascii.eqb c) s) cs = false -> free_of cs s.
Proof.
  intros H c Hc. apply not_in_b. destruct (existsb (Ascii.eqb c) s) eqn:E; [|reflexivity].
  assert (X : existsb (fun c => existsb (Ascii.eqb c) s) cs = true) by (apply existsb_exists; eauto). congruence.
Qed.
Lemma add_fk_ok schema t fc to tc name t' : match name with Some n => free_of alter_marks n | None => True end -> free_of alter_marks to ->
  (forall k, In k (fc ++ tc) -> free_of (","%char :: alter_marks) k) ->
  add_fk_parts t (Some (KeyList fc)) (Some to) (Some (KeyList tc)) name = Ok t' -> parsed_table schema t -> parsed_table schema t'.
Proof.
  intros Hn Ht Hk E P. unfold add_fk_parts, mk_foreign_key in E. cbn [keys_list] in E. destruct (negb _); [discriminate|]. cbn [bind] in E.
  apply ok_inj in E. subst t'. destruct P as [A1 A2 A3 A4 A5 A6 A7]. unfold add_fk_obj. constructor; try assumption.
  - intros fk Hf. unfold foreign_keys_iter in Hf. cbn [with_fks t_fks] in Hf. apply in_dvals_dset in Hf. destruct Hf as [->|Hf].
    + constructor; cbn [fk_from_table fk_name fk_to_table fk_from_keys fk_to_keys]; [reflexivity| |exact Ht|exact Hk].
      destruct name as [n|]; [eapply free_less; [apply marks_common|exact Hn]|]. unfold default_fk_name.
      apply app_free; [apply free_lit; reflexivity|]. apply app_free; [eapply free_less; [|exact A2]; intros c Hc; right; exact Hc|].
      apply app_free; [apply free_lit; reflexivity|]. eapply free_less; [apply marks_common|exact Ht].
    + destruct (A6 fk Hf). constructor; assumption.
  - intros r Hr. destruct (A7 r Hr). constructor; assumption.
Qed.
Lemma same_part_upd {A} (part : table -> A) d n t t' d' : get_table d n = Some t -> part t' = part t -> same_part part (store_table d n t') d' -> same_part part d d'.
Proof.
  intros G P S m u u' E E'. destruct (str_eqb_spec m n) as [->|N].
  - assert (u = t) by congruence. subst u. rewrite <- P. apply (S n t' u'); [|exact E']. unfold store_table, get_table. cbn [db_tables]. rewrite dget_dset, str_eqb_refl. reflexivity.
  - apply (S m u u'); [|exact E']. unfold store_table, get_table in *. cbn [db_tables]. rewrite dget_dset. destruct (str_eqb_spec m n); [contradiction|exact E].
Qed.
Lemma fk_loop_ok schema n cs : forall d, alters schema d (fk_loop n cs d) /\ same_part t_pk d (fk_loop n cs d) /\ same_part t_rels d (fk_loop n cs d).
Proof.
  induction cs as [|c cs IH]; intros d; cbn [fk_loop]; cbn zeta.
  - split; [apply al_none|split; apply same_part_refl].
  - assert (N : alters schema d d /\ same_part t_pk d d /\ same_part t_rels d d) by (split; [apply al_none|split; apply same_part_refl]).
    set (c' := strip _). destruct (fk_parts c') as [[[[name fc] [to|]] tc]|] eqn:Ep; try exact N.
    destruct (get_table d n) as [t|] eqn:G; [|apply IH].
    destruct (add_fk_parts t (Some (KeyList fc)) (Some to) (Some (KeyList tc)) name) as [t'|] eqn:Ea; [|exact N].
    assert (Q : match name with Some n => free_of alter_marks n | None => True end /\ free_of alter_marks to /\ (forall k, In k (fc ++ tc) -> free_of (","%char :: alter_marks) k)).
    { unfold fk_parts in Ep. destruct (rmatch named_fk_pattern c') as [[|g1 [|g2 [|g3 [|g4 [|]]]]]|].
      5: { injection Ep as <- <- X <-. split; [apply clean_name_free|]. split; [eapply extract_table_name_free, X|]. intros k Hk. apply in_app_or in Hk. destruct Hk; eapply key_columns_free; eassumption. }
      all: destruct (rmatch unnamed_fk_pattern c') as [[|h1 [|h2 [|h3 [|]]]]|]; try discriminate; injection Ep as <- <- X <-;
           (split; [exact I|]); (split; [eapply extract_table_name_free, X|]); intros k Hk; apply in_app_or in Hk; destruct Hk; eapply key_columns_free; eassumption. }
    destruct Q as [Q1 [Q2 Q3]]. destruct (IH (store_table d n t')) as [I1 [I2 I3]].
    assert (R : exists f, t' = with_fks t f).
    { unfold add_fk_parts in Ea. destruct (mk_foreign_key _ _ _ _ _); [|discriminate]. cbn [bind] in Ea. apply ok_inj in Ea. subst t'. eexists. reflexivity. }
    split; [|split].
    + apply (al_step schema d n t t'); [exact G|destruct R as [f ->]; reflexivity..| | |exact I1].
      * intros W. pose proof (wf_table_op t (OnConstraints (AddFkParts (Some (KeyList fc)) (Some to) (Some (KeyList tc)) name)) W) as X.
        cbn [run_table_op run_con_op] in X. rewrite Ea in X. exact X.
      * eapply add_fk_ok; eassumption.
    + eapply same_part_upd; [exact G| |exact I2]. destruct R as [f ->]. reflexivity.
    + eapply same_part_upd; [exact G| |exact I3]. destruct R as [f ->]. reflexivity.
Qed.
Lemma foreign_key_ok schema d s : alters schema d (parse_foreign_key d s) /\ same_part t_pk d (parse_foreign_key d s) /\ same_part t_rels d (parse_foreign_key d s).
Proof.
  assert (N : alters schema d d /\ same_part t_pk d d /\ same_part t_rels d d) by (split; [apply al_none|split; apply same_part_refl]).
  unfold parse_foreign_key. destruct (rmatch add_pattern s) as [[|g [|]]|]; try exact N. apply fk_loop_ok.
Qed.
Lemma rel_ok schema d s : alters schema d (parse_relationship d s) /\ same_part t_pk d (parse_relationship d s) /\ same_part t_fks d (parse_relationship d s).
Proof.
  assert (N : alters schema d d /\ same_part t_pk d d /\ same_part t_fks d d) by (split; [apply al_none|split; apply same_part_refl]).
  unfold parse_relationship. destruct (rel_parts s) as [[[[[n|] name] [to|]] c]|] eqn:Ep; try exact N.
  destruct (get_table d n) as [t|] eqn:G; [|exact N]. unfold add_rel_parts. cbn [mk_relationship bind].
  assert (Q : match name with Some n => free_of alter_marks n | None => True end /\ free_of alter_marks to).
  { unfold rel_parts in Ep. destruct (rmatch named_rel_pattern s) as [[|g1 [|g2 [|g3 [|g4 [|]]]]]|].
    5: { injection Ep as _ <- X _. split; [apply clean_name_free|eapply extract_table_name_free, X]. }
    all: destruct (rmatch unnamed_rel_pattern s) as [[|h1 [|h2 [|h3 [|]]]]|]; try discriminate; injection Ep as _ <- X _; split; [exact I|eapply extract_table_name_free, X]. }
  destruct Q as [Q1 Q2]. split; [|split].
  - eapply (al_step schema d n t (add_rel_obj t _)); [exact G|reflexivity|reflexivity|reflexivity|reflexivity| | |apply al_none].
    + intros W. exact (wf_table_op t (OnConstraints (AddRelParts (Some to) name (Some c))) W).
    + intros [A1 A2 A3 A4 A5 A6 A7]. constructor; try assumption.
      * intros fk Hf. destruct (A6 fk Hf). constructor; assumption.
      * intros r Hr. unfold relationships_iter in Hr. cbn [add_rel_obj with_rels t_rels] in Hr. apply in_dvals_dset in Hr. destruct Hr as [->|Hr].
        -- constructor; cbn [rel_from_table rel_name rel_to_table]; [reflexivity| |exact Q2].
           destruct name as [m|]; [eapply free_less; [apply marks_common|exact Q1]|]. unfold default_rel_name.
           apply app_free; [apply free_lit; reflexivity|]. apply app_free; [eapply free_less; [|exact A2]; intros x Hx; right; exact Hx|].
           apply app_free; [apply free_lit; reflexivity|]. eapply free_less; [apply marks_common|exact Q2].
        -- destruct (A7 r Hr). constructor; assumption.
  - eapply same_part_upd; [exact G| |apply same_part_refl]. reflexivity.
  - eapply same_part_upd; [exact G| |apply same_part_refl]. reflexivity.
Qed.
Lemma alters_same schema d d' : alters schema d d' -> same_columns d d'.
Proof.
  induction 1 as [d|d n t t' d' G H1 H2 H3 H4 _ _ _ [I1 [I2 [I3 I4]]]].
  - repeat split. intros n. destruct (get_table d n); auto.
  - assert (K : dkeys (dset n t' (db_tables d)) = dkeys (db_tables d)) by (apply dkeys_dset_mem, dget_some_in; eauto).
    unfold store_table, get_table_names, get_schema_names in *. cbn [db_name db_tables db_schemas] in *. split; [exact I1|].
    split; [unfold get_table_names; rewrite I2; exact K|]. split; [exact I3|]. intros m. specialize (I4 m). unfold get_table in *. cbn [db_tables] in I4. rewrite dget_dset in I4.
    destruct (str_eqb_spec m n) as [Em|]; [|exact I4]. rewrite Em in *. rewrite G. destruct (dget n (db_tables d')) as [u|]; [|exact I4].
    destruct I4 as [J1 [J2 [J3 J4]]]. repeat split; congruence.
Qed.
(** ** C43 *)
Definition is_create (s : str) : bool := contains ($"create table") (lower s) || contains ($"create or replace table") (lower s).
Lemma c43 schema id d s : ~ occurs ($"create table") (lower s) -> ~ occurs ($"create or replace table") (lower s) ->
  exists d', parse_statement schema id d s = Ok d' /\ same_columns d d'
    /\ (~ occurs ($"alter table") (lower s) -> d' = d)
    /\ (occurs ($"primary key") (lower s) -> same_part t_fks d d' /\ same_part t_rels d d')
    /\ (~ occurs ($"primary key") (lower s) -> same_part t_pk d d')
    /\ (~ occurs ($"foreign") (lower s) -> same_part t_fks d d')
    /\ (~ occurs ($"relationship") (lower s) -> same_part t_rels d d').
Proof.
  intros N1 N2. apply contains_false in N1, N2. unfold parse_statement. cbn zeta. rewrite N1, N2. cbn [orb].
  assert (S : forall A (f : table -> A), same_part f d d) by (intros A f; apply same_part_refl).
  assert (I : same_columns d d) by (apply (alters_same schema); constructor).
  destruct (contains ($"create database") (lower s)); [exists d; auto 12|].
  destruct (contains_spec ($"alter table") (lower s)) as [Ha|Ha]; [|exists d; auto 12].
  destruct (contains_spec ($"primary key") (lower s)) as [Hp|Hp].
  - eexists. split; [reflexivity|]. destruct (primary_key_ok schema d s) as [A [B C]]. split; [apply (alters_same schema), A|]. tauto.
  - destruct (contains_spec ($"foreign") (lower s)) as [Hf|Hf].
    + eexists. split; [reflexivity|]. destruct (foreign_key_ok schema d s) as [A [B C]]. split; [apply (alters_same schema), A|]. tauto.
    + destruct (contains_spec ($"relationship") (lower s)) as [Hr|Hr].
      * eexists. split; [reflexivity|]. destruct (rel_ok schema d s) as [A [B C]]. split; [apply (alters_same schema), A|]. tauto.
      * exists d. split; [reflexivity|]. split; [exact I|]. split; [reflexivity|]. auto.
Qed.
(** ** C44 *)
Record parsed_db (name schema : str) (d : database) : Prop := {
  pd_inv : db_inv d; pd_ok : tables_ok d; pd_name : db_name d = name;
  pd_tables : forall t, In t (db_iter d) -> parsed_table schema t;
  pd_schemas : forall s, In s (get_schema_names d) -> s = schema }.
Lemma alters_parsed name schema d d' : alters schema d d' -> parsed_db name schema d -> parsed_db name schema d'.
Proof.
  induction 1 as [d|d n t t' d' G H1 H2 H3 H4 W P _ IH]; [auto|]. intros [I [T1 T2] N Ts Sc]. apply IH.
  assert (Hn : t_name t = n) by (apply T1, G). assert (Hin : In t (db_iter d)) by (apply dvals_in; exists n; apply dget_in, G).
  unfold store_table. constructor.
  - eapply dset_same_name; eassumption.
  - split.
    + cbn [db_tables]. rewrite <- Hn, <- H1. apply (named_dset t_name), T1.
    + intros u Hu. apply in_dvals_dset in Hu. destruct Hu as [->|Hu]; [apply W, T2, Hin|apply T2, Hu].
  - exact N.
  - intros u Hu. apply in_dvals_dset in Hu. destruct Hu as [->|Hu]; [apply P, Ts, Hin|apply Ts, Hu].
  - exact Sc.
Qed.
Lemma parse_statement_parsed name schema id d s : parsed_db name schema d ->
  match parse_statement schema id d s with
  | Ok d' => parsed_db name schema d'
  | Err e => is_create s = true /\ (e = IndexError \/ e = ValueError)
  end.
Proof.
  intros P. unfold parse_statement, is_create. cbn zeta. destruct (contains ($"create database") (lower s)); [exact P|].
  destruct (_ || _).
  - pose proof (create_ok schema id d s) as C. destruct (parse_create_table schema id d s) as [d'|e]; [|auto].
    destruct C as [t [-> [W [Pt _]]]]. destruct P as [I [T1 T2] N Ts Sc]. constructor; [apply db_inv_add, I| |exact N| |].
    + split; [apply (named_dset t_name), T1|]. intros u Hu. apply in_dvals_dset in Hu. destruct Hu as [->|Hu]; [exact W|apply T2, Hu].
    + intros u Hu. apply in_dvals_dset in Hu. destruct Hu as [->|Hu]; [exact Pt|apply Ts, Hu].
    + intros x Hx. unfold get_schema_names, add_table in Hx. cbn [db_schemas] in Hx. apply dkeys_dset_in in Hx. destruct Hx as [->|Hx]; [apply Pt|apply Sc, Hx].
  - destruct (contains ($"alter table") (lower s)); [|exact P]. destruct (contains ($"primary key") (lower s)); [eapply alters_parsed; [apply primary_key_ok|exact P]|].
    destruct (contains ($"foreign") (lower s)); [eapply alters_parsed; [apply foreign_key_ok|exact P]|].
    destruct (contains ($"relationship") (lower s)); [eapply alters_parsed; [apply rel_ok|exact P]|exact P].
Qed.
Lemma parse_statements_parsed name schema stmts : forall id d, parsed_db name schema d ->
  match parse_statements schema id stmts d with
  | Ok d' => parsed_db name schema d'
  | Err e => (exists s, In s stmts /\ is_create s = true) /\ (e = IndexError \/ e = ValueError)
  end.
Proof.
  induction stmts as [|s stmts IH]; intros id d P; cbn [parse_statements]; [exact P|].
  pose proof (parse_statement_parsed name schema id d s P) as Q. destruct (parse_statement schema id d s) as [d'|e]; cbn [bind].
  - specialize (IH (S id) d' Q). destruct (parse_statements schema (S id) stmts d'); [exact IH|]. destruct IH as [[x [H1 H2]] H3]. split; [|exact H3]. exists x. split; [right; exact H1|exact H2].
  - destruct Q as [Q1 Q2]. split; [|exact Q2]. exists s. split; [left; reflexivity|exact Q1].
Qed.
Lemma parsed_well_formed name schema d : parsed_db name schema d -> well_formed d.
Proof.
  intros [I [T1 T2] N Ts _]. split.
  - split; [apply I | exact T1].
  - split; [apply I|]. intros t Ht. apply dget_some_in. destruct (inv_cover _ I (t_schema t)) as [k [Hk _]]; [|eauto].
    apply dvals_in in Ht. destruct Ht as [k Hk]. eapply dget_count. apply dget_nodup; [apply I | exact Hk].
  - exact T2.
Qed.
Lemma parsed_empty name schema : parsed_db name schema (empty_database name).
Proof.
  constructor; [apply db_inv_empty| |reflexivity|intros t []|intros s []]. split; [intros n v H; discriminate | intros t []].
Qed.
Lemma c44 name schema text d : parse_text name schema text = Ok d ->
  db_name d = name /\ well_formed d /\ forall t, In t (db_iter d) -> parsed_table schema t.
Proof.
  intros E. pose proof (parse_statements_parsed name schema (get_statements text) 0 _ (parsed_empty name schema)) as P.
  unfold parse_text in E. rewrite E in P. split; [apply P|]. split; [eapply parsed_well_formed, P|apply P].
Qed.
Lemma c44_schemas name schema text d : parse_text name schema text = Ok d -> forall s, In s (get_schema_names d) -> s = schema.
Proof.
  intros E. pose proof (parse_statements_parsed name schema (get_statements text) 0 _ (parsed_empty name schema)) as P. unfold parse_text in E. rewrite E in P. apply P.
Qed.
Lemma c69 name schema text e : parse_text name schema text = Err e ->
  (e = IndexError \/ e = ValueError) /\ exists s, In s (get_statements text)
    /\ (occurs ($"create table") (lower s) \/ occurs ($"create or replace table") (lower s)).
Proof.
  intros E. pose proof (parse_statements_parsed name schema (get_statements text) 0 _ (parsed_empty name schema)) as P.
  unfold parse_text in E. rewrite E in P. destruct P as [[s [H1 H2]] H3]. split; [exact H3|]. exists s. split; [exact H1|].
  unfold is_create in H2. apply orb_true_iff in H2. rewrite !contains_true in H2. exact H2.
Qed.
