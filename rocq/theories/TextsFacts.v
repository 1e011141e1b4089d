(** * Lemmas: the characters of a model that is read, and of the queries about it (C105) *)
From Verif Require Import StrFacts ParsedFacts.
From Verif Require Export SpecTexts.
From Coq Require Import List Lia. Import ListNotations.

Section Characters.
Variable P : ascii -> Prop.
Definition made (s : str) : Prop := forall c, In c s -> P c.
Lemma made_sub s s' : (forall c, In c s' -> In c s) -> made s -> made s'.
Proof. intros H M c I. apply M, H, I. Qed.
Lemma made_app a b : made a -> made b -> made (a ++ b).
Proof. intros A B c I. apply in_app_or in I. destruct I; auto. Qed.
Lemma made_nil : made []. Proof. intros c []. Qed.

(** ** Patterns *)
Lemma star_split {A} ok (k : str -> option A) : forall s w a, star ok k s = Some (w, a) -> exists z, s = w ++ z /\ k z = Some a.
Proof.
  induction s as [|c s IH]; intros w a; cbn [star].
  - destruct (k []) as [x|] eqn:K; [|discriminate]. intros E. injection E as <- <-. exists []. split; [reflexivity|exact K].
  - assert (H : match k (c :: s) with Some a0 => Some ([], a0) | None => None end = Some (w, a) -> exists z, c :: s = w ++ z /\ k z = Some a).
    { destruct (k (c :: s)) as [x|] eqn:K; [|discriminate]. intros E. injection E as <- <-. exists (c :: s). split; [reflexivity|exact K]. }
    destruct (ok c); [|exact H]. destruct (star ok k s) as [[w' a']|] eqn:S; [|exact H]. intros E. injection E as <- <-. destruct (IH w' a' eq_refl) as [z [-> K]]. exists z. split; [reflexivity|exact K].
Qed.
Lemma lit_rest p : forall s s', lit_prefix p s = Some s' -> forall c, In c s' -> In c s.
Proof.
  induction p as [|x p IH]; intros s s' E; [injection E as <-; auto|]. destruct s as [|y s]; [discriminate|]. cbn [lit_prefix] in E. destruct (ci_eqb x y); [|discriminate].
  intros c I. right. exact (IH _ _ E c I).
Qed.
Lemma match_made r : forall s g, made s -> rmatch r s = Some g -> forall w, In w g -> made w.
Proof.
  induction r as [|[p| | |] r IH]; intros s g M E w I; cbn [rmatch] in E.
  - injection E as <-. destruct I.
  - destruct (lit_prefix p s) as [s'|] eqn:L; [|discriminate]. exact (IH s' g (made_sub _ _ (lit_rest _ _ _ L) M) E w I).
  - destruct (star dot (rmatch r) s) as [[v g']|] eqn:S; [|discriminate]. injection E as <-. apply star_split in S. destruct S as [z [-> K]].
    refine (IH z g' _ K w I). intros c J. apply M, in_or_app. right. exact J.
  - destruct (star dot (rmatch r) s) as [[v g']|] eqn:S; [|discriminate]. injection E as <-. apply star_split in S. destruct S as [z [-> K]]. destruct I as [<-|I].
    + intros c J. apply M, in_or_app. left. exact J.
    + refine (IH z g' _ K w I). intros c J. apply M, in_or_app. right. exact J.
  - destruct (star blank (rmatch r) s) as [[v g']|] eqn:S; [|discriminate]. injection E as <-. apply star_split in S. destruct S as [z [-> K]].
    refine (IH z g' _ K w I). intros c J. apply M, in_or_app. right. exact J.
Qed.
Lemma search_made r : forall s g, made s -> rsearch r s = Some g -> forall w, In w g -> made w.
Proof.
  induction s as [|c s IH]; intros g M E; cbn [rsearch] in E.
  - destruct (rmatch r []) eqn:K; [|discriminate]. injection E as <-. exact (match_made r _ _ M K).
  - destruct (rmatch r (c :: s)) eqn:K; [injection E as <-; exact (match_made r _ _ M K)|]. apply IH; [|exact E]. intros x I. apply M. right. exact I.
Qed.
Lemma resplit_made p : forall s k w, made s -> In w (resplit_aux p k s) -> made w.
Proof.
  induction s as [|c s IH]; intros k w M I; cbn [resplit_aux] in I; [destruct I as [<-|[]]; exact M|].
  assert (M' : made s) by (intros x J; apply M; right; exact J). destruct k as [|k]; [|exact (IH k w M' I)]. destruct (lit_prefix p (c :: s)).
  - destruct I as [<-|I]; [apply made_nil|exact (IH _ w M' I)].
  - destruct (resplit_aux p 0 s) as [|v vs] eqn:R; [destruct I as [<-|[]]; intros x [<-|[]]; apply M; left; reflexivity|]. destruct I as [<-|I].
    + intros x [<-|J]; [apply M; left; reflexivity|]. apply (IH 0 v M'); [rewrite R; left; reflexivity|exact J].
    + apply (IH 0 w M'). rewrite R. right. exact I.
Qed.

(** ** Names *)
Lemma clean_made s : made s -> made (clean_name s).
Proof. apply made_sub. intros c. apply in_clean_name. Qed.
Lemma keys_made s : made s -> forall k, In k (key_columns_of s) -> made k.
Proof. intros M k I. apply in_map_iff in I. destruct I as [w [<- I]]. apply clean_made. intros c J. apply M. exact (in_parts _ _ _ _ I J). Qed.
Lemma hd_made c s : made s -> made (hd [] (split_char c s)).
Proof. intros M. destruct (split_char c s) as [|w ws] eqn:E; [apply made_nil|]. intros x I. apply M, (in_parts x c w); [rewrite E; left; reflexivity|exact I]. Qed.
Lemma extract_made s n : made s -> extract_table_name s = Ok n -> made n.
Proof.
  intros M. unfold extract_table_name. assert (L : made (last_of (split_char "." s))) by (intros c I; apply M; exact (in_parts _ _ _ _ (last_in _ (split_nonnil _ _)) I)).
  destruct (extract_name (last_of (split_char "." s))) as [m|] eqn:E; [|discriminate]. cbn [bind]. intros K. apply ok_inj in K. subst n. apply clean_made. revert E.
  unfold extract_name. destruct (last_of (split_char "." s)) as [|x w]; [discriminate|]. assert (L' : made w) by (intros c I; apply L; right; exact I).
  destruct (Ascii.eqb x dquote); [|destruct (Ascii.eqb x squote)]; intros E; apply ok_inj in E; subst m; apply hd_made; assumption.
Qed.
Lemma removed_made a s : made s -> made (replace_char a [] s).
Proof. apply made_sub. intros c I. apply ParsedFacts.in_remove in I. apply I. Qed.
Lemma strip_char_made a s : made s -> made (strip_char a s).
Proof.
  intros M. apply (made_sub s); [|exact M]. intros c. unfold strip_char.
  assert (L : forall s, In c (lstrip_char a s) -> In c s) by (clear; induction s as [|x s IH]; [tauto|]; cbn [lstrip_char]; destruct (Ascii.eqb x a); [right; auto|tauto]).
  rewrite <- in_rev. intros I. apply L in I. rewrite <- in_rev in I. apply L in I. exact I.
Qed.

(** ** Tables *)
Definition table_made (t : table) : Prop := forall s, In s (texts_of_table t) -> made s.
Record table_made_of (t : table) : Prop := {
  mt_name : made (t_name t); mt_schema : made (t_schema t); mt_pk : forall k, In k (t_pk t) -> made k; mt_cols : forall k, In k (get_column_names t) -> made k;
  mt_columns : forall c, In c (table_iter t) -> made (column_name c); mt_shard : forall sk k, t_shard t = Some sk -> In k (sk_keys sk) -> made k;
  mt_fks : forall fk s, In fk (foreign_keys_iter t) -> In s (key_texts fk) -> made s;
  mt_rels : forall r s, In r (relationships_iter t) -> In s (relation_texts r) -> made s }.
Lemma table_made_iff t : table_made t <-> table_made_of t.
Proof.
  unfold table_made, texts_of_table. split.
  - intros H. constructor; intros; apply H; cbn [In]; rewrite ?in_app_iff.
    + left. reflexivity.
    + right. left. reflexivity.
    + tauto.
    + tauto.
    + do 4 right. left. apply in_map. assumption.
    + do 5 right. left. rewrite H0. assumption.
    + do 6 right. left. apply in_flat_map. eauto.
    + do 7 right. apply in_flat_map. eauto.
  - intros [A A' B C D E F G] s I. cbn [In] in I. rewrite !in_app_iff in I. destruct I as [<-|[<-|[I|[I|[I|[I|[I|I]]]]]]]; auto.
    + apply in_map_iff in I. destruct I as [c [<- I]]. apply D, I.
    + destruct (t_shard t) as [sk|] eqn:S; [exact (E sk s eq_refl I)|destruct I].
    + apply in_flat_map in I. destruct I as [fk [I J]]. exact (F fk s I J).
    + apply in_flat_map in I. destruct I as [r [I J]]. exact (G r s I J).
Qed.
Definition model_made (d : database) : Prop := forall s, In s (texts_of d) -> made s.
Lemma model_made_iff d : model_made d <-> made (db_name d) /\ (forall n, In n (get_table_names d) -> made n) /\ forall t, In t (db_iter d) -> table_made t.
Proof.
  unfold model_made, texts_of, table_made. split.
  - intros H. split; [apply H; left; reflexivity|]. split; [intros n I; apply H; right; apply in_or_app; left; exact I|]. intros t I s J. apply H. right. apply in_or_app. right. apply in_flat_map. eauto.
  - intros [N [A B]] s [<-|I]; [exact N|]. apply in_app_or in I. destruct I as [I|I]; [apply A, I|]. apply in_flat_map in I. destruct I as [t [I J]]. exact (B t I s J).
Qed.
Lemma dset_keys {A} k (v : A) d x : In x (dkeys (dset k v d)) -> x = k \/ In x (dkeys d).
Proof.
  induction d as [|[k' v'] d IH]; cbn [dset dkeys map fst In]; [intros [<-|[]]; auto|]. destruct (str_eqb k k'); cbn [map fst In]; intros [H|H]; auto. destruct (IH H); auto.
Qed.
Lemma stored_made d n t : model_made d -> made n -> table_made t -> model_made (store_table d n t).
Proof.
  rewrite !model_made_iff. intros [A0 [A B]] N T. unfold store_table, get_table_names, db_iter. cbn [db_tables db_name]. split; [exact A0|]. split.
  - intros m I. apply dset_keys in I. destruct I as [->|I]; [exact N|apply A, I].
  - intros u I. apply in_dvals_dset in I. destruct I as [->|I]; [exact T|apply B, I].
Qed.
Lemma found_made d n t : model_made d -> get_table d n = Some t -> made n /\ table_made t.
Proof.
  rewrite model_made_iff. intros [_ [A B]] G. apply dget_in in G. split; [apply A|apply B]; [exact (in_map fst _ _ G)|exact (in_map snd _ _ G)].
Qed.

(** ** CREATE *)
Hypothesis Quote : P dquote.
Lemma bracket_made a s : made s -> made (replace_char a [dquote] s).
Proof.
  intros M c I. unfold replace_char in I. apply in_flat_map in I. destruct I as [x [I J]]. destruct (Ascii.eqb x a); destruct J as [<-|[]]; [exact Quote|apply M, I].
Qed.
Lemma table_name_made s : made s -> made (get_table_name s).
Proof.
  intros M. unfold get_table_name, strip_quotes. cbn zeta. do 3 apply removed_made. intros c I. apply (in_parts _ _ _ _ (last_in _ (split_nonnil _ _))) in I. apply in_skipn, in_rstrip, in_slice in I. exact (M c I).
Qed.
Lemma partition_made p s : made s -> made (before p s) /\ made (after p s).
Proof.
  intros M. unfold before, after, py_partition. destruct (find_opt p s); cbn [fst snd]; [|split; [exact M|apply made_nil]].
  split; intros c I; apply M; [exact (in_firstn _ _ _ I)|exact (in_skipn _ _ _ I)].
Qed.
Lemma field_pk_made rf k : made rf -> In k (field_pk rf) -> made k.
Proof.
  intros M I c J. unfold field_pk in I. apply (in_parts _ _ _ _ I) in J. revert c J. do 2 apply removed_made. apply partition_made, partition_made, M.
Qed.
Lemma field_name_made rf n h : made rf -> field_name rf = Ok (n, h) -> made n.
Proof.
  intros M. destruct rf as [|q rf]; [discriminate|]. cbn [field_name]. destruct (existsb (Ascii.eqb q) [dquote; squote; backquote]); intros E; apply ok_inj in E; apply pair_equal_spec in E; destruct E as [<- _];
    intros c I; apply M; exact (in_slice _ _ _ _ I).
Qed.
Lemma fields_made rfs : forall t cols t' cols', (forall rf, In rf rfs -> made rf) -> table_made_of t -> (forall c, In c cols -> made (column_name c)) ->
  fields_loop rfs t cols = Ok (t', cols') -> table_made_of t' /\ forall c, In c cols' -> made (column_name c).
Proof.
  induction rfs as [|rf rfs IH]; intros t cols t' cols' M T C; cbn [fields_loop].
  - intros E. apply ok_inj in E. apply pair_equal_spec in E. destruct E as [<- <-]. auto.
  - assert (M' : forall rf, In rf rfs -> made rf) by (intros x I; apply M; right; exact I). specialize (M rf (or_introl eq_refl)).
    destruct (contains ($"key ") (lower rf)).
    + destruct (contains ($"primary") (lower rf)); [|apply IH; assumption]. cbn [set_primary_key bind keys_list]. apply IH; [exact M'| |exact C].
      destruct T. constructor; try assumption. cbn [with_pk t_pk]. intros k I. exact (field_pk_made rf k M I).
    + destruct (field_name rf) as [[n h]|] eqn:N; [|discriminate]. cbn [bind]. destruct (convert_type (field_type rf n h)) as [ty|]; [|discriminate]. cbn [bind].
      destruct (mk_column (Some n) (Some ty)) as [col|] eqn:K; [|discriminate]. cbn [bind]. apply IH; [exact M'|exact T|]. intros c I. apply in_app_or in I. destruct I as [I|[<-|[]]]; [apply C, I|].
      unfold mk_column in K. destruct (negb _ && negb _); [discriminate|]. apply ok_inj in K. subst col. exact (field_name_made rf n h M N).
Qed.
Lemma columns_made cs : forall t, table_made_of t -> (forall c, In c cs -> made (column_name c)) -> table_made_of (add_columns t cs).
Proof.
  unfold add_columns. induction cs as [|c cs IH]; intros t T C; [exact T|]. cbn [fold_left]. apply IH; [|intros x I; apply C; right; exact I].
  specialize (C c (or_introl eq_refl)). destruct T. constructor; try assumption.
  - unfold get_column_names. cbn [add_column t_cols]. intros k I. apply dset_keys in I. destruct I as [->|I]; auto.
  - unfold table_iter. cbn [add_column t_cols]. intros x I. apply in_dvals_dset in I. destruct I as [->|I]; auto.
Qed.
Lemma create_made schema id d s d' : made schema -> made s -> model_made d -> parse_create_table schema id d s = Ok d' -> model_made d'.
Proof.
  intros MS M D. unfold parse_create_table. cbn zeta. pose proof (bracket_made "]" _ (bracket_made "[" s M)) as M'. set (s' := replace_char "]" [dquote] (replace_char "[" [dquote] s)) in *.
  unfold parse_columns. destruct (fields_loop (raw_fields (column_text s')) (mk_table (get_table_name s') schema None None) []) as [[t cols]|] eqn:F; [|discriminate]. cbn [bind].
  apply fields_made in F; [| | |intros c []].
  - destruct F as [T C]. pose proof (columns_made cols t T C) as T'. set (t' := add_columns t cols) in *. intros E. apply ok_inj in E. subst d'.
    assert (T2 : table_made_of (if contains ($"partition by hash") (lower s') then add_hashkey id t' s' else t')).
    { destruct (contains _ _); [|exact T']. unfold add_hashkey. destruct (rsearch hash_pattern s') as [[|g1 [|g2 [|]]]|] eqn:R; try exact T'. destruct (py_int g1); [|exact T'].
      destruct T'. constructor; try assumption. cbn [with_shard t_shard]. intros sk k E I. injection E as <-. cbn [sk_keys] in I. refine (keys_made g2 _ k I).
      apply (search_made _ _ _ M' R). right. left. reflexivity. }
    rewrite model_made_iff in *. destruct D as [A0 [A B]]. unfold add_table, get_table_names, db_iter. cbn [db_tables db_name]. split; [exact A0|]. split.
    + intros n I. apply dset_keys in I. destruct I as [->|I]; [apply T2|apply A, I].
    + intros u I. apply in_dvals_dset in I. destruct I as [->|I]; [apply table_made_iff, T2|apply B, I].
  - intros rf I c J. apply (in_raw_fields _ _ _ I) in J. unfold column_text in J. apply in_strip, in_slice in J. exact (M' c J).
  - constructor; cbn; try (intros; contradiction); try discriminate; [apply table_name_made, M'|exact MS].
Qed.

(** ** ALTER *)
Lemma primary_made d s : made s -> model_made d -> model_made (parse_primary_key d s).
Proof.
  intros M D. unfold parse_primary_key. destruct (rmatch pk_pattern s) as [[|g1 [|g2 [|]]]|] eqn:R; try exact D. destruct (extract_table_name g1) as [n|] eqn:X; [|exact D].
  destruct (get_table d n) as [t|] eqn:G; [|exact D]. cbn [set_primary_key keys_list]. destruct (found_made d n t D G) as [N T]. apply stored_made; [exact D|exact N|].
  apply table_made_iff. apply table_made_iff in T. destruct T. constructor; try assumption. cbn [with_pk t_pk]. intros k I. apply (keys_made g2); [|exact I].
  apply (match_made _ _ _ M R). right. left. reflexivity.
Qed.
Hypothesis Literals : made ($"FK_REL_to_").
Lemma literal_made s : incl s ($"FK_REL_to_") -> made s.
Proof. intros H c I. apply Literals, H, I. Qed.
Lemma fk_loop_made n cs : forall d, (forall c, In c cs -> made c) -> model_made d -> model_made (fk_loop n cs d).
Proof.
  induction cs as [|c cs IH]; intros d M D; cbn [fk_loop]; [exact D|]. cbn zeta. set (c' := strip _).
  assert (M' : forall x, In x cs -> made x) by (intros x I; apply M; right; exact I).
  assert (Mc : made c').
  { specialize (M c (or_introl eq_refl)). unfold c'. assert (S : forall w, made w -> made (strip w)) by (intros w; apply made_sub; intros x; apply in_strip). apply S, strip_char_made, strip_char_made, S, M. }
  destruct (fk_parts c') as [[[[name fc] [to|]] tc]|] eqn:Ep; try exact D.
  destruct (get_table d n) as [t|] eqn:G; [|apply IH; assumption].
  destruct (add_fk_parts t (Some (KeyList fc)) (Some to) (Some (KeyList tc)) name) as [t'|] eqn:Ea; [|exact D].
  assert (Q : match name with Some n => made n | None => True end /\ made to /\ (forall k, In k (fc ++ tc) -> made k)).
  { unfold fk_parts in Ep. destruct (rmatch named_fk_pattern c') as [gs|] eqn:R1.
    - pose proof (match_made _ _ _ Mc R1) as GM.
      assert (U : forall gs', rmatch unnamed_fk_pattern c' = Some gs' -> forall w, In w gs' -> made w) by (intros gs' R2; exact (match_made _ _ _ Mc R2)).
      destruct gs as [|g1 [|g2 [|g3 [|g4 [|]]]]].
      5: { injection Ep as <- <- X <-. split; [apply clean_made, GM; cbn; tauto|]. split; [refine (extract_made g3 to _ X); apply GM; cbn; tauto|].
           intros k I. apply in_app_or in I. destruct I as [I|I]; [refine (keys_made g2 _ k I)|refine (keys_made g4 _ k I)]; apply GM; cbn; tauto. }
      all: destruct (rmatch unnamed_fk_pattern c') as [[|h1 [|h2 [|h3 [|]]]]|]; try discriminate; specialize (U _ eq_refl); injection Ep as <- <- X <-;
           (split; [exact I|]); (split; [refine (extract_made h2 to _ X); apply U; cbn; tauto|]); intros k J; apply in_app_or in J;
           destruct J as [J|J]; [refine (keys_made h1 _ k J)|refine (keys_made h3 _ k J)]; apply U; cbn; tauto.
    - destruct (rmatch unnamed_fk_pattern c') as [[|h1 [|h2 [|h3 [|]]]]|] eqn:R2; try discriminate. pose proof (match_made _ _ _ Mc R2) as U. injection Ep as <- <- X <-.
      split; [exact I|]. split; [refine (extract_made h2 to _ X); apply U; cbn; tauto|]. intros k J. apply in_app_or in J.
      destruct J as [J|J]; [refine (keys_made h1 _ k J)|refine (keys_made h3 _ k J)]; apply U; cbn; tauto. }
  destruct Q as [Q1 [Q2 Q3]]. apply IH; [exact M'|]. destruct (found_made d n t D G) as [N T]. apply stored_made; [exact D|exact N|].
  unfold add_fk_parts, mk_foreign_key in Ea. cbn [keys_list] in Ea. destruct (negb _); [discriminate|]. cbn [bind] in Ea. apply ok_inj in Ea. subst t'. apply table_made_iff. apply table_made_iff in T. destruct T. constructor; try assumption.
  intros fk s I J. unfold foreign_keys_iter in I. cbn [add_fk_obj with_fks t_fks] in I. apply in_dvals_dset in I. destruct I as [->|I]; [|exact (mt_fks0 fk s I J)].
  cbn [key_texts fk_name fk_from_table fk_to_table fk_from_keys fk_to_keys app In] in J. destruct J as [<-|[<-|[<-|J]]]; [|assumption|assumption|exact (Q3 s J)].
  destruct name as [m|]; [exact Q1|]. unfold default_fk_name. apply made_app; [apply literal_made; intros x; cbn; tauto|]. apply made_app; [assumption|]. apply made_app; [apply literal_made; intros x; cbn; tauto|exact Q2].
Qed.
Lemma foreign_made d s : made s -> model_made d -> model_made (parse_foreign_key d s).
Proof.
  intros M D. unfold parse_foreign_key. destruct (rmatch add_pattern s) as [[|g [|]]|]; try exact D. apply fk_loop_made; [|exact D]. intros c I. apply (resplit_made ($"constraint") s 0 c M).
  unfold resplit in I. destruct (resplit_aux _ 0 s); [destruct I|right; exact I].
Qed.
Lemma relationship_made d s : made s -> model_made d -> model_made (parse_relationship d s).
Proof.
  intros M D. unfold parse_relationship. destruct (rel_parts s) as [[[[[n|] name] [to|]] c]|] eqn:Ep; try exact D.
  destruct (get_table d n) as [t|] eqn:G; [|exact D]. unfold add_rel_parts. cbn [mk_relationship bind].
  assert (Q : match name with Some n => made n | None => True end /\ made to /\ made c).
  { unfold rel_parts in Ep.
    assert (U : forall gs, rmatch named_rel_pattern s = Some gs \/ rmatch unnamed_rel_pattern s = Some gs -> forall w, In w gs -> made w) by (intros gs [R|R]; exact (match_made _ _ _ M R)).
    destruct (rmatch named_rel_pattern s) as [[|g1 [|g2 [|g3 [|g4 [|]]]]]|].
    5: { specialize (U _ (or_introl eq_refl)). injection Ep as _ <- X <-. split; [apply clean_made, U; cbn; tauto|]. split; [refine (extract_made g3 to _ X)|]; apply U; cbn; tauto. }
    all: destruct (rmatch unnamed_rel_pattern s) as [[|h1 [|h2 [|h3 [|]]]]|]; try discriminate; specialize (U _ (or_intror eq_refl)); injection Ep as _ <- X <-;
      (split; [exact I|]); (split; [refine (extract_made h2 to _ X)|]); apply U; cbn; tauto. }
  destruct Q as [Q1 [Q2 Q3]]. destruct (found_made d n t D G) as [N T]. apply stored_made; [exact D|exact N|]. apply table_made_iff. apply table_made_iff in T. destruct T. constructor; try assumption.
  intros r x I J. unfold relationships_iter in I. cbn [add_rel_obj with_rels t_rels] in I. apply in_dvals_dset in I. destruct I as [->|I]; [|exact (mt_rels0 r x I J)].
  cbn [relation_texts rel_name rel_from_table rel_to_table rel_conditions In] in J. destruct J as [<-|[<-|[<-|[<-|[]]]]]; [|assumption..].
  destruct name as [m|]; [exact Q1|]. unfold default_rel_name. apply made_app; [apply literal_made; intros x; cbn; tauto|]. apply made_app; [assumption|]. apply made_app; [apply literal_made; intros x; cbn; tauto|exact Q2].
Qed.
Lemma statement_made schema id d s d' : made schema -> made s -> model_made d -> parse_statement schema id d s = Ok d' -> model_made d'.
Proof.
  intros MS M D. unfold parse_statement. destruct (contains ($"create database") (lower s)); [intros E; apply ok_inj in E; subst; exact D|].
  destruct (_ || _); [apply create_made; assumption|]. destruct (contains ($"alter table") (lower s)); [|intros E; apply ok_inj in E; subst; exact D].
  destruct (contains ($"primary key") (lower s)); [intros E; apply ok_inj in E; subst; apply primary_made; assumption|].
  destruct (contains ($"foreign") (lower s)); [intros E; apply ok_inj in E; subst; apply foreign_made; assumption|].
  destruct (contains ($"relationship") (lower s)); intros E; apply ok_inj in E; subst; [apply relationship_made; assumption|exact D].
Qed.
Lemma statements_made schema stmts : made schema -> forall id d d', (forall s, In s stmts -> made s) -> model_made d -> parse_statements schema id stmts d = Ok d' -> model_made d'.
Proof.
  intros MS. induction stmts as [|s stmts IH]; intros id d d' M D E; cbn [parse_statements] in E; [apply ok_inj in E; subst; exact D|].
  destruct (parse_statement schema id d s) as [d1|] eqn:St; [|discriminate]. cbn [bind] in E. apply (IH (S id) d1); [intros x I; apply M; right; exact I| |exact E].
  apply (statement_made schema id d s); [exact MS|apply M; left; reflexivity|exact D|exact St].
Qed.
Lemma empty_made name : made name -> model_made (empty_database name).
Proof. intros M s [<-|[]]. exact M. Qed.

(** ** The statements of a text *)
Hypothesis Blank : P " "%char.
Hypothesis Newline : P newline.
Lemma runs_made c s : made s -> made (sub_runs c s).
Proof.
  unfold sub_runs. intros M. assert (G : forall b, made (squeeze c b s)); [|apply G]. induction s as [|x s IH]; intros b; cbn [squeeze]; [apply made_nil|].
  assert (M' : made s) by (intros y I; apply M; right; exact I). specialize (IH M'). destruct (Ascii.eqb x c).
  - destruct b; [apply IH|]. intros y [<-|I]; [exact Blank|exact (IH _ y I)].
  - intros y [<-|I]; [apply M; left; reflexivity|exact (IH _ y I)].
Qed.
Lemma strip_made s : made s -> made (strip s).
Proof. apply made_sub. intros c. apply in_strip. Qed.
Lemma newlines_made : forall n s, length s <= n -> made s -> made (universal_newlines s).
Proof.
  induction n as [|n IH]; intros s L M; [destruct s; [apply made_nil|cbn [length] in L; lia]|]. destruct s as [|c s]; [apply made_nil|]. cbn [universal_newlines length] in *.
  assert (M' : made s) by (intros y I; apply M; right; exact I). destruct (Ascii.eqb c (chr 13)).
  - destruct s as [|d s]; [intros y [<-|[]]; exact Newline|]. destruct (Ascii.eqb d newline).
    + intros y [<-|I]; [exact Newline|]. revert y I. apply IH; [cbn [length] in L; lia|]. intros y I. apply M'. right. exact I.
    + intros y [<-|I]; [exact Newline|]. revert y I. apply IH; [lia|exact M'].
  - intros y [<-|I]; [apply M; left; reflexivity|]. revert y I. apply IH; [lia|exact M'].
Qed.
Lemma lines_made s : made s -> forall l, In l (file_lines s) -> made l.
Proof.
  induction s as [|c s IH]; intros M l I; cbn [file_lines] in I; [destruct I|]. assert (M' : made s) by (intros y J; apply M; right; exact J). specialize (IH M').
  destruct (Ascii.eqb c newline).
  - destruct I as [<-|I]; [intros y [<-|[]]; exact Newline|exact (IH l I)].
  - destruct (file_lines s) as [|w ws]; [destruct I as [<-|[]]; intros y [<-|[]]; apply M; left; reflexivity|]. destruct I as [<-|I].
    + intros y [<-|J]; [apply M; left; reflexivity|]. exact (IH w (or_introl eq_refl) y J).
    + exact (IH l (or_intror I)).
Qed.
Lemma feed_made l b k : made l -> made b -> made (fst (feed l b k)).
Proof.
  intros L B. unfold feed. destruct k; [destruct (contains _ l); cbn [fst]; [apply made_app; [exact B|apply partition_made, L]|exact B]|]. destruct (contains _ l).
  - cbn zeta. assert (Q : made (b ++ before ($"/*") l)) by (apply made_app; [exact B|apply partition_made, L]). destruct (contains _ _); cbn [fst]; [|exact Q].
    apply made_app; [exact Q|]. apply partition_made, partition_made, L.
  - cbn [fst]. apply made_app; [exact B|]. apply made_app; [intros y [<-|[]]; exact Blank|exact L].
Qed.
Lemma read_made ls : forall st, (forall l, In l ls -> made l) -> made (r_buffer st) -> (forall s, In s (r_statements st) -> made s) -> forall s, In s (r_statements (fold_left read_line ls st)) -> made s.
Proof.
  induction ls as [|l ls IH]; intros st M B S; [exact S|]. cbn [fold_left]. assert (M' : forall l, In l ls -> made l) by (intros x I; apply M; right; exact I). specialize (M l (or_introl eq_refl)).
  assert (Q : made (r_buffer (read_line st l)) /\ forall s, In s (r_statements (read_line st l)) -> made s); [|exact (IH _ M' (proj1 Q) (proj2 Q))].
  unfold read_line. cbn zeta. set (l' := before _ _). assert (M1 : made l') by (apply partition_made; unfold clean_line; apply runs_made, runs_made, strip_made, M).
  destruct (should_ignore_line l'); [split; assumption|]. pose proof (feed_made l' (r_buffer st) (r_in_comment st) M1 B) as F. destruct (feed l' (r_buffer st) (r_in_comment st)) as [b k]. cbn [fst] in F.
  destruct (contains _ b); cbn [r_buffer r_statements]; [|split; assumption]. split; [apply partition_made, F|]. intros s I. apply in_app_or in I. destruct I as [I|[<-|[]]]; [exact (S s I)|]. apply strip_made, partition_made, F.
Qed.
Lemma get_statements_made text : made text -> forall s, In s (get_statements text) -> made s.
Proof.
  intros M s I. unfold get_statements in I. apply in_map_iff in I. destruct I as [x [<- I]]. apply runs_made. refine (read_made _ start_reading _ made_nil _ x I); [|intros y []].
  apply lines_made. exact (newlines_made _ _ (le_n _) M).
Qed.
End Characters.
