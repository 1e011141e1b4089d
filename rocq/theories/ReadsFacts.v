(** * Lemmas: the statements of reviews (C105) *)
From Verif Require Import StrFacts ParsedFacts CliReviewFacts CliFrame.
From Verif Require Export TextsFacts.
From Coq Require Import List. Import ListNotations.

Definition calm (s : str) : Prop := made (fun c => c <> ";"%char) s.
Definition calmb (s : str) : bool := forallb (fun c => negb (Ascii.eqb c ";")) s.
Lemma calm_lit s : calmb s = true -> calm s.
Proof. intros E c I ->. unfold calmb in E. rewrite forallb_forall in E. specialize (E _ I). discriminate. Qed.
Lemma calm_iff s : calm s <-> ~ In ";"%char s.
Proof. split; [intros C I; exact (C _ I eq_refl)|intros N c I ->; exact (N I)]. Qed.
Lemma calm_quoted s : calm s -> calm (quoted s).
Proof. intros C. unfold quoted. intros c [<-|I]; [discriminate|]. apply in_app_or in I. destruct I as [I|[<-|[]]]; [exact (C c I)|discriminate]. Qed.
Lemma calm_join sep : calm sep -> forall l, (forall s, In s l -> calm s) -> calm (join sep l).
Proof.
  intros C. induction l as [|x l IH]; intros M; [apply made_nil|]. assert (M' : forall s, In s l -> calm s) by (intros s I; apply M; right; exact I). specialize (M x (or_introl eq_refl)). cbn [join].
  destruct l as [|y l]; [exact M|]. apply made_app; [exact M|]. apply made_app; [exact C|exact (IH M')].
Qed.
Lemma calm_map {A} (f : A -> str) l : (forall x, In x l -> calm (f x)) -> forall s, In s (map f l) -> calm s.
Proof. intros C s I. apply in_map_iff in I. destruct I as [x [<- I]]. exact (C x I). Qed.
Ltac calmly := repeat first [assumption | apply calm_quoted | apply made_app | (apply calm_lit; reflexivity)].

(** ** The queries *)
Lemma fk_condition_calm a b : calm a -> calm b -> forall fks tks first c, (forall k, In k fks -> calm k) -> (forall k, In k tks -> calm k) -> fk_condition first a b fks tks = Ok c -> calm c.
Proof.
  intros A B. induction fks as [|k fks IH]; intros tks first c F T E; [apply ok_inj in E; subst c; apply made_nil|]. destruct tks as [|k' tks]; [discriminate|]. cbn [fk_condition] in E.
  destruct (fk_condition false a b fks tks) as [r|] eqn:R; [|discriminate]. cbn [bind] in E. apply ok_inj in E. subst c.
  assert (Cr : calm r) by (refine (IH tks false r _ _ R); intros x I; [apply F|apply T]; right; exact I). specialize (F k (or_introl eq_refl)). specialize (T k' (or_introl eq_refl)).
  destruct first; calmly; try apply made_nil.
Qed.
Lemma ws_condition_calm a b : calm a -> calm b -> forall fks tks first c, (forall k, In k fks -> calm k) -> (forall k, In k tks -> calm k) -> ws_condition first a b fks tks = Ok c -> calm c.
Proof.
  intros A B. induction fks as [|k fks IH]; intros tks first c F T E; [apply ok_inj in E; subst c; apply made_nil|]. destruct tks as [|k' tks]; [discriminate|]. cbn [ws_condition] in E.
  destruct (ws_condition false a b fks tks) as [r|] eqn:R; [|discriminate]. cbn [bind] in E. apply ok_inj in E. subst c.
  assert (Cr : calm r) by (refine (IH tks false r _ _ R); intros x I; [apply F|apply T]; right; exact I). specialize (F k (or_introl eq_refl)). specialize (T k' (or_introl eq_refl)).
  destruct first; calmly; try apply made_nil.
Qed.
Lemma select_reads body : calm body -> reads_only ($"select " ++ body ++ $";").
Proof. intros C. right. exists body. split; [reflexivity|]. apply calm_iff, C. Qed.
Lemma cardinality_reads gd gs g cols od os o counted cond q : calm gd -> calm gs -> calm g -> (forall c, In c cols -> calm c) -> calm od -> calm os -> calm o -> (forall c, In c counted -> calm c) -> calm cond ->
  cardinality_query gd gs g cols od os o counted cond = Ok q -> reads_only q.
Proof.
  intros C1 C2 C3 C4 C5 C6 C7 C8 C9 E. unfold cardinality_query in E. destruct counted as [|c0 cs]; [discriminate|]. specialize (C8 c0 (or_introl eq_refl)). cbn zeta in E. apply ok_inj in E. subst q.
  assert (J1 : calm (join ($",") (map (fun c => (quoted gd ++ $"." ++ quoted gs) ++ $"." ++ quoted g ++ $"." ++ quoted c) cols))).
  { apply calm_join; [apply calm_lit; reflexivity|]. apply calm_map. intros x I. specialize (C4 x I). calmly. }
  assert (J2 : calm (join ($",") (map (fun c => quoted g ++ $"." ++ quoted c) cols))).
  { apply calm_join; [apply calm_lit; reflexivity|]. apply calm_map. intros x I. specialize (C4 x I). calmly. }
  revert J1 J2. generalize (join ($",") (map (fun c => (quoted gd ++ $"." ++ quoted gs) ++ $"." ++ quoted g ++ $"." ++ quoted c) cols)) (join ($",") (map (fun c => quoted g ++ $"." ++ quoted c) cols)). intros j1 j2 J1 J2.
  pose proof (select_reads (j1 ++ $", " ++ $"count(" ++ ((quoted od ++ $"." ++ quoted os) ++ $"." ++ quoted o ++ $"." ++ quoted c0) ++ $") as c1 "
          ++ $"from " ++ (quoted gd ++ $"." ++ quoted gs) ++ $"." ++ quoted g ++ $", " ++ (quoted od ++ $"." ++ quoted os) ++ $"." ++ quoted o ++ $" "
          ++ $"where " ++ cond ++ $" " ++ $"group by " ++ j2 ++ $" " ++ $"order by c1 desc limit 1")) as R.
  rewrite <- !app_assoc in *. apply R. calmly.
Qed.
Lemma probe_reads columns a b cond t c : calm columns -> calm a -> calm b -> calm cond -> calm t -> calm c -> reads_only (ws_probe columns a b cond t c).
Proof.
  intros C1 C2 C3 C4 C5 C6. unfold ws_probe. change ($" = NULL;") with ($" = NULL" ++ $";").
  pose proof (select_reads (columns ++ $" FROM " ++ a ++ $" full outer join " ++ b ++ $" ON " ++ cond ++ $" WHERE " ++ quoted t ++ $"." ++ quoted c ++ $" = NULL")) as R.
  rewrite <- !app_assoc in *. apply R. calmly.
Qed.

(** ** The reviews *)
Definition asks {A} (a : act A) : Prop := forall h, exists qs, snd (a h) = h ++ qs /\ Forall reads_only qs.
Lemma asks_ret {A} (r : result A) : asks (ReviewData.ret r).
Proof. intros h. exists []. split; [rewrite app_nil_r; reflexivity|constructor]. Qed.
Lemma asks_then {A B} (a : act A) (f : A -> act B) : asks a -> (forall h x, fst (a h) = Ok x -> asks (f x)) -> asks (abind a f).
Proof.
  intros C K h. unfold abind. destruct (C h) as [q1 [E1 R1]]. specialize (K h). destruct (a h) as [[x|e] h1]; cbn [fst snd] in *; [|exists q1; split; assumption]. subst h1.
  destruct (K x eq_refl (h ++ q1)) as [q2 [E2 R2]]. exists (q1 ++ q2). split; [rewrite E2, app_assoc; reflexivity|]. apply Forall_app. split; assumption.
Qed.
Lemma asks_query ask q : reads_only q -> asks (query ask q).
Proof. intros R h. exists [q]. split; [reflexivity|]. constructor; [exact R|constructor]. Qed.
Lemma asks_cardinality ask q : reads_only q -> asks (query_for_cardinality ask q).
Proof. intros R h. exists [q]. split; [reflexivity|]. constructor; [exact R|constructor]. Qed.
Record calm_parts (p : query_parts) : Prop := {
  cq_fd : calm (q_from_db p); cq_fs : calm (q_from_schema p); cq_ft : calm (q_from_table p); cq_td : calm (q_to_db p); cq_ts : calm (q_to_schema p); cq_tt : calm (q_to_table p);
  cq_fc : forall c, In c (q_from_cols p) -> calm c; cq_tc : forall c, In c (q_to_cols p) -> calm c; cq_cond : calm (q_condition p) }.
Lemma asks_test_joins ask l : Forall calm_parts l -> asks (test_joins ask l).
Proof.
  induction 1 as [|p l [C1 C2 C3 C4 C5 C6 C7 C8 C9] _ IH]; cbn [test_joins]; [apply asks_ret|].
  apply asks_then; [apply asks_ret|]. intros h q1 E1. cbn [ReviewData.ret fst] in E1. apply asks_then; [apply asks_cardinality; eapply cardinality_reads; [..|exact E1]; assumption|]. intros _ n1 _.
  apply asks_then; [apply asks_ret|]. intros h' q2 E2. cbn [ReviewData.ret fst] in E2. apply asks_then; [apply asks_cardinality; eapply cardinality_reads; [..|exact E2]; assumption|]. intros _ n2 _.
  apply asks_then; [exact IH|]. intros _ r _. apply asks_ret.
Qed.

Section Database.
Variable d : database.
Hypothesis Calm : forall s, In s (texts_of d) -> calm s.
Let P := fun c : ascii => c <> ";"%char.
Lemma calm_db : calm (db_name d).
Proof. exact (proj1 (proj1 (model_made_iff P d) Calm)). Qed.
Lemma calm_table t : In t (db_iter d) -> table_made_of P t.
Proof. intros I. apply table_made_iff. exact (proj2 (proj2 (proj1 (model_made_iff P d) Calm)) t I). Qed.
Lemma calm_probe t : table_made_of P t -> forall c, In c (probe_columns t) -> calm c.
Proof.
  intros [A B C D E F G H] c I. unfold probe_columns in I. destruct (t_pk t) as [|k ks] eqn:K; [exact (D c I)|]. apply C. exact I.
Qed.
Lemma calm_make n t u cond : table_made_of P t -> table_made_of P u -> calm cond -> calm_parts (make_parts d n t u cond).
Proof.
  intros T U C. exact (Build_calm_parts (make_parts d n t u cond) calm_db (mt_schema P t T) (mt_name P t T) calm_db (mt_schema P u U) (mt_name P u U) (calm_probe t T) (calm_probe u U) C).
Qed.
Lemma calm_found n t : get_table d n = Some t -> calm n /\ table_made_of P t.
Proof. intros G. destruct (found_made P d n t Calm G) as [N T]. split; [exact N|apply table_made_iff, T]. Qed.
Lemma calm_key t fk : table_made_of P t -> In fk (foreign_keys_iter t) -> (forall k, In k (fk_from_keys fk) -> calm k) /\ (forall k, In k (fk_to_keys fk) -> calm k).
Proof.
  intros T I. split; intros k J; apply (mt_fks P t T fk k I); unfold key_texts; apply in_or_app; right; apply in_or_app; [left|right]; exact J.
Qed.
Lemma calm_fk_parts t fk p : table_made_of P t -> In fk (foreign_keys_iter t) -> get_fk_join_parts d t fk = Ok p -> calm_parts p.
Proof.
  intros T I E. unfold get_fk_join_parts in E. destruct (get_table d (fk_to_table fk)) as [u|] eqn:G; [|discriminate]. destruct (calm_found _ _ G) as [_ U]. destruct (calm_key t fk T I) as [K1 K2].
  destruct (fk_condition true (t_name t) (t_name u) (fk_from_keys fk) (fk_to_keys fk)) as [c|] eqn:C; [|discriminate]. cbn [bind] in E. apply ok_inj in E. subst p. apply calm_make; [exact T|exact U|].
  apply made_app; [intros x J; apply repeat_spec in J; subst x; discriminate|]. refine (fk_condition_calm _ _ _ _ _ _ _ _ K1 K2 C); [apply T|apply U].
Qed.
Lemma calm_rel_parts t r p : table_made_of P t -> In r (relationships_iter t) -> get_rel_join_parts d t r = Ok p -> calm_parts p.
Proof.
  intros T I E. unfold get_rel_join_parts in E. destruct (get_table d (rel_to_table r)) as [u|] eqn:G; [|discriminate]. destruct (calm_found _ _ G) as [_ U]. apply ok_inj in E. subst p. apply calm_make; [exact T|exact U|].
  apply (mt_rels P t T r _ I). cbn; tauto.
Qed.
Lemma all_calm {A} (f : A -> result query_parts) l : (forall x p, In x l -> f x = Ok p -> calm_parts p) -> forall ps, all_parts f l = Ok ps -> Forall calm_parts ps.
Proof.
  induction l as [|x l IH]; intros C ps E; cbn [all_parts] in E; [apply ok_inj in E; subst ps; constructor|]. destruct (f x) as [p|] eqn:F; [|discriminate]. cbn [bind] in E.
  destruct (all_parts f l) as [r|] eqn:R; [|discriminate]. cbn [bind] in E. apply ok_inj in E. subst ps. constructor; [apply (C x p (or_introl eq_refl) F)|]. apply IH; [|reflexivity]. intros y q I. apply C. right. exact I.
Qed.
Lemma asks_tables ask : forall ts, (forall t, In t ts -> table_made_of P t) -> asks (table_joins ask d ts).
Proof.
  induction ts as [|t ts IH]; intros C; cbn [table_joins]; [apply asks_ret|]. assert (T := C t (or_introl eq_refl)). assert (C' : forall t, In t ts -> table_made_of P t) by (intros x I; apply C; right; exact I).
  apply asks_then; [apply asks_ret|]. intros h js E. cbn [ReviewData.ret fst] in E. apply asks_then.
  - apply asks_test_joins. unfold joins_to_test in E. destruct (all_parts (get_fk_join_parts d t) (dvals (t_fks t))) as [fs|] eqn:E1; [|discriminate]. cbn [bind] in E.
    destruct (all_parts (get_rel_join_parts d t) (dvals (t_rels t))) as [rs|] eqn:E2; [|discriminate]. cbn [bind] in E. apply ok_inj in E. subst js. apply Forall_app. split.
    + revert E1. apply all_calm. intros fk p I. apply calm_fk_parts; [exact T|exact I].
    + revert E2. apply all_calm. intros r p I. apply calm_rel_parts; [exact T|exact I].
  - intros _ i _. apply asks_then; [exact (IH C')|]. intros _ r _. apply asks_ret.
Qed.
Lemma asks_ws_join ask w j : asks (review_ws_join ask d w j).
Proof.
  unfold review_ws_join. apply asks_then; [apply asks_ret|]. intros _ s _. apply asks_then; [apply asks_ret|]. intros _ ty _. destruct (negb _); [apply asks_ret|].
  apply asks_then; [apply asks_ret|]. intros h t E1. cbn [ReviewData.ret fst] in E1. destruct (get_table d s) as [t'|] eqn:G1; [|discriminate]. apply ok_inj in E1. subst t'.
  apply asks_then; [apply asks_ret|]. intros _ de _. apply asks_then; [apply asks_ret|]. intros _ ty' _. destruct (negb _); [apply asks_ret|].
  apply asks_then; [apply asks_ret|]. intros h2 u E2. cbn [ReviewData.ret fst] in E2. destruct (get_table d de) as [u'|] eqn:G2; [|discriminate]. apply ok_inj in E2. subst u'.
  destruct (calm_found _ _ G1) as [N1 T1]. destruct (calm_found _ _ G2) as [N2 T2]. apply asks_then; [apply asks_ret|]. intros _ n _. destruct (get_foreign_key t n) as [fk|] eqn:K; [|apply asks_ret].
  assert (KI : In fk (foreign_keys_iter t)) by (unfold get_foreign_key in K; apply dget_in in K; exact (in_map snd _ _ K)).
  destruct (calm_key t fk T1 KI) as [K1 K2]. cbn zeta. set (from := quoted (db_name d) ++ _ ++ _). set (to := quoted (db_name d) ++ _ ++ _).
  assert (CD := calm_db). assert (S1 : calm (t_schema t)) by apply T1. assert (S2 : calm (t_schema u)) by apply T2. assert (CF : calm from) by (unfold from; calmly). assert (CT : calm to) by (unfold to; calmly).
  apply asks_then; [apply asks_ret|]. intros h3 on E3. cbn [ReviewData.ret fst] in E3. assert (CO := ws_condition_calm _ _ CF CT _ _ _ _ K1 K2 E3).
  apply asks_then; [apply asks_ret|]. intros h4 lf E4. cbn [ReviewData.ret fst] in E4. assert (CL : calm lf) by (destruct (fk_from_keys fk); [discriminate|apply ok_inj in E4; subst; apply K1; left; reflexivity]).
  apply asks_then; [apply asks_ret|]. intros h5 rp E5. cbn [ReviewData.ret fst] in E5. assert (CR : calm rp) by (destruct (fk_to_keys fk); [discriminate|apply ok_inj in E5; subst; apply K2; left; reflexivity]).
  set (columns := join _ _ ++ _ ++ _). assert (CC : calm columns).
  { unfold columns. apply made_app; [apply calm_join; [apply calm_lit; reflexivity|]; apply calm_map; intros x I; specialize (K1 x I); calmly|]. apply made_app; [apply calm_lit; reflexivity|].
    apply calm_join; [apply calm_lit; reflexivity|]. apply calm_map. intros x I. specialize (K2 x I). calmly. }
  apply asks_then; [apply asks_query, probe_reads; assumption|]. intros _ m1 _. apply asks_then; [apply asks_query, probe_reads; assumption|]. intros _ m2 _.
  apply asks_then; [apply asks_ret|]. intros _ jt _. apply asks_ret.
Qed.
Lemma asks_ws_joins ask w : forall js, asks (ws_joins_review ask d w js).
Proof.
  induction js as [|j js IH]; cbn [ws_joins_review]; [apply asks_ret|]. apply asks_then; [apply asks_ws_join|]. intros _ i _. apply asks_then; [exact IH|]. intros _ r _. apply asks_ret.
Qed.
Lemma asks_sharding ask rnd commas float_str c : asks (review_sharding ask rnd commas float_str d c).
Proof. unfold review_sharding. apply asks_then; [apply asks_query; left; reflexivity|]. intros _ r _. apply asks_ret. Qed.
Lemma asks_loop names ws rtql : forall l, Forall (fun r => forall q w, asks (rv_run r q w)) l -> forall m h ev, exists qs, snd (fst (review_loop names ws rtql l m h ev)) = h ++ qs /\ Forall reads_only qs.
Proof.
  assert (N : forall h : list str, exists qs, h = h ++ qs /\ Forall reads_only qs) by (intros h; exists []; split; [rewrite app_nil_r; reflexivity|constructor]).
  induction l as [|r l IH]; intros V m h ev; cbn [review_loop]; [apply N|]. apply Forall_cons_iff in V. destruct V as [V1 V2]. specialize (IH V2). destruct (_ && _); [apply IH|].
  destruct (starts_with _ _); [|apply IH]. destruct (_ && _); [apply IH|]. destruct (_ && _); [apply IH|]. destruct (rv_params r); [apply IH|].
  match goal with |- context [rv_run r ?q ?w h] => destruct (V1 q w h) as [q1 [E1 R1]]; destruct (rv_run r q w h) as [[i|e] h1] end; cbn [fst snd] in *; [|exists q1; split; assumption]. subst h1.
  match goal with |- context [review_loop names ws rtql l ?m' ?h' ?ev'] => destruct (IH m' h' ev') as [q2 [E2 R2]] end.
  exists (q1 ++ q2). split; [rewrite E2, app_assoc; reflexivity|]. apply Forall_app. split; assumption.
Qed.
Lemma asks_all order rnd commas float_str fuel c : Forall (fun r => forall q w, asks (rv_run r q w)) (review_tests order rnd commas float_str fuel d c).
Proof.
  unfold review_tests. repeat (apply Forall_cons; [|]); [intros q w; cbn [rv_run]..|apply Forall_nil]; try apply asks_ret; destruct q as [ask|]; cbn [need]; try apply asks_ret.
  - apply asks_sharding.
  - exact (asks_tables ask (db_iter d) calm_table).
  - destruct w; cbn [need]; [exact (asks_ws_joins ask _ (ws_joins _))|apply asks_ret].
Qed.
Lemma model_reads order rnd commas float_str fuel c names ws rtql : Forall reads_only (snd (fst (review_model order rnd commas float_str fuel c d names ws rtql))).
Proof. destruct (asks_loop names ws rtql _ (asks_all order rnd commas float_str fuel c) [] [] []) as [qs [E R]]. unfold review_model, review_with. rewrite E. exact R. Qed.
End Database.
