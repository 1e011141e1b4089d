(** * C104: what review_model says while it runs *)
From Verif Require Import StrFacts JoinFacts WsJoinFacts TalkFacts SpecTalk CliFacts CliReviewFacts PropsCli PropsCliReview PropsJoin PropsWsJoin.
From Coq Require Import List. Import ListNotations.

(** Printing changes nothing: the findings and the queries are those of C53-C63. *)
Theorem C104_same : forall why yaml_text order rnd commas float_str fuel c d names ws rtql,
  fst (review_aloud why yaml_text order rnd commas float_str fuel c d names ws rtql) = fst (review_model order rnd commas float_str fuel c d names ws rtql).
Proof. exact model_aloud. Qed.
Print Assumptions C104_same.

(** ** Every query is shown *)
Lemma within_app {A} (a b a' b' : list A) : within a b -> within a' b' -> within (a ++ a') (b ++ b').
Proof. induction 1 as [|x a b _ IH|x a b _ IH]; intros K; [exact K|apply wi_both, IH, K|apply wi_skip, IH, K]. Qed.
Lemma within_none {A} (b : list A) : within [] b.
Proof. induction b as [|x b IH]; [constructor|apply wi_skip, IH]. Qed.
Definition statistics : str := $"show statistics for server;".
Definition other (q : str) : bool := negb (str_eqb q statistics).
Definition visible {A} (t : talk A) : Prop := forall h r h' vs, t h = (r, h', vs) -> exists qs, h' = h ++ qs /\ within (filter other qs) (shown vs).
Lemma visible_bind {A B} (t : talk A) (f : A -> talk B) : visible t -> (forall x, visible (f x)) -> visible (tbind t f).
Proof.
  intros V W h r h' vs. unfold tbind. destruct (t h) as [[[x|e] h1] v1] eqn:E.
  - destruct (f x h1) as [[r2 h2] v2] eqn:F. intros K. injection K as <- <- <-. destruct (V _ _ _ _ E) as [q1 [-> A1]]. destruct (W x _ _ _ _ F) as [q2 [-> A2]].
    exists (q1 ++ q2). split; [rewrite app_assoc; reflexivity|]. unfold shown. rewrite filter_app, flat_map_app. apply within_app; assumption.
  - intros K. injection K as <- <- <-. exact (V _ _ _ _ E).
Qed.
Lemma visible_ret {A} (r : result A) : visible (mute (ReviewData.ret r)).
Proof. intros h r' h' vs K. injection K as _ <- <-. exists []. split; [rewrite app_nil_r; reflexivity|constructor]. Qed.
Lemma visible_say v : visible (say v).
Proof. intros h r' h' vs K. injection K as _ <- <-. exists []. split; [rewrite app_nil_r; reflexivity|apply within_none]. Qed.
Lemma visible_cardinality why ask q : visible (talk_cardinality why ask q).
Proof.
  intros h r h' vs K. unfold talk_cardinality, query_for_cardinality in K. apply pair_equal_spec in K. destruct K as [K <-]. apply pair_equal_spec in K. destruct K as [_ <-]. exists [q]. split; [reflexivity|].
  cbn [shown flat_map app filter]. destruct (other q); [apply wi_both|apply wi_skip]; apply within_none.
Qed.
Lemma visible_query ask q : visible (talk_query ask q).
Proof.
  intros h r h' vs K. unfold talk_query, tbind, say, mute, query in K. injection K as _ <- <-. exists [q]. split; [reflexivity|].
  cbn [shown flat_map app filter]. destruct (other q); [apply wi_both|apply wi_skip]; apply within_none.
Qed.
Lemma visible_test_joins why ask l : visible (talk_test_joins why ask l).
Proof.
  induction l as [|p l IH]; cbn [talk_test_joins]; [apply visible_ret|]. apply visible_bind; [apply visible_say|]. intros _. apply visible_bind; [apply visible_ret|]. intros q1.
  apply visible_bind; [apply visible_cardinality|]. intros n1. apply visible_bind; [apply visible_ret|]. intros q2. apply visible_bind; [apply visible_cardinality|]. intros n2.
  apply visible_bind; [exact IH|]. intros rest. apply visible_ret.
Qed.
Lemma visible_tables why ask d ts : visible (talk_tables why ask d ts).
Proof.
  induction ts as [|t ts IH]; cbn [talk_tables]; [apply visible_ret|]. apply visible_bind; [apply visible_ret|]. intros js. apply visible_bind; [apply visible_test_joins|]. intros i.
  apply visible_bind; [exact IH|]. intros rest. apply visible_ret.
Qed.
Lemma visible_ws_join yt ask d w j : visible (talk_ws_join yt ask d w j).
Proof.
  unfold talk_ws_join. apply visible_bind; [apply visible_ret|]. intros s. apply visible_bind; [apply visible_ret|]. intros ty.
  destruct (negb _); [apply visible_bind; [apply visible_say|intros _; apply visible_ret]|]. apply visible_bind; [apply visible_ret|]. intros st. apply visible_bind; [apply visible_ret|]. intros de.
  apply visible_bind; [apply visible_ret|]. intros dt. destruct (negb _); [apply visible_bind; [apply visible_say|intros _; apply visible_ret]|]. do 2 (apply visible_bind; [apply visible_ret|]; intros ?).
  destruct (get_foreign_key _ _); [|apply visible_bind; [apply visible_say|intros _; apply visible_ret]]. cbn zeta. do 3 (apply visible_bind; [apply visible_ret|]; intros ?).
  do 2 (apply visible_bind; [apply visible_query|]; intros ?). apply visible_bind; [apply visible_ret|]. intros ?. apply visible_ret.
Qed.
Lemma visible_ws_joins yt ask d w js : visible (talk_ws_joins yt ask d w js).
Proof.
  induction js as [|j js IH]; cbn [talk_ws_joins]; [apply visible_ret|]. apply visible_bind; [apply visible_ws_join|]. intros i. apply visible_bind; [exact IH|]. intros rest. apply visible_ret.
Qed.
Lemma visible_sharding ask rnd commas float_str d c : visible (mute (review_sharding ask rnd commas float_str d c)).
Proof.
  intros h r h' vs K. unfold mute, review_sharding, abind, query, ReviewData.ret in K. apply pair_equal_spec in K. destruct K as [K <-]. exists [statistics].
  destruct (ask h _); apply pair_equal_spec in K; destruct K as [_ <-]; (split; [reflexivity|]); unfold other, filter; rewrite (proj2 (str_eqb_eq statistics statistics) eq_refl); constructor.
Qed.
Lemma visible_loop names ws rtql : forall l, Forall (fun t => forall q w, visible (tk_run t q w)) l -> forall m, visible (talk_loop names ws rtql l m).
Proof.
  induction l as [|t l IH]; intros V m; cbn [talk_loop]; [apply visible_ret|]. apply Forall_cons_iff in V. destruct V as [V1 V2]. specialize (IH V2). destruct (_ && _); [apply IH|].
  destruct (starts_with _ _); [|apply IH]. destruct (_ || _); [apply visible_bind; [apply visible_say|intros _; apply IH]|]. destruct (tk_params t); [apply IH|]. apply visible_bind; [apply V1|intros i; apply IH].
Qed.
Lemma visible_all why yt order rnd commas float_str fuel d c : Forall (fun t => forall q w, visible (tk_run t q w)) (talk_tests why yt order rnd commas float_str fuel d c).
Proof.
  unfold talk_tests. repeat (apply Forall_cons; [|]); [intros q w; cbn [tk_run]..|apply Forall_nil]; try (apply visible_bind; [apply visible_say|intros _; apply visible_ret]);
    destruct q as [ask|]; cbn [tneed]; try apply visible_ret.
  - apply visible_bind; [apply visible_say|intros _; apply visible_sharding].
  - apply visible_bind; [apply visible_say|intros _; apply visible_tables].
  - destruct w; cbn [tneed]; [|apply visible_ret]. apply visible_bind; [apply visible_say|intros _; apply visible_ws_joins].
Qed.
(** Every query the reviews send, but the one for statistics, is a line on standard output, in the order
    in which they are sent. *)
Theorem C104_visible : forall why yaml_text order rnd commas float_str fuel c d names ws rtql r h vs,
  review_aloud why yaml_text order rnd commas float_str fuel c d names ws rtql = (r, h, vs) ->
  within (filter (fun q => negb (str_eqb q ($"show statistics for server;"))) h) (shown vs).
Proof.
  intros why yaml_text order rnd commas float_str fuel c d names ws rtql r h vs E.
  destruct (visible_loop names ws rtql _ (visible_all why yaml_text order rnd commas float_str fuel d c) [] [] r h vs E) as [qs [-> W]]. exact W.
Qed.
Print Assumptions C104_visible.

(** ** The joins of the model *)
Lemma voiced_query ask why q h : exists n vs, talk_cardinality why ask q h = (Ok n, h ++ [q], vs) /\ query_voiced ask why h q vs.
Proof.
  unfold talk_cardinality, query_for_cardinality. eexists _, _. split; [reflexivity|]. unfold query_voiced. destruct (ask h q) as [[|r rest]|e].
  - right. split; [|reflexivity]. intros n (r & rest & s & E & _). discriminate.
  - unfold int_column. destruct (r ($"c1")) as [s|e] eqn:R; cbn [bind].
    + destruct (py_int s) as [n|e] eqn:P; [left; split; [exists n, r, rest, s; auto|reflexivity]|]. right. split; [|reflexivity].
      intros n (r' & rest' & s' & E & R' & P'). injection E as <- <-. rewrite R in R'. injection R' as <-. rewrite P in P'. discriminate.
    + right. split; [|reflexivity]. intros n (r' & rest' & s' & E & R' & P'). injection E as <- <-. rewrite R in R'. discriminate.
  - right. split; [|reflexivity]. intros n (r & rest & s & E & _). discriminate.
Qed.
Lemma voiced_app ask why d h js1 v1 h1 js2 v2 h2 : joins_voiced ask why d h js1 v1 h1 -> joins_voiced ask why d h1 js2 v2 h2 -> joins_voiced ask why d h (js1 ++ js2) (v1 ++ v2) h2.
Proof.
  induction 1 as [h|h j js q1 q2 w1 w2 vs h' Q1 Q2 S1 S2 A IH]; intros B; [exact B|]. cbn [app]. rewrite <- !app_assoc. apply (voiced_join ask why d h j _ q1 q2); [assumption..|apply IH, B].
Qed.
Lemma test_voiced ask why d js : Forall (fun j => has_columns (jb_from j) /\ has_columns (jb_to j)) js -> forall h, exists r h' vs,
  talk_test_joins why ask (map (parts_of d) js) h = (Ok r, h', vs) /\ joins_voiced ask why d h js vs h'.
Proof.
  induction 1 as [|j js [A B] _ IH]; intros h; [exists [], h, []; split; [reflexivity|constructor]|].
  destruct (has_probe _ A) as [c1 [k1 A1]], (has_probe _ B) as [c2 [k2 B1]].
  pose (q1 := {| cq_db := db_name d; cq_schema := t_schema (jb_from j); cq_table := t_name (jb_from j); cq_cols := probe_columns (jb_from j);
                 cq_odb := db_name d; cq_oschema := t_schema (jb_to j); cq_other := t_name (jb_to j); cq_counted := c2; cq_where := jb_where j |}).
  pose (q2 := {| cq_db := db_name d; cq_schema := t_schema (jb_to j); cq_table := t_name (jb_to j); cq_cols := probe_columns (jb_to j);
                 cq_odb := db_name d; cq_oschema := t_schema (jb_from j); cq_other := t_name (jb_from j); cq_counted := c1; cq_where := jb_where j |}).
  assert (Q1 : get_to_table_cardinality_query (parts_of d j) = Ok (count_text q1)) by exact (query_text d _ _ _ c2 k2 B1).
  assert (Q2 : get_from_table_cardinality_query (parts_of d j) = Ok (count_text q2)) by exact (query_text d _ _ _ c1 k1 A1).
  destruct (IH (h ++ [count_text q1; count_text q2])) as (r & h' & vs & E & I).
  destruct (voiced_query ask why (count_text q1) h) as (n1 & v1 & E1 & V1). destruct (voiced_query ask why (count_text q2) (h ++ [count_text q1])) as (n2 & v2 & E2 & V2). rewrite <- app_assoc in E2. cbn [app] in E2.
  eexists _, _, _. split.
  - cbn [map talk_test_joins]. unfold tbind, say, mute, ReviewData.ret. rewrite Q1, Q2, E1, E2, E. reflexivity.
  - cbn [app]. rewrite !app_nil_r.
    apply (voiced_join ask why d h j js q1 q2 v1 v2 vs); [| |exact V1|exact V2|exact I].
    + exists c2, k2. rewrite !standing_columns. split; [reflexivity|]. split; [symmetry; exact B1|reflexivity].
    + exists c1, k1. rewrite !standing_columns. split; [reflexivity|]. split; [symmetry; exact A1|reflexivity].
Qed.
Lemma tables_voiced ask why d ts : (forall t, In t ts -> joins_to_test d t = Ok (map (parts_of d) (table_joins_of d t))) ->
  Forall (fun j => has_columns (jb_from j) /\ has_columns (jb_to j)) (flat_map (table_joins_of d) ts) ->
  forall h, exists r h' vs, talk_tables why ask d ts h = (Ok r, h', vs) /\ joins_voiced ask why d h (flat_map (table_joins_of d) ts) vs h'.
Proof.
  induction ts as [|t ts IH]; intros H F h; [exists [], h, []; split; [reflexivity|constructor]|]. cbn [flat_map] in *. apply Forall_app in F. destruct F as [F1 F2].
  destruct (test_voiced ask why d _ F1 h) as (r1 & h1 & v1 & E1 & J1). destruct (IH (fun u Hu => H u (or_intror Hu)) F2 h1) as (r2 & h2 & v2 & E2 & J2).
  eexists _, h2, (v1 ++ v2). split; [|exact (voiced_app _ _ _ _ _ _ _ _ _ _ J1 J2)]. cbn [talk_tables]. unfold tbind, mute, ReviewData.ret. rewrite (H t (or_introl eq_refl)), E1, E2, app_nil_r. reflexivity.
Qed.
(** For every join of the model the names are shown and then the two count queries; a query whose answer
    holds no count is followed by the reason on standard error. *)
Theorem C104_joins : forall ask why d h, filed d -> no_dangling d ->
  (forall t fk, In t (db_iter d) -> In fk (foreign_keys_iter t) -> length (fk_from_keys fk) = length (fk_to_keys fk)) ->
  (forall t, In t (db_iter d) -> t_pk t <> [] \/ get_column_names t <> []) ->
  exists r h' vs, talk_table_joins why ask d h = (Ok r, h', Shown ($"reviewing table joins for the """ ++ db_name d ++ $""" database") :: vs)
    /\ joins_voiced ask why d h (joins_of d) vs h'.
Proof.
  intros ask why d h F D P C. unfold talk_table_joins. change (joins_of d) with (flat_map (table_joins_of d) (db_iter d)).
  destruct (tables_voiced ask why d (db_iter d)) with (h := h) as (r & h' & vs & E & J).
  - intros t It. apply joins_ok; [|intros fk; apply P, It]. intros n R. destruct F as [F1 F2].
    apply dvals_in in It. destruct It as [k It]. apply dget_nodup in It; [|exact F1].
    assert (I : In n (get_table_names d)) by (apply (D k n); exists t; split; [exact It|exact R]).
    apply dget_some_in in I. destruct I as [u I]. unfold get_table. congruence.
  - apply Forall_forall. intros j I. apply in_flat_map in I. destruct I as [t [It I]]. unfold table_joins_of in I. apply in_app_or in I.
    assert (G : forall n u, get_table d n = Some u -> In u (db_iter d)) by (intros n u G; apply dget_in in G; exact (in_map snd _ _ G)).
    destruct I as [I|I]; apply in_flat_map in I; destruct I as [x [_ I]]; [destruct (get_table d (fk_to_table x)) as [u|] eqn:E|destruct (get_table d (rel_to_table x)) as [u|] eqn:E];
      (destruct I as [<-|[]]; split; [exact (C t It)|exact (C u (G _ _ E))]) || destruct I.
  - exists r, h', vs. split; [|exact J]. unfold tbind, say. rewrite E. reflexivity.
Qed.
Print Assumptions C104_joins.

(** ** The joins of the worksheet *)
Lemma type_found w n ty : table_type w n = Ok ty -> of_type w n ty.
Proof.
  unfold table_type, ws_get_table, of_type. destruct (str_eqb n []); [discriminate|]. cbn [bind].
  destruct (List.find _ (ws_tables w)) as [t|] eqn:F; [|discriminate]. intros K. injection K as <-. revert t F. induction (ws_tables w) as [|x l IH]; intros t F; [discriminate|]. cbn [List.find] in F.
  destruct (match Worksheet.wt_name x with YStr s => str_eqb s n | _ => false end) eqn:X.
  - injection F as <-. exists [], x, l. split; [reflexivity|]. split; [destruct (Worksheet.wt_name x); try discriminate; apply str_eqb_eq in X; subst; reflexivity|]. split; [reflexivity|intros y []].
  - destruct (IH t F) as (pre & t' & post & -> & A & B & C). exists (x :: pre), t', post. split; [reflexivity|]. split; [exact A|]. split; [exact B|].
    intros y [<-|I]; [|exact (C y I)]. intros Y. rewrite Y, (proj2 (str_eqb_eq n n) eq_refl) in X. discriminate.
Qed.
Lemma not_table v : ReviewData.is_table v = false -> v <> YStr ($"table").
Proof. intros E ->. discriminate E. Qed.
Lemma is_table_text v : ReviewData.is_table v = true -> v = YStr ($"table").
Proof. unfold ReviewData.is_table. destruct v; try discriminate. intros E. apply str_eqb_eq in E. rewrite E. reflexivity. Qed.
Lemma tbind_ok {A B} (t : talk A) (f : A -> talk B) h r h' vs : tbind t f h = (Ok r, h', vs) -> exists x h1 v1 v2, t h = (Ok x, h1, v1) /\ f x h1 = (Ok r, h', v2) /\ vs = v1 ++ v2.
Proof.
  unfold tbind. destruct (t h) as [[[x|e] h1] v1]; [|discriminate]. destruct (f x h1) as [[r2 h2] v2] eqn:F. intros K. injection K as -> -> <-. exists x, h1, v1, v2. auto.
Qed.
Lemma mute_ok {A B} (r0 : result A) (f : A -> talk B) h r h' vs : tbind (mute (ReviewData.ret r0)) f h = (Ok r, h', vs) -> exists x, r0 = Ok x /\ f x h = (Ok r, h', vs).
Proof.
  intros K. destruct (tbind_ok _ _ _ _ _ _ K) as (x & h1 & v1 & v2 & E & F & ->). unfold mute, ReviewData.ret in E. injection E as -> <- <-. exists x. auto.
Qed.
Lemma say_only {A} v (r : result A) h x h' vs : tbind (say v) (fun _ => mute (ReviewData.ret r)) h = (x, h', vs) -> h' = h /\ vs = [v].
Proof. unfold tbind, say, mute, ReviewData.ret. intros K. apply pair_equal_spec in K. destruct K as [K <-]. apply pair_equal_spec in K. destruct K as [_ <-]. split; reflexivity. Qed.
Lemma ws_join_voiced yt ask d w j h r h' vs : talk_ws_join yt ask d w j h = (Ok r, h', vs) -> exists qs, h' = h ++ qs /\ ws_voiced (value_text yt) d w j qs vs.
Proof.
  unfold talk_ws_join. intros K. apply mute_ok in K. destruct K as (s & S & K). apply mute_ok in K. destruct K as (ty & T & K).
  assert (S' : wj_source j = YStr s) by (destruct (wj_source j); try discriminate; injection S as ->; reflexivity).
  destruct (ReviewData.is_table ty) eqn:IT; cbn [negb] in K.
  2:{ apply say_only in K. destruct K as [-> ->]. exists []. split; [rewrite app_nil_r; reflexivity|]. exact (wv_source (value_text yt) d w j s ty S' (type_found _ _ _ T) (not_table _ IT)). }
  apply mute_ok in K. destruct K as (st & G & K). assert (G' : get_table d s = Some st) by (destruct (get_table d s); [injection G as ->; reflexivity|discriminate]).
  apply mute_ok in K. destruct K as (de & D & K). assert (D' : wj_destination j = YStr de) by (destruct (wj_destination j); try discriminate; injection D as ->; reflexivity).
  apply mute_ok in K. destruct K as (ty' & T' & K). destruct (ReviewData.is_table ty') eqn:IT'; cbn [negb] in K.
  2:{ apply say_only in K. destruct K as [-> ->]. exists []. split; [rewrite app_nil_r; reflexivity|]. exact (wv_destination (value_text yt) d w j de ty' D' (type_found _ _ _ T') (not_table _ IT')). }
  apply mute_ok in K. destruct K as (dt & GD & K). assert (GD' : get_table d de = Some dt) by (destruct (get_table d de); [injection GD as ->; reflexivity|discriminate]).
  apply mute_ok in K. destruct K as (n & N & K). assert (N' : wj_name j = YStr n) by (destruct (wj_name j); try discriminate; injection N as ->; reflexivity).
  destruct (get_foreign_key st n) as [fk|] eqn:FK.
  2:{ apply say_only in K. destruct K as [-> ->]. exists []. split; [rewrite app_nil_r; reflexivity|]. exact (wv_no_key (value_text yt) d w j s st n S' G' N' FK). }
  cbn zeta in K. apply mute_ok in K. destruct K as (c & CO & K). apply mute_ok in K. destruct K as (a & HA & K). apply mute_ok in K. destruct K as (b & HB & K).
  apply tbind_ok in K. destruct K as (x1 & h1 & v1 & v2 & E1 & K & ->). apply tbind_ok in K. destruct K as (x2 & h2 & v3 & v4 & E2 & K & ->).
  apply mute_ok in K. destruct K as (ty2 & _ & K). unfold mute, ReviewData.ret in K. apply pair_equal_spec in K. destruct K as [K <-]. apply pair_equal_spec in K. destruct K as [_ <-].
  unfold talk_query, tbind, say, mute, query in E1, E2. apply pair_equal_spec in E1. destruct E1 as [E1 <-]. apply pair_equal_spec in E1. destruct E1 as [_ <-]. apply pair_equal_spec in E2. destruct E2 as [E2 <-]. apply pair_equal_spec in E2. destruct E2 as [_ <-].
  eexists [_; _]. rewrite <- app_assoc. split; [reflexivity|].
  apply (wv_asked (value_text yt) d w j s de n st dt fk a b); try assumption.
  - rewrite <- (is_table_text _ IT). exact (type_found _ _ _ T).
  - rewrite <- (is_table_text _ IT'). exact (type_found _ _ _ T').
  - destruct (fk_from_keys fk); [discriminate|]. injection HA as ->. reflexivity.
  - destruct (fk_to_keys fk); [discriminate|]. injection HB as ->. reflexivity.
  - intros L. split; apply probe_ok; assumption.
Qed.
(** A review of a worksheet that ends normally has, for every join, asked two queries and shown them, or
    named the table or the join it cannot review on standard error; nothing else is said. *)
Theorem C104_worksheet : forall yaml_text ask d w h r h' vs, talk_worksheet_joins yaml_text ask d w h = (Ok r, h', vs) ->
  exists qs vs', h' = h ++ qs /\ ws_all_voiced (value_text yaml_text) d w (ws_joins w) qs vs'
    /\ vs = Shown ($"reviewing worksheet joins for worksheet " ++ value_text yaml_text (ws_name w) ++ $" using " ++ db_name d ++ $" database") :: vs'.
Proof.
  intros yaml_text ask d w h r h' vs K. unfold talk_worksheet_joins in K. apply tbind_ok in K. destruct K as (x & h1 & v1 & v2 & E & K & ->). unfold say in E. apply pair_equal_spec in E. destruct E as [E <-]. apply pair_equal_spec in E. destruct E as [_ <-].
  assert (L : forall js h r h' vs, talk_ws_joins yaml_text ask d w js h = (Ok r, h', vs) -> exists qs, h' = h ++ qs /\ ws_all_voiced (value_text yaml_text) d w js qs vs).
  { clear. induction js as [|j js IH]; intros h r h' vs K; cbn [talk_ws_joins] in K.
    - unfold mute, ReviewData.ret in K. injection K as _ <- <-. exists []. split; [rewrite app_nil_r; reflexivity|constructor].
    - apply tbind_ok in K. destruct K as (i & h1 & v1 & v2 & E1 & K & ->). apply tbind_ok in K. destruct K as (i2 & h2 & v3 & v4 & E2 & K & ->). unfold mute, ReviewData.ret in K. injection K as _ <- <-.
      destruct (ws_join_voiced _ _ _ _ _ _ _ _ _ E1) as (q1 & -> & V1). destruct (IH _ _ _ _ E2) as (q2 & -> & V2). exists (q1 ++ q2). split; [rewrite app_assoc; reflexivity|].
      rewrite app_nil_r. constructor; assumption. }
  destruct (L _ _ _ _ _ K) as (qs & -> & V). exists qs, v2. split; [reflexivity|]. split; [exact V|reflexivity].
Qed.
Print Assumptions C104_worksheet.

(** ** Without a connection *)
Lemma talk_runs t l ws m : tk_params t <> [] -> starts_with ($"review_") (tk_name t) = true -> has_param PRtql (tk_params t) = false -> has_param PWorksheet (tk_params t) = false ->
  forall h r h' vs, talk_loop [] ws None (t :: l) m h = (Ok r, h', vs) ->
  exists i h1 v1 v2 m', tk_run t None None h = (Ok i, h1, v1) /\ talk_loop [] ws None l m' h1 = (Ok r, h', v2) /\ vs = v1 ++ v2.
Proof.
  intros P N A B h r h' vs K. cbn [talk_loop negb andb] in K. rewrite N, A, B in K. cbn [andb orb] in K. destruct (tk_params t); [contradiction|]. apply tbind_ok in K.
  destruct K as (i & h1 & v1 & v2 & E & F & ->). eexists i, h1, v1, v2, _. split; [exact E|]. split; [exact F|reflexivity].
Qed.
Lemma talk_skips t l ws m : starts_with ($"review_") (tk_name t) = true -> has_param PRtql (tk_params t) = true ->
  forall h r h' vs, talk_loop [] ws None (t :: l) m h = (Ok r, h', vs) ->
  exists v2, talk_loop [] ws None l m h = (Ok r, h', v2) /\ vs = Shown (skip_line (tk_name t) (tk_params t)) :: v2.
Proof.
  intros N A h r h' vs K. cbn [talk_loop negb andb] in K. rewrite N, A in K. cbn [andb orb] in K. apply tbind_ok in K.
  destruct K as (i & h1 & v1 & v2 & E & F & ->). unfold say in E. apply pair_equal_spec in E. destruct E as [E <-]. apply pair_equal_spec in E. destruct E as [_ <-]. exists v2. split; [exact F|reflexivity].
Qed.
Theorem C104_offline : forall why yaml_text order rnd commas float_str fuel c d ws r h vs,
  review_aloud why yaml_text order rnd commas float_str fuel c d [] ws None = (Ok r, h, vs) -> h = [] /\ vs = map Shown (offline_lines (db_name d)).
Proof.
  intros why yaml_text order rnd commas float_str fuel c d ws r h vs E. pose proof (unconnected why yaml_text order rnd commas float_str fuel c d [] ws) as U. rewrite E in U. split; [exact U|].
  unfold review_aloud, talk_tests in E.
  apply talk_runs in E; [|discriminate|reflexivity..]. destruct E as (x1 & h1 & v1 & w1 & m1 & E1 & E & ->).
  apply talk_runs in E; [|discriminate|reflexivity..]. destruct E as (x2 & h2 & v2 & w2 & m2 & E2 & E & ->).
  apply talk_runs in E; [|discriminate|reflexivity..]. destruct E as (x3 & h3 & v3 & w3 & m3 & E3 & E & ->).
  apply talk_runs in E; [|discriminate|reflexivity..]. destruct E as (x4 & h4 & v4 & w4 & m4 & E4 & E & ->).
  cbn [tk_run] in E1, E2, E3, E4. apply say_only in E1, E2, E3, E4. destruct E1 as [_ ->], E2 as [_ ->], E3 as [_ ->], E4 as [_ ->].
  do 3 (apply talk_skips in E; [|reflexivity..]; destruct E as (? & E & ->)).
  cbn [talk_loop] in E. unfold mute, ReviewData.ret in E. apply pair_equal_spec in E. destruct E as [_ <-]. reflexivity.
Qed.
Print Assumptions C104_offline.
(** The whole output of review_model for a DDL file. *)
Theorem C104_file : forall H order rnd commas float_str fuel safe_load queries help documented a st t d ws r,
  no_failures H -> review_accepts a st -> r_version a = false -> show_tests a = false -> is_given (r_database a) -> is_given (database_file a) ->
  files st (text (database_file a)) = Some (Text t) -> parse_text (text (r_database a)) ($"falcon_default_schema") t = Ok d -> review_worksheet safe_load a st ws ->
  fst (fst (review_model order rnd commas float_str fuel [] d [] ws None)) = Ok r ->
  exists st', review_tool H order rnd commas float_str fuel safe_load queries help documented a st = (st', Ok tt)
    /\ prints (Namespace (review_namespace a) :: map says (offline_lines (db_name d)) ++ flat_map section_lines r) st st'
    /\ err st' = err st ++ map line (complaints H (text (r_database a)) ($"falcon_default_schema") t) /\ (forall n, files st' n = files st n) /\ sent st' = sent st.
Proof.
  intros H order rnd commas float_str fuel safe_load queries help documented a st t d ws r NF A V S G GF F P W R.
  assert (N : ~ is_given (ts_ip a)) by (intros X; exact (ra_one _ _ A (conj GF X))). assert (Q : text (ts_ip a) = []) by (destruct (text (ts_ip a)) eqn:Q; [reflexivity|destruct N; unfold is_given; rewrite Q; discriminate]).
  assert (C : connection queries a = None) by (unfold connection; rewrite Q; reflexivity).
  destruct (review_aloud (h_query_error H) (h_yaml_text H) order rnd commas float_str fuel [] d [] ws None) as [[r' h] vs] eqn:E.
  pose proof (model_aloud (h_query_error H) (h_yaml_text H) order rnd commas float_str fuel [] d [] ws None) as M. rewrite E in M. cbn [fst] in M. rewrite <- M in R. cbn [fst] in R. subst r'.
  destruct (C104_offline _ _ _ _ _ _ _ _ _ _ _ _ _ E) as [-> ->]. pose proof E as E'. rewrite <- C in E'.
  destruct (C90_review_output H order rnd commas float_str fuel safe_load queries help documented a st d _ ws [] (Ok r) [] _ NF A V G (rr_file H a st t d N GF F P) W ltac:(congruence) E') as (st' & X & O & FS & ER & SE).
  exists st'. split; [exact X|]. rewrite S in O. cbn [if_true app] in O. unfold review_lines in O.
  assert (SH : forall l, shown (map Shown l) = l /\ warned (map Shown l) = []) by (induction l as [|x l [I J]]; [split; reflexivity|split; cbn; [f_equal; exact I|exact J]]).
  destruct (SH (offline_lines (db_name d))) as [S1 S2]. rewrite S1 in O. rewrite S2, app_nil_r in ER. split; [exact O|]. split; [exact ER|].
  split; [intros n; rewrite FS; unfold review_files; rewrite Q; reflexivity|]. rewrite SE. unfold as_commands, if_given. rewrite Q, !app_nil_r. reflexivity.
Qed.
Print Assumptions C104_file.

(** A model whose queries find nothing, a worksheet with an alias, a missing key and a key, and a review of
    a DDL file. *)
Example C104_case : (exists q1 q2 q3 q4 h, talk_table_joins (fun _ _ => $"no cluster") (fun h _ => match h with [_] => Ok [fun _ => Ok ($"3")] | _ => Err ValueError end) (shop []) []
    = (Ok [$"bought by didn't return data."; $"bought didn't return data."], h,
       [Shown ($"reviewing table joins for the ""db"" database"); Shown ($"-- comparing bought by between orders and customers"); Shown q1; Warned ($"Error in query: no cluster"); Shown q2;
        Shown ($"-- comparing bought between customers and orders"); Shown q3; Warned ($"Error in query: no cluster"); Shown q4; Warned ($"Error in query: no cluster")]) /\ h = [q1; q2; q3; q4])
  /\ (exists r q1 q2, talk_worksheet_joins (fun _ => []) unmatched_orders sales sales_sheet [] = (Ok r, [q1; q2],
       [Shown ($"reviewing worksheet joins for worksheet w using db database"); Warned ($"Table c2 of type alias not supported. Only 'table' type supported.");
        Warned ($"Unable to access None for join y.  Only foreign keys supported."); Shown q1; Shown q2]))
  /\ (exists d, files no_key_state (text (database_file (review_file ($"a.ddl") (Some ($"d"))))) = Some (Text no_key_ddl)
       /\ parse_text ($"d") ($"falcon_default_schema") no_key_ddl = Ok d /\ review_accepts (review_file ($"a.ddl") (Some ($"d"))) no_key_state
       /\ forall rnd commas float_str, fst (fst (review_model (fun l => l) rnd commas float_str 5 [] d [] None None)) = Ok [($"review_pks", [$"No primary key on table d.falcon_default_schema.t"])]).
Proof.
  split; [eexists _, _, _, _, _; split; vm_compute; reflexivity|]. split; [eexists _, _, _; vm_compute; reflexivity|].
  destruct (parse_text ($"d") ($"falcon_default_schema") no_key_ddl) as [d|] eqn:P; [|vm_compute in P; discriminate]. exists d. split; [reflexivity|]. split; [reflexivity|]. split; [apply C65_review_case|].
  vm_compute in P. injection P as <-. intros. vm_compute. reflexivity.
Qed.
