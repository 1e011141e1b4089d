(** * The reviews that print do the same as the reviews (C104) *)
From Verif Require Export ReviewTalk.
From Coq Require Import List. Import ListNotations.

Definition says_same {A} (t : talk A) (a : act A) : Prop := forall h, fst (t h) = a h.
Lemma same_mute {A} (a : act A) : says_same (mute a) a.
Proof. intros h. reflexivity. Qed.
Lemma same_bind {A B} (t : talk A) (a : act A) (f : A -> talk B) (g : A -> act B) : says_same t a -> (forall x, says_same (f x) (g x)) -> says_same (tbind t f) (abind a g).
Proof.
  intros E F h. unfold tbind, abind. rewrite <- (E h). destruct (t h) as [[[x|e] h'] vs]; cbn [fst]; [|reflexivity]. rewrite <- (F x h'). destruct (f x h') as [[r h2] vs']. reflexivity.
Qed.
Lemma same_say {A} v (t : talk A) (a : act A) : says_same t a -> says_same (tbind (say v) (fun _ => t)) a.
Proof. intros E h. unfold tbind, say. rewrite <- (E h). destruct (t h) as [[r h'] vs]. reflexivity. Qed.

Section Same.
Variable why : list str -> str -> str.
Variable yaml_text : yaml -> str.
Lemma same_test_joins ask l : says_same (talk_test_joins why ask l) (test_joins ask l).
Proof.
  induction l as [|p l IH]; cbn [talk_test_joins test_joins]; [apply same_mute|]. apply same_say. apply same_bind; [apply same_mute|]. intros q1. apply same_bind; [intros h; reflexivity|]. intros n1.
  apply same_bind; [apply same_mute|]. intros q2. apply same_bind; [intros h; reflexivity|]. intros n2. apply same_bind; [exact IH|]. intros rest. apply same_mute.
Qed.
Lemma same_tables ask d ts : says_same (talk_tables why ask d ts) (table_joins ask d ts).
Proof.
  induction ts as [|t ts IH]; cbn [talk_tables table_joins]; [apply same_mute|]. apply same_bind; [apply same_mute|]. intros js. apply same_bind; [apply same_test_joins|]. intros i. apply same_bind; [exact IH|].
  intros rest. apply same_mute.
Qed.
Lemma same_query ask q : says_same (talk_query ask q) (query ask q).
Proof. apply same_say, same_mute. Qed.
Lemma same_ws_join ask d w j : says_same (talk_ws_join yaml_text ask d w j) (review_ws_join ask d w j).
Proof.
  unfold talk_ws_join, review_ws_join. apply same_bind; [apply same_mute|]. intros s. apply same_bind; [apply same_mute|]. intros ty. destruct (negb _); [apply same_say, same_mute|].
  apply same_bind; [apply same_mute|]. intros st. apply same_bind; [apply same_mute|]. intros de. apply same_bind; [apply same_mute|]. intros dt. destruct (negb _); [apply same_say, same_mute|].
  apply same_bind; [apply same_mute|]. intros dtt. apply same_bind; [apply same_mute|]. intros n. destruct (get_foreign_key _ _) as [fk|]; [|apply same_say, same_mute].
  cbn zeta. do 3 (apply same_bind; [apply same_mute|]; intros ?). do 2 (apply same_bind; [apply same_query|]; intros ?). apply same_bind; [apply same_mute|]. intros t. apply same_mute.
Qed.
Lemma same_ws_joins ask d w js : says_same (talk_ws_joins yaml_text ask d w js) (ws_joins_review ask d w js).
Proof.
  induction js as [|j js IH]; cbn [talk_ws_joins ws_joins_review]; [apply same_mute|]. apply same_bind; [apply same_ws_join|]. intros i. apply same_bind; [exact IH|]. intros r. apply same_mute.
Qed.

(** the same review, once aloud *)
Record aloud (t : talking) (r : review) : Prop := {
  al_name : tk_name t = rv_name r; al_params : tk_params t = rv_params r; al_run : forall q w, says_same (tk_run t q w) (rv_run r q w) }.
Lemma tests_aloud order rnd commas float_str fuel d c :
  Forall2 aloud (talk_tests why yaml_text order rnd commas float_str fuel d c) (review_tests order rnd commas float_str fuel d c).
Proof.
  unfold talk_tests, review_tests. repeat (apply Forall2_cons; [split; [reflexivity|reflexivity|cbn [tk_run rv_run]; intros q w]|]); [| | | | | | |apply Forall2_nil];
    try (apply same_say, same_mute); destruct q as [ask|]; cbn [tneed need]; try apply same_mute.
  - apply same_say, same_mute.
  - apply same_say. apply same_tables.
  - destruct w as [ws|]; cbn [tneed need]; [|apply same_mute]. apply same_say. apply same_ws_joins.
Qed.
Lemma loop_aloud names ws rtql : forall l l', Forall2 aloud l l' -> forall recs h ev, fst (talk_loop names ws rtql l recs h) = fst (review_loop names ws rtql l' recs h ev).
Proof.
  induction 1 as [|t r l l' [N P R] _ IH]; intros recs h ev; [reflexivity|]. cbn [talk_loop review_loop]. rewrite N, P.
  destruct (negb _ && negb _); [apply IH|]. destruct (starts_with _ _); [|apply IH].
  destruct (has_param PRtql _ && _); cbn [orb].
  { unfold tbind, say. rewrite <- (IH recs h (ev ++ [Skipped (rv_name r)])). destruct (talk_loop names ws rtql l recs h) as [[x y] z]. reflexivity. }
  destruct (has_param PWorksheet _ && _).
  { unfold tbind, say. rewrite <- (IH recs h (ev ++ [Skipped (rv_name r)])). destruct (talk_loop names ws rtql l recs h) as [[x y] z]. reflexivity. }
  destruct (rv_params r) as [|p ps]; [apply IH|]. unfold tbind. rewrite <- (R _ _ h). destruct (tk_run t _ _ h) as [[[issues|e] h'] vs]; cbn [fst]; [|reflexivity].
  rewrite <- IH. destruct (talk_loop _ _ _ l _ h') as [[x y] z]. reflexivity.
Qed.
Lemma model_aloud order rnd commas float_str fuel c d names ws rtql :
  fst (review_aloud why yaml_text order rnd commas float_str fuel c d names ws rtql) = fst (review_model order rnd commas float_str fuel c d names ws rtql).
Proof. unfold review_aloud, review_model, review_with. apply loop_aloud, tests_aloud. Qed.
End Same.
