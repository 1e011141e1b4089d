(** * Lemmas about the review of worksheet joins *)
From Verif Require Export SpecWsJoin JoinFacts.
From Coq Require Import Lia.

Lemma kind_found w name kind : of_kind w name kind -> table_type w name = Ok (YStr kind).
Proof.
  intros [N [pre [t [post [E [A [B C]]]]]]]. unfold table_type, ws_get_table. destruct (str_eqb_spec name []) as [K|_]; [contradiction|]. cbn [bind]. rewrite E.
  assert (F : List.find (fun t => match wt_name t with YStr s => str_eqb s name | _ => false end) (pre ++ t :: post) = Some t).
  { clear E. induction pre as [|x pre IH]; cbn [app List.find].
    - rewrite A, (proj2 (str_eqb_eq _ _) eq_refl). reflexivity.
    - assert (X : match wt_name x with YStr s => str_eqb s name | _ => false end = false).
      { pose proof (C x (or_introl eq_refl)) as D. destruct (wt_name x); try reflexivity. destruct (str_eqb_spec s name); [congruence|reflexivity]. }
      rewrite X. apply IH. intros y Hy. apply C. right. exact Hy. }
  rewrite F, B. reflexivity.
Qed.
Lemma kind_unique w name k1 k2 : of_kind w name k1 -> of_kind w name k2 -> k1 = k2.
Proof. intros A B. apply kind_found in A, B. congruence. Qed.
Lemma is_table_kind k : is_table (YStr k) = str_eqb k ($"table").
Proof. reflexivity. Qed.
Definition ws_pair (s t : str) (p : str * str) : str := $"(" ++ (s ++ $"." ++ quoted (fst p)) ++ $" = " ++ (t ++ $"." ++ quoted (snd p)) ++ $")".
Lemma ws_condition_text s t : forall ks ls first, length ks = length ls ->
  ws_condition first s t ks ls = Ok ((if first then [] else sep ks) ++ join ($" AND ") (map (ws_pair s t) (combine ks ls))).
Proof.
  induction ks as [|k ks IH]; intros [|l ls] first L; cbn [length] in L; try discriminate; cbn [ws_condition combine map].
  - destruct first; reflexivity.
  - rewrite IH by congruence. cbn [bind]. rewrite join_sep.
    assert (T : sep (map (ws_pair s t) (combine ks ls)) = sep ks) by (destruct ks, ls; cbn [length] in L; try discriminate; reflexivity).
    rewrite T. generalize (join ($" AND ") (map (ws_pair s t) (combine ks ls))). intros rest. unfold ws_pair. cbn [fst snd]. repeat rewrite <- app_assoc. destruct first; reflexivity.
Qed.
Lemma probe_ok d s t sname tname fk c n : length (fk_from_keys fk) = length (fk_to_keys fk) ->
  ws_condition true (place d s sname) (place d t tname) (fk_from_keys fk) (fk_to_keys fk) = Ok c ->
  forall x, ws_probe (join ($",") (map (fun k => place d s sname ++ $"." ++ quoted k) (fk_from_keys fk)) ++ $", " ++ join ($",") (map (fun k => place d t tname ++ $"." ++ quoted k) (fk_to_keys fk)))
           (place d s sname) (place d t tname) c n x = probe_text d s t sname tname fk n x.
Proof.
  intros L E x. rewrite ws_condition_text in E by exact L. cbn [app] in E. assert (C : c = join ($" AND ") (map (ws_pair (place d s sname) (place d t tname)) (combine (fk_from_keys fk) (fk_to_keys fk)))) by congruence.
  rewrite C. unfold ws_probe, probe_text. repeat rewrite <- app_assoc. reflexivity.
Qed.

Section Review.
Variable ask : oracle.
Variable d : database.
Variable w : worksheet.

Lemma reviewed_run h j said h' : ws_reviewed ask d w h j said h' -> review_ws_join ask d w j h = (Ok said, h').
Proof.
  intros [source kind E1 K1 N | source destination s kind E1 K1 G1 E2 K2 N | source destination name s t E1 K1 G1 E2 K2 G2 E3 F
          | source destination name type s t fk a ks b ls left right kind sd E1 K1 G1 E2 K2 G2 E3 F E4 A B L q1 q2 R1 R2 S U V];
    unfold review_ws_join, abind, ret; rewrite E1; cbn [as_text]; rewrite (kind_found _ _ _ K1), is_table_kind.
  - destruct (str_eqb_spec kind ($"table")); [contradiction|]. reflexivity.
  - rewrite (proj2 (str_eqb_eq _ _) eq_refl). cbn [negb]. rewrite G1, E2. cbn [as_text]. rewrite (kind_found _ _ _ K2), is_table_kind. destruct (str_eqb_spec kind ($"table")); [contradiction|]. reflexivity.
  - rewrite (proj2 (str_eqb_eq _ _) eq_refl). cbn [negb]. rewrite G1, E2. cbn [as_text]. rewrite (kind_found _ _ _ K2), is_table_kind, (proj2 (str_eqb_eq _ _) eq_refl). cbn [negb]. rewrite G2, E3. cbn [as_text]. rewrite F. reflexivity.
  - rewrite (proj2 (str_eqb_eq _ _) eq_refl). cbn [negb]. rewrite G1, E2. cbn [as_text]. rewrite (kind_found _ _ _ K2), is_table_kind, (proj2 (str_eqb_eq _ _) eq_refl). cbn [negb]. rewrite G2, E3. cbn [as_text]. rewrite F.
    assert (P : length (fk_from_keys fk) = length (fk_to_keys fk)) by (rewrite A, B; cbn [length]; congruence).
    fold (place d s source). fold (place d t destination).
    destruct (ws_condition true (place d s source) (place d t destination) (fk_from_keys fk) (fk_to_keys fk)) as [c|e] eqn:C; [|rewrite ws_condition_text in C by exact P; discriminate].
    unfold query. rewrite A at 1. rewrite B at 1.
    rewrite !(probe_ok d s t source destination fk c _ P C). fold q1. fold q2. rewrite R1, R2, E4. cbn [as_text].
    assert (W : (h ++ [q1]) ++ [q2] = h ++ [q1; q2]) by (rewrite <- app_assoc; reflexivity). rewrite W.
    assert (X : suggested_join (match left with [] => false | _ => true end) (match right with [] => false | _ => true end) = kind).
    { destruct S as [[-> [-> ->]]|[[X [-> ->]]|[[-> [X ->]]|[X [Y ->]]]]]; try (destruct left; [contradiction|]); try (destruct right; [contradiction|]); reflexivity. }
    rewrite X. destruct (str_eqb_spec type kind) as [Y|Y]; cbn [negb when]; [rewrite (U Y)|rewrite (V Y)]; reflexivity.
Qed.
Lemma reviewed_all_run h js said h' : ws_all_reviewed ask d w h js said h' -> ws_joins_review ask d w js h = (Ok said, h').
Proof.
  induction 1 as [h|h j js said h1 rest h2 J _ IH]; [reflexivity|]. cbn [ws_joins_review]. unfold abind, ret. rewrite (reviewed_run _ _ _ _ J), IH. reflexivity.
Qed.
Lemma suggestion_exists left right : exists kind, suggested left right kind.
Proof.
  destruct left as [|x l], right as [|y r]; [exists ($"INNER"); left|exists ($"RIGHT_OUTER"); right; right; left|exists ($"LEFT_OUTER"); right; left|exists ($"OUTER"); right; right; right]; repeat split; discriminate.
Qed.
Lemma reviewable_reviewed h j : (forall h q, exists rows, ask h q = Ok rows) -> reviewable d w j -> exists said h', ws_reviewed ask d w h j said h'.
Proof.
  intros Q [[source [destination [name [type [E1 [E2 [E3 E4]]]]]]] K G P].
  destruct (K source (or_introl E1)) as [k1 K1]. destruct (str_eqb_spec k1 ($"table")) as [->|N1]; [|eexists _, _; exact (no_table_source ask d w h j source k1 E1 K1 N1)].
  destruct (get_table d source) as [s|] eqn:G1; [|exfalso; exact (G source (or_introl E1) K1 G1)].
  destruct (K destination (or_intror E2)) as [k2 K2]. destruct (str_eqb_spec k2 ($"table")) as [->|N2]; [|eexists _, _; exact (no_table_destination ask d w h j source destination s k2 E1 K1 G1 E2 K2 N2)].
  destruct (get_table d destination) as [t|] eqn:G2; [|exfalso; exact (G destination (or_intror E2) K2 G2)].
  destruct (get_foreign_key s name) as [fk|] eqn:F; [|eexists _, _; exact (no_foreign_key ask d w h j source destination name s t E1 K1 G1 E2 K2 G2 E3 F)].
  destruct (P source s name fk E1 G1 E3 F) as [P1 P2]. destruct (fk_from_keys fk) as [|a ks] eqn:A; [contradiction|]. destruct (fk_to_keys fk) as [|b ls] eqn:B; [discriminate|]. cbn [length] in P2.
  destruct (Q h (probe_text d s t source destination fk destination a)) as [left R1].
  destruct (Q (h ++ [probe_text d s t source destination fk destination a]) (probe_text d s t source destination fk source b)) as [right R2].
  destruct (suggestion_exists left right) as [kind S].
  destruct (str_eqb_spec type kind) as [T|T].
  - eexists [], _. apply (asked ask d w h j source destination name type s t fk a ks b ls left right kind []); try assumption; try congruence; auto.
  - eexists [$"Join " ++ name ++ $" is type " ++ type ++ $", but should probably be " ++ kind ++ $"."], _. apply (asked ask d w h j source destination name type s t fk a ks b ls left right kind); try assumption; try congruence; auto.
Qed.
Lemma reviewable_all js : (forall h q, exists rows, ask h q = Ok rows) -> Forall (reviewable d w) js -> forall h, exists said h', ws_all_reviewed ask d w h js said h'.
Proof.
  intros Q. induction 1 as [|j js J _ IH]; intros h; [eexists _, _; constructor|]. destruct (reviewable_reviewed h j Q J) as [said [h1 R]]. destruct (IH h1) as [rest [h2 R']]. eexists _, _. econstructor; eassumption.
Qed.
End Review.

(** ** The last clause of a query *)
Lemma last_name x c y e : no_quote c -> no_quote e -> x ++ quoted c = y ++ quoted e -> x = y /\ c = e.
Proof.
  intros C E H. assert (Q : forall n : str, quoted n = (dq :: n) ++ [dq]) by reflexivity. rewrite !Q in H.
  rewrite !app_assoc in H. apply app_inv_tail in H. assert (R : rev c ++ dq :: rev x = rev e ++ dq :: rev y).
  { apply (f_equal (@rev ascii)) in H. rewrite !rev_app_distr in H. cbn [rev app] in H. rewrite <- !app_assoc in H. exact H. }
  assert (C' : ~ In dq (rev c)) by (rewrite <- in_rev; exact C). assert (E' : ~ In dq (rev e)) by (rewrite <- in_rev; exact E).
  assert (G : rev c = rev e /\ rev x = rev y).
  { clear - R C' E'. revert R C' E'. generalize (rev c) (rev e) (rev x) (rev y). intros p. induction p as [|a p IH]; intros [|b q] u v R P Q; cbn [app] in R.
    - split; [reflexivity|]. congruence.
    - exfalso. apply Q. left. congruence.
    - exfalso. apply P. left. congruence.
    - assert (a = b) by congruence. assert (p ++ dq :: u = q ++ dq :: v) by congruence. subst b. destruct (IH q u v) as [-> ->]; auto; intros I; [apply P|apply Q]; right; exact I. }
  destruct G as [G1 G2]. split; [rewrite <- (rev_involutive x), G2, rev_involutive; reflexivity|rewrite <- (rev_involutive c), G1, rev_involutive; reflexivity].
Qed.
Lemma where_unique pre t c pre' t' c' : no_quote t -> no_quote t' -> no_quote c -> no_quote c' ->
  pre ++ $" WHERE " ++ quoted t ++ $"." ++ quoted c ++ $" = NULL;" = pre' ++ $" WHERE " ++ quoted t' ++ $"." ++ quoted c' ++ $" = NULL;" -> t = t' /\ c = c'.
Proof.
  intros A B C D H. rewrite !app_assoc in H. apply app_inv_tail in H. apply last_name in H; [|assumption..]. destruct H as [H ->]. apply app_inv_tail in H. apply last_name in H; [|assumption..]. tauto.
Qed.
