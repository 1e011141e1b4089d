(** * Lemmas about the sharding review (C55, C58) *)
From Verif Require Export StrFacts SpecShard.
From Coq Require Import Lqa.
Open Scope Z_scope.

Section Rounding.
Variable rnd : Q -> Q.
Hypothesis R : rounding rnd.
Lemma rnd_int z : Z.abs z <= 2 ^ 53 -> (rnd (inject_Z z) == inject_Z z)%Q.
Proof. intros H. exact (rd_exact _ R z 0 H ltac:(lia)). Qed.
Definition half27 (z : Z) : Q := z # Z.to_pos (2 ^ 27).
Lemma rnd_half27 z : Z.abs z <= 2 ^ 53 -> (rnd (half27 z) == half27 z)%Q.
Proof. intros H. exact (rd_exact _ R z 27 H ltac:(lia)). Qed.
Lemma div_le a b z : 0 < b -> (inject_Z a / inject_Z b <= inject_Z z)%Q <-> a <= z * b.
Proof.
  intros B. assert (Bq : (0 < inject_Z b)%Q) by (change 0%Q with (inject_Z 0); rewrite <- Zlt_Qlt; exact B). split.
  - intros H. rewrite Zle_Qle, inject_Z_mult. apply (Qmult_le_compat_r _ _ (inject_Z b)) in H; [|apply Qlt_le_weak, Bq]. unfold Qdiv in H. rewrite <- Qmult_assoc, (Qmult_comm (/ _)), Qmult_inv_r, Qmult_1_r in H; [exact H|]. intros Z0. rewrite Z0 in Bq. discriminate Bq.
  - intros H. apply Qle_shift_div_r; [exact Bq|]. rewrite <- inject_Z_mult, <- Zle_Qle. exact H.
Qed.
Lemma le_div a b z : 0 < b -> (inject_Z z <= inject_Z a / inject_Z b)%Q <-> z * b <= a.
Proof.
  intros B. assert (Bq : (0 < inject_Z b)%Q) by (change 0%Q with (inject_Z 0); rewrite <- Zlt_Qlt; exact B). split.
  - intros H. rewrite Zle_Qle, inject_Z_mult. apply (Qmult_le_compat_r _ _ (inject_Z b)) in H; [|apply Qlt_le_weak, Bq]. unfold Qdiv in H. rewrite <- Qmult_assoc, (Qmult_comm (/ _)), Qmult_inv_r, Qmult_1_r in H; [exact H|]. intros Z0. rewrite Z0 in Bq. discriminate Bq.
  - intros H. apply Qle_shift_div_l; [exact Bq|]. rewrite <- inject_Z_mult, <- Zle_Qle. exact H.
Qed.
Lemma div_le27 a b z : 0 < b <= 2 ^ 27 -> a < z * b -> (inject_Z a / inject_Z b <= half27 (z * 2 ^ 27 - 1))%Q.
Proof.
  intros B H. assert (Bq : (0 < inject_Z b)%Q) by (change 0%Q with (inject_Z 0); rewrite <- Zlt_Qlt; lia). apply Qle_shift_div_r; [exact Bq|].
  unfold half27, Qle, Qmult, inject_Z. cbn [Qnum Qden]. rewrite Pos.mul_1_r. rewrite Z2Pos.id by lia. nia.
Qed.
Lemma le_div27 a b z : 0 < b <= 2 ^ 27 -> z * b < a -> (half27 (z * 2 ^ 27 + 1) <= inject_Z a / inject_Z b)%Q.
Proof.
  intros B H. assert (Bq : (0 < inject_Z b)%Q) by (change 0%Q with (inject_Z 0); rewrite <- Zlt_Qlt; lia). apply Qle_shift_div_l; [exact Bq|].
  unfold half27, Qle, Qmult, inject_Z. cbn [Qnum Qden]. rewrite Pos.mul_1_r. rewrite Z2Pos.id by lia. nia.
Qed.
Lemma half27_lt z : (half27 (z * 2 ^ 27 - 1) < inject_Z z)%Q /\ (inject_Z z < half27 (z * 2 ^ 27 + 1))%Q.
Proof. unfold half27, Qlt, inject_Z. cbn [Qnum Qden]. rewrite Z2Pos.id by lia. lia. Qed.
(** comparisons of the rounded quotient with an integer are those of the exact one *)
Lemma rnd_lt a b z : 0 < b <= 2 ^ 27 -> Z.abs z < 2 ^ 26 -> (rnd (inject_Z a / inject_Z b) < inject_Z z)%Q <-> a < z * b.
Proof.
  intros B Z. split.
  - intros H. destruct (Z.lt_ge_cases a (z * b)) as [L|G]; [exact L|]. exfalso. apply (le_div a b z) in G; [|lia]. apply (rd_order _ R) in G. rewrite rnd_int in G by lia. lra.
  - intros H. pose proof (div_le27 _ _ _ B H) as L. apply (rd_order _ R) in L. rewrite rnd_half27 in L by lia. pose proof (proj1 (half27_lt z)). lra.
Qed.
Lemma rnd_gt a b z : 0 < b <= 2 ^ 27 -> Z.abs z < 2 ^ 26 -> (inject_Z z < rnd (inject_Z a / inject_Z b))%Q <-> z * b < a.
Proof.
  intros B Z. split.
  - intros H. destruct (Z.lt_ge_cases (z * b) a) as [L|G]; [exact L|]. exfalso. apply (div_le a b z) in G; [|lia]. apply (rd_order _ R) in G. rewrite rnd_int in G by lia. lra.
  - intros H. pose proof (le_div27 _ _ _ B H) as L. apply (rd_order _ R) in L. rewrite rnd_half27 in L by lia. pose proof (proj2 (half27_lt z)). lra.
Qed.
Lemma rnd_pos a b : 0 < a -> 0 < b <= 2 ^ 27 -> (0 < rnd (inject_Z a / inject_Z b))%Q.
Proof. intros A B. apply (rnd_gt a b 0); [exact B|lia|lia]. Qed.
End Rounding.

Lemma Qlt_negb x y : negb (Qle_bool x y) = true <-> (y < x)%Q.
Proof. rewrite negb_true_iff. split; [intros H; apply Qnot_le_lt; intros L; apply Qle_bool_iff in L; congruence|intros H; destruct (Qle_bool x y) eqn:E; [|reflexivity]; apply Qle_bool_iff in E; lra]. Qed.
Lemma when_flagged b P msg : (b = true <-> P) -> flagged P msg (when b msg).
Proof. intros H. unfold flagged, when. destruct b; [left; split; [apply H; reflexivity|reflexivity]|right; split; [|reflexivity]]. intros Q. apply H in Q. discriminate. Qed.
Lemma flagged_nil (P : Prop) msg : ~ P -> flagged P msg [].
Proof. intros N. right. split; [exact N|reflexivity]. Qed.

Section Judge.
Variable rnd : Q -> Q.
Hypothesis R : rounding rnd.
Variable commas : setting -> str.
Variable float_str : Q -> str.
Lemma judge max min q s : Z.abs max < 2 ^ 26 -> Z.abs min < 2 ^ 26 -> (0 <= q)%Q -> 0 < st_shards s <= 2 ^ 27 ->
  exists l, shard_issues rnd commas float_str (SNum (inject_Z max)) (SNum (inject_Z min)) (SNum q) (st_db s ++ $"." ++ st_schema s ++ $"." ++ st_table s) (st_rows s) (st_shards s) (st_skew s) = Ok l
    /\ judged rnd commas float_str max min q s l.
Proof.
  intros Bx Bn Bq Bs. unfold shard_issues, judged. set (name := st_db s ++ $"." ++ st_schema s ++ $"." ++ st_table s). destruct (Z.eqb_spec (st_shards s) 1) as [E|N].
  - cbn [above bind]. eexists. split; [reflexivity|]. eexists _, [], [], []. rewrite !app_nil_r. split; [reflexivity|]. split; [|repeat split; apply flagged_nil; tauto].
    apply when_flagged. rewrite Qlt_negb, <- Zlt_Qlt, E. split; [intros H; split; [reflexivity|lia]|intros [_ H]; lia].
  - unfold skew_ratio, rows_per_shard. assert (S0 : (st_shards s =? 0) = false) by (apply Z.eqb_neq; lia). rewrite !S0. cbn [bind below above].
    set (per := rnd (inject_Z (st_rows s) / inject_Z (st_shards s))). set (few := negb (Qle_bool (inject_Z min) per)).
    assert (F : few = true <-> st_rows s < min * st_shards s) by (unfold few; rewrite Qlt_negb; apply rnd_lt; [exact R|lia|exact Bn]).
    assert (M : negb (Qle_bool per (inject_Z max)) = true <-> max * st_shards s < st_rows s) by (rewrite Qlt_negb; apply rnd_gt; [exact R|lia|exact Bx]).
    set (many := (if few then Ok false else Ok (negb (Qle_bool per (inject_Z max)))) : result bool).
    assert (Hm : exists b, many = Ok b /\ (b = true <-> ~ st_rows s < min * st_shards s /\ max * st_shards s < st_rows s)).
    { unfold many. destruct few; [exists false; split; [reflexivity|]; split; [discriminate|intros [H _]; exfalso; apply H, F; reflexivity]|]. exists (negb (Qle_bool per (inject_Z max))). split; [reflexivity|]. rewrite M. split; [intros H; split; [|exact H]; intros L; apply F in L; discriminate|intros [_ H]; exact H]. }
    destruct Hm as [b [-> Hb]]. cbn [bind]. destruct (Z.ltb_spec 0 (st_rows s)) as [P|P].
    + fold per. cbn [bind]. assert (Pp : (0 < per)%Q) by (apply rnd_pos; [exact R|exact P|lia]). destruct (Qeq_bool per 0) eqn:Z0; [apply Qeq_bool_iff in Z0; lra|]. cbn [bind above]. change (rnd (rnd (inject_Z (st_skew s)) / per)) with (skew_of rnd s).
      eexists. split; [reflexivity|]. exists []. eexists _, _, _. split; [reflexivity|]. split; [apply flagged_nil; tauto|]. split; [|split]; apply when_flagged.
      * rewrite F. tauto. * rewrite Hb. tauto. * rewrite Qlt_negb. tauto.
    + cbn [bind above]. eexists. split; [reflexivity|]. exists []. eexists _, _, []. split; [rewrite (proj2 (Qle_bool_iff 0 q) Bq); reflexivity|]. split; [apply flagged_nil; tauto|]. split; [|split]; [apply when_flagged; rewrite F; tauto|apply when_flagged; rewrite Hb; tauto|apply flagged_nil; lia].
Qed.
Lemma zero_shards max min q name rows skew : shard_issues rnd commas float_str max min q name rows 0 skew = Err ZeroDivisionError.
Proof. reflexivity. Qed.

(** the row and the issues found in it *)
Definition of_db (n : str) (s : stat) : bool := str_eqb (st_db s) n.
Lemma int_col r c z : number_in r c z -> int_column r c = Ok z.
Proof. intros [t [E1 E2]]. unfold int_column. rewrite E1. cbn [bind]. exact E2. Qed.
Lemma told reviewed r s max min q : tells reviewed r s ->
  (dbn <- r ($"Database Name") ;;
   (if str_eqb dbn reviewed then
      schema <- r ($"Schema Name") ;; table <- r ($"Table Name") ;; total <- int_column r ($"Total Row Count") ;; shards <- int_column r ($"Total Shards") ;; skew <- int_column r ($"Row Count Skew") ;;
      shard_issues rnd commas float_str max min q (reviewed ++ $"." ++ schema ++ $"." ++ table) total shards skew
    else Ok []))
  = if of_db reviewed s then shard_issues rnd commas float_str max min q (st_db s ++ $"." ++ st_schema s ++ $"." ++ st_table s) (st_rows s) (st_shards s) (st_skew s) else Ok [].
Proof.
  intros T. rewrite (te_db _ _ _ T). cbn [bind]. unfold of_db. destruct (str_eqb_spec (st_db s) reviewed) as [E|N]; [|reflexivity]. destruct (te_names _ _ _ T E) as [E1 E2]. destruct (te_numbers _ _ _ T E) as [N1 [N2 N3]].
  rewrite E1. cbn [bind]. rewrite E2. cbn [bind]. rewrite (int_col _ _ _ N1). cbn [bind]. rewrite (int_col _ _ _ N2). cbn [bind]. rewrite (int_col _ _ _ N3). cbn [bind]. rewrite E. reflexivity.
Qed.
Lemma rows_step max min q n r rows : shard_rows rnd commas float_str max min q n (r :: rows) =
  (issues <- (dbn <- r ($"Database Name") ;;
     (if str_eqb dbn n then
      schema <- r ($"Schema Name") ;; table <- r ($"Table Name") ;; total <- int_column r ($"Total Row Count") ;; shards <- int_column r ($"Total Shards") ;; skew <- int_column r ($"Row Count Skew") ;;
      shard_issues rnd commas float_str max min q (n ++ $"." ++ schema ++ $"." ++ table) total shards skew
      else Ok [])) ;;
   rest <- shard_rows rnd commas float_str max min q n rows ;; Ok (issues ++ rest)).
Proof. cbn [shard_rows]. destruct (r ($"Database Name")); reflexivity. Qed.
Lemma judge_rows max min q n rows stats : Z.abs max < 2 ^ 26 -> Z.abs min < 2 ^ 26 -> (0 <= q)%Q -> Forall2 (tells n) rows stats ->
  (forall s, In s stats -> st_db s = n -> 0 <= st_shards s <= 2 ^ 27) ->
  ((exists s, In s stats /\ st_db s = n /\ st_shards s = 0) -> shard_rows rnd commas float_str (SNum (inject_Z max)) (SNum (inject_Z min)) (SNum q) n rows = Err ZeroDivisionError)
  /\ ((forall s, In s stats -> st_db s = n -> st_shards s <> 0) -> exists ls, shard_rows rnd commas float_str (SNum (inject_Z max)) (SNum (inject_Z min)) (SNum q) n rows = Ok (concat ls)
        /\ Forall2 (judged rnd commas float_str max min q) (filter (of_db n) stats) ls).
Proof.
  intros Bx Bn Bq T. induction T as [|r s rows stats T _ IH]; intros B.
  - split; [intros [s [[] _]]|]. intros _. exists []. split; [reflexivity|constructor].
  - specialize (IH (fun s' I => B s' (or_intror I))). destruct IH as [IH1 IH2]. rewrite rows_step, (told _ _ _ _ _ _ T). cbn [filter]. destruct (of_db n s) eqn:Od.
    + apply str_eqb_eq in Od. pose proof (B s (or_introl eq_refl) Od) as Bs. destruct (Z.eq_dec (st_shards s) 0) as [Z0|Z0].
      * rewrite Z0, zero_shards. split; [reflexivity|]. intros H. exfalso. apply (H s (or_introl eq_refl) Od Z0).
      * destruct (judge max min q s Bx Bn Bq ltac:(lia)) as [l [-> J]]. cbn [bind]. split.
        -- intros [s' [[<-|I] [E Z1]]]; [contradiction|]. rewrite IH1 by (exists s'; split; [exact I|split; assumption]). reflexivity.
        -- intros H. destruct (IH2 (fun s' I => H s' (or_intror I))) as [ls [-> F]]. cbn [bind]. exists (l :: ls). split; [reflexivity|constructor; assumption].
    + assert (Nd : st_db s <> n) by (intros E; unfold of_db in Od; rewrite E, str_eqb_refl in Od; discriminate). cbn [bind]. split.
      * intros [s' [[<-|I] [E Z1]]]; [contradiction|]. rewrite IH1 by (exists s'; split; [exact I|split; assumption]). reflexivity.
      * intros H. destruct (IH2 (fun s' I => H s' (or_intror I))) as [ls [-> F]]. cbn [bind app]. exists ls. split; [reflexivity|exact F].
Qed.

(** limits that are texts *)
Lemma shard_text max min q name rows shards skew : shards <> 0 ->
  (forall e, shard_issues rnd commas float_str max min q name rows shards skew = Err e -> e = TypeError) ->
  (shards = 1 /\ (exists t, max = SText t)) \/ (shards <> 1 /\ exists t, min = SText t \/ q = SText t) ->
  shard_issues rnd commas float_str max min q name rows shards skew = Err TypeError.
Proof.
  intros Z0 T H. unfold shard_issues in *. destruct (Z.eqb_spec shards 1) as [E|N].
  - destruct H as [[_ [t ->]]|[H _]]; [reflexivity|contradiction].
  - destruct H as [[H _]|[_ [t [ -> | -> ]]]]; [contradiction| |]; unfold rows_per_shard in *; (destruct (Z.eqb_spec shards 0); [contradiction|]); cbn [bind below] in *; [reflexivity|].
    destruct min as [t'|m]; [reflexivity|]. cbn [bind below] in *. destruct (if negb (Qle_bool m _) then _ else _) as [b|e]; [|rewrite (T e eq_refl); reflexivity]. cbn [bind] in *. destruct (skew_ratio rnd skew rows shards) as [x|e]; [reflexivity|]. rewrite (T e eq_refl). reflexivity.
Qed.
End Judge.

Section Texts.
Variable rnd : Q -> Q.
Hypothesis R : rounding rnd.
Variable commas : setting -> str.
Variable float_str : Q -> str.
Lemma above_type x l e : above x l = Err e -> e = TypeError.
Proof. destruct l; cbn [above]; congruence. Qed.
Lemma only_type max min q name rows shards skew e : 0 < shards <= 2 ^ 27 -> shard_issues rnd commas float_str max min q name rows shards skew = Err e -> e = TypeError.
Proof.
  intros B. unfold shard_issues, skew_ratio, rows_per_shard. assert (S0 : (shards =? 0) = false) by (apply Z.eqb_neq; lia). rewrite !S0. destruct (shards =? 1).
  - destruct (above _ max) eqn:E; cbn [bind]; [discriminate|]. intros H. injection H as <-. exact (above_type _ _ _ E).
  - cbn [bind]. destruct min as [t|m]; cbn [below bind]; [congruence|]. destruct (if negb _ then _ else _) as [b|e1] eqn:E1; cbn [bind].
    + destruct (Z.ltb_spec 0 rows) as [P|P].
      * destruct (Qeq_bool _ 0) eqn:Q0; [apply Qeq_bool_iff in Q0; pose proof (rnd_pos rnd R rows shards P B); lra|]. cbn [bind]. destruct (above _ q) eqn:E; cbn [bind]; [discriminate|]. intros H. injection H as <-. exact (above_type _ _ _ E).
      * cbn [bind]. destruct (above _ q) eqn:E; cbn [bind]; [discriminate|]. intros H. injection H as <-. exact (above_type _ _ _ E).
    + intros H. injection H as <-. destruct (negb _); [discriminate|]. exact (above_type _ _ _ E1).
Qed.
Lemma text_rows max min q n rows stats : Forall2 (tells n) rows stats -> (forall s, In s stats -> st_db s = n -> 0 < st_shards s <= 2 ^ 27) ->
  (exists s, In s stats /\ st_db s = n /\ ((st_shards s = 1 /\ (exists t, max = SText t)) \/ (st_shards s <> 1 /\ exists t, min = SText t \/ q = SText t))) ->
  shard_rows rnd commas float_str max min q n rows = Err TypeError.
Proof.
  intros T. induction T as [|r s rows stats T _ IH]; intros B H; [destruct H as [s [[] _]]|]. rewrite rows_step, (told rnd commas float_str _ _ _ _ _ _ T). destruct (of_db n s) eqn:Od.
  - apply str_eqb_eq in Od. pose proof (B s (or_introl eq_refl) Od) as Bs. destruct (shard_issues _ _ _ _ _ _ _ _ _ _) as [l|e] eqn:E.
    + cbn [bind]. rewrite IH; [reflexivity|intros s' I; apply B; right; exact I|]. destruct H as [s' [[<-|I] H]]; [|exists s'; split; assumption]. exfalso. destruct H as [_ H].
      rewrite shard_text in E; [discriminate|lia|intros e; apply only_type, Bs|exact H].
    + cbn [bind]. rewrite (only_type _ _ _ _ _ _ _ _ Bs E). reflexivity.
  - cbn [bind]. rewrite IH; [reflexivity|intros s' I; apply B; right; exact I|]. destruct H as [s' [[<-|I] H]]; [|exists s'; split; assumption]. exfalso. destruct H as [H _]. unfold of_db in Od. rewrite H, str_eqb_refl in Od. discriminate.
Qed.
End Texts.
