(** * Property C63: which reviews the reviewer runs *)
From Verif Require Import SpecReview SpecReviewer StrFacts GenFacts FieldFacts GraphProps PropsGraph.
From Coq Require Import Lia.

Lemma prefix_spec p s : starts_with p s = true <-> exists rest, s = p ++ rest.
Proof.
  revert s; induction p as [|c p IH]; intros s; [split; [exists s; reflexivity|reflexivity]|]. destruct s as [|d s]; cbn [starts_with].
  - split; [discriminate|intros [r E]; discriminate].
  - destruct (Ascii.eqb_spec c d) as [->|N]; cbn [andb].
    + rewrite IH. split; intros [r E]; exists r; [rewrite E; reflexivity|cbn [app] in E; congruence].
    + split; [discriminate|intros [r E]; cbn [app] in E; congruence].
Qed.
Lemma has_spec p l : has_param p l = true <-> In p l.
Proof. unfold has_param. rewrite existsb_exists. split; [intros [x [I E]]; destruct p, x; try discriminate; exact I|intros I; exists p; split; [exact I|destruct p; reflexivity]]. Qed.
Lemma has_false p l : has_param p l = false <-> ~ In p l.
Proof. rewrite <- has_spec. destruct (has_param p l); split; congruence. Qed.
Lemma calls_app a b : calls (a ++ b) = calls a ++ calls b.
Proof. apply flat_map_app. Qed.
Lemma skips_app a b : skips (a ++ b) = skips a ++ skips b.
Proof. apply flat_map_app. Qed.

Definition ask_missing (names : list str) (ws : option worksheet) (rtql : option oracle) (r : review) : Prop := selected names r /\ ~ supplied ws rtql r.
Lemma loop_runs names ws rtql l : forall rec h ev, NoDup (dkeys rec ++ map rv_name l) ->
  exists outs e h' ev', runs names ws rtql h l outs e h'
    /\ review_loop names ws rtql l rec h ev
       = (match e with None => Ok (rec ++ filter (fun o => match snd o with [] => false | _ => true end) outs) | Some (_, x) => Err x end, h', ev ++ ev')
    /\ calls ev' = map fst outs ++ match e with None => [] | Some (n, _) => [n] end
    /\ (e = None -> forall n, In n (skips ev') <-> exists r, In r l /\ rv_name r = n /\ selected names r /\ ~ supplied ws rtql r).
Proof.
  induction l as [|r l IH]; intros rec h ev N.
  { exists [], None, h, []. split; [constructor|]. cbn [review_loop filter]. rewrite !app_nil_r. split; [reflexivity|]. split; [reflexivity|]. intros _ n. split; [intros []|intros [r [[] _]]]. }
  assert (Hskip : forall ev0, ~ applicable names ws rtql r ->
    ((selected names r /\ ~ supplied ws rtql r) /\ ev0 = [Skipped (rv_name r)] \/ ~ (selected names r /\ ~ supplied ws rtql r) /\ ev0 = []) ->
    review_loop names ws rtql (r :: l) rec h ev = review_loop names ws rtql l rec h (ev ++ ev0) ->
    exists outs e h' ev', runs names ws rtql h (r :: l) outs e h'
    /\ review_loop names ws rtql (r :: l) rec h ev
       = (match e with None => Ok (rec ++ filter (fun o => match snd o with [] => false | _ => true end) outs) | Some (_, x) => Err x end, h', ev ++ ev')
    /\ calls ev' = map fst outs ++ match e with None => [] | Some (n, _) => [n] end
    /\ (e = None -> forall n, In n (skips ev') <-> exists r0, In r0 (r :: l) /\ rv_name r0 = n /\ selected names r0 /\ ~ supplied ws rtql r0)).
  { intros ev0 A Z E. destruct (IH rec h (ev ++ ev0)) as [outs [e [h' [ev' [R [L [C S]]]]]]].
    { apply NoDup_remove_1 in N. exact N. }
    exists outs, e, h', (ev0 ++ ev'). split; [apply runs_other; assumption|]. split; [rewrite E, L, app_assoc; reflexivity|]. split.
    - rewrite calls_app, C. destruct Z as [[_ ->]|[_ ->]]; reflexivity.
    - intros En n. rewrite skips_app, in_app_iff, (S En). destruct Z as [[Z ->]|[Z ->]]; cbn [skips flat_map app In].
      + split; [intros [[<-|[]]|[x [I K]]]; [exists r; tauto|exists x; tauto]|intros [x [[->|I] K]]; [left; left; tauto|right; exists x; tauto]].
      + split; [intros [[]|[x [I K]]]; exists x; tauto|intros [x [[->|I] K]]; [tauto|right; exists x; tauto]]. }
  assert (Dn : forall b, (b = negb (match names with [] => true | _ => false end) && negb (str_in (rv_name r) names)) -> (b = true -> ~ (names = [] \/ In (rv_name r) names)) /\ (b = false -> names = [] \/ In (rv_name r) names)).
  { intros b ->. destruct names as [|n0 ns]; [split; [discriminate|left; reflexivity]|]. cbn [negb andb]. split.
    - intros H [K|K]; [discriminate|]. apply str_in_true in K. rewrite K in H. discriminate.
    - intros H. right. apply str_in_true. destruct (str_in (rv_name r) (n0 :: ns)); [reflexivity|discriminate]. }
  destruct (negb (match names with [] => true | _ => false end) && negb (str_in (rv_name r) names)) eqn:En; destruct (Dn _ (eq_sym (eq_refl _))) as [D1 D2]; clear Dn.
  { apply (Hskip []); [intros [[_ K] _]; exact (D1 eq_refl K)|right; split; [intros [[_ K] _]; exact (D1 eq_refl K)|reflexivity]|]. cbn [review_loop]. rewrite En, app_nil_r. reflexivity. }
  specialize (D2 eq_refl). destruct (starts_with ($"review_") (rv_name r)) eqn:Ep.
  2:{ assert (P : ~ exists rest, rv_name r = $"review_" ++ rest) by (rewrite <- prefix_spec; congruence).
      apply (Hskip []); [intros [[K _] _]; exact (P K)|right; split; [intros [[K _] _]; exact (P K)|reflexivity]|]. cbn [review_loop]. rewrite En, Ep, app_nil_r. reflexivity. }
  assert (Sel : selected names r) by (split; [apply prefix_spec, Ep|exact D2]).
  destruct (has_param PRtql (rv_params r) && match rtql with None => true | _ => false end) eqn:Eq.
  { assert (U : ~ supplied ws rtql r). { apply andb_prop in Eq. destruct Eq as [Eq1 Eq2]. apply has_spec in Eq1. intros [K _]. destruct rtql; [discriminate|]. exact (K Eq1 eq_refl). }
    apply (Hskip [Skipped (rv_name r)]); [intros [_ [K _]]; exact (U K)|left; auto|]. cbn [review_loop]. rewrite En, Ep, Eq. reflexivity. }
  destruct (has_param PWorksheet (rv_params r) && match ws with None => true | _ => false end) eqn:Ew.
  { assert (U : ~ supplied ws rtql r). { apply andb_prop in Ew. destruct Ew as [Ew1 Ew2]. apply has_spec in Ew1. intros [_ K]. destruct ws; [discriminate|]. exact (K Ew1 eq_refl). }
    apply (Hskip [Skipped (rv_name r)]); [intros [_ [K _]]; exact (U K)|left; auto|]. cbn [review_loop]. rewrite En, Ep, Eq, Ew. reflexivity. }
  assert (Sup : supplied ws rtql r).
  { split; intros K; apply has_spec in K; [rewrite K in Eq; destruct rtql; [discriminate|discriminate Eq]|rewrite K in Ew; destruct ws; [discriminate|discriminate Ew]]. }
  destruct (rv_params r) as [|p0 ps] eqn:Epar.
  { apply (Hskip []); [intros [_ [_ K]]; exact (K Epar)|right; split; [intros [_ K]; exact (K Sup)|reflexivity]|]. cbn [review_loop]. rewrite En, Ep, Epar. cbn [has_param existsb andb]. rewrite app_nil_r. reflexivity. }
  rewrite <- Epar in *. assert (App : applicable names ws rtql r) by (split; [exact Sel|split; [exact Sup|congruence]]). clear Hskip.
  assert (Pq : passed PRtql r rtql (if has_param PRtql (rv_params r) then rtql else None)) by (split; intros K; [apply has_spec in K|apply has_false in K]; rewrite K; reflexivity).
  assert (Pw : passed PWorksheet r ws (if has_param PWorksheet (rv_params r) then ws else None)) by (split; intros K; [apply has_spec in K|apply has_false in K]; rewrite K; reflexivity).
  assert (Step : review_loop names ws rtql (r :: l) rec h ev
    = match rv_run r (if has_param PRtql (rv_params r) then rtql else None) (if has_param PWorksheet (rv_params r) then ws else None) h with
      | (Err e, h') => (Err e, h', ev ++ [Called (rv_name r)])
      | (Ok issues, h') => review_loop names ws rtql l (match issues with [] => rec | _ => dset (rv_name r) issues rec end) h' (ev ++ [Called (rv_name r)])
      end) by (cbn [review_loop]; rewrite En, Ep, Eq, Ew, Epar; reflexivity).
  rewrite Step. clear Step.
  destruct (rv_run r (if has_param PRtql (rv_params r) then rtql else None) (if has_param PWorksheet (rv_params r) then ws else None) h) as [[issues|x] h1] eqn:Er.
  - assert (Nl : ~ In (rv_name r) (dkeys rec)) by (intros I; cbn [map] in N; apply NoDup_remove_2 in N; apply N, in_app_iff; left; exact I).
    pose (rec' := match issues with [] => rec | _ => dset (rv_name r) issues rec end).
    assert (Er' : rec' = rec ++ filter (fun o => match snd o with [] => false | _ => true end) [(rv_name r, issues)]).
    { unfold rec'. destruct issues as [|i is]; cbn [filter snd]; [rewrite app_nil_r; reflexivity|]. apply dset_new. exact Nl. }
    destruct (IH rec' h1 (ev ++ [Called (rv_name r)])) as [outs [e [h' [ev' [R [L [C S]]]]]]].
    { rewrite Er'. unfold dkeys in *. rewrite map_app. cbn [map] in N. destruct issues; cbn [filter snd map fst app]; [rewrite app_nil_r; apply NoDup_remove_1 in N; exact N|]. rewrite <- app_assoc. exact N. }
    exists ((rv_name r, issues) :: outs), e, h', (Called (rv_name r) :: ev'). split; [eapply runs_review; eassumption|]. split; [|split].
    + fold rec'. rewrite L, Er', <- app_assoc. cbn [filter snd app]. destruct e as [[en ex]|]; [rewrite <- app_assoc; reflexivity|]. rewrite <- app_assoc. cbn [app]. destruct issues; cbn [filter snd app]; rewrite <- ?app_assoc; reflexivity.
    + cbn [calls flat_map map fst app]. unfold calls in C. rewrite C. reflexivity.
    + intros E0 n. cbn [skips flat_map app]. unfold skips in S. rewrite (S E0). split; [intros [z [I K]]; exists z; split; [right; exact I|exact K]|]. intros [z [[<-|I] [K1 [K2 K3]]]]; [contradiction|exists z; auto].
  - exists [], (Some (rv_name r, x)), h1, [Called (rv_name r)]. split; [eapply runs_failure; eassumption|]. repeat split; [discriminate..].
Qed.

(** C63: the reviewer calls exactly the applicable reviews, in order, up to the first that fails; it returns
    what they returned under their names where that is not empty, and the failure if there is one.  The
    reviews announced as skipped are exactly the selected ones that miss an argument. *)
Theorem C63_dispatch : forall module names ws rtql, NoDup (map rv_name module) ->
  exists outs e h' ev, runs names ws rtql [] module outs e h'
    /\ review_with module names ws rtql = (match e with None => Ok (filter (fun o => match snd o with [] => false | _ => true end) outs) | Some (_, x) => Err x end, h', ev)
    /\ calls ev = map fst outs ++ match e with None => [] | Some (n, _) => [n] end
    /\ (e = None -> forall n, In n (skips ev) <-> exists r, In r module /\ rv_name r = n /\ selected names r /\ ~ supplied ws rtql r).
Proof.
  intros module names ws rtql N. destruct (loop_runs names ws rtql module [] [] [] N) as [outs [e [h' [ev [R [L [C S]]]]]]]. exists outs, e, h', ev. auto.
Qed.
Print Assumptions C63_dispatch.
(** Every applicable review is among the calls and nothing else, if none fails. *)
Theorem C63_calls : forall names ws rtql h l outs h', runs names ws rtql h l outs None h' ->
  forall r, In r l -> (NoDup (map rv_name l) -> (In (rv_name r) (map fst outs) <-> applicable names ws rtql r)).
Proof.
  intros names ws rtql h l outs h' R. remember None as e eqn:E. induction R as [h|h r l outs e h' A R IH|h r l q w issues h1 outs e h' A Pq Pw Er R IH|h r l q w x h1 A Pq Pw Er]; intros r0 I N; [contradiction| | |discriminate].
  - cbn [map] in N. inversion N as [|? ? N1 N2]; subst. destruct I as [<-|I]; [|exact (IH eq_refl r0 I N2)]. split; [|contradiction]. intros K. exfalso. apply N1.
    assert (G : forall h l outs e h', runs names ws rtql h l outs e h' -> forall n, In n (map fst outs) -> In n (map rv_name l)).
    { clear. induction 1; intros n; cbn [map fst In]; firstorder. }
    exact (G _ _ _ _ _ R _ K).
  - cbn [map] in N. inversion N as [|? ? N1 N2]; subst. destruct I as [<-|I]; [split; [intros _; exact A|left; reflexivity]|]. cbn [map fst In]. rewrite <- (IH eq_refl r0 I N2). split; [intros [K|K]; [exfalso; apply N1; rewrite K; apply in_map, I|exact K]|right; assumption].
Qed.
Print Assumptions C63_calls.
Definition test_table : list (str * list param) :=
  [($"review_circular_relationships", [PDatabase]); ($"review_long_chain_relationships", [PDatabase; PConfig]); ($"review_pks", [PDatabase]);
   ($"review_relationships", [PDatabase]); ($"review_sharding", [PDatabase; PRtql; PConfig]); ($"review_table_joins", [PDatabase; PRtql]);
   ($"review_worksheet_joins", [PDatabase; PRtql; PWorksheet])].
Lemma tests_table order rnd commas float_str fuel d c : map (fun r => (rv_name r, rv_params r)) (review_tests order rnd commas float_str fuel d c) = test_table.
Proof. reflexivity. Qed.
Lemma table_params n ps : In (n, ps) test_table ->
  starts_with ($"review_") n = true /\ ps <> []
  /\ (In PRtql ps <-> str_in n [$"review_sharding"; $"review_table_joins"; $"review_worksheet_joins"] = true)
  /\ (In PWorksheet ps <-> str_eqb n ($"review_worksheet_joins") = true).
Proof.
  assert (T : forallb (fun e => starts_with ($"review_") (fst e) && negb (match snd e with [] => true | _ => false end)
      && Bool.eqb (has_param PRtql (snd e)) (str_in (fst e) [$"review_sharding"; $"review_table_joins"; $"review_worksheet_joins"])
      && Bool.eqb (has_param PWorksheet (snd e)) (str_eqb (fst e) ($"review_worksheet_joins"))) test_table = true) by (vm_compute; reflexivity).
  intros I. rewrite forallb_forall in T. specialize (T _ I). cbn [fst snd] in T. rewrite !andb_true_iff, !eqb_true_iff in T. destruct T as [[[A B] C] D].
  split; [exact A|]. split; [intros ->; discriminate B|]. rewrite <- !has_spec, C, D. split; reflexivity.
Qed.
Lemma table_calls l names ws rtql res h ev : map (fun r => (rv_name r, rv_params r)) l = test_table ->
  review_with l names ws rtql = (Ok res, h, ev) ->
  calls ev = filter (fun n => (match names with [] => true | _ => str_in n names end)
                              && (negb (str_in n [$"review_sharding"; $"review_table_joins"; $"review_worksheet_joins"]) || match rtql with Some _ => true | None => false end)
                              && (negb (str_eqb n ($"review_worksheet_joins")) || match ws with Some _ => true | None => false end)) (map rv_name l).
Proof.
  intros H0 H.
  assert (Na : map rv_name l = map fst test_table) by (rewrite <- H0, map_map; reflexivity).
  assert (N : NoDup (map rv_name l)).
  { rewrite Na. unfold test_table. cbn [map fst]. repeat (constructor; [intros K; vm_compute in K; intuition discriminate|]). constructor. }
  destruct (C63_dispatch _ names ws rtql N) as [outs [e [h' [ev' [R [L [C _]]]]]]]. rewrite L in H. destruct e as [[n x]|].
  { apply pair_equal_spec in H. destruct H as [H _]. apply pair_equal_spec in H. destruct H as [H _]. discriminate. }
  apply pair_equal_spec in H. destruct H as [_ ->]. rewrite app_nil_r in C. rewrite C. clear C L.
  assert (G : forall l' (P : review -> bool), (forall r, In r l' -> (P r = true <-> applicable names ws rtql r)) -> forall h outs h', runs names ws rtql h l' outs None h' -> map fst outs = map rv_name (filter P l')).
  { induction l' as [|r l' IH]; intros P HP k o k' Q; inversion Q; subst; [reflexivity| |].
    - cbn [filter]. destruct (P r) eqn:Er; [exfalso; match goal with K : ~ applicable _ _ _ _ |- _ => apply K end; apply HP; [left; reflexivity|exact Er]|]. eapply IH; [|eassumption]. intros z Hz. apply HP. right. exact Hz.
    - cbn [filter]. assert (Er : P r = true) by (apply HP; [left; reflexivity|assumption]). rewrite Er. cbn [map fst]. f_equal. eapply IH; [|eassumption]. intros z Hz. apply HP. right. exact Hz. }
  clear Na N.
  rewrite (G l (fun r => (match names with [] => true | _ => str_in (rv_name r) names end)
       && (negb (str_in (rv_name r) [$"review_sharding"; $"review_table_joins"; $"review_worksheet_joins"]) || match rtql with Some _ => true | None => false end)
       && (negb (str_eqb (rv_name r) ($"review_worksheet_joins")) || match ws with Some _ => true | None => false end))) with (2 := R).
  - clear. induction l as [|r l IH]; [reflexivity|]. cbn [filter map].
    match goal with |- map rv_name (if ?b then _ else _) = (if ?b' then _ else _) => change b' with b; destruct b end; cbn [map]; rewrite IH; reflexivity.
  - intros r Hr. rewrite !andb_true_iff.
    assert (Nn : match names with [] => true | _ => str_in (rv_name r) names end = true <-> names = [] \/ In (rv_name r) names).
    { destruct names as [|n0 ns]; [split; auto|]. rewrite str_in_true. split; [auto|intros [K|K]; [discriminate|exact K]]. }
    rewrite Nn. unfold applicable, selected, supplied.
    assert (T : In (rv_name r, rv_params r) test_table) by (rewrite <- H0; exact (in_map (fun r => (rv_name r, rv_params r)) _ _ Hr)).
    destruct (table_params _ _ T) as [A [B [C D]]]. apply prefix_spec in A. rewrite C, D.
    generalize (str_in (rv_name r) [$"review_sharding"; $"review_table_joins"; $"review_worksheet_joins"]) (str_eqb (rv_name r) ($"review_worksheet_joins")). intros x y.
    split.
    + intros [[E F] G']. split; [split; [exact A|exact E]|]. split; [|exact B]. split; [intros ->; destruct rtql; [discriminate|discriminate F]|intros ->; destruct ws; [discriminate|discriminate G']].
    + intros [[_ E] [[F G'] _]]. split; [split; [exact E|]|].
      * destruct x; [|reflexivity]. destruct rtql; [reflexivity|destruct (F eq_refl eq_refl)].
      * destruct y; [|reflexivity]. destruct ws; [reflexivity|destruct (G' eq_refl eq_refl)].
Qed.
Lemma model_with order rnd commas float_str fuel c d names ws rtql : review_model order rnd commas float_str fuel c d names ws rtql = review_with (review_tests order rnd commas float_str fuel d c) names ws rtql.
Proof. reflexivity. Qed.
(** The reviews at hand: without a connection only those of the model run; the worksheet joins also need
    a worksheet. *)
Theorem C63_module : forall order rnd commas float_str fuel c d names ws rtql res h ev,
  review_model order rnd commas float_str fuel c d names ws rtql = (Ok res, h, ev) ->
  calls ev = filter (fun n => (match names with [] => true | _ => str_in n names end)
                              && (negb (str_in n [$"review_sharding"; $"review_table_joins"; $"review_worksheet_joins"]) || match rtql with Some _ => true | None => false end)
                              && (negb (str_eqb n ($"review_worksheet_joins")) || match ws with Some _ => true | None => false end))
               [$"review_circular_relationships"; $"review_long_chain_relationships"; $"review_pks"; $"review_relationships";
                $"review_sharding"; $"review_table_joins"; $"review_worksheet_joins"].
Proof.
  intros order rnd commas float_str fuel c d names ws rtql res h ev H. rewrite model_with in H.
  rewrite (table_calls _ _ _ _ _ _ _ (tests_table order rnd commas float_str fuel d c) H).
  assert (Na : map rv_name (review_tests order rnd commas float_str fuel d c) = map fst test_table) by (rewrite <- (tests_table order rnd commas float_str fuel d c), map_map; reflexivity).
  rewrite Na. unfold test_table. cbn [map fst]. reflexivity.
Qed.
Print Assumptions C63_module.

(** Without a connection the join reviews are skipped, and one review with nothing to say is left out. *)
Definition lone : database := {| db_name := $"db"; db_schemas := [($"s", 0%Z)];
  db_tables := [($"t", {| t_name := $"t"; t_schema := $"s"; t_pk := []; t_shard := None; t_cols := []; t_fks := []; t_rels := [] |})] |}.
Example C63_case :
  NoDup (map rv_name (review_tests (fun l => l) (fun q => q) (fun _ => []) (fun _ => []) 9 lone []))
  /\ exists res, review_model (fun l => l) (fun q => q) (fun _ => []) (fun _ => []) 9 [] lone [$"review_pks"; $"review_circular_relationships"; $"review_sharding"; $"other"] None None
     = (Ok res, [], [Called ($"review_circular_relationships"); Called ($"review_pks"); Skipped ($"review_sharding")]) /\ map fst res = [$"review_pks"].
Proof.
  split; [cbn [map review_tests rv_name]; repeat (constructor; [intros K; vm_compute in K; intuition discriminate|]); constructor|]. eexists. split; vm_compute; reflexivity.
Qed.

(** C77: the descriptions list every review under its signature, with the lines of its documentation that
    are not blank and come before the first field. *)
Lemma description_told lines : told lines (description lines).
Proof.
  induction lines as [|l ls IH]; [exists [], []; repeat split; [intros x []|left; reflexivity]|]. cbn [description].
  destruct IH as [pre [post [E [A [B C]]]]].
  assert (Keep : ~ is_field l -> forall out, out = match strip l with [] => description ls | _ => strip l :: description ls end -> told (l :: ls) out).
  { intros F out ->. exists (l :: pre), post. split; [rewrite E; reflexivity|]. split; [intros x [<-|I]; auto|]. split; [exact B|]. cbn [map filter]. rewrite C. destruct (strip l); reflexivity. }
  destruct (str_eqb_spec (strip l) []) as [Z|Z].
  - apply Keep; [intros [r R]; rewrite Z in R; discriminate|]. rewrite Z. reflexivity.
  - destruct (starts_with ($":") (strip l)) eqn:F.
    + apply prefix_spec in F. destruct F as [r R]. exists [], (l :: ls). split; [reflexivity|]. split; [intros x []|]. split; [right; exists l, ls; split; [reflexivity|exists r; exact R]|reflexivity].
    + apply Keep; [intros [r R]|destruct (strip l); [contradiction|reflexivity]]. assert (T : starts_with ($":") (strip l) = true) by (apply prefix_spec; exists r; exact R). congruence.
Qed.
Lemma split_lines ls : ls <> [] -> Forall (fun l => ~ In newline l) ls -> split_char newline (join [newline] ls) = ls.
Proof.
  induction ls as [|l ls IH]; [contradiction|]. intros _ F. inversion F as [|? ? F1 F2]; subst. destruct ls as [|m ls]; [apply split_one, F1|]. rewrite join_cons by discriminate. cbn [app]. rewrite split_free by exact F1. rewrite IH by (discriminate || exact F2). reflexivity.
Qed.
Lemma describe_from es : forall ds, (forall e, In e es -> snd e <> [] /\ Forall (fun l => ~ In newline l) (snd e)) -> NoDup (dkeys ds ++ map signature (filter is_review es)) ->
  describe (map in_module es) ds = Ok (ds ++ map (fun e => (signature e, description (snd e))) (filter is_review es)).
Proof.
  induction es as [|[[f ps] ls] es IH]; intros ds H N; [cbn; rewrite app_nil_r; reflexivity|]. cbn [map in_module fst snd describe filter] in *. assert (R : is_review (f, ps, ls) = starts_with ($"review_") f) by reflexivity. rewrite R in *. clear R.
  destruct (starts_with ($"review_") f) eqn:F; cbn [map] in *.
  - destruct (H (f, ps, ls) (or_introl eq_refl)) as [H1 H2]. cbn [snd] in H1, H2. rewrite split_lines by assumption. change (f ++ $"(" ++ join ($", ") ps ++ $")") with (signature (f, ps, ls)).
    assert (M : ~ In (signature (f, ps, ls)) (dkeys ds)) by (intros I; apply NoDup_remove_2 in N; apply N, in_app_iff; left; exact I).
    rewrite dset_new by exact M. rewrite IH; [rewrite <- app_assoc; reflexivity|intros e He; apply H; right; exact He|]. unfold dkeys in *. rewrite map_app, <- app_assoc. exact N.
  - apply IH; [intros e He; apply H; right; exact He|exact N].
Qed.
Theorem C77_descriptions : forall entries, (forall e, In e entries -> snd e <> [] /\ Forall (fun l => ~ In newline l) (snd e)) ->
  NoDup (map signature (filter is_review entries)) ->
  exists out, get_test_descriptions (map in_module entries) = Ok out /\ Forall2 described (filter is_review entries) out.
Proof.
  intros es H N. eexists. split; [apply (describe_from es [] H N)|]. cbn [app]. induction (filter is_review es) as [|[[f ps] ls] l IH]; constructor.
  - split; [reflexivity|]. apply description_told.
  - apply IH. cbn [map] in N. inversion N; assumption.
Qed.
Print Assumptions C77_descriptions.
Example C77_case : let doc := [[]; $"    Reviews the joins."; []; $"    This is slow. "; $"    :param database: the database"; $"    more"] in
  told doc [$"Reviews the joins."; $"This is slow."]
  /\ get_test_descriptions (map in_module [(($"helper", [$"a"]), doc); (($"review_x", [$"database"; $"rtql"]), doc)])
     = Ok [($"review_x(database, rtql)", [$"Reviews the joins."; $"This is slow."])].
Proof. split; [apply description_told|vm_compute; reflexivity]. Qed.

Lemma loop_second r1 r2 l names ws rtql e :
  (forall r, r = r1 \/ r = r2 -> starts_with ($"review_") (rv_name r) = true /\ has_param PRtql (rv_params r) = false /\ has_param PWorksheet (rv_params r) = false /\ rv_params r <> []) ->
  (forall h, exists i h', rv_run r1 None None h = (Ok i, h')) -> (forall h, exists h', rv_run r2 None None h = (Err e, h')) ->
  names = [] \/ In (rv_name r2) names -> fst (fst (review_with (r1 :: r2 :: l) names ws rtql)) = Err e.
Proof.
  intros H R1 R2 S.
  assert (S2 : negb (match names with [] => true | _ => false end) && negb (str_in (rv_name r2) names) = false).
  { destruct S as [->|I]; [reflexivity|]. destruct (str_in_spec (rv_name r2) names) as [_|Q]; [apply andb_false_r|destruct (Q I)]. }
  assert (T : forall rec h ev, fst (fst (review_loop names ws rtql (r2 :: l) rec h ev)) = Err e).
  { intros rec h ev. cbn [review_loop]. rewrite S2. destruct (H r2 (or_intror eq_refl)) as [A [B [C D]]]. rewrite A, B, C. cbn [andb]. destruct (rv_params r2); [destruct D; reflexivity|].
    destruct (R2 h) as [h' E]. rewrite E. reflexivity. }
  unfold review_with. cbn [review_loop] in T |- *. destruct (negb (match names with [] => true | _ => false end) && negb (str_in (rv_name r1) names)); [apply T|].
  destruct (H r1 (or_introl eq_refl)) as [A [B [C D]]]. rewrite A, B, C. cbn [andb]. destruct (rv_params r1); [destruct D; reflexivity|].
  destruct (R1 []) as [i [h' E]]. rewrite E. apply T.
Qed.
(** C55 for the reviewer: given a configuration file that sets the limit of chains, [review_model] raises
    [TypeError] for every model with a path, whatever value was set. *)
Theorem C55_reviewer_refuted : forall order rnd commas float_str files f c warned v d names ws rtql,
  iteration_order order -> filed d -> no_dangling d -> f <> [] ->
  load_from_file files [] f = (c, true, warned) -> dget ($"max_reference_chain") c = Some v -> (exists p, simple_path d p) ->
  names = [] \/ In ($"review_long_chain_relationships") names ->
  ends_as (fun fuel => fst (fst (review_model order rnd commas float_str fuel (reviewer_settings files (Some f)) d names ws rtql))) (Err TypeError).
Proof.
  intros order rnd commas float_str files f c warned v d names ws rtql Ho Fd Hd N L G P S.
  destruct (C53_exact order d Ho Fd Hd) as [circ [[n1 E1] _]].
  destruct (C55_chain_refuted order d files f c warned v Ho Fd Hd L G P) as [n2 E2].
  exists (max n1 n2). intros fuel K. specialize (E1 fuel (Nat.le_trans _ _ _ (Nat.le_max_l _ _) K)). specialize (E2 fuel (Nat.le_trans _ _ _ (Nat.le_max_r _ _) K)).
  assert (R : reviewer_settings files (Some f) = file_settings c) by (unfold reviewer_settings; destruct f as [|x f]; [destruct N; reflexivity|]; rewrite L; reflexivity).
  rewrite R. unfold review_model, review_tests. apply loop_second.
  - intros r [-> | ->]; cbn [rv_name rv_params]; (split; [reflexivity|split; [reflexivity|split; [reflexivity|discriminate]]]).
  - intros h. cbn [rv_run]. unfold ReviewData.ret. rewrite E1. eexists _, _. reflexivity.
  - intros h. cbn [rv_run]. unfold ReviewData.ret. rewrite E2. eexists. reflexivity.
  - exact S.
Qed.
Print Assumptions C55_reviewer_refuted.
(** A file that says nothing of a limit leaves the default, which is then honoured (C54, C58). *)
Theorem C55_default : forall files f c warned k q,
  f = None \/ (exists n, f = Some n /\ load_from_file files [] n = (c, true, warned) /\ dget k c = None) ->
  limit (reviewer_settings files f) k q = SNum q.
Proof.
  intros files f c warned k q [->|[n [-> [L G]]]]; [reflexivity|]. unfold reviewer_settings. destruct n as [|x n]; [reflexivity|]. rewrite L. cbn [fst]. unfold limit, file_settings.
  assert (E : dget k (map (fun kv => (fst kv, SText (snd kv))) c) = None); [|rewrite E; reflexivity].
  clear - G. induction c as [|[y w] l IH]; [reflexivity|]. cbn [map fst snd dget] in *. destruct (str_eqb k y); [discriminate|apply IH, G].
Qed.
Print Assumptions C55_default.
Example C55_reviewer_case : fst (fst (review_model (fun l => l) (fun q => q) (fun _ => []) (fun _ => []) 6 (reviewer_settings (fun _ => Some ($"max_reference_chain = 5")) (Some ($"f"))) ring [] None None)) = Err TypeError
  /\ exists r, fst (fst (review_model (fun l => l) (fun q => q) (fun _ => []) (fun _ => []) 6 (reviewer_settings (fun _ => Some ($"# nothing")) (Some ($"f"))) ring [] None None)) = Ok r.
Proof. split; [vm_compute; reflexivity|]. eexists. vm_compute. reflexivity. Qed.
