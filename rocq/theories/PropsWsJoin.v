(** * Properties C61 and C62: the review of worksheet joins *)
From Verif Require Import WsJoinFacts.
From Coq Require Import Lia.

(** C61: the review asks two probes about each join that is a foreign key between tables and reports it
    exactly when its kind differs from the one the answers suggest; joins of other kinds are skipped. *)
Theorem C61_exact : forall ask d w h, (forall h q, exists rows, ask h q = Ok rows) -> Forall (reviewable d w) (ws_joins w) ->
  exists said h', ws_all_reviewed ask d w h (ws_joins w) said h' /\ review_worksheet_joins ask d w h = (Ok said, h').
Proof.
  intros ask d w h Q R. destruct (reviewable_all ask d w (ws_joins w) Q R h) as [said [h' A]]. exists said, h'. split; [exact A|]. unfold review_worksheet_joins. exact (reviewed_all_run ask d w h _ said h' A).
Qed.
Print Assumptions C61_exact.
(** What is to be said is determined, so the review says nothing else. *)
Theorem C61_only : forall ask d w h said h', ws_all_reviewed ask d w h (ws_joins w) said h' -> review_worksheet_joins ask d w h = (Ok said, h').
Proof. intros ask d w h said h' A. unfold review_worksheet_joins. exact (reviewed_all_run ask d w h _ said h' A). Qed.
Print Assumptions C61_only.
(** A join whose source the worksheet or, for a table, the database does not know stops the review. *)
Theorem C61_unknown : forall ask d w h pre j post said h' n, ws_joins w = pre ++ j :: post -> ws_all_reviewed ask d w h pre said h' ->
  wj_source j = YStr n -> n <> [] ->
  ((forall t, In t (ws_tables w) -> wt_name t <> YStr n) \/ (of_kind w n ($"table") /\ get_table d n = None)) ->
  review_worksheet_joins ask d w h = (Err AttributeError, h').
Proof.
  intros ask d w h pre j post said h' n E A S N K. unfold review_worksheet_joins. rewrite E. clear E.
  assert (J : forall k, review_ws_join ask d w j k = (Err AttributeError, k)).
  { intros k. unfold review_ws_join, abind, ret. rewrite S. cbn [as_text]. destruct K as [K|[K G]].
    - unfold table_type, ws_get_table. destruct (str_eqb_spec n []) as [Z|_]; [contradiction|]. cbn [bind].
      assert (F : List.find (fun t => match wt_name t with YStr s => str_eqb s n | _ => false end) (ws_tables w) = None).
      { induction (ws_tables w) as [|t ts IH]; [reflexivity|]. cbn [List.find]. pose proof (K t (or_introl eq_refl)) as T.
        assert (X : match wt_name t with YStr s => str_eqb s n | _ => false end = false) by (destruct (wt_name t); try reflexivity; destruct (str_eqb_spec s n); [congruence|reflexivity]).
        rewrite X. apply IH. intros u Hu. apply K. right. exact Hu. }
      rewrite F. reflexivity.
    - rewrite (kind_found _ _ _ K), is_table_kind, (proj2 (str_eqb_eq _ _) eq_refl). cbn [negb]. rewrite G. reflexivity. }
  induction A as [h|h x js sd h1 rest h2 X _ IH]; cbn [app ws_joins_review]; unfold abind, ret.
  - rewrite J. reflexivity.
  - rewrite (reviewed_run _ _ _ _ _ _ _ X), IH. reflexivity.
Qed.
Print Assumptions C61_unknown.

(** a worksheet with a table, another table and an alias *)
Definition int_columns (cols : list str) : dict column := map (fun c => (c, {| column_name := c; column_type := $"INT" |})) cols.
Definition sales : database :=
  {| db_name := $"db"; db_schemas := [($"s", 0%Z)];
     db_tables := [($"orders", {| t_name := $"orders"; t_schema := $"s"; t_pk := []; t_shard := None; t_cols := int_columns [$"id"; $"customer"];
                                  t_fks := [($"by", {| fk_name := $"by"; fk_from_table := $"orders"; fk_from_keys := [$"customer"]; fk_to_table := $"customers"; fk_to_keys := [$"nr"] |})]; t_rels := [] |});
                   ($"customers", {| t_name := $"customers"; t_schema := $"s"; t_pk := [$"nr"]; t_shard := None; t_cols := int_columns [$"nr"]; t_fks := []; t_rels := [] |})] |}.
Definition a_join (name source destination type : str) : ws_join :=
  {| wj_name := YStr name; wj_source := YStr source; wj_destination := YStr destination; wj_type := YStr type; wj_one_to_one := YBool false |}.
Definition sales_sheet : worksheet :=
  {| ws_name := YStr ($"w"); ws_description := YStr []; ws_properties := [];
     ws_tables := [{| wt_name := YStr ($"orders"); wt_type := YStr ($"table") |}; {| wt_name := YStr ($"customers"); wt_type := YStr ($"table") |}; {| wt_name := YStr ($"c2"); wt_type := YStr ($"alias") |}];
     ws_joins := [a_join ($"x") ($"orders") ($"c2") ($"INNER"); a_join ($"y") ($"orders") ($"customers") ($"INNER"); a_join ($"by") ($"orders") ($"customers") ($"INNER")];
     ws_paths := []; ws_formulas := []; ws_columns := [] |}.
Definition unmatched_orders : oracle := fun h _ => match h with [] => Ok [fun _ => Ok []] | _ => Ok [] end.
Lemma sales_kinds n : (n = $"orders" \/ n = $"customers" -> of_kind sales_sheet n ($"table")) /\ (n = $"c2" -> of_kind sales_sheet n ($"alias")).
Proof.
  split; [intros [->| ->]|intros ->]; (split; [discriminate|]).
  - exists []. eexists _, _. split; [reflexivity|]. split; [reflexivity|]. split; [reflexivity|]. intros x [].
  - eexists [_], _, _. split; [reflexivity|]. split; [reflexivity|]. split; [reflexivity|]. intros x [<-|[]]. discriminate.
  - eexists [_; _], _, _. split; [reflexivity|]. split; [reflexivity|]. split; [reflexivity|]. intros x [<-|[<-|[]]]; discriminate.
Qed.
Example C61_case : (forall h q, exists rows, unmatched_orders h q = Ok rows) /\ Forall (reviewable sales sales_sheet) (ws_joins sales_sheet)
  /\ fst (review_worksheet_joins unmatched_orders sales sales_sheet []) = Ok [$"Join by is type INNER, but should probably be LEFT_OUTER."]
  /\ length (snd (review_worksheet_joins unmatched_orders sales sales_sheet [])) = 2.
Proof.
  split; [intros [|x h] q; eexists; reflexivity|]. split; [|split; vm_compute; reflexivity].
  assert (R : forall j name destination, In destination [$"customers"; $"c2"] -> j = a_join name ($"orders") destination ($"INNER") -> reviewable sales sales_sheet j).
  { intros j name destination I ->. assert (V : forall n, YStr ($"orders") = YStr n \/ YStr destination = YStr n -> n = $"orders" \/ n = $"customers" \/ n = $"c2").
    { intros n [H|H]; assert (n = $"orders" \/ n = destination) as [->| ->] by (first [left; congruence|right; congruence]); auto; destruct I as [<-|[<-|[]]]; auto. }
    split.
    - eexists _, _, _, _. repeat split; reflexivity.
    - intros n H. destruct (V n H) as [E|[E|E]]; [exists ($"table"); apply (proj1 (sales_kinds n)); auto..|exists ($"alias"); apply (proj2 (sales_kinds n)); exact E].
    - intros n H K. destruct (V n H) as [->|[->| ->]]; try discriminate. assert (X : of_kind sales_sheet ($"c2") ($"alias")) by (apply (proj2 (sales_kinds _)); reflexivity). pose proof (kind_unique _ _ _ _ X K) as Y. discriminate.
    - intros n s nm fk H G _ F. cbn [a_join wj_source] in H. assert (n = $"orders") by congruence. subst n. vm_compute in G. assert (E : s = {| t_name := $"orders"; t_schema := $"s"; t_pk := []; t_shard := None; t_cols := int_columns [$"id"; $"customer"];
                                  t_fks := [($"by", {| fk_name := $"by"; fk_from_table := $"orders"; fk_from_keys := [$"customer"]; fk_to_table := $"customers"; fk_to_keys := [$"nr"] |})]; t_rels := [] |}) by (vm_compute; congruence).
      subst s. unfold get_foreign_key in F. cbn [t_fks dget] in F. destruct (str_eqb nm ($"by")); [|discriminate]. assert (E : fk = {| fk_name := $"by"; fk_from_table := $"orders"; fk_from_keys := [$"customer"]; fk_to_table := $"customers"; fk_to_keys := [$"nr"] |}) by congruence.
      subst fk. split; [discriminate|reflexivity]. }
  repeat apply Forall_cons; [| | |apply Forall_nil]; (eapply R; [|reflexivity]); cbn; auto.
Qed.

(** C62: the probes name the destination table with a column of the source, and the other way round: the
    clause fits only if the other table happens to have a column of that name. *)
Theorem C62_exact_partial : forall d s t source destination fk a b,
  get_table d source = Some s -> get_table d destination = Some t -> no_quote a -> no_quote b ->
  (forall n u, get_table d n = Some u -> no_quote n /\ Forall no_quote (get_column_names u)) ->
  (where_fits d (probe_text d s t source destination fk destination a) <-> In a (get_column_names t))
  /\ (where_fits d (probe_text d s t source destination fk source b) <-> In b (get_column_names s)).
Proof.
  assert (G : forall d s t source destination fk n u x, get_table d n = Some u -> no_quote x ->
    (forall n u, get_table d n = Some u -> no_quote n /\ Forall no_quote (get_column_names u)) ->
    where_fits d (probe_text d s t source destination fk n x) <-> In x (get_column_names u)).
  { intros d s t source destination fk n u x E X H. split.
    - intros [pre [t' [c [u' [Q [E' I]]]]]]. unfold probe_text in Q. rewrite !app_assoc in Q. rewrite <- !app_assoc in Q.
      destruct (H n u E) as [N _]. destruct (H t' u' E') as [N' C']. rewrite Forall_forall in C'.
      match type of Q with ?l = _ => assert (K : exists p, l = p ++ $" WHERE " ++ quoted n ++ $"." ++ quoted x ++ $" = NULL;") end.
      { eexists. rewrite !app_assoc. reflexivity. }
      destruct K as [p K]. rewrite K in Q. apply where_unique in Q; [|auto..]. destruct Q as [<- <-]. rewrite E in E'. assert (u = u') by congruence. subst u'. exact I.
    - intros I. unfold where_fits, probe_text. eexists _, n, x, u. split; [|split; [exact E|exact I]]. rewrite !app_assoc. reflexivity. }
  intros d s t source destination fk a b G1 G2 A B H. split; apply G; assumption.
Qed.
Print Assumptions C62_exact_partial.
(** Both probes of an ordinary foreign key name a column that the table does not have. *)
Theorem C62_refuted : exists ask d w q1 q2, (forall h q, exists rows, ask h q = Ok rows) /\ Forall (reviewable d w) (ws_joins w)
  /\ snd (review_worksheet_joins ask d w []) = [q1; q2] /\ ~ where_fits d q1 /\ ~ where_fits d q2.
Proof.
  exists unmatched_orders, sales, sales_sheet. destruct C61_case as [Q [R _]].
  destruct (get_table sales ($"orders")) as [s|] eqn:S; [|discriminate]. destruct (get_table sales ($"customers")) as [t|] eqn:T; [|discriminate].
  pose (fk := {| fk_name := $"by"; fk_from_table := $"orders"; fk_from_keys := [$"customer"]; fk_to_table := $"customers"; fk_to_keys := [$"nr"] |}).
  exists (probe_text sales s t ($"orders") ($"customers") fk ($"customers") ($"customer")), (probe_text sales s t ($"orders") ($"customers") fk ($"orders") ($"nr")).
  split; [exact Q|]. split; [exact R|]. assert (N : forall w, existsb (Ascii.eqb """") w = false -> no_quote w).
  { intros w H I. assert (X : existsb (Ascii.eqb """") w = true) by (apply existsb_exists; exists """"%char; split; [exact I|reflexivity]). congruence. }
  assert (Es : s = snd (hd ([], s) (db_tables sales))) by (vm_compute in S; vm_compute; congruence). assert (Et : t = snd (nth 1 (db_tables sales) ([], t))) by (vm_compute in T; vm_compute; congruence).
  split; [rewrite Es, Et; vm_compute; reflexivity|].
  destruct (C62_exact_partial sales s t ($"orders") ($"customers") fk ($"customer") ($"nr") S T) as [A B]; [apply N; reflexivity|apply N; reflexivity| |].
  { intros n u G. apply dget_in in G. destruct G as [G|[G|[]]]; apply pair_equal_spec in G; destruct G as [<- <-]; (split; [apply N; reflexivity|]); repeat (apply Forall_cons; [apply N; reflexivity|]); apply Forall_nil. }
  rewrite A, B, Es, Et. split; vm_compute; intuition discriminate.
Qed.
Print Assumptions C62_refuted.
