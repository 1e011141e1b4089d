(** * Properties C64 and C78: reading worksheets *)
From Verif Require Import SpecWorksheet ParseFacts.
From Coq Require Import Lia.

(** ** Lemmas *)
Lemma item_at v k x : at_key v k x -> item v k = Ok x.
Proof. intros [m [-> E]]. cbn [item]. rewrite E. reflexivity. Qed.
Lemma item_without v k : without v k -> item v k = Err KeyError.
Proof. intros [m [-> E]]. cbn [item]. rewrite E. reflexivity. Qed.
Lemma get_at v k x d : at_key v k x -> get_item v k d = Ok x.
Proof. intros [m [-> E]]. cbn [get_item]. rewrite E. reflexivity. Qed.
Lemma get_or v k d x : at_key_or v k d x -> get_item v k d = Ok x.
Proof. intros [H|[[m [-> E]] ->]]; [apply get_at, H|]. cbn [get_item]. rewrite E. reflexivity. Qed.
Lemma get_absent v k : absent v k -> exists x, get_item v k YNull = Ok x /\ truthy x = false.
Proof. intros [[m [-> E]]|[x [A T]]]; [exists YNull; cbn [get_item]; rewrite E; auto|exists x; rewrite (get_at _ _ _ _ A); auto]. Qed.
Lemma same_dict {A} (m : dict A) : NoDup (dkeys m) -> fold_left (fun d kv => dset (fst kv) (snd kv) d) m [] = m.
Proof.
  assert (G : forall (m acc : dict A), NoDup (dkeys (acc ++ m)) -> fold_left (fun d kv => dset (fst kv) (snd kv) d) m acc = acc ++ m).
  { clear. induction m as [|[k x] m IH]; intros acc N; cbn [fold_left fst snd]; [rewrite app_nil_r; reflexivity|]. rewrite dset_new.
    - rewrite IH; [rewrite <- app_assoc; reflexivity|]. rewrite <- app_assoc. exact N.
    - unfold dkeys in *. rewrite map_app in N. cbn [map fst] in N. apply NoDup_remove_2 in N. intros I. apply N, in_app_iff. left. exact I. }
  intros N. apply (G m []). exact N.
Qed.

Section Read.
Definition same_but (w w' : worksheet) (ts : list ws_table) (js : list ws_join) (ps : list ws_path) (fs : list ws_formula) (cs : list ws_column) : Prop :=
  w' = {| ws_name := ws_name w; ws_description := ws_description w; ws_properties := ws_properties w; ws_tables := ws_tables w ++ ts;
          ws_joins := ws_joins w ++ js; ws_paths := ws_paths w ++ ps; ws_formulas := ws_formulas w ++ fs; ws_columns := ws_columns w ++ cs |}.
Lemma table_read w v t : table_doc v t -> read_ws_table w v = Ok (ws_add_table w t).
Proof.
  intros [A [T [B [s [E I]]]]]. unfold read_ws_table. rewrite (item_at _ _ _ A). cbn [bind]. rewrite (get_or _ _ _ _ B). cbn [bind]. unfold mk_ws_table. rewrite T, E. cbn [negb].
  rewrite (proj2 (str_in_true s _) I). cbn [bind]. f_equal. f_equal. destruct t as [n ty]. cbn [wt_name wt_type] in *. subst ty. reflexivity.
Qed.
Lemma join_read w v j : join_doc v j -> read_ws_join w v = Ok (ws_add_join w j).
Proof.
  intros [A [B [C [D E]]]]. unfold read_ws_join. rewrite (item_at _ _ _ A), (item_at _ _ _ B), (item_at _ _ _ C), (item_at _ _ _ D), (item_at _ _ _ E). cbn [bind]. destruct j. reflexivity.
Qed.
Lemma steps_read steps joins : Forall2 step_doc steps joins -> forall acc, read_join_path acc steps = Ok (acc ++ concat joins).
Proof.
  induction 1 as [|v l steps joins S _ IH]; intros acc; cbn [read_join_path concat]; [rewrite app_nil_r; reflexivity|]. destruct S as [S|[S ->]].
  - rewrite (get_at _ _ _ _ S). cbn [bind truthy]. destruct l as [|x l]; [apply IH|]. cbn [elements bind]. rewrite IH, <- app_assoc. reflexivity.
  - destruct (get_absent _ _ S) as [x [E T]]. rewrite E. cbn [bind]. rewrite T. apply IH.
Qed.
Lemma path_read w v p : path_doc v p -> read_ws_path w v = Ok (ws_add_table_path w p).
Proof.
  intros [A [B [steps [joins [C [D E]]]]]]. unfold read_ws_path. rewrite (item_at _ _ _ C). cbn [bind elements]. rewrite (steps_read _ _ D []). cbn [bind app]. rewrite (item_at _ _ _ A), (item_at _ _ _ B). cbn [bind]. rewrite <- E. destruct p. reflexivity.
Qed.
Lemma formula_read w v f : formula_doc v f -> read_ws_formula w v = Ok (ws_add_formula w f).
Proof.
  intros [A [T [B [U C]]]]. unfold read_ws_formula. rewrite (item_at _ _ _ A), (item_at _ _ _ B). cbn [bind]. rewrite (get_or _ _ _ _ C). cbn [bind]. unfold mk_ws_formula. rewrite T, U. cbn [negb bind]. destruct f. reflexivity.
Qed.
Lemma column_read w v c : column_doc v c -> read_ws_column w v = Ok (ws_add_column w c).
Proof.
  intros [A [T [B [N C]]]]. unfold read_ws_column. rewrite (item_at _ _ _ B). cbn [bind]. rewrite (same_dict _ N). cbn [bind].
  assert (G : exists x, get_item v ($"column_id") YNull = Ok x /\ (if truthy x then Ok (x, false) else fid <- get_item v ($"formula_id") YNull ;; Ok (fid, truthy fid)) = Ok (wc_id c, wc_is_formula c)).
  { destruct C as [[C [U F]]|[[C [D [U F]]]|[C [D [U F]]]]].
    - exists (wc_id c). rewrite (get_at _ _ _ _ C), U, F. auto.
    - destruct (get_absent _ _ C) as [x [E V]]. exists x. split; [exact E|]. rewrite V, (get_at _ _ _ _ D). cbn [bind]. rewrite U, F. reflexivity.
    - destruct (get_absent _ _ C) as [x [E V]]. exists x. split; [exact E|]. rewrite V, (get_or _ _ _ _ D). cbn [bind]. rewrite U, F. reflexivity. }
  destruct G as [x [G1 G2]]. rewrite G1. cbn [bind]. rewrite G2. cbn [bind]. rewrite (item_at _ _ _ A). cbn [bind]. unfold mk_ws_column. rewrite T. cbn [negb bind]. destruct c. reflexivity.
Qed.
Lemma each_read {A} (f : worksheet -> yaml -> result worksheet) (add : worksheet -> A -> worksheet) (R : yaml -> A -> Prop) vs xs :
  (forall w v x, R v x -> f w v = Ok (add w x)) -> Forall2 R vs xs -> forall w, each f w vs = Ok (fold_left add xs w).
Proof. intros H. induction 1 as [|v x vs xs V _ IH]; intros w; [reflexivity|]. cbn [each fold_left]. rewrite (H w v x V). cbn [bind]. apply IH. Qed.
Lemma formulas_read vs xs : Forall2 formula_doc vs xs -> forall w, read_formulas w vs = Ok (fold_left ws_add_formula xs w).
Proof. induction 1 as [|v x vs xs V _ IH]; intros w; [reflexivity|]. cbn [read_formulas fold_left]. rewrite (formula_read w v x V). apply IH. Qed.
Lemma add_tables xs : forall w, same_but w (fold_left ws_add_table xs w) xs [] [] [] [].
Proof. induction xs as [|x xs IH]; intros w; cbn [fold_left]; unfold same_but in *; [rewrite !app_nil_r; destruct w; reflexivity|]. rewrite IH. cbn [ws_add_table ws_name ws_description ws_properties ws_tables ws_joins ws_paths ws_formulas ws_columns]. rewrite <- app_assoc. reflexivity. Qed.
Lemma add_joins xs : forall w, same_but w (fold_left ws_add_join xs w) [] xs [] [] [].
Proof. induction xs as [|x xs IH]; intros w; cbn [fold_left]; unfold same_but in *; [rewrite !app_nil_r; destruct w; reflexivity|]. rewrite IH. cbn [ws_add_join ws_name ws_description ws_properties ws_tables ws_joins ws_paths ws_formulas ws_columns]. rewrite <- app_assoc. reflexivity. Qed.
Lemma add_paths xs : forall w, same_but w (fold_left ws_add_table_path xs w) [] [] xs [] [].
Proof. induction xs as [|x xs IH]; intros w; cbn [fold_left]; unfold same_but in *; [rewrite !app_nil_r; destruct w; reflexivity|]. rewrite IH. cbn [ws_add_table_path ws_name ws_description ws_properties ws_tables ws_joins ws_paths ws_formulas ws_columns]. rewrite <- app_assoc. reflexivity. Qed.
Lemma add_formulas xs : forall w, same_but w (fold_left ws_add_formula xs w) [] [] [] xs [].
Proof. induction xs as [|x xs IH]; intros w; cbn [fold_left]; unfold same_but in *; [rewrite !app_nil_r; destruct w; reflexivity|]. rewrite IH. cbn [ws_add_formula ws_name ws_description ws_properties ws_tables ws_joins ws_paths ws_formulas ws_columns]. rewrite <- app_assoc. reflexivity. Qed.
Lemma add_columns xs : forall w, same_but w (fold_left ws_add_column xs w) [] [] [] [] xs.
Proof. induction xs as [|x xs IH]; intros w; cbn [fold_left]; unfold same_but in *; [rewrite !app_nil_r; destruct w; reflexivity|]. rewrite IH. cbn [ws_add_column ws_name ws_description ws_properties ws_tables ws_joins ws_paths ws_formulas ws_columns]. rewrite <- app_assoc. reflexivity. Qed.
End Read.

(** C64: reading the description of a worksheet gives that worksheet, with everything in order. *)
Theorem C64_reads : forall doc w, worksheet_doc doc w -> create_worksheet doc = Ok w.
Proof.
  intros doc w [v [ts [js [ps [fs [cs [V [N [T [D [P [A1 [A2 [B1 [B2 [C1 [C2 [F1 [F2 [E1 E2]]]]]]]]]]]]]]]]]]]].
  unfold create_worksheet. rewrite (item_at _ _ _ V). cbn [bind]. rewrite (item_at _ _ _ N). cbn [bind].
  assert (Dd : exists x, get_item v ($"description") YNull = Ok x /\ (if truthy x then x else YStr []) = ws_description w).
  { destruct D as [[D U]|[D U]]; [exists (ws_description w); rewrite (get_at _ _ _ _ D), U; auto|]. destruct (get_absent _ _ D) as [x [E X]]. exists x. rewrite X. auto. }
  destruct Dd as [x [Dx Dy]]. rewrite Dx. cbn [bind].
  assert (Pp : exists p, at_key v ($"properties") p /\ (if truthy p then match p with YMap m => Ok m | _ => Err TypeError end else Ok []) = Ok (ws_properties w)).
  { destruct P as [P|[p [P [U E]]]]; [exists (YMap (ws_properties w)); split; [exact P|]; destruct (ws_properties w); reflexivity|exists p; split; [exact P|]; rewrite U, E; reflexivity]. }
  destruct Pp as [p [Pa Pe]]. rewrite (item_at _ _ _ Pa). cbn [bind]. unfold mk_worksheet. rewrite T. cbn [negb]. rewrite Pe, Dy. cbn [bind].
  rewrite (item_at _ _ _ A1). cbn [bind elements]. rewrite (each_read _ ws_add_table table_doc _ _ table_read A2). cbn [bind].
  rewrite (item_at _ _ _ B1). cbn [bind elements]. rewrite (each_read _ ws_add_join join_doc _ _ join_read B2). cbn [bind].
  rewrite (item_at _ _ _ C1). cbn [bind elements]. rewrite (each_read _ ws_add_table_path path_doc _ _ path_read C2). cbn [bind].
  set (w0 := {| ws_name := ws_name w; ws_description := ws_description w; ws_properties := ws_properties w; ws_tables := []; ws_joins := []; ws_paths := []; ws_formulas := []; ws_columns := [] |}).
  set (w3 := fold_left ws_add_table_path (ws_paths w) _).
  assert (Ff : read_ws_formulas w3 v = Ok (fold_left ws_add_formula (ws_formulas w) w3)).
  { unfold read_ws_formulas. destruct F1 as [F1|[F1 ->]]; [rewrite (item_at _ _ _ F1); cbn [elements bind]; apply formulas_read, F2|]. rewrite (item_without _ _ F1). inversion F2; subst. reflexivity. }
  rewrite Ff. cbn [bind]. rewrite (item_at _ _ _ E1). cbn [bind elements]. rewrite (each_read _ ws_add_column column_doc _ _ column_read E2).
  unfold w3, w0. clear. destruct w as [n d p ts js ps fs cs]. cbn [ws_name ws_description ws_properties ws_tables ws_joins ws_paths ws_formulas ws_columns].
  rewrite (add_tables ts). cbn [ws_name ws_description ws_properties ws_tables ws_joins ws_paths ws_formulas ws_columns app].
  rewrite (add_joins js). cbn [ws_name ws_description ws_properties ws_tables ws_joins ws_paths ws_formulas ws_columns app]. rewrite ?app_nil_r.
  rewrite (add_paths ps). cbn [ws_name ws_description ws_properties ws_tables ws_joins ws_paths ws_formulas ws_columns app]. rewrite ?app_nil_r.
  rewrite (add_formulas fs). cbn [ws_name ws_description ws_properties ws_tables ws_joins ws_paths ws_formulas ws_columns app]. rewrite ?app_nil_r.
  rewrite (add_columns cs). cbn [ws_name ws_description ws_properties ws_tables ws_joins ws_paths ws_formulas ws_columns app]. rewrite ?app_nil_r. reflexivity.
Qed.
Print Assumptions C64_reads.

(** A formula without name or expression is dropped silently, and so are all formulas after it: a
    description with more formulas is read like one without them. *)
Theorem C64_formulas_refuted : forall w good bad rest read,
  Forall2 formula_doc good read -> (without bad ($"name") \/ (exists x, at_key bad ($"name") x) /\ without bad ($"expr")) ->
  read_formulas w (good ++ bad :: rest) = read_formulas w good.
Proof.
  intros w good bad rest read G B. revert w. induction G as [|v x vs xs V _ IH]; intros w; cbn [app read_formulas].
  - unfold read_ws_formula. destruct B as [B|[[n A] B]]; [rewrite (item_without _ _ B); reflexivity|]. rewrite (item_at _ _ _ A). cbn [bind]. rewrite (item_without _ _ B). reflexivity.
  - rewrite (formula_read w v x V). apply IH.
Qed.
Print Assumptions C64_formulas_refuted.

(** ** Column ids *)
Lemma split_first s a b : first_cut ($"::") s a b -> exists rest, split_text ($"::") s = a :: rest /\ (~ occurs ($"::") b -> rest = [b])
  /\ forall a' b', first_cut ($"::") b a' b' -> exists more, rest = a' :: more.
Proof.
  assert (F : forall s a b, first_cut ($"::") s a b -> find_opt ($"::") s = Some (length a)).
  { intros t a' b' [E M]. destruct (find_opt ($"::") t) as [n|] eqn:K.
    - apply find_opt_some in K. destruct K as [L [E' M']]. f_equal. pose proof (M _ _ E') as X. pose proof (M' _ _ E) as Y. rewrite firstn_length_le in * by exact L. lia.
    - apply find_opt_none in K. exfalso. apply K. exists a', b'. exact E. }
  assert (St : forall fuel t a' b', first_cut ($"::") t a' b' -> split_fuel (S fuel) ($"::") t = a' :: split_fuel fuel ($"::") b').
  { intros fuel t a' b' C. cbn [split_fuel]. rewrite (F _ _ _ C). destruct C as [E _]. rewrite E. rewrite firstn_app, Nat.sub_diag, firstn_all. cbn [firstn]. rewrite app_nil_r. f_equal. f_equal.
    rewrite app_assoc. rewrite <- app_length, skipn_app, skipn_all, Nat.sub_diag. reflexivity. }
  intros C. unfold split_text. destruct C as [E M]. assert (L : length s = S (S (length a + length b))) by (rewrite E, !app_length; cbn [length list_ascii_of_string]; lia).
  rewrite L. rewrite (St _ s a b (conj E M)). eexists. split; [reflexivity|]. split.
  - intros O. apply find_opt_none in O. cbn [split_fuel]. rewrite O. reflexivity.
  - intros a' b' C'. rewrite (St _ b a' b' C'). eexists. reflexivity.
Qed.

(** A column id is cut at the first [::].  If there is another one after it, the source ends there. *)
Theorem C64_column_id : forall c id path source, wc_is_formula c = false -> wc_id c = YStr id -> first_cut ($"::") id path source ->
  get_path c = Ok (Some path)
  /\ (~ occurs ($"::") source -> get_source c = Ok (Some source))
  /\ (forall a b, first_cut ($"::") source a b -> get_source c = Ok (Some a)).
Proof.
  intros c id path source F I C. destruct (split_first _ _ _ C) as [rest [S [O M]]]. unfold get_path, get_source, id_part. rewrite F, I, S. cbn [nth_error]. split; [reflexivity|]. split.
  - intros N. rewrite (O N). reflexivity.
  - intros a b K. destruct (M a b K) as [more ->]. reflexivity.
Qed.
Print Assumptions C64_column_id.
(** Without [::] there is no source; formulas have neither. *)
Theorem C64_no_colons : forall c id, wc_id c = YStr id ->
  (wc_is_formula c = true -> get_path c = Ok None /\ get_source c = Ok None)
  /\ (wc_is_formula c = false -> ~ occurs ($"::") id -> get_path c = Ok (Some id) /\ get_source c = Err IndexError).
Proof.
  intros c id I. unfold get_path, get_source, id_part. split; intros F; rewrite F; [auto|]. intros O. rewrite I. apply find_opt_none in O. unfold split_text. destruct (length id); cbn [split_fuel]; [|rewrite O]; auto.
Qed.
Print Assumptions C64_no_colons.

(** a worksheet with two tables, a join, a path, a formula and columns *)
Definition m (l : list (str * yaml)) : yaml := YMap l.
Definition t (s : str) : yaml := YStr s.
Definition sheet_doc : yaml := m [($"worksheet", m
  [($"name", t ($"Sales")); ($"properties", m [($"is_bypass_rls", YBool false)]);
   ($"tables", YList [m [($"name", t ($"orders"))]; m [($"name", t ($"customers")); ($"type", t ($"alias"))]]);
   ($"joins", YList [m [($"name", t ($"by")); ($"source", t ($"orders")); ($"destination", t ($"customers")); ($"type", t ($"INNER")); ($"is_one_to_one", YBool false)]]);
   ($"table_paths", YList [m [($"id", t ($"orders_1")); ($"table", t ($"orders")); ($"join_path", YList [m []])];
                           m [($"id", t ($"customers_1")); ($"table", t ($"customers")); ($"join_path", YList [m [($"join", YList [t ($"by")])]])]]);
   ($"formulas", YList [m [($"name", t ($"profit")); ($"expr", t ($"sales - cost"))]]);
   ($"worksheet_columns", YList [m [($"name", t ($"Order")); ($"column_id", t ($"orders_1::id")); ($"properties", m [($"column_type", t ($"ATTRIBUTE"))])];
                                 m [($"name", t ($"Profit")); ($"formula_id", t ($"profit")); ($"properties", m [])]])])].
Definition sheet : worksheet :=
  {| ws_name := t ($"Sales"); ws_description := YStr []; ws_properties := [($"is_bypass_rls", YBool false)];
     ws_tables := [{| wt_name := t ($"orders"); wt_type := t ($"table") |}; {| wt_name := t ($"customers"); wt_type := t ($"alias") |}];
     ws_joins := [{| wj_name := t ($"by"); wj_source := t ($"orders"); wj_destination := t ($"customers"); wj_type := t ($"INNER"); wj_one_to_one := YBool false |}];
     ws_paths := [{| wp_id := t ($"orders_1"); wp_table := t ($"orders"); wp_joins := [] |}; {| wp_id := t ($"customers_1"); wp_table := t ($"customers"); wp_joins := [t ($"by")] |}];
     ws_formulas := [{| wf_name := t ($"profit"); wf_expression := t ($"sales - cost"); wf_id := YNull |}];
     ws_columns := [{| wc_name := t ($"Order"); wc_id := t ($"orders_1::id"); wc_properties := [($"column_type", t ($"ATTRIBUTE"))]; wc_is_formula := false |};
                    {| wc_name := t ($"Profit"); wc_id := t ($"profit"); wc_properties := []; wc_is_formula := true |}] |}.
Example C64_case : worksheet_doc sheet_doc sheet /\ create_worksheet sheet_doc = Ok sheet /\ first_cut ($"::") ($"orders_1::id") ($"orders_1") ($"id").
Proof.
  assert (W : worksheet_doc sheet_doc sheet).
  { unfold worksheet_doc. eexists _, _, _, _, _, _.
    split; [eexists; split; reflexivity|]. split; [eexists; split; reflexivity|]. split; [reflexivity|].
    split; [right; split; [left; eexists; split; reflexivity|reflexivity]|]. split; [left; eexists; split; reflexivity|].
    split; [eexists; split; reflexivity|]. split.
    { apply Forall2_cons; [|apply Forall2_cons; [|apply Forall2_nil]]; (split; [eexists; split; reflexivity|]); (split; [reflexivity|]); (split; [first [left; eexists; split; reflexivity|right; split; [eexists; split; reflexivity|reflexivity]]|]); eexists; (split; [reflexivity|cbn; auto]). }
    split; [eexists; split; reflexivity|]. split.
    { apply Forall2_cons; [|apply Forall2_nil]. repeat split; eexists; split; reflexivity. }
    split; [eexists; split; reflexivity|]. split.
    { apply Forall2_cons; [|apply Forall2_cons; [|apply Forall2_nil]]; (split; [eexists; split; reflexivity|]); (split; [eexists; split; reflexivity|]).
      - exists [m []], [[]]. split; [eexists; split; reflexivity|]. split; [|reflexivity]. apply Forall2_cons; [|apply Forall2_nil]. right. split; [left; eexists; split; reflexivity|reflexivity].
      - exists [m [($"join", YList [t ($"by")])]], [[t ($"by")]]. split; [eexists; split; reflexivity|]. split; [|reflexivity]. apply Forall2_cons; [|apply Forall2_nil]. left. eexists; split; reflexivity. }
    split; [left; eexists; split; reflexivity|]. split.
    { apply Forall2_cons; [|apply Forall2_nil]. split; [eexists; split; reflexivity|]. split; [reflexivity|]. split; [eexists; split; reflexivity|]. split; [reflexivity|]. right. split; [eexists; split; reflexivity|reflexivity]. }
    split; [eexists; split; reflexivity|].
    apply Forall2_cons; [|apply Forall2_cons; [|apply Forall2_nil]]; (split; [eexists; split; reflexivity|]); (split; [reflexivity|]); (split; [eexists; split; reflexivity|]).
    - split; [constructor; [intros []|constructor]|]. left. split; [eexists; split; reflexivity|]. split; reflexivity.
    - split; [constructor|]. right. left. split; [left; eexists; split; reflexivity|]. split; [eexists; split; reflexivity|]. split; reflexivity. }
  split; [exact W|]. split; [apply C64_reads, W|].
  assert (E : find_opt ($"::") ($"orders_1::id") = Some 8) by reflexivity. apply find_opt_some in E. destruct E as [_ E]. exact E.
Qed.

(** C78: read_from_file hands over the text of the file with a blank put before every line but the first:
    for a file of several lines that is another text. *)
Lemma lines_of ls last : Forall (fun l => ~ In newline l) ls -> ~ In newline last ->
  file_lines (text_of_lines ls last) = map (fun l => l ++ [newline]) ls ++ match last with [] => [] | _ => [last] end.
Proof.
  intros F L. unfold text_of_lines. induction F as [|l ls Fl _ IH]; cbn [map concat app].
  - induction last as [|c s IH]; [reflexivity|]. cbn [file_lines]. destruct (Ascii.eqb_spec c newline) as [E|_]; [exfalso; apply L; left; exact E|]. rewrite IH by (intros I; apply L; right; exact I). destruct s; reflexivity.
  - rewrite <- app_assoc. revert IH. generalize (concat (map (fun l => l ++ [newline]) ls) ++ last). intros r IH. rewrite <- IH. clear IH. induction l as [|c l IH].
    + cbn [app file_lines]. change (Ascii.eqb newline newline) with true. reflexivity.
    + cbn [app file_lines]. destruct (Ascii.eqb_spec c newline) as [E|_]; [exfalso; apply Fl; left; exact E|]. cbn [app] in IH. rewrite IH by (intros I; apply Fl; right; exact I). reflexivity.
Qed.
Lemma no_cr s : ~ In (chr 13) s -> universal_newlines s = s.
Proof. induction s as [|c s IH]; intros H; [reflexivity|]. cbn [universal_newlines]. destruct (Ascii.eqb_spec c (chr 13)) as [E|_]; [exfalso; apply H; left; exact E|]. f_equal. apply IH. intros I. apply H. right. exact I. Qed.
Theorem C78_refuted : forall safe_load l ls last, Forall (fun l => ~ In newline l) (l :: ls) -> ~ In newline last ->
  ~ In (chr 13) (text_of_lines (l :: ls) last) -> (ls <> [] \/ last <> []) ->
  let content := text_of_lines (l :: ls) last in
  let handed := l ++ [newline] ++ concat (map (fun x => $" " ++ x ++ [newline]) ls) ++ match last with [] => [] | _ => $" " ++ last end in
  read_worksheet safe_load content = (doc <- safe_load handed ;; create_worksheet doc) /\ length content < length handed.
Proof.
  intros safe_load l ls last F L R N content handed.
  assert (H : worksheet_text content = handed).
  { unfold worksheet_text, content, handed. rewrite no_cr by exact R. rewrite lines_of by assumption. rewrite (app_assoc l). cbn [map]. generalize (l ++ [newline]). intros x. rewrite <- app_comm_cons. clear.
    assert (J : forall (x : str) xs, join ($" ") (x :: xs) = x ++ concat (map (fun y => $" " ++ y) xs)).
    { clear. intros x xs. revert x. induction xs as [|y xs IH]; intros x; [cbn; rewrite app_nil_r; reflexivity|]. cbn [join map concat]. cbn [join] in IH. rewrite IH. rewrite <- !app_assoc. reflexivity. }
    rewrite J. f_equal. rewrite map_app, concat_app, map_map. f_equal. destruct last; [reflexivity|]. cbn [map concat]. rewrite app_nil_r. reflexivity. }
  split; [unfold read_worksheet; rewrite H; reflexivity|].
  unfold content, handed, text_of_lines. cbn [map concat]. repeat rewrite app_length. cbn [length].
  assert (C : length (concat (map (fun x => $" " ++ x ++ [newline]) ls)) = length (concat (map (fun x => x ++ [newline]) ls)) + length ls).
  { clear. induction ls as [|x ls IH]; [reflexivity|]. cbn [map concat length]. rewrite !app_length, IH. cbn [length list_ascii_of_string]. lia. }
  rewrite C. destruct last as [|c s]; [destruct N as [N|N]; [|contradiction]; destruct ls; [contradiction|]; cbn [length]; lia|]. rewrite app_length. cbn [length list_ascii_of_string]. lia.
Qed.
Print Assumptions C78_refuted.
Example C78_case : worksheet_text (text_of_lines [$"guid: 1"; $"worksheet:"; $"  name: x"] []) = text_of_lines [$"guid: 1"; $" worksheet:"; $"   name: x"] [].
Proof. vm_compute. reflexivity. Qed.
