(** * Facts about the command line tools *)
From Verif Require Import GenFacts ScriptFacts ParsedFacts ExcelReuse.
From Verif Require ExcelTalkFacts.
From Verif Require Export SpecCli RenumFacts.

Lemma given_iff o : given o = true <-> is_given o.
Proof. unfold is_given. destruct o as [[|c s]|]; cbn [given text]; split; intros E; try discriminate; try (destruct (E eq_refl)); reflexivity. Qed.
Lemma given_false o : given o = false <-> ~ is_given o.
Proof. rewrite <- given_iff. destruct (given o); intuition congruence. Qed.
Lemma given_text o : is_given o -> py_text o = text o /\ o = Some (text o).
Proof. unfold is_given. destruct o as [s|]; cbn; intros E; [split; reflexivity|destruct (E eq_refl)]. Qed.
Lemma given_yes {A} o (l : list A) : given o = true -> if_given o l = l.
Proof. unfold if_given. destruct o as [[|c s]|]; cbn; intros E; congruence. Qed.
Lemma given_no {A} o (l : list A) : given o = false -> if_given o l = [] /\ text o = [].
Proof. unfold if_given. destruct o as [[|c s]|]; cbn; intros E; split; congruence. Qed.

Lemma exists_iff st n : exists_ st n = true <-> file_exists st n.
Proof. unfold exists_, file_exists. destruct (files st n); split; intros E; try discriminate; [reflexivity|destruct (E eq_refl)]. Qed.
Lemma exists_false st n : exists_ st n = false <-> ~ file_exists st n.
Proof. rewrite <- exists_iff. destruct (exists_ st n); intuition congruence. Qed.

(** ** Effects *)
Definition upd (f : str -> option content) (n : str) (c : option content) : str -> option content :=
  fun m => if str_eqb m n then c else f m.
Record effect (fs : str -> option content) (os : list output) (es : list str) (cs : list command) (st st' : state) : Prop := {
  ef_files : forall m, files st' m = fs m; ef_out : prints os st st'; ef_err : err st' = err st ++ map line es; ef_sent : sent st' = sent st ++ cs }.
Lemma rendered_app f g a b : rendered f g (a ++ b) = rendered f g a ++ rendered f g b.
Proof. apply flat_map_app. Qed.
Lemma prints_trans a b st st1 st2 : prints a st st1 -> prints b st1 st2 -> prints (a ++ b) st st2.
Proof.
  intros [x [E X]] [y [F Y]]. exists (x ++ y). rewrite F, E, app_assoc. split; [reflexivity|]. intros f g. rewrite !rendered_app, X, Y. reflexivity.
Qed.
Lemma prints_nil st st' : out st' = out st -> prints [] st st'.
Proof. intros E. exists []. rewrite E, app_nil_r. split; reflexivity. Qed.
Lemma effect_trans fs os es cs fs' os' es' cs' st st1 st2 :
  effect fs os es cs st st1 -> effect fs' os' es' cs' st1 st2 -> effect fs' (os ++ os') (es ++ es') (cs ++ cs') st st2.
Proof.
  intros [A1 A2 A3 A4] [B1 B2 B3 B4]. split; [exact B1|exact (prints_trans _ _ _ _ _ A2 B2)|rewrite B3, A3, map_app, app_assoc; reflexivity|rewrite B4, A4, app_assoc; reflexivity].
Qed.
Lemma effect_files fs fs' os es cs st st' : (forall m, fs m = fs' m) -> effect fs os es cs st st' -> effect fs' os es cs st st'.
Proof. intros E [A B C D]. split; [intros m; rewrite A; apply E|assumption|assumption|assumption]. Qed.
Lemma effect_refl st : effect (files st) [] [] [] st st.
Proof. split; [reflexivity|apply prints_nil; reflexivity|cbn; rewrite app_nil_r; reflexivity|rewrite app_nil_r; reflexivity]. Qed.
Lemma effect_emit o st : effect (files st) [o] [] [] st (emit o st).
Proof. split; [reflexivity|exists [o]; split; reflexivity|cbn; rewrite app_nil_r; reflexivity|cbn; rewrite app_nil_r; reflexivity]. Qed.

(** [does m st fs os es cs a]: [m] returns [a] with these effects *)
Definition does {A} (m : cli A) (st : state) (fs : str -> option content) (os : list output) (es : list str) (cs : list command) (a : A) : Prop :=
  exists st', m st = (st', Ok a) /\ effect fs os es cs st st'.
Lemma does_then {A B} (m : cli A) (f : A -> cli B) st fs os es cs a fs' os' es' cs' b :
  does m st fs os es cs a -> (forall st1, effect fs os es cs st st1 -> does (f a) st1 fs' os' es' cs' b) ->
  does (then_ m f) st fs' (os ++ os') (es ++ es') (cs ++ cs') b.
Proof.
  intros [st1 [E X]] K. destruct (K st1 X) as [st2 [F Y]]. exists st2. split; [unfold then_; rewrite E; exact F|exact (effect_trans _ _ _ _ _ _ _ _ _ _ _ X Y)].
Qed.
Lemma does_done {A} (a : A) st : does (done a) st (files st) [] [] [] a.
Proof. exists st. split; [reflexivity|apply effect_refl]. Qed.
Lemma does_print s st : does (print s) st (files st) [says s] [] [] tt.
Proof. eexists. split; [reflexivity|apply effect_emit]. Qed.
Lemma does_emit o st : does (fun st => (emit o st, Ok tt)) st (files st) [o] [] [] tt.
Proof. eexists. split; [reflexivity|apply effect_emit]. Qed.
Lemma does_eprint s st : does (eprint s) st (files st) [] [s] [] tt.
Proof. eexists. split; [reflexivity|]. split; [reflexivity|apply prints_nil; reflexivity|reflexivity|cbn; rewrite app_nil_r; reflexivity]. Qed.
Lemma does_files {A} (m : cli A) st fs fs' os es cs a : (forall n, fs n = fs' n) -> does m st fs os es cs a -> does m st fs' os es cs a.
Proof. intros E [st' [F X]]. exists st'. split; [exact F|exact (effect_files _ _ _ _ _ _ _ E X)]. Qed.
Lemma does_lift {A} (r : result A) a st : r = Ok a -> does (lift r) st (files st) [] [] [] a.
Proof. intros ->. apply does_done. Qed.
Lemma does_each_eprint {A} (f : A -> str) : forall (l : list A) st, does (each (fun x => eprint (f x)) l) st (files st) [] (map f l) [] tt.
Proof.
  induction l as [|x l IH]; intros st; [apply does_done|]. cbn [each map].
  change (@nil output) with (@nil output ++ []). change (f x :: map f l) with ([f x] ++ map f l). change (@nil command) with (@nil command ++ []).
  eapply does_then; [apply does_eprint|]. intros st1 X. apply (does_files _ _ (files st1)); [apply (ef_files _ _ _ _ _ _ X)|apply IH].
Qed.
Lemma does_when b (m : cli unit) st fs os es cs : (b = true -> does m st fs os es cs tt) -> (b = false -> (forall n, files st n = fs n) /\ os = [] /\ es = [] /\ cs = []) ->
  does (when b m) st fs os es cs tt.
Proof. destruct b; intros T F; [exact (T eq_refl)|]. destruct (F eq_refl) as [E [-> [-> ->]]]. cbn [when]. apply (does_files _ _ (files st)); [exact E|apply does_done]. Qed.
Lemma does_remove n st : does (remove n) st (upd (files st) n None) [] [] [] tt.
Proof. eexists. split; [reflexivity|]. split; [reflexivity|apply prints_nil; reflexivity|cbn; rewrite app_nil_r; reflexivity|cbn; rewrite app_nil_r; reflexivity]. Qed.
Lemma does_run H c r st : h_run H (sent st) c = Ok r -> does (run_tql_command H c) st (files st) [] [] [c] r.
Proof. intros E. eexists. split; [unfold run_tql_command; rewrite E; reflexivity|]. split; [reflexivity|apply prints_nil; reflexivity|cbn; rewrite app_nil_r; reflexivity|reflexivity]. Qed.

(** ** Writing a text *)
Lemma concat_ok : forall texts s, concat_results texts = Ok s -> exists l, texts = map Ok l /\ s = List.concat l.
Proof.
  induction texts as [|[x|e] texts IH]; intros s E; cbn [concat_results bind] in E; [|destruct (concat_results texts) as [y|] eqn:Y; [|discriminate]|discriminate].
  - exists []. injection E as <-. split; reflexivity.
  - destruct (IH _ eq_refl) as [l [-> ->]]. exists (x :: l). cbn [bind] in E. injection E as <-. split; reflexivity.
Qed.
Lemma ran_all E h tr l written r : (forall tr h s, write_fails E tr h s = false) -> ran E h tr (map Ok l) written r -> written = l /\ r = Ok tt.
Proof.
  intros N [rest [A B]]. revert l A. assert (R : forall l, map Ok l = map Ok written ++ rest -> rest = [] \/ exists s rest', rest = Ok s :: rest').
  { induction written as [|x wr IH]; intros l A; destruct l as [|y l]; cbn [map app] in A; [left; congruence|right; eexists _, _; symmetry; exact A|discriminate|].
    injection A as _ A. destruct rest as [|[s|e] rest]; [left; reflexivity|right; eauto|]. exfalso.
    assert (In (Err e) (map (@Ok str) l)) by (rewrite A; apply in_or_app; right; left; reflexivity). apply in_map_iff in H. destruct H as [z [Z _]]. discriminate. }
  intros l A. destruct (R l A) as [->|[s [rest' ->]]]; [|destruct B as [_ B]; rewrite N in B; discriminate].
  split; [|exact B]. rewrite app_nil_r in A. revert l A R. clear. induction written as [|x wr IH]; intros [|y l] A _; cbn [map] in A; try discriminate; [reflexivity|].
  injection A as -> A. f_equal. apply IH; [exact A|]. intros l' E. destruct (map Ok l') eqn:?; left; rewrite app_nil_r in E; [|]; reflexivity || idtac.
Qed.
Lemma happen_stdout : forall l st, effect (files st) [Printed (List.concat l)] [] [] st (fold_left happen (map (Write Stdout) l) st).
Proof.
  induction l as [|x l IH]; intros st; cbn [map fold_left].
  - split; [reflexivity|exists []; split; [cbn; rewrite app_nil_r; reflexivity|reflexivity]|cbn; rewrite app_nil_r; reflexivity|cbn; rewrite app_nil_r; reflexivity].
  - pose proof (effect_trans _ _ _ _ _ _ _ _ _ _ _ (effect_emit (Printed x) st) (IH (emit (Printed x) st))) as [A B C D].
    split; [exact A| |exact C|exact D]. destruct B as [ad [E F]]. exists ad. split; [exact E|]. intros f g. rewrite F. unfold rendered. cbn [flat_map app List.concat]. rewrite !app_nil_r. reflexivity.
Qed.
Lemma happen_file n : forall l st x, files st n = Some (Text x) ->
  effect (upd (files st) n (Some (Text (x ++ List.concat l)))) [] [] [] st (fold_left happen (map (Write (File n)) l) st).
Proof.
  induction l as [|y l IH]; intros st x F; cbn [map fold_left].
  - apply (effect_files (files st)); [|apply effect_refl]. intros m. unfold upd. destruct (str_eqb_spec m n) as [->|]; [|reflexivity]. cbn [List.concat]. rewrite app_nil_r. exact F.
  - assert (G : files (happen st (Write (File n) y)) n = Some (Text (x ++ y))) by (cbn [happen]; unfold set_file, with_files; cbn [files]; rewrite str_eqb_refl, F; reflexivity).
    assert (S : effect (files (happen st (Write (File n) y))) [] [] [] st (happen st (Write (File n) y))).
    { split; [reflexivity|apply prints_nil; reflexivity|cbn; rewrite app_nil_r; reflexivity|cbn; rewrite app_nil_r; reflexivity]. }
    pose proof (effect_trans _ _ _ _ _ _ _ _ _ _ _ S (IH _ _ G)) as T. apply (effect_files _ (upd (files st) n (Some (Text (x ++ List.concat (y :: l)))))) in T; [exact T|].
    intros m. unfold upd. destruct (str_eqb m n) eqn:Q; [cbn [List.concat]; rewrite app_assoc; reflexivity|]. cbn [happen]. unfold set_file, with_files. cbn [files]. rewrite Q. reflexivity.
Qed.
Lemma does_write H n texts s st : no_failures H -> n <> [] -> concat_results texts = Ok s ->
  does (perform (smart_open (h_env H) (Some n) (fun h => write_all (h_env H) h texts))) st
    (if str_eqb n ($"-") then files st else upd (files st) n (Some (Text s))) (if_true (str_eqb n ($"-")) [Printed s]) [] [] tt.
Proof.
  intros [NO NW] N C. destruct (concat_ok _ _ C) as [l [-> ->]]. destruct (smart_open_writes (h_env H) (Some n) (map Ok l) []) as [A B]. unfold does, perform.
  destruct (str_eqb_spec n ($"-")) as [->|N2].
  - destruct (A (or_intror (or_intror eq_refl))) as [wr [r [E R]]]. apply (ran_all _ _ _ _ _ _ NW) in R. destruct R as [-> ->]. rewrite E. cbn [app].
    eexists. split; [reflexivity|apply happen_stdout].
  - destruct (B n eq_refl) as [_ B2]; [intros [Q|[Q|Q]]; congruence|]. destruct (B2 (NO n)) as [wr [r [E R]]]. apply (ran_all _ _ _ _ _ _ NW) in R. destruct R as [-> ->]. rewrite E.
    eexists. split; [reflexivity|]. cbn [app if_true fold_left]. rewrite fold_left_app. cbn [fold_left]. change (happen ?x (Close _)) with x.
    assert (S : effect (files (happen st (Open n))) [] [] [] st (happen st (Open n))).
    { split; [reflexivity|apply prints_nil; reflexivity|cbn; rewrite app_nil_r; reflexivity|cbn; rewrite app_nil_r; reflexivity]. }
    assert (G : files (happen st (Open n)) n = Some (Text [])) by (cbn [happen]; unfold set_file, with_files; cbn [files]; rewrite str_eqb_refl; reflexivity).
    pose proof (effect_trans _ _ _ _ _ _ _ _ _ _ _ S (happen_file n l _ _ G)) as T. revert T. apply effect_files. intros m. unfold upd. destruct (str_eqb m n) eqn:Q; [reflexivity|].
    cbn [happen]. unfold set_file, with_files. cbn [files]. rewrite Q. reflexivity.
Qed.

(** ** Models that differ in the numbers of shard keys only *)
Lemma fold_result_ext {A B S} (f : S -> A -> result S) (g : S -> B -> result S) (h : A -> B) : (forall s x, g s (h x) = f s x) ->
  forall l s, fold_result g (map h l) s = fold_result f l s.
Proof. intros E. induction l as [|x l IH]; intros s; cbn [map fold_result]; [reflexivity|]. rewrite E. destruct (f s x); cbn [bind]; [apply IH|reflexivity]. Qed.
Lemma fold_result_ext' {A S} (f g : S -> A -> result S) : (forall s x, g s x = f s x) -> forall l s, fold_result g l s = fold_result f l s.
Proof. intros E l s. rewrite <- (fold_result_ext f g (fun x => x) E), map_id. reflexivity. Qed.
Lemma fold_left_ext' {A S} (f g : S -> A -> S) : (forall s x, g s x = f s x) -> forall l s, fold_left g l s = fold_left f l s.
Proof. intros E. induction l as [|x l IH]; intros s; cbn [fold_left]; [reflexivity|]. rewrite E. apply IH. Qed.
Lemma validate_renum k d : validate (renum k d) = validate d.
Proof.
  unfold validate. rewrite renum_iter. apply fold_result_ext. intros r t. unfold validate_table.
  assert (A : forall r, validate_shard_keys (renum k d) (renum_t k t) r = validate_shard_keys d t r).
  { intros r0. unfold validate_shard_keys. cbn [renum_t with_shard t_shard]. destruct (t_shard t); reflexivity. }
  assert (B : forall r, validate_foreign_keys (renum k d) (renum_t k t) r = validate_foreign_keys d t r).
  { intros r0. unfold validate_foreign_keys. apply fold_result_ext'. intros s fk. unfold validate_fk. rewrite renum_get. destruct (get_table d (fk_to_table fk)); reflexivity. }
  assert (C : forall r, validate_relationships (renum k d) (renum_t k t) r = validate_relationships d t r).
  { intros r0. unfold validate_relationships. apply fold_left_ext'. intros s rel. rewrite renum_get. destruct (get_table d (rel_to_table rel)); reflexivity. }
  change (validate_column_types (renum k d) (renum_t k t) r) with (validate_column_types d t r).
  match goal with |- context [validate_primary_key (renum k d) (renum_t k t) ?x] => change (validate_primary_key (renum k d) (renum_t k t) x) with (validate_primary_key d t x) end.
  rewrite A, B. destruct (validate_foreign_keys d t _); cbn [bind]; [rewrite C; reflexivity|reflexivity].
Qed.

(** ** The verdict of a validation *)
Definition honest (r : validation_result) : Prop := is_valid r = true <-> issues r = [].
Lemma honest_issue d t r s l : honest (add_validation_issue d t r s l).
Proof. unfold honest, add_validation_issue, add_issue. cbn. split; [discriminate|]. destruct (issues r); discriminate. Qed.
Lemma honest_if (b : bool) x y : honest x -> honest y -> honest (if b then x else y).
Proof. destruct b; auto. Qed.
Lemma honest_fold {A} (f : validation_result -> A -> validation_result) : (forall r x, honest r -> honest (f r x)) -> forall l r, honest r -> honest (fold_left f l r).
Proof. intros E. induction l as [|x l IH]; intros r G; cbn [fold_left]; [exact G|]. apply IH, E, G. Qed.
Lemma honest_result {A} (f : validation_result -> A -> result validation_result) : (forall r x r', honest r -> f r x = Ok r' -> honest r') ->
  forall l r r', honest r -> fold_result f l r = Ok r' -> honest r'.
Proof.
  intros E. induction l as [|x l IH]; intros r r' G F; cbn [fold_result] in F; [injection F as <-; exact G|].
  destruct (f r x) as [r1|] eqn:Q; [|discriminate]. exact (IH _ _ (E _ _ _ G Q) F).
Qed.
Lemma validate_honest d r : validate d = Ok r -> honest r.
Proof.
  apply honest_result; [|split; reflexivity]. clear r. intros r t r' G E. unfold validate_table in E. destruct (validate_foreign_keys d t _) as [r1|] eqn:F; [|discriminate].
  cbn [bind] in E. injection E as <-. unfold validate_relationships. apply honest_fold.
  { intros r2 rel G2. destruct (get_table d (rel_to_table rel)); [apply honest_if; [apply honest_issue|exact G2]|apply honest_issue]. }
  revert F. apply honest_result.
  { intros r2 fk r3 G2 E. unfold validate_fk in E. destruct (get_table d (fk_to_table fk)) as [tt|]; [|injection E as <-; apply honest_issue]. revert E. apply honest_result.
    - intros r4 i r5 G4 E. unfold validate_fk_position in E. destruct (nth_error (fk_from_keys fk) i) as [x|]; [|discriminate]. destruct (nth_error (fk_to_keys fk) i) as [y|]; [|discriminate].
      destruct (get_column t x) as [fc|], (get_column tt y) as [tc|]; injection E as <-; try apply honest_issue.
      unfold validate_pair_types. repeat (apply honest_if || apply honest_issue || assumption).
    - repeat (apply honest_if || apply honest_issue || assumption). }
  unfold validate_shard_keys. assert (P : honest (validate_primary_key d t (validate_column_types d t r))).
  { unfold validate_primary_key. apply honest_fold; [intros r2 pk G2; destruct (get_column t pk); [exact G2|apply honest_issue]|].
    unfold validate_column_types. apply honest_fold; [|exact G]. intros r2 c G2. apply honest_if; [apply honest_issue|exact G2]. }
  destruct (t_shard t) as [sk|]; [|exact P]. apply honest_fold; [|exact P]. intros r2 x G2. apply honest_if; [apply honest_issue|]. destruct (get_column t x); [exact G2|apply honest_issue].
Qed.

(** ** Steps of the tools *)
Lemma seq os2 es2 cs2 {A B} (m : cli A) (f : A -> cli B) st fs os1 es1 cs1 a fs' os es cs b : does m st fs os1 es1 cs1 a ->
  os = os1 ++ os2 -> es = es1 ++ es2 -> cs = cs1 ++ cs2 -> (forall st1, (forall n, files st1 n = fs n) -> sent st1 = sent st ++ cs1 -> does (f a) st1 fs' os2 es2 cs2 b) -> does (then_ m f) st fs' os es cs b.
Proof. intros D -> -> -> K. eapply does_then; [exact D|]. intros st1 X. apply K; [exact (ef_files _ _ _ _ _ _ X)|exact (ef_sent _ _ _ _ _ _ X)]. Qed.
Lemma does_validate d r st : validate d = Ok r ->
  does (validate_step (Some d)) st (files st) (says ($"Validating database") :: map says (fst (report r))) (snd (report r)) [] tt.
Proof.
  intros V. unfold validate_step. apply (seq (map says (fst (report r))) (snd (report r)) [] _ _ _ _ _ _ _ _ _ _ _ _ _ (does_print _ _)); [reflexivity..|]. intros st1 F1 _.
  apply (seq (map says (fst (report r))) (snd (report r)) [] _ _ _ _ _ _ _ _ _ _ _ _ _ (does_lift _ _ _ V)); [reflexivity..|]. intros st2 F2 _.
  apply (does_files _ _ (files st2)); [intros n; rewrite F2; apply F1|]. pose proof (validate_honest _ _ V) as G. unfold report. destruct (is_valid r) eqn:Q.
  - rewrite (proj1 G Q). cbn [fst snd map]. apply does_print.
  - destruct (issues r) as [|i l] eqn:I; [destruct G as [_ G]; rewrite (G I) in Q; discriminate|].
    exact (does_each_eprint (fun i => level_text (snd i) ++ $":  " ++ fst i) (i :: l) st2).
Qed.

Lemma each_eprint_is {A} (g : A -> str) : forall l st, Cli.each (fun m => eprint (g m)) l st
  = ({| files := files st; out := out st; err := err st ++ map line (map g l); sent := sent st; objects := objects st |}, Ok tt).
Proof.
  induction l as [|x l IH]; intros st; cbn [Cli.each map]; [rewrite app_nil_r; destruct st; reflexivity|]. unfold then_, eprint. rewrite IH. cbn [files out err sent objects].
  rewrite <- app_assoc. reflexivity.
Qed.
Lemma parse_file_is H name schema n t st : files st n = Some (Text t) ->
  parse_file H (Some name) schema n st = ({| files := files st; out := out st; err := err st ++ map line (complaints H name schema t); sent := sent st; objects := objects st + length (get_statements t) |},
    map_ok (fun d => Some (renum (objects st) d)) (parse_text name schema t)).
Proof.
  intros F. unfold parse_file, exists_. rewrite F. unfold mk_database, lift, then_, read_text. rewrite F. fold (empty_database name).
  rewrite heard_from, each_eprint_is. unfold count_objects, done. cbn [files out err sent objects]. destruct (parse_text name schema t); reflexivity.
Qed.
Lemma does_parse H name schema n t d st : files st n = Some (Text t) -> parse_text name schema t = Ok d ->
  exists k, does (parse_file H (Some name) schema n) st (files st) [] (complaints H name schema t) [] (Some (renum k d)).
Proof.
  intros F P. exists (objects st). unfold does, parse_file, exists_. rewrite F. unfold mk_database, lift, then_, read_text. rewrite F. fold (empty_database name).
  rewrite heard_from, P. destruct (does_each_eprint (Messages.message_text (h_reason H)) (snd (Messages.heard_text name schema t)) st) as [st1 [E X]]. rewrite E.
  cbn [map_ok]. unfold count_objects, done. eexists. split; [reflexivity|]. destruct X as [X1 X2 X3 X4]. split; cbn [files err sent]; assumption.
Qed.
(** the reader's messages are printed first, also when it raises *)
Lemma read_book_is H message n w st : files st n = Some (Book w) ->
  read_book H message n st
  = let '(r, ms) := ExcelTalk.heard_xls (objects st) [] w in
    ({| files := files st; out := out st; err := err st ++ map line (map message ms); sent := sent st;
        objects := objects st + match r with Ok _ => length (List.concat (dvals w)) | Err _ => 0 end |}, r).
Proof.
  intros F. unfold read_book. rewrite F. unfold then_ at 1. cbn [lift]. destruct (ExcelTalk.heard_xls (objects st) [] w) as [r ms]. unfold then_ at 1. rewrite each_eprint_is.
  unfold then_, lift. cbn [files out err sent objects]. destruct r; [reflexivity|]. rewrite Nat.add_0_r. reflexivity.
Qed.
Lemma does_excel H message a w d rest ms st : is_given (from_excel a) -> files st (text (from_excel a)) = Some (Book w) -> read_xls (objects st) [] w = Ok (d :: rest, ms) ->
  does (read_excel H message a) st (files st) [] (map message ms ++ match rest with [] => [] | _ => [$"WARNING:  multiple databases read.  Only using " ++ db_name (snd d)] end) [] (Some (snd d)).
Proof.
  intros G F R. unfold read_excel. destruct (given_text _ G) as [-> _].
  assert (D : does (read_book H message (text (from_excel a))) st (files st) [] (map message ms) [] (d :: rest)).
  { unfold does, read_book. rewrite F. unfold then_ at 1. cbn [lift]. apply ExcelTalkFacts.heard_ok in R. rewrite R.
    destruct (does_each_eprint message ms st) as [st1 [E X]]. unfold then_. rewrite E. eexists. split; [reflexivity|]. destruct X as [X1 X2 X3 X4]. split; cbn [files err sent]; try assumption. }
  eapply (seq [] _ []); [exact D|reflexivity|reflexivity|reflexivity|]. intros st1 F1 _. cbn [dvals map].
  destruct rest as [|x rest]; cbn [map].
  - apply (seq [] [] [] _ _ _ _ _ _ _ _ _ _ _ _ _ (does_done tt st1)); [reflexivity..|]. intros st2 F2 _. apply (does_files _ _ (files st2)); [intros n; rewrite F2; apply F1|apply does_done].
  - apply (seq [] [] [] _ _ _ _ _ _ _ _ _ _ _ _ _ (does_eprint _ st1)); [reflexivity..|]. intros st2 F2 _. apply (does_files _ _ (files st2)); [intros n; rewrite F2; apply F1|apply does_done].
Qed.
Lemma app_neq_nil (a b : str) : b <> [] -> a ++ b <> [].
Proof. intros N E. apply app_eq_nil in E. tauto. Qed.
Lemma temp_name (n : str) : n ++ $".tmp" <> [] /\ str_eqb (n ++ $".tmp") ($"-") = false.
Proof.
  split; [apply app_neq_nil; discriminate|]. destruct (str_eqb_spec (n ++ $".tmp") ($"-")) as [E|]; [|reflexivity]. apply (f_equal (@length _)) in E. rewrite app_length in E.
  change (length ($".tmp")) with 4 in E. change (length ($"-")) with 1 in E. lia.
Qed.
Lemma concat_lines : forall lines, concat_results (map (fun l => Ok (l ++ [newline])) lines) = Ok (flat_map line lines).
Proof. induction lines as [|x l IH]; [reflexivity|]. cbn [map concat_results bind flat_map]. rewrite IH. reflexivity. Qed.
Lemma does_cluster H address user pass name lines d st : no_failures H -> h_run H (sent st) (script_command address user pass name) = Ok lines ->
  parse_text name ($"falcon_default_schema") (flat_map line lines) = Ok d ->
  exists k, does (read_from_cluster H address user pass (Some name)) st (upd (files st) (name ++ $".tmp") None) [] (complaints H name ($"falcon_default_schema") (flat_map line lines)) [script_command address user pass name] (Some (renum k d)).
Proof.
  intros NF R P. unfold read_from_cluster. cbn [py_text]. fold (script_command address user pass name). destruct (temp_name name) as [N1 N2].
  destruct (does_run H _ _ st R) as [st1 [E1 X1]].
  destruct (does_write H (name ++ $".tmp") _ _ st1 NF N1 (concat_lines lines)) as [st2 [E2 X2]]. rewrite N2 in X2. cbn [if_true] in X2.
  assert (F2 : files st2 (name ++ $".tmp") = Some (Text (flat_map line lines))) by (rewrite (ef_files _ _ _ _ _ _ X2); unfold upd; rewrite str_eqb_refl; reflexivity).
  destruct (does_parse H name ($"falcon_default_schema") _ _ d st2 F2 P) as [k [st3 [E3 X3]]]. exists k.
  destruct (does_remove (name ++ $".tmp") st3) as [st4 [E4 X4]]. exists st4. split.
  - unfold then_. rewrite E1. rewrite E2. change DEFAULT_SCHEMA with ($"falcon_default_schema"). rewrite E3, E4. reflexivity.
  - pose proof (effect_trans _ _ _ _ _ _ _ _ _ _ _ X1 (effect_trans _ _ _ _ _ _ _ _ _ _ _ X2 (effect_trans _ _ _ _ _ _ _ _ _ _ _ X3 X4))) as T. cbn [app] in T. rewrite app_nil_r in T. revert T. apply effect_files.
    intros m. unfold upd. destruct (str_eqb m (name ++ $".tmp")) eqn:Q; [reflexivity|]. rewrite (ef_files _ _ _ _ _ _ X3), (ef_files _ _ _ _ _ _ X2). unfold upd. rewrite Q. apply (ef_files _ _ _ _ _ _ X1).
Qed.
Lemma does_write_excel H a d w f st : no_failures H -> is_given (to_excel a) -> write_database (h_fresh H) new_writer d (text (to_excel a)) = Ok (w, f) ->
  does (write_excel H a (Some d)) st (upd (files st) f (Some (Book (saved (h_calc H) w)))) [] [] [] tt.
Proof.
  intros [NO _] G E. unfold write_excel. destruct (given_text _ G) as [-> _]. apply (seq [] [] [] _ _ _ _ _ _ _ _ _ _ _ _ _ (does_lift _ _ _ E)); [reflexivity..|]. intros st1 F1 _.
  rewrite NO. eexists. split; [reflexivity|]. split; [|apply prints_nil; reflexivity|cbn; rewrite app_nil_r; reflexivity|cbn; rewrite app_nil_r; reflexivity].
  intros m. cbn [files set_file with_files]. unfold upd. destruct (str_eqb m f); [reflexivity|apply F1].
Qed.
Lemma does_to_ts H a d script response st : no_failures H -> is_given (to_ts a) -> tql_script (case_of a) (create_db a) d = Ok script ->
  h_run H (sent st) {| c_host := text (to_ts a); c_user := username a; c_password := password a; c_text := universal_newlines script |} = Ok response ->
  does (write_to_ts H a (Some d)) st (upd (files st) (db_name d ++ $".tmp") None) [Response response] []
    [{| c_host := text (to_ts a); c_user := username a; c_password := password a; c_text := universal_newlines script |}] tt.
Proof.
  intros NF G E R. unfold write_to_ts. destruct (given_text _ G) as [-> _]. destruct (temp_name (db_name d)) as [N1 N2].
  pose proof (does_write H (db_name d ++ $".tmp") _ _ st NF N1 E) as D1. rewrite N2 in D1. cbn [if_true] in D1.
  apply (seq [Response response] [] [{| c_host := text (to_ts a); c_user := username a; c_password := password a; c_text := universal_newlines script |}] _ _ _ _ _ _ _ _ _ _ _ _ _ D1); [reflexivity..|].
  intros st1 F1 S1. rewrite app_nil_r in S1.
  assert (D2 : does (read_text H (db_name d ++ $".tmp")) st1 (files st1) [] [] [] script).
  { unfold does, read_text. rewrite F1. unfold upd. rewrite str_eqb_refl. exists st1. split; [reflexivity|apply effect_refl]. }
  apply (seq [Response response] [] [{| c_host := text (to_ts a); c_user := username a; c_password := password a; c_text := universal_newlines script |}] _ _ _ _ _ _ _ _ _ _ _ _ _ D2); [reflexivity..|].
  intros st2 F2 S2. rewrite app_nil_r in S2. rewrite <- S1, <- S2 in R.
  apply (seq [Response response] [] [] _ _ _ _ _ _ _ _ _ _ _ _ _ (does_run _ _ _ _ R)); [reflexivity..|]. intros st3 F3 S3.
  apply (seq [Response response] [] [] _ _ _ _ _ _ _ _ _ _ _ _ _ (does_remove _ _)); [reflexivity..|]. intros st4 F4 S4.
  apply (does_files _ _ (files st4)); [|apply does_emit]. intros n. rewrite F4. unfold upd. destruct (str_eqb n (db_name d ++ $".tmp")) eqn:Q; [reflexivity|].
  rewrite F3, F2, F1. unfold upd. rewrite Q. reflexivity.
Qed.

(** reading: a model with the same script, workbook and verdict *)
Definition alike (d dd : database) : Prop :=
  db_name dd = db_name d /\ (forall o b, tql_script o b dd = tql_script o b d) /\ validate dd = validate d
  /\ (forall fresh w f, write_database fresh w dd f = write_database fresh w d f).
Lemma alike_refl d : alike d d.
Proof. repeat split. Qed.
Lemma alike_renum k d : alike d (renum k d).
Proof. split; [reflexivity|]. split; [intros; apply script_renum|]. split; [apply validate_renum|intros; apply write_database_renum]. Qed.

Definition read_step (H : host) (message : xls_message -> str) (a : convert_args) : cli (option database) :=
  if given (from_ddl a) then _ <-- print ($"Reading DDL ...") ;; read_ddl H a
  else if given (from_excel a) then _ <-- print ($"Reading Excel ...") ;; read_excel H message a
  else if given (from_ts a) then
    _ <-- print ($"Reading DDL from ThoughtSpot") ;; read_from_cluster H (py_text (from_ts a)) (username a) (password a) (db_option a)
  else lift (d <- mk_database (db_option a) ;; Ok (Some d)).
Definition read_out (a : convert_args) : list output :=
  if_given (from_ddl a) [says ($"Reading DDL ...")]
    ++ (match text (from_ddl a) with [] => if_given (from_excel a) [says ($"Reading Excel ...")] | _ => [] end)
    ++ (match text (from_ddl a) ++ text (from_excel a) with [] => if_given (from_ts a) [says ($"Reading DDL from ThoughtSpot")] | _ => [] end).
Definition is_from_cluster (a : convert_args) : bool := negb (given (from_ddl a)) && negb (given (from_excel a)) && given (from_ts a).
Lemma from_cluster_iff a : is_from_cluster a = true <-> from_cluster a.
Proof. unfold is_from_cluster, from_cluster. rewrite !andb_true_iff, !negb_true_iff, !given_false, given_iff. tauto. Qed.
Lemma given_cons o : given o = true -> exists c s, text o = c :: s.
Proof. destruct o as [[|c s]|]; cbn; intros E; try discriminate. eauto. Qed.
Lemma does_read H message a st d ms : no_failures H -> convert_accepts a -> reads H message a st d ms -> exists dd, alike d dd
  /\ (is_from_cluster a = true -> text (db_option a) = db_name d)
  /\ does (read_step H message a) st (if is_from_cluster a then upd (files st) (db_name d ++ $".tmp") None else files st) (read_out a) ms (asked a) (Some dd).
Proof.
  intros NF [_ CA] R. unfold read_step, read_out, asked, is_from_cluster. destruct R as [t d G F P|w d rest ms N G F R|lines d [G [N1 N2]] R P|n N1 N2 N3 E].
  - pose proof (proj2 (given_iff _) G) as B. destruct (given_cons _ B) as [c [s T]]. rewrite (given_yes _ _ B), B, T. cbn [negb andb app].
    destruct (given_text _ G) as [PT _]. destruct (given_text _ (CA (or_introl G))) as [_ DT].
    assert (L : exists k, does (_ <-- print ($"Reading DDL ...") ;; read_ddl H a) st (files st) [says ($"Reading DDL ...")] (complaints H (text (db_option a)) (schema_option a) t) [] (Some (renum k d))).
    { destruct (does_print ($"Reading DDL ...") st) as [st1 [E1 X1]]. rewrite <- (ef_files _ _ _ _ _ _ X1) in F.
      destruct (does_parse H _ _ _ _ _ _ F P) as [k [st2 [E2 X2]]]. exists k, st2. split.
      - unfold then_. rewrite E1. unfold read_ddl. rewrite PT, DT. exact E2.
      - apply (effect_files _ (files st)) in X2; [|apply (ef_files _ _ _ _ _ _ X1)]. exact (effect_trans _ _ _ _ _ _ _ _ _ _ _ X1 X2). }
    destruct L as [k L]. exists (renum k d). split; [apply alike_renum|]. split; [discriminate|exact L].
  - pose proof (proj2 (given_iff _) G) as B. destruct (given_cons _ B) as [c [s T]]. apply given_false in N. destruct (given_no (A := output) _ [] N) as [_ T0].
    rewrite N, B, T, T0, (given_yes _ _ B), (proj1 (given_no _ _ N)). cbn [negb andb app].
    exists (snd d). split; [apply alike_refl|]. split; [discriminate|]. destruct (does_print ($"Reading Excel ...") st) as [st1 [E1 X1]].
    assert (O : objects st1 = objects st) by (injection E1 as <-; reflexivity).
    rewrite <- (ef_files _ _ _ _ _ _ X1) in F. rewrite <- O in R. destruct (does_excel H message a _ _ _ _ _ G F R) as [st2 [E2 X2]].
    exists st2. split; [unfold then_; rewrite E1; exact E2|]. apply (effect_files _ (files st)) in X2; [|apply (ef_files _ _ _ _ _ _ X1)]. exact (effect_trans _ _ _ _ _ _ _ _ _ _ _ X1 X2).
  - pose proof (proj2 (given_iff _) G) as B. destruct (given_text _ G) as [PT _]. destruct (given_text _ (CA (or_intror G))) as [_ DT].
    apply given_false in N1. apply given_false in N2. rewrite N1, N2, B, (proj1 (given_no _ _ N1)), (proj2 (given_no (A := output) _ [] N1)), (proj2 (given_no (A := output) _ [] N2)), (proj1 (given_no _ _ N2)), !(given_yes _ _ B).
    cbn [negb andb app]. assert (DN : db_name d = text (db_option a)) by (apply c44 in P; apply P).
    destruct (does_print ($"Reading DDL from ThoughtSpot") st) as [st1 [E1 X1]]. assert (S : sent st1 = sent st) by (injection E1 as <-; reflexivity). rewrite <- S in R.
    destruct (does_cluster H _ _ _ _ _ d st1 NF R P) as [k [st2 [E2 X2]]]. exists (renum k d). split; [apply alike_renum|]. split; [symmetry; exact DN|]. exists st2. split.
    + unfold then_. rewrite E1, PT. rewrite DT at 1. exact E2.
    + apply (effect_files _ (upd (files st) (db_name d ++ $".tmp") None)) in X2; [exact (effect_trans _ _ _ _ _ _ _ _ _ _ _ X1 X2)|]. intros m. unfold upd. rewrite DN. destruct (str_eqb m _); [reflexivity|apply (ef_files _ _ _ _ _ _ X1)].
  - apply given_false in N1. apply given_false in N2. apply given_false in N3.
    rewrite N1, N2, N3, (proj1 (given_no _ _ N1)), (proj2 (given_no (A := output) _ [] N1)), (proj2 (given_no (A := output) _ [] N2)), (proj1 (given_no _ _ N2)), !(proj1 (given_no _ _ N3)). cbn [negb andb app].
    exists (empty_database n). split; [apply alike_refl|]. split; [discriminate|]. rewrite E. apply does_lift. reflexivity.
Qed.
Definition write_files (a : convert_args) (name script : str) (excel : str) (book : workbook cell) (fs : str -> option content) : str -> option content :=
  let fs1 := if given (to_tql a) then if str_eqb (text (to_tql a)) ($"-") then fs else upd fs (text (to_tql a)) (Some (Text script)) else fs in
  let fs2 := if given (to_excel a) then upd fs1 excel (Some (Book book)) else fs1 in
  if given (to_ts a) then upd fs2 (name ++ $".tmp") None else fs2.
Lemma upd_ext fs fs' n c m : (forall x, fs x = fs' x) -> upd fs n c m = upd fs' n c m.
Proof. intros E. unfold upd. destruct (str_eqb m n); [reflexivity|apply E]. Qed.
Lemma convert_nothing a : (negb (empty a) && negb (version a) && negb (given (from_ddl a)) && negb (given (from_excel a)) && negb (given (to_excel a)) && negb (given (from_ts a))) = true
  <-> ~ convert_something a.
Proof. unfold convert_something. rewrite <- !given_iff. destruct (empty a), (version a), (given (from_ddl a)), (given (from_excel a)), (given (to_excel a)), (given (from_ts a)); cbn; intuition congruence. Qed.
Lemma convert_unnamed a : ((given (from_ddl a) || given (from_ts a)) && negb (given (db_option a))) = true <-> ~ (is_given (from_ddl a) \/ is_given (from_ts a) -> is_given (db_option a)).
Proof. rewrite <- !given_iff. destruct (given (from_ddl a)), (given (from_ts a)), (given (db_option a)); cbn; intuition congruence. Qed.
Lemma convert_valid a st : convert_accepts a -> convert_valid_args a st = (st, Ok true).
Proof.
  intros [S N]. unfold convert_valid_args. destruct (_ && negb (given (from_ts a))) eqn:B; [destruct (proj1 (convert_nothing a) B S)|].
  destruct (_ && negb (given (db_option a))) eqn:C; [destruct (proj1 (convert_unnamed a) C N)|reflexivity].
Qed.
Lemma does_convert H message a st d dd ms script book excel r response fs :
  no_failures H -> convert_accepts a -> version a = false ->
  alike d dd -> does (read_step H message a) (emit (Namespace (convert_namespace a)) st) fs (read_out a) ms (asked a) (Some dd) ->
  (validate_option a = true -> validate d = Ok r) ->
  (is_given (to_tql a) \/ is_given (to_ts a) -> tql_script (case_of a) (create_db a) d = Ok script) ->
  (is_given (to_excel a) -> exists w, write_database (h_fresh H) new_writer d (text (to_excel a)) = Ok (w, excel) /\ book = saved (h_calc H) w) ->
  (forall c, In c (to_send a script) -> h_run H (sent st ++ asked a) c = Ok response) ->
  does (convert H message a) st (write_files a (db_name d) script excel book fs)
    (Namespace (convert_namespace a) :: read_out a ++ if_true (validate_option a) (says ($"Validating database") :: map says (fst (report r)))
    ++ if_given (to_tql a) (says ($"Writing TQL ...") :: if_true (str_eqb (text (to_tql a)) ($"-")) [Printed script])
    ++ if_given (to_excel a) [says ($"Writing Excel ...")]
    ++ if_given (to_ts a) [says ($"Writing to ThoughtSpot ..."); Response response])
    (ms ++ if_true (validate_option a) (snd (report r))) (asked a ++ to_send a script) tt.
Proof.
  intros NF CA NV [AN [AS [AV AW]]] RD V S X R.
  set (o1 := if_true (validate_option a) _). set (o2 := if_given (to_tql a) _). set (o3 := if_given (to_excel a) _). set (o4 := if_given (to_ts a) _).
  set (e1 := if_true (validate_option a) _).
  assert (Q : convert H message a st = (_ <-- (fun st => (emit (Namespace (convert_namespace a)) st, Ok tt)) ;; fun st0 => snd (convert H message a st, (database <-- read_step H message a ;;
      _ <-- when (validate_option a) (validate_step database) ;;
      _ <-- when (given (to_tql a)) (_ <-- print ($"Writing TQL ...") ;; write_tql_of H (case_of a) (create_db a) database (to_tql a)) ;;
      _ <-- when (given (to_excel a)) (_ <-- print ($"Writing Excel ...") ;; write_excel H a database) ;;
      when (given (to_ts a)) (_ <-- print ($"Writing to ThoughtSpot ...") ;; write_to_ts H a database)) st0)) st).
  { unfold convert, then_ at 1. rewrite (convert_valid a st CA). cbn [negb]. unfold then_ at 1. rewrite NV. reflexivity. }
  unfold then_ at 1 in Q. cbn [snd] in Q.
  assert (K : does (database <-- read_step H message a ;;
      _ <-- when (validate_option a) (validate_step database) ;;
      _ <-- when (given (to_tql a)) (_ <-- print ($"Writing TQL ...") ;; write_tql_of H (case_of a) (create_db a) database (to_tql a)) ;;
      _ <-- when (given (to_excel a)) (_ <-- print ($"Writing Excel ...") ;; write_excel H a database) ;;
      when (given (to_ts a)) (_ <-- print ($"Writing to ThoughtSpot ...") ;; write_to_ts H a database)) (emit (Namespace (convert_namespace a)) st)
      (write_files a (db_name d) script excel book fs) (read_out a ++ o1 ++ o2 ++ o3 ++ o4) (ms ++ e1) (asked a ++ to_send a script) tt).
  { clear Q. apply (seq (o1 ++ o2 ++ o3 ++ o4) e1 (to_send a script) _ _ _ _ _ _ _ _ _ _ _ _ _ RD); [reflexivity..|]. intros st1 F1 S1.
    assert (D1 : does (when (validate_option a) (validate_step (Some dd))) st1 fs o1 e1 [] tt).
    { apply does_when; intros B; unfold o1, e1; rewrite B; cbn [if_true].
      - apply (does_files _ _ (files st1)); [exact F1|]. apply does_validate. rewrite AV. apply V, B.
      - repeat split. exact F1. }
    apply (seq (o2 ++ o3 ++ o4) [] (to_send a script) _ _ _ _ _ _ _ _ _ _ _ _ _ D1); [reflexivity|rewrite app_nil_r; reflexivity|reflexivity|]. intros st2 F2 S2.
    set (fs2 := if given (to_tql a) then if str_eqb (text (to_tql a)) ($"-") then fs else upd fs (text (to_tql a)) (Some (Text script)) else fs).
    assert (D2 : does (when (given (to_tql a)) (_ <-- print ($"Writing TQL ...") ;; write_tql_of H (case_of a) (create_db a) (Some dd) (to_tql a))) st2 fs2 o2 [] [] tt).
    { apply does_when; intros B; unfold o2, fs2; rewrite B; [rewrite (given_yes _ _ B)|rewrite (proj1 (given_no _ _ B)); repeat split; exact F2].
      pose proof (proj1 (given_iff _) B) as G. destruct (given_text _ G) as [_ T].
      apply (seq (if_true (str_eqb (text (to_tql a)) ($"-")) [Printed script]) [] [] _ _ _ _ _ _ _ _ _ _ _ _ _ (does_print _ _)); [reflexivity..|]. intros st3 F3 _.
      unfold write_tql_of. rewrite T at 1. unfold write_tql.
      eapply does_files; [|apply (does_write H _ _ script _ NF G)].
      - cbn beta. intros n. destruct (str_eqb (text (to_tql a)) ($"-")); [rewrite F3; apply F2|]. apply upd_ext. intros x. rewrite F3. apply F2.
      - change (tql_script (case_of a) (create_db a) dd = Ok script). rewrite AS. apply S. left. exact G. }
    apply (seq (o3 ++ o4) [] (to_send a script) _ _ _ _ _ _ _ _ _ _ _ _ _ D2); [reflexivity..|]. intros st3 F3 S3.
    set (fs3 := if given (to_excel a) then upd fs2 excel (Some (Book book)) else fs2).
    assert (D3 : does (when (given (to_excel a)) (_ <-- print ($"Writing Excel ...") ;; write_excel H a (Some dd))) st3 fs3 o3 [] [] tt).
    { apply does_when; intros B; unfold o3, fs3; rewrite B; [rewrite (given_yes _ _ B)|rewrite (proj1 (given_no _ _ B)); repeat split; exact F3].
      pose proof (proj1 (given_iff _) B) as G. destruct (X G) as [w [E ->]]. rewrite <- AW in E.
      apply (seq [] [] [] _ _ _ _ _ _ _ _ _ _ _ _ _ (does_print _ _)); [reflexivity..|]. intros st4 F4 _.
      eapply does_files; [|apply (does_write_excel H a dd _ _ _ NF G E)]. intros n. apply upd_ext. intros x. rewrite F4. apply F3. }
    apply (seq o4 [] (to_send a script) _ _ _ _ _ _ _ _ _ _ _ _ _ D3); [reflexivity..|]. intros st4 F4 S4.
    change (write_files a (db_name d) script excel book fs) with (if given (to_ts a) then upd fs3 (db_name d ++ $".tmp") None else fs3).
    apply does_when; intros B; unfold o4, to_send; rewrite B; [rewrite !(given_yes _ _ B)|rewrite !(proj1 (given_no _ _ B)); repeat split; exact F4].
    pose proof (proj1 (given_iff _) B) as G.
    apply (seq [Response response] [] [{| c_host := text (to_ts a); c_user := username a; c_password := password a; c_text := universal_newlines script |}] _ _ _ _ _ _ _ _ _ _ _ _ _ (does_print _ _)); [reflexivity..|]. intros st5 F5 S5.
    rewrite <- AN. eapply does_files; [|apply (does_to_ts H a dd script response _ NF G)].
    - intros n. cbn beta. apply upd_ext. intros x. rewrite F5. apply F4.
    - rewrite AS. apply S. right. exact G.
    - rewrite S5, S4, S3, S2, S1, !app_nil_r. apply R. unfold to_send. rewrite (given_yes _ _ B). left. reflexivity. }
  destruct K as [st' [K1 K2]]. exists st'. split; [rewrite Q; exact K1|].
  exact (effect_trans _ _ _ _ _ _ _ _ _ _ _ (effect_emit (Namespace (convert_namespace a)) st) K2).
Qed.
Lemma reads_emit H message a st d ms o : reads H message a st d ms -> reads H message a (emit o st) d ms.
Proof.
  intros [t d0 G F P|w d0 rest ms0 N G F R|lines d0 C R P|n N1 N2 N3 E].
  - exact (reads_ddl H message a (emit o st) t d0 G F P).
  - exact (reads_excel H message a (emit o st) w d0 rest ms0 N G F R).
  - exact (reads_cluster H message a (emit o st) lines d0 C R P).
  - exact (reads_nothing H message a (emit o st) n N1 N2 N3 E).
Qed.
Lemma database_file_name fresh w d f w' f' : write_database fresh w d f = Ok (w', f') -> f' = xls_filename f.
Proof.
  intros E. unfold write_database in E. destruct (write_columns_worksheet w d) as [w1|]; [|discriminate]. cbn [bind] in E. destruct (add_sheet _ _ _ w1) as [w2|]; [|discriminate]. cbn [bind] in E.
  destruct (add_sheet _ _ _ w2) as [w3|]; [|discriminate]. cbn [bind] in E. destruct (add_sheet _ _ _ w3) as [w4|]; [|discriminate]. cbn [bind] in E.
  apply (f_equal (fun r => match r with Ok p => snd p | Err _ => [] end)) in E. cbn [snd] in E. symmetry. exact E.
Qed.
Lemma excel_file_iff a n : excel_file a n <-> is_given (to_excel a) /\ n = xls_filename (text (to_excel a)).
Proof.
  unfold excel_file, xls_filename. destruct (ends_with ($".xlsx") (text (to_excel a))) eqn:Q.
  - apply ends_with_spec in Q. split; [intros [G [[_ E]|[N _]]]; [split; assumption|contradiction]|intros [G E]; split; [exact G|left; split; assumption]].
  - assert (N : ~ exists stem, text (to_excel a) = stem ++ $".xlsx") by (intros X; apply ends_with_spec in X; congruence).
    split; [intros [G [[X _]|[_ E]]]; [contradiction|split; assumption]|intros [G E]; split; [exact G|right; split; assumption]].
Qed.
Lemma xls_not_temp f n : xls_filename f <> n ++ $".tmp".
Proof.
  intros E. assert (X : exists s, xls_filename f = s ++ $".xlsx").
  { unfold xls_filename. destruct (ends_with ($".xlsx") f) eqn:Q; [apply ends_with_spec in Q; exact Q|exists f; reflexivity]. }
  destruct X as [s X]. rewrite X in E. apply (f_equal (fun l => hd "0"%char (rev l))) in E. rewrite !rev_app_distr in E. discriminate.
Qed.
