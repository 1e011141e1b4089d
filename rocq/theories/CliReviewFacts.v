(** * Facts about review_model *)
From Verif Require Import StrFacts RenumFacts SpecCliReview CliFacts.

(** ** The reviews do not look at the numbers of shard keys *)
Lemma get_relationships_renum order k d : get_relationships order (renum k d) = get_relationships order d.
Proof.
  unfold get_relationships, renum, dvals. cbn [db_tables]. rewrite !map_map. generalize (@nil (str * list str)).
  induction (db_tables d) as [|x l IH]; intros m; [reflexivity|]. cbn [map fold_left]. apply IH.
Qed.
Lemma direct_renum k d : direct_relationships (renum k d) = direct_relationships d.
Proof.
  unfold direct_relationships. rewrite renum_iter. generalize (@nil (str * list str)).
  induction (db_iter d) as [|x l IH]; intros m; [reflexivity|]. cbn [map fold_left]. apply IH.
Qed.
Lemma pks_renum k d : review_pks (renum k d) = review_pks d.
Proof. unfold review_pks. rewrite renum_iter. induction (db_iter d) as [|x l IH]; [reflexivity|]. cbn [map flat_map]. rewrite IH. reflexivity. Qed.
Lemma fk_parts_renum k d t fk : get_fk_join_parts (renum k d) (renum_t k t) fk = get_fk_join_parts d t fk.
Proof. unfold get_fk_join_parts. rewrite renum_get. destruct (get_table d (fk_to_table fk)); reflexivity. Qed.
Lemma rel_parts_renum k d t r : get_rel_join_parts (renum k d) (renum_t k t) r = get_rel_join_parts d t r.
Proof. unfold get_rel_join_parts. rewrite renum_get. destruct (get_table d (rel_to_table r)); reflexivity. Qed.
Lemma all_parts_ext {A} (f g : A -> result query_parts) l : (forall x, f x = g x) -> all_parts f l = all_parts g l.
Proof. intros E. induction l as [|x l IH]; [reflexivity|]. cbn [all_parts]. rewrite E, IH. reflexivity. Qed.
Lemma joins_renum k d t : joins_to_test (renum k d) (renum_t k t) = joins_to_test d t.
Proof.
  unfold joins_to_test. rewrite (all_parts_ext _ _ _ (fk_parts_renum k d t)). change (t_fks (renum_t k t)) with (t_fks t). change (t_rels (renum_t k t)) with (t_rels t).
  rewrite (all_parts_ext _ _ _ (rel_parts_renum k d t)). reflexivity.
Qed.

Lemma tbind_ext {A B} (a a' : talk A) (f g : A -> talk B) h : a h = a' h -> (forall x h', f x h' = g x h') -> tbind a f h = tbind a' g h.
Proof. intros E F. unfold tbind. rewrite E. destruct (a' h) as [[[x|e] h'] vs]; [rewrite F|]; reflexivity. Qed.
Lemma talk_tables_renum why ask k d : forall ts h, talk_tables why ask (renum k d) (map (renum_t k) ts) h = talk_tables why ask d ts h.
Proof.
  induction ts as [|t ts IH]; intros h; [reflexivity|]. cbn [map talk_tables]. rewrite joins_renum. apply tbind_ext; [reflexivity|]. intros js h1. apply tbind_ext; [reflexivity|].
  intros is h2. apply tbind_ext; [apply IH|reflexivity].
Qed.
Lemma tbind_mute {A B} (x : A) (f : A -> talk B) h : tbind (mute (ReviewData.ret (Ok x))) f h = f x h.
Proof. unfold tbind, mute, ReviewData.ret. destruct (f x h) as [[r h'] vs]. reflexivity. Qed.
Lemma talk_ws_join_renum yt ask k d w j h : talk_ws_join yt ask (renum k d) w j h = talk_ws_join yt ask d w j h.
Proof.
  unfold talk_ws_join. apply tbind_ext; [reflexivity|]. intros s h1. apply tbind_ext; [reflexivity|]. intros ty h2. destruct (negb (ReviewData.is_table ty)); [reflexivity|].
  rewrite renum_get. destruct (get_table d s) as [t|]; [|reflexivity]. cbn [option_map]. rewrite !tbind_mute. apply tbind_ext; [reflexivity|].
  intros de h3. apply tbind_ext; [reflexivity|]. intros ty' h4. destruct (negb (ReviewData.is_table ty')); [reflexivity|]. rewrite renum_get. destruct (get_table d de) as [u|]; reflexivity.
Qed.
Lemma talk_ws_joins_renum yt ask k d w : forall js h, talk_ws_joins yt ask (renum k d) w js h = talk_ws_joins yt ask d w js h.
Proof.
  induction js as [|j js IH]; intros h; [reflexivity|]. cbn [talk_ws_joins]. apply tbind_ext; [apply talk_ws_join_renum|]. intros is h1. apply tbind_ext; [apply IH|reflexivity].
Qed.
Definition alike_talks (r1 r2 : talking) : Prop := tk_name r1 = tk_name r2 /\ tk_params r1 = tk_params r2 /\ forall q w h, tk_run r1 q w h = tk_run r2 q w h.
Lemma talk_alike names ws rtql : forall l1 l2, Forall2 alike_talks l1 l2 -> forall m h, talk_loop names ws rtql l1 m h = talk_loop names ws rtql l2 m h.
Proof.
  induction 1 as [|r1 r2 l1 l2 [N [P R]] _ IH]; intros m h; [reflexivity|]. cbn [talk_loop]. rewrite N, P.
  destruct (_ && _); [apply IH|]. destruct (starts_with _ _); [|apply IH]. destruct (_ || _); [apply tbind_ext; [reflexivity|intros _ h'; apply IH]|].
  destruct (tk_params r2); [apply IH|]. apply tbind_ext; [apply R|]. intros i h'. apply IH.
Qed.
Lemma alike_talk n ps f g : (forall q w h, f q w h = g q w h) -> alike_talks {| tk_name := n; tk_params := ps; tk_run := f |} {| tk_name := n; tk_params := ps; tk_run := g |}.
Proof. intros E. split; [reflexivity|split; [reflexivity|exact E]]. Qed.
Lemma aloud_renum why yt order rnd commas float_str fuel c k d names ws rtql :
  review_aloud why yt order rnd commas float_str fuel c (renum k d) names ws rtql = review_aloud why yt order rnd commas float_str fuel c d names ws rtql.
Proof.
  unfold review_aloud. apply talk_alike. unfold talk_tests. change (db_name (renum k d)) with (db_name d).
  apply Forall2_cons; [apply alike_talk; intros q w h; unfold review_circular_relationships; rewrite direct_renum; reflexivity|].
  apply Forall2_cons; [apply alike_talk; intros q w h; unfold review_long_chain_relationships; rewrite get_relationships_renum; reflexivity|].
  apply Forall2_cons; [apply alike_talk; intros q w h; rewrite pks_renum; reflexivity|].
  apply Forall2_cons; [apply alike_talk; intros q w h; reflexivity|].
  apply Forall2_cons; [apply alike_talk; intros q w h; unfold tneed; destruct q; [|reflexivity]; apply tbind_ext; [reflexivity|]; intros _ h'; unfold review_sharding; change (db_name (renum k d)) with (db_name d); reflexivity|].
  apply Forall2_cons; [apply alike_talk; intros q w h; unfold tneed; destruct q; [|reflexivity]; apply tbind_ext; [reflexivity|]; intros _ h'; rewrite renum_iter; apply talk_tables_renum|].
  apply Forall2_cons; [apply alike_talk; intros q w h; unfold tneed; destruct q; [|reflexivity]; destruct w; [|reflexivity]; apply tbind_ext; [reflexivity|]; intros _ h'; apply talk_ws_joins_renum|].
  apply Forall2_nil.
Qed.

(** without a connection nothing is asked *)
Lemma nothing_asked names ws : forall l, Forall (fun t => has_param PRtql (tk_params t) = true \/ forall q w h, snd (fst (tk_run t q w h)) = h) l ->
  forall m h, snd (fst (talk_loop names ws None l m h)) = h.
Proof.
  induction l as [|t l IH]; intros N m h; [reflexivity|]. apply Forall_cons_iff in N. destruct N as [N1 N2]. specialize (IH N2). cbn [talk_loop]. destruct (_ && _); [apply IH|].
  destruct (starts_with _ _); [|apply IH].
  assert (K : snd (fst (tbind (say (Shown (skip_line (tk_name t) (tk_params t)))) (fun _ => talk_loop names ws None l m) h)) = h).
  { unfold tbind, say. specialize (IH m h). destruct (talk_loop names ws None l m h) as [[r h'] vs]. exact IH. }
  destruct N1 as [N1|N1]; [rewrite N1; exact K|]. destruct (_ || _); [exact K|]. destruct (tk_params t) as [|p ps]; [apply IH|].
  unfold tbind. specialize (N1 (if has_param PRtql (p :: ps) then None else None) (if has_param PWorksheet (p :: ps) then ws else None) h).
  destruct (tk_run t _ _ h) as [[[i|e] h'] vs]; cbn [fst snd] in *; [|exact N1]. subst h'. match goal with |- context [talk_loop names ws None l ?m' h] => specialize (IH m' h) end.
  destruct (talk_loop names ws None l _ h) as [[r h'] vs']. exact IH.
Qed.
Lemma unconnected why yt order rnd commas float_str fuel c d names ws : snd (fst (review_aloud why yt order rnd commas float_str fuel c d names ws None)) = [].
Proof.
  apply nothing_asked. unfold talk_tests. repeat (apply Forall_cons; [|]); try apply Forall_nil; try (left; reflexivity); right; intros q w h; reflexivity.
Qed.

(** ** Output *)
Lemma does_print_each {A} (f : A -> str) : forall (l : list A) st, does (each (fun x => print (f x)) l) st (files st) (map (fun x => says (f x)) l) [] [] tt.
Proof.
  induction l as [|x l IH]; intros st; [apply does_done|]. cbn [each map].
  apply (seq (map (fun x => says (f x)) l) [] [] _ _ _ _ _ _ _ _ _ _ _ _ _ (does_print _ _)); [reflexivity..|]. intros st1 F1 _. apply (does_files _ _ (files st1)); [exact F1|apply IH].
Qed.
Lemma does_section kv st : does (_ <-- print (fst kv ++ $":") ;; each (fun s => print ([tab] ++ s)) (snd kv)) st (files st) (section_lines kv) [] [] tt.
Proof.
  apply (seq (map (fun s => says ([chr 9] ++ s)) (snd kv)) [] [] _ _ _ _ _ _ _ _ _ _ _ _ _ (does_print _ _)); [reflexivity..|]. intros st1 F1 _. apply (does_files _ _ (files st1)); [exact F1|].
  exact (does_print_each (fun s => [tab] ++ s) (snd kv) st1).
Qed.
Lemma does_all {A} (m : A -> cli unit) (os : A -> list output) : (forall x st, does (m x) st (files st) (os x) [] [] tt) ->
  forall l st, does (each m l) st (files st) (flat_map os l) [] [] tt.
Proof.
  intros D. induction l as [|x l IH]; intros st; [apply does_done|]. cbn [each flat_map].
  apply (seq (flat_map os l) [] [] _ _ _ _ _ _ _ _ _ _ _ _ _ (D x st)); [reflexivity..|]. intros st1 F1 _. apply (does_files _ _ (files st1)); [exact F1|apply IH].
Qed.
Lemma does_speak : forall vs st, does (each speak vs) st (files st) (map says (shown vs)) (warned vs) [] tt.
Proof.
  induction vs as [|[s|s] vs IH]; intros st; [apply does_done| |]; cbn [each speak shown warned flat_map map app].
  - apply (seq (map says (shown vs)) (warned vs) [] _ _ _ _ _ _ _ _ _ _ _ _ _ (does_print _ _)); [reflexivity..|]. intros st1 F1 _. apply (does_files _ _ (files st1)); [exact F1|apply IH].
  - apply (seq (map says (shown vs)) (warned vs) [] _ _ _ _ _ _ _ _ _ _ _ _ _ (does_eprint _ _)); [reflexivity..|]. intros st1 F1 _. apply (does_files _ _ (files st1)); [exact F1|apply IH].
Qed.
Lemma does_described kv st : does (_ <-- print [] ;; _ <-- print (fst kv ++ $":") ;; each (fun s => print ([tab] ++ s)) (snd kv)) st (files st) (says [] :: section_lines kv) [] [] tt.
Proof.
  apply (seq (section_lines kv) [] [] _ _ _ _ _ _ _ _ _ _ _ _ _ (does_print [] st)); [reflexivity..|]. intros st1 F1 _. apply (does_files _ _ (files st1)); [exact F1|apply does_section].
Qed.
Lemma does_descriptions documented ds st : get_test_descriptions documented = Ok ds -> does (show_descriptions documented) st (files st) (description_lines ds) [] [] tt.
Proof.
  intros E. unfold show_descriptions. apply (seq (description_lines ds) [] [] _ _ _ _ _ _ _ _ _ _ _ _ _ (does_lift _ _ _ E)); [reflexivity..|]. intros st1 F1 _.
  apply (seq (flat_map (fun kv => says [] :: section_lines kv) ds ++ [says []]) [] [] _ _ _ _ _ _ _ _ _ _ _ _ _ (does_print _ _)); [reflexivity..|]. intros st2 F2 _.
  apply (seq [says []] [] [] _ _ _ _ _ _ _ _ _ _ _ _ _ (does_all _ (fun kv => says [] :: section_lines kv) does_described ds st2)); [reflexivity..|].
  intros st3 F3 _. apply (does_files _ _ (files st3)); [intros n; rewrite F3, F2; apply F1|apply does_print].
Qed.

Section Tool.
Variables (H : host) (order : list str -> list str) (rnd : Q -> Q) (commas : setting -> str) (float_str : Q -> str) (fuel : nat)
  (safe_load : str -> result yaml) (queries : str -> str -> str -> oracle) (help : str) (documented : list (str * list str * option str)).
Notation tool := (review_tool H order rnd commas float_str fuel safe_load queries help documented).
Lemma review_source a st d ms : no_failures H -> is_given (r_database a) -> review_reads H a st d ms -> exists k,
  does (if given (ts_ip a) then read_from_cluster H (py_text (ts_ip a)) (r_username a) (r_password a) (r_database a)
        else parse_file H (r_database a) DEFAULT_SCHEMA (py_text (database_file a))) st (review_files a st) [] ms
       (if_given (ts_ip a) [script_command (text (ts_ip a)) (r_username a) (r_password a) (text (r_database a))]) (Some (renum k d)).
Proof.
  intros NF G RD. unfold review_files, if_given. destruct RD as [t d N F T P|lines d C R P]; (destruct (r_database a) as [nm|]; [cbn [text] in *|destruct (G eq_refl)]).
  - rewrite (proj2 (given_false _) N). destruct (given_text _ F) as [-> _]. destruct (does_parse H _ _ _ _ d st T P) as [k DP]. exists k.
    destruct (text (ts_ip a)) eqn:E; [exact DP|destruct (N ltac:(unfold is_given; rewrite E; discriminate))].
  - rewrite (proj2 (given_iff _) C). destruct (given_text _ C) as [-> _]. destruct (does_cluster H _ _ _ _ _ d st NF R P) as [k DP]. exists k.
    destruct (text (ts_ip a)) eqn:E; [destruct (C E)|exact DP].
Qed.
Lemma review_ws a st0 st ws : (forall n, files st n = review_files a st0 n) -> review_worksheet safe_load a st0 ws ->
  does (if given (worksheet_file a) then w <-- read_worksheet_file H safe_load (py_text (worksheet_file a)) ;; done (Some w) else done None) st (files st) [] [] [] ws.
Proof.
  intros F W. unfold review_worksheet in W. destruct (text (worksheet_file a)) as [|c f] eqn:E.
  - subst ws. rewrite (proj2 (given_false _)); [apply does_done|]. unfold is_given. rewrite E. intros N. exact (N eq_refl).
  - assert (G : is_given (worksheet_file a)) by (unfold is_given; rewrite E; discriminate). rewrite (proj2 (given_iff _) G). destruct (given_text _ G) as [-> _]. rewrite E.
    destruct W as [NT [t [w [T [R ->]]]]]. assert (T' : files st (c :: f) = Some (Text t)).
    { rewrite F. unfold review_files. destruct (text (ts_ip a)) eqn:I; [exact T|]. destruct (str_eqb_spec (c :: f) (text (r_database a) ++ $".tmp")) as [Q|Q]; [|exact T]. destruct (NT ltac:(unfold is_given; rewrite I; discriminate) Q). }
    exists st. unfold read_worksheet_file, then_, read_text, lift. rewrite T', R. split; [reflexivity|].
    split; [reflexivity|apply prints_nil; reflexivity|cbn; rewrite app_nil_r; reflexivity|cbn; rewrite app_nil_r; reflexivity].
Qed.
Lemma review_run a d ws rtql st k results h vs :
  review_aloud (h_query_error H) (h_yaml_text H) order rnd commas float_str fuel [] d [] ws rtql = (results, h, vs) -> is_given (ts_ip a) \/ h = [] ->
  exists st', (r <-- run_reviews H order rnd commas float_str fuel a (Some (renum k d)) ws rtql ;; each (fun kv => _ <-- print (fst kv ++ $":") ;; each (fun s => print ([tab] ++ s)) (snd kv)) r) st
     = (st', match results with Ok _ => Ok tt | Err e => Err e end)
    /\ effect (files st) (review_lines results vs) (warned vs) (as_commands a h) st st'.
Proof.
  intros E G. unfold run_reviews. assert (R0 : reviewer_settings (fun _ => None) None = []) by reflexivity. rewrite R0, aloud_renum, E. cbv beta iota.
  destruct (does_speak vs st) as [st1 [E1 X1]]. unfold then_ at 1, then_ at 1. rewrite E1.
  assert (X2 : exists st2, record_queries a h st1 = (st2, Ok tt) /\ effect (files st1) [] [] (as_commands a h) st1 st2).
  { eexists. split; [reflexivity|]. split; [reflexivity|apply prints_nil; reflexivity|cbn; rewrite app_nil_r; reflexivity|]. cbn [sent]. f_equal. unfold as_commands, if_given.
    destruct G as [G| ->]; [|destruct (text (ts_ip a)); reflexivity]. destruct (given_text _ G) as [-> _]. destruct (text (ts_ip a)) eqn:Q; [destruct (G Q)|reflexivity]. }
  destruct X2 as [st2 [E2 X2]]. unfold then_ at 1. rewrite E2. pose proof (effect_trans _ _ _ _ _ _ _ _ _ _ _ X1 X2) as X. cbn [app] in X. rewrite !app_nil_r in X.
  assert (Y : effect (files st) (map says (shown vs)) (warned vs) (as_commands a h) st st2).
  { destruct X as [XF XO XE XS]. split; [|exact XO|exact XE|exact XS]. intros n. rewrite XF. apply (ef_files _ _ _ _ _ _ X1). }
  unfold lift, review_lines. destruct results as [r|e].
  - destruct (does_all _ _ does_section r st2) as [st3 [E3 X3]]. exists st3. split; [exact E3|]. pose proof (effect_trans _ _ _ _ _ _ _ _ _ _ _ Y X3) as Z. cbn [app] in Z. rewrite !app_nil_r in Z.
    destruct Z as [XF XO XE XS]. split; [|exact XO|exact XE|exact XS]. intros n. rewrite XF. apply (ef_files _ _ _ _ _ _ Y).
  - exists st2. split; [reflexivity|]. rewrite app_nil_r. exact Y.
Qed.
End Tool.
