(** * Lemmas about configuration files (C46, C47) *)
From Verif Require Export Config SpecConfig StrFacts SplitFacts CleanFacts.

Definition spaces (a : str) : Prop := forall c, In c a -> is_space c = true.
Lemma lstrip_spaces a x : spaces a -> lstrip (a ++ x) = lstrip x.
Proof. induction a as [|c a IH]; intros H; [reflexivity|]. cbn [app lstrip]. rewrite (H c (or_introl eq_refl)). apply IH. intros d Hd. apply H. right. exact Hd. Qed.
Lemma lstrip_trimmed t : trimmed t -> lstrip t = t.
Proof. intros [H _]. destruct t as [|c r]; [reflexivity|]. cbn [lstrip]. rewrite (H c r eq_refl). reflexivity. Qed.
Lemma trimmed_rev t : trimmed t -> trimmed (rev t).
Proof. intros [H1 H2]. split; intros c r E. - apply (H2 c (rev r)). rewrite <- (rev_involutive t), E. reflexivity. - apply (H1 c (rev r)). rewrite <- (rev_involutive t), E, rev_app_distr. reflexivity. Qed.
Lemma strip_unique s t : trims s t -> strip s = t.
Proof.
  intros [a [b [-> [T H]]]]. unfold strip. rewrite lstrip_spaces by (intros c Hc; apply H, in_or_app; left; exact Hc).
  assert (Hb : spaces (rev b)) by (intros c Hc; apply H, in_or_app; right; apply in_rev, Hc).
  destruct t as [|c r].
  - cbn [app]. assert (E : lstrip b = []). { rewrite <- (app_nil_r b). rewrite lstrip_spaces; [reflexivity|]. intros c Hc. apply H, in_or_app. right. exact Hc. } rewrite E. reflexivity.
  - replace (lstrip ((c :: r) ++ b)) with ((c :: r) ++ b). 2: { cbn [app lstrip]. rewrite (proj1 T c r eq_refl). reflexivity. }
    unfold rstrip. rewrite rev_app_distr, lstrip_spaces by exact Hb. rewrite lstrip_trimmed by (apply trimmed_rev, T). apply rev_involutive.
Qed.
Lemma strip_trims s : trims s (strip s).
Proof.
  destruct (lstrip_suffix s) as [a [Ea Ha]]. destruct (rstrip_prefix (lstrip s)) as [b [Eb Hb]]. exists a, b. split; [|split; [apply strip_trimmed|]].
  - unfold strip. rewrite <- Eb. exact Ea.
  - intros c Hc. apply in_app_or in Hc. destruct Hc; [apply Ha|apply Hb]; assumption.
Qed.
Lemma trims_strip s t : trims s t <-> strip s = t.
Proof. split; [apply strip_unique|intros <-; apply strip_trims]. Qed.

Lemma uncommented_hd raw : uncommented raw (hd [] (split_char "#" raw)).
Proof.
  induction raw as [|x raw [N E]]; [split; [intros []|left; reflexivity]|]. cbn [split_char]. destruct (Ascii.eqb_spec x "#") as [->|Hx].
  - split; [intros []|]. right. exists raw. reflexivity.
  - destruct (split_char "#" raw) as [|w ws] eqn:S; cbn [hd] in *.
    + split; [intros [H|[]]; congruence|]. destruct E as [->|[cm ->]]; [left; reflexivity|right; exists cm; reflexivity].
    + split; [intros [H|H]; [congruence|exact (N H)]|]. destruct E as [->|[cm ->]]; [left; reflexivity|right; exists cm; reflexivity].
Qed.
Lemma uncommented_fun raw s s' : uncommented raw s -> uncommented raw s' -> s = s'.
Proof.
  intros [N E] [N' E']. destruct E as [->|[cm ->]], E' as [E'|[cm' E']].
  - exact E'. - exfalso. apply N. rewrite E'. apply in_or_app. right. left. reflexivity.
  - exfalso. apply N'. rewrite <- E'. apply in_or_app. right. left. reflexivity.
  - exact (proj1 (app_sep_inj _ _ _ _ _ N N' E')).
Qed.

Lemma partition_spec c s : let '(a, f, b) := partition_char c s in ~ In c a /\ (if f then s = a ++ c :: b else s = a /\ b = []).
Proof.
  induction s as [|x s IH]; [split; [intros []|split; reflexivity]|]. cbn [partition_char]. destruct (Ascii.eqb_spec x c) as [->|Hx]; [split; [intros []|reflexivity]|].
  destruct (partition_char c s) as [[a f] b]. destruct IH as [N E]. split; [intros [H|H]; [congruence|exact (N H)]|].
  destruct f; [rewrite E; reflexivity|destruct E as [-> ->]; split; reflexivity].
Qed.
Lemma find_opt_char c s : find_opt [c] s = None <-> ~ In c s.
Proof.
  induction s as [|x s IH]; [split; [intros _ []|reflexivity]|]. cbn [find_opt starts_with]. destruct (Ascii.eqb_spec c x) as [->|H]; cbn [andb].
  - split; [discriminate|intros N; exfalso; apply N; left; reflexivity].
  - destruct (find_opt [c] s) as [n|].
    + split; [discriminate|]. intros N. assert (M : ~ In c s) by (intros I; apply N; right; exact I). apply IH in M. discriminate.
    + split; [intros _ [E|I]; [congruence|exact (proj1 IH eq_refl I)]|reflexivity].
Qed.
Lemma contains_char_in c s : contains [c] s = true <-> In c s.
Proof.
  unfold contains. pose proof (find_opt_char c s) as H. destruct (find_opt [c] s); split; intros G; try reflexivity; try discriminate.
  - destruct (in_dec ascii_dec c s) as [I|I]; [exact I|]. apply H in I. discriminate. - exfalso. exact (proj1 H eq_refl G).
Qed.

(** cutting after trimming is cutting before it *)
Lemma strip_cut s a b c : is_space c = false -> ~ In c a -> s = a ++ c :: b -> exists a' b', strip s = a' ++ c :: b' /\ ~ In c a' /\ strip a' = strip a /\ strip b' = strip b.
Proof.
  intros Sc N ->. destruct (strip_trims (a ++ c :: b)) as [u [v [E [T H]]]].
  destruct (lstrip_suffix a) as [u1 [E1 H1]]. destruct (rstrip_prefix b) as [v1 [E2 H2]].
  assert (Q : strip (a ++ c :: b) = lstrip a ++ c :: rstrip b).
  { apply strip_unique. exists u1, v1. split; [rewrite <- app_assoc; cbn [app]; rewrite <- E2, app_assoc, <- E1; reflexivity|]. split.
    - split.
      + intros x r Hx. destruct (lstrip a) as [|y l] eqn:L; cbn [app] in Hx; injection Hx as <- _; [exact Sc|exact (lstrip_head _ _ _ L)].
      + intros x r Hx. destruct (rev (rstrip b)) as [|y l] eqn:L.
        * apply (f_equal (@rev _)) in L. rewrite rev_involutive in L. rewrite L in Hx. apply app_inj_tail in Hx. destruct Hx as [_ <-]. exact Sc.
        * unfold rstrip in L. rewrite rev_involutive in L. pose proof (lstrip_head _ _ _ L) as Hy.
          assert (R : rstrip b = rev l ++ [y]) by (unfold rstrip; rewrite L; reflexivity). rewrite R, app_comm_cons, app_assoc in Hx. apply app_inj_tail in Hx. destruct Hx as [_ <-]. exact Hy.
    - intros x Hx. apply in_app_or in Hx. destruct Hx; [apply H1|apply H2]; assumption. }
  exists (lstrip a), (rstrip b). split; [exact Q|]. split; [intros I; apply N; rewrite E1; apply in_or_app; right; exact I|]. split.
  - symmetry. rewrite E1 at 1. apply strip_unique. destruct (strip_trims (lstrip a)) as [p [q [F [G K]]]]. exists (u1 ++ p), q. split; [rewrite F at 1; rewrite <- !app_assoc; reflexivity|]. split; [exact G|].
    intros x Hx. rewrite <- app_assoc in Hx. apply in_app_or in Hx. destruct Hx as [Hx|Hx]; [exact (H1 x Hx)|exact (K x Hx)].
  - symmetry. rewrite E2 at 1. apply strip_unique. destruct (strip_trims (rstrip b)) as [p [q [F [G K]]]]. exists p, (q ++ v1). split; [rewrite F at 1; rewrite <- !app_assoc; reflexivity|]. split; [exact G|].
    intros x Hx. rewrite app_assoc in Hx. apply in_app_or in Hx. destruct Hx as [Hx|Hx]; [exact (K x Hx)|exact (H2 x Hx)].
Qed.

Lemma assigns_fun raw k v k' v' : assigns raw k v -> assigns raw k' v' -> k = k' /\ v = v'.
Proof.
  intros [s [a [b [U [E [N [A [B _]]]]]]]] [s' [a' [b' [U' [E' [N' [A' [B' _]]]]]]]]. pose proof (uncommented_fun _ _ _ U U') as <-. rewrite E in E'.
  destruct (app_sep_inj _ _ _ _ _ N N' E') as [<- <-]. apply trims_strip in A, A', B, B'. split; congruence.
Qed.

Definition warns (w : warning) (l : str) : Prop :=
  w = BadlyFormed l /\ In "="%char l \/ w = Ignoring l /\ ~ In "="%char l.
(** one line *)
Lemma load_line_spec c ws raw :
  (exists k v, assigns raw k v /\ load_line (c, ws) raw = (dset k v c, ws))
  \/ (line_text raw [] /\ load_line (c, ws) raw = (c, ws))
  \/ (exists l w, line_text raw l /\ l <> [] /\ (forall k v, ~ assigns raw k v) /\ warns w l /\ load_line (c, ws) raw = (c, ws ++ [w])).
Proof.
  unfold load_line. pose proof (uncommented_hd raw) as U. set (s := hd [] (split_char "#" raw)) in *.
  destruct (str_eqb_spec (strip s) []) as [E|E]; cbn [negb andb].
  - right. left. split; [|reflexivity]. exists s. split; [exact U|]. apply trims_strip, E.
  - destruct (contains ($"=") (strip s)) eqn:C.
    + apply (contains_char_in "="%char) in C. pose proof (partition_spec "=" (strip s)) as P. destruct (partition_char "=" (strip s)) as [[a f] b]. destruct P as [N P].
      destruct f; [|destruct P as [P _]; rewrite P in C; contradiction].
      assert (I : In "="%char s) by (apply in_strip; exact C). apply in_split in I. 
      assert (X : exists a0 b0, s = a0 ++ "="%char :: b0 /\ ~ In "="%char a0).
      { pose proof (partition_spec "=" s) as Q. destruct (partition_char "=" s) as [[a0 f0] b0]. destruct Q as [N0 Q]. destruct f0; [exists a0, b0; split; assumption|].
        destruct Q as [Q _]. destruct I as [x [y I]]. exfalso. apply N0. rewrite <- Q, I. apply in_or_app. right. left. reflexivity. }
      destruct X as [a0 [b0 [Es N0]]]. destruct (strip_cut s a0 b0 "=" eq_refl N0 Es) as [a' [b' [E' [N' [Ea Eb]]]]].
      rewrite P in E'. destruct (app_sep_inj _ _ _ _ _ N N' E') as [-> ->].
      destruct (str_eqb_spec (strip a') []) as [Za|Za]; [|destruct (str_eqb_spec (strip b') []) as [Zb|Zb]]; cbn [negb andb].
      * right. right. exists (strip s), (BadlyFormed (strip s)). split; [exists s; split; [exact U|apply strip_trims]|]. split; [exact E|]. split; [|split; [left; split; [reflexivity|exact C]|reflexivity]].
        intros k v [s1 [a1 [b1 [U1 [E1 [N1 [A1 [B1 [K1 V1]]]]]]]]]. pose proof (uncommented_fun _ _ _ U U1) as <-. rewrite E1 in Es. destruct (app_sep_inj _ _ _ _ _ N1 N0 Es) as [-> ->]. apply trims_strip in A1. congruence.
      * right. right. exists (strip s), (BadlyFormed (strip s)). split; [exists s; split; [exact U|apply strip_trims]|]. split; [exact E|]. split; [|split; [left; split; [reflexivity|exact C]|reflexivity]].
        intros k v [s1 [a1 [b1 [U1 [E1 [N1 [A1 [B1 [K1 V1]]]]]]]]]. pose proof (uncommented_fun _ _ _ U U1) as <-. rewrite E1 in Es. destruct (app_sep_inj _ _ _ _ _ N1 N0 Es) as [-> ->]. apply trims_strip in B1. congruence.
      * left. exists (strip a'), (strip b'). split; [|reflexivity]. exists s, a0, b0. repeat split; try assumption; try apply U; [rewrite Ea|rewrite Eb]; apply strip_trims.
    + right. right. assert (NI : ~ In "="%char (strip s)) by (intros I; apply (contains_char_in "="%char) in I; change (contains ($"=") (strip s) = true) in I; rewrite I in C; discriminate C).
      exists (strip s), (Ignoring (strip s)). split; [exists s; split; [exact U|apply strip_trims]|]. split; [exact E|]. split; [|split; [right; split; [reflexivity|exact NI]|reflexivity]].
      intros k v [s1 [a1 [b1 [U1 [E1 [N1 _]]]]]]. pose proof (uncommented_fun _ _ _ U U1) as <-. destruct (strip_cut s a1 b1 "=" eq_refl N1 E1) as [a' [b' [E' _]]]. apply NI. rewrite E'. apply in_or_app. right. left. reflexivity.
Qed.

Definition assign_all (es : list (str * str)) (c : config) : config := fold_left (fun c kv => dset (fst kv) (snd kv) c) es c.
Lemma load_lines_spec raws : forall c ws, exists es os ms, reads_as raws es os /\ Forall2 warns ms os
  /\ fold_left load_line raws (c, ws) = (assign_all es c, ws ++ ms).
Proof.
  induction raws as [|raw raws IH]; intros c ws.
  - exists [], [], []. split; [constructor|]. split; [constructor|]. rewrite app_nil_r. reflexivity.
  - cbn [fold_left]. destruct (load_line_spec c ws raw) as [[k [v [A E]]]|[[L E]|[l [w [L [Ln [N [W E]]]]]]]]; rewrite E.
    + destruct (IH (dset k v c) ws) as [es [os [ms [R [F Q]]]]]. exists ((k, v) :: es), os, ms. split; [constructor; assumption|]. split; [exact F|]. exact Q.
    + destruct (IH c ws) as [es [os [ms [R [F Q]]]]]. exists es, os, ms. split; [apply ra_blank; assumption|]. split; [exact F|exact Q].
    + destruct (IH c (ws ++ [w])) as [es [os [ms [R [F Q]]]]]. exists es, (l :: os), (w :: ms). split; [apply ra_other; assumption|]. split; [constructor; assumption|]. rewrite Q, <- app_assoc. reflexivity.
Qed.
Lemma line_text_fun raw l l' : line_text raw l -> line_text raw l' -> l = l'.
Proof. intros [s [U T]] [s' [U' T']]. pose proof (uncommented_fun _ _ _ U U') as <-. apply trims_strip in T, T'. congruence. Qed.
Lemma assigns_text raw k v : assigns raw k v -> ~ line_text raw [].
Proof.
  intros [s [a [b [U [E [N _]]]]]] [s' [U' T]]. pose proof (uncommented_fun _ _ _ U U') as <-. apply trims_strip in T. destruct (strip_cut s a b "=" eq_refl N E) as [a' [b' [Q _]]]. rewrite T in Q. destruct a'; discriminate.
Qed.
Lemma reads_as_fun raws es os : reads_as raws es os -> forall es' os', reads_as raws es' os' -> es = es' /\ os = os'.
Proof.
  induction 1 as [|raw k v rs es os A R IH|raw rs es os L R IH|raw l rs es os L Ln N R IH]; intros es' os' R';
    inversion R' as [|r1 k1 v1 rs1 es1 os1 A1 R1|r1 rs1 es1 os1 L1 R1|r1 l1 rs1 es1 os1 L1 Ln1 N1 R1]; subst; try (split; reflexivity).
  - destruct (assigns_fun _ _ _ _ _ A A1) as [-> ->]. destruct (IH _ _ R1) as [-> ->]. split; reflexivity.
  - exfalso. exact (assigns_text _ _ _ A L1).
  - exfalso. exact (N1 _ _ A).
  - exfalso. exact (assigns_text _ _ _ A1 L).
  - destruct (IH _ _ R1) as [-> ->]. split; reflexivity.
  - exfalso. apply Ln1. exact (line_text_fun _ _ _ L1 L).
  - exfalso. exact (N _ _ A1).
  - exfalso. apply Ln. exact (line_text_fun _ _ _ L L1).
  - destruct (IH _ _ R1) as [-> ->]. rewrite (line_text_fun _ _ _ L L1). split; reflexivity.
Qed.

Lemma last_value_exists k es : exists o, last_value k es o.
Proof.
  induction es as [|[k' v] es [o H]]; [exists None; intros w []|]. destruct o as [x|].
  - exists (Some x). destruct H as [e1 [e2 [-> N]]]. exists ((k', v) :: e1), e2. split; [reflexivity|exact N].
  - destruct (str_dec k k') as [<-|D]; [exists (Some v), [], es; split; [reflexivity|exact H]|]. exists None. intros w [E|I]; [congruence|exact (H w I)].
Qed.
Lemma assign_all_get es k : forall c o, last_value k es o -> dget k (assign_all es c) = match o with Some v => Some v | None => dget k c end.
Proof.
  induction es as [|[k' v'] es IH]; intros c o H.
  - destruct o as [v|]; [destruct H as [e1 [e2 [E _]]]; destruct e1; discriminate|reflexivity].
  - cbn [assign_all fold_left fst snd]. destruct o as [v|].
    + destruct H as [e1 [e2 [E N]]]. destruct e1 as [|p e1]; cbn [app] in E; injection E; intros Ee.
      * intros -> ->. fold (assign_all es (dset k v c)). rewrite (IH _ None) by (rewrite Ee; exact N). rewrite dget_dset, str_eqb_refl. reflexivity.
      * intros _. apply (IH _ (Some v)). exists e1, e2. split; assumption.
    + fold (assign_all es (dset k' v' c)). rewrite (IH _ None) by (intros w I; exact (H w (or_intror I))). rewrite dget_dset. destruct (str_eqb_spec k k') as [->|]; [exfalso; exact (H v' (or_introl eq_refl))|reflexivity].
Qed.
Lemma assign_all_nodup es : forall c, NoDup (dkeys c) -> NoDup (dkeys (assign_all es c)).
Proof. induction es as [|[k v] es IH]; intros c H; [exact H|]. cbn [assign_all fold_left fst snd]. apply IH, nodup_dset, H. Qed.

Lemma load_text_spec c text : exists t raws es os ms, newlines_read text t /\ in_lines t raws /\ reads_as raws es os /\ Forall2 warns ms os /\ load_text c text = (assign_all es c, ms).
Proof.
  destruct (load_lines_spec (file_lines (universal_newlines text)) c []) as [es [os [ms [R [F E]]]]]. exists (universal_newlines text), (file_lines (universal_newlines text)), es, os, ms.
  split; [eapply universal_ok, le_n|]. split; [apply file_lines_ok|]. split; [exact R|]. split; [exact F|exact E].
Qed.
Lemma c46 c text t raws es os : newlines_read text t -> in_lines t raws -> reads_as raws es os ->
  exists c' ms, load_text c text = (c', ms) /\ Forall2 warns ms os
    /\ (forall k o, last_value k es o -> dget k c' = match o with Some v => Some v | None => dget k c end)
    /\ (NoDup (dkeys c) -> NoDup (dkeys c')).
Proof.
  intros N L R. destruct (load_text_spec c text) as [t' [raws' [es' [os' [ms [N' [L' [R' [F E]]]]]]]]].
  pose proof (newlines_fun _ _ _ N N') as <-. pose proof (in_lines_fun _ _ _ L L') as <-. destruct (reads_as_fun _ _ _ R _ _ R') as [<- <-].
  exists (assign_all es c), ms. split; [exact E|]. split; [exact F|]. split; [intros k o H; apply assign_all_get, H|apply assign_all_nodup].
Qed.
(** what a line assigns is clean *)
Lemma nr_no_cr s t : newlines_read s t -> ~ In cr t.
Proof. induction 1 as [|s s' H IH|s s' _ H IH|c s s' Hc H IH]; intros I; [exact I| | |]; destruct I as [E|I]; try (exact (IH I)); [discriminate E|discriminate E|congruence]. Qed.
Lemma line_no_lf s ls : in_lines s ls -> forall raw, In raw ls -> (forall x a b, raw = a ++ x ++ b -> trimmed x -> ~ In lf x) /\ (forall c, In c raw -> In c s).
Proof.
  induction 1 as [|w Hw Nw|w s ls Nw R IH]; intros raw I; [destruct I| |].
  - destruct I as [<-|[]]. split; [|auto]. intros x a b E _ I. apply Nw. rewrite E. apply in_or_app. right. apply in_or_app. left. exact I.
  - destruct I as [<-|I].
    + split. 2: { intros c Hc. apply in_app_or in Hc. apply in_or_app. destruct Hc as [Hc|[<-|[]]]; [left; exact Hc|right; left; reflexivity]. }
      intros x a b E T I. destruct (rev b) as [|y r] eqn:Rb.
      * apply (f_equal (@rev _)) in Rb. rewrite rev_involutive in Rb. cbn [rev] in Rb. subst b. rewrite app_nil_r in E.
        destruct (rev x) as [|z q] eqn:Rx. { apply (f_equal (@rev _)) in Rx. rewrite rev_involutive in Rx. cbn [rev] in Rx. subst x. destruct I. }
        apply (f_equal (@rev _)) in Rx. rewrite rev_involutive in Rx. cbn [rev] in Rx. rewrite Rx, app_assoc in E. apply app_inj_tail in E. destruct E as [_ <-]. pose proof (proj2 T _ _ Rx) as Q. discriminate Q.
      * apply (f_equal (@rev _)) in Rb. rewrite rev_involutive in Rb. cbn [rev] in Rb. rewrite Rb, !app_assoc in E. apply app_inj_tail in E. destruct E as [E _]. apply Nw. rewrite E. apply in_or_app. left. apply in_or_app. right. exact I.
    + destruct (IH _ I) as [A B]. split; [exact A|]. intros c Hc. apply in_or_app. right. right. apply B, Hc.
Qed.
Lemma assigns_clean t raws raw k v text : newlines_read text t -> in_lines t raws -> In raw raws -> assigns raw k v -> clean_word k /\ ~ In "="%char k /\ clean_word v.
Proof.
  intros N L I [s [a [b [[U E] [Es [Na [A [B [Hk Hv]]]]]]]]]. destruct (line_no_lf _ _ L _ I) as [X Y].
  destruct A as [a1 [a2 [Ea [Ta _]]]]. destruct B as [b1 [b2 [Eb [Tb _]]]].
  assert (Q : exists cm, raw = s ++ cm) by (destruct E as [->|[cm ->]]; [exists []; rewrite app_nil_r; reflexivity|exists ("#"%char :: cm); reflexivity]). destruct Q as [cm Q].
  assert (Wk : raw = a1 ++ k ++ (a2 ++ "="%char :: b ++ cm)) by (rewrite Q, Es, Ea, <- !app_assoc; cbn [app]; rewrite <- ?app_assoc; reflexivity).
  assert (Wv : raw = (a ++ "="%char :: b1) ++ v ++ (b2 ++ cm)) by (rewrite Q, Es, Eb; rewrite <- ?app_assoc; cbn [app]; rewrite <- ?app_assoc; reflexivity).
  assert (Ik : forall c, In c k -> In c a) by (intros c Hc; rewrite Ea; apply in_or_app; right; apply in_or_app; left; exact Hc).
  assert (Iv : forall c, In c v -> In c s) by (intros c Hc; rewrite Es, Eb; apply in_or_app; right; right; apply in_or_app; right; apply in_or_app; left; exact Hc).
  assert (Ias : forall c, In c a -> In c s) by (intros c Hc; rewrite Es; apply in_or_app; left; exact Hc).
  assert (Isr : forall c, In c s -> In c raw) by (intros c Hc; rewrite Q; apply in_or_app; left; exact Hc).
  split; [|split].
  - constructor; [exact Hk|exact Ta|intros Hc; apply U, Ias, Ik, Hc|]. split; [exact (X _ _ _ Wk Ta)|]. intros Hc. apply (nr_no_cr _ _ N). apply Y, Isr, Ias, Ik, Hc.
  - intros Hc. apply Na, Ik, Hc.
  - constructor; [exact Hv|exact Tb|intros Hc; apply U, Iv, Hc|]. split; [exact (X _ _ _ Wv Tb)|]. intros Hc. apply (nr_no_cr _ _ N). apply Y, Isr, Iv, Hc.
Qed.
Lemma reads_as_in raws es os : reads_as raws es os -> forall k v, In (k, v) es -> exists raw, In raw raws /\ assigns raw k v.
Proof.
  induction 1 as [|raw k v rs es os A R IH|raw rs es os L R IH|raw l rs es os L Ln N R IH]; intros k0 v0 I; [destruct I| | |].
  - destruct I as [E|I]; [injection E as <- <-; exists raw; split; [left; reflexivity|exact A]|]. destruct (IH _ _ I) as [r [P Q]]. exists r. split; [right; exact P|exact Q].
  - destruct (IH _ _ I) as [r [P Q]]. exists r. split; [right; exact P|exact Q].
  - destruct (IH _ _ I) as [r [P Q]]. exists r. split; [right; exact P|exact Q].
Qed.
Lemma assign_all_in es : forall c k v, In (k, v) (assign_all es c) -> In (k, v) es \/ In (k, v) c.
Proof.
  induction es as [|[k' v'] es IH]; intros c k v I; [right; exact I|]. cbn [assign_all fold_left fst snd] in I. destruct (IH _ _ _ I) as [J|J]; [left; right; exact J|].
  assert (D : forall d, In (k, v) (dset k' v' d) -> (k, v) = (k', v') \/ In (k, v) d).
  { clear. induction d as [|[k2 v2] d IH]; cbn [dset]; intros I; [destruct I as [<-|[]]; left; reflexivity|]. destruct (str_eqb_spec k' k2) as [<-|].
    - destruct I as [<-|I]; [left; reflexivity|right; right; exact I]. - destruct I as [<-|I]; [right; left; reflexivity|]. destruct (IH I) as [E|J]; [left; exact E|right; right; exact J]. }
  destruct (D _ J) as [E|K]; [left; left; symmetry; exact E|right; exact K].
Qed.
Lemma c46_items c text k v : In (k, v) (fst (load_text c text)) -> In (k, v) c \/ (clean_word k /\ ~ In "="%char k /\ clean_word v).
Proof.
  destruct (load_text_spec c text) as [t [raws [es [os [ms [N [L [R [F E]]]]]]]]]. rewrite E. cbn [fst].
  intros I. destruct (assign_all_in _ _ _ _ I) as [J|J]; [|left; exact J]. right. destruct (reads_as_in _ _ _ R _ _ J) as [raw [Ir A]]. exact (assigns_clean _ _ _ _ _ _ N L Ir A).
Qed.
Lemma c46_clean c text : clean_config c -> clean_config (fst (load_text c text)).
Proof.
  intros [Nd Hc]. destruct (load_text_spec c text) as [t [raws [es [os [ms [N [L [R [F E]]]]]]]]]. rewrite E. cbn [fst]. split; [apply assign_all_nodup, Nd|].
  intros k v I. destruct (assign_all_in _ _ _ _ I) as [J|J]; [|exact (Hc k v J)]. destruct (reads_as_in _ _ _ R _ _ J) as [raw [Ir A]]. exact (assigns_clean _ _ _ _ _ _ N L Ir A).
Qed.

(** ** Writing *)
Definition item_text (kv : str * str) : str := fst kv ++ $" = " ++ snd kv.
Lemma no_cr_read s : ~ In cr s -> universal_newlines s = s.
Proof. induction s as [|c s IH]; intros N; [reflexivity|]. cbn [universal_newlines]. destruct (Ascii.eqb_spec c (chr 13)) as [->|]; [exfalso; apply N; left; reflexivity|]. rewrite IH; [reflexivity|]. intros I. apply N. right. exact I. Qed.
Lemma file_lines_line w s : ~ In lf w -> file_lines (w ++ lf :: s) = (w ++ [lf]) :: file_lines s.
Proof.
  induction w as [|c w IH]; intros N; [reflexivity|]. cbn [app file_lines]. destruct (Ascii.eqb_spec c newline) as [->|]; [exfalso; apply N; left; reflexivity|].
  rewrite IH by (intros I; apply N; right; exact I). reflexivity.
Qed.
Lemma config_lines c : clean_config c -> file_lines (universal_newlines (config_text c)) = map (fun kv => item_text kv ++ [lf]) c.
Proof.
  intros [_ H]. rewrite no_cr_read.
  - assert (H' : forall kv, In kv c -> ~ In lf (item_text kv)).
    { intros [k v] I. destruct (H k v I) as [Ck [_ Cv]]. unfold item_text. cbn [fst snd]. intros J. apply in_app_or in J. destruct J as [J|J]; [exact (proj1 (cw_line _ Ck) J)|].
      apply in_app_or in J. destruct J as [J|J]; [|exact (proj1 (cw_line _ Cv) J)]. cbn [list_ascii_of_string] in J. repeat (destruct J as [J|J]; [discriminate J|]); destruct J. }
    clear H. induction c as [|[k v] c IH]; [reflexivity|]. cbn [config_text flat_map map fst snd]. replace ((k ++ $" = " ++ v ++ [newline]) ++ flat_map (fun kv => fst kv ++ $" = " ++ snd kv ++ [newline]) c)
      with (item_text (k, v) ++ lf :: config_text c) by (unfold item_text; cbn [fst snd]; rewrite <- !app_assoc; reflexivity).
    rewrite file_lines_line by (apply H'; left; reflexivity). f_equal. apply IH. intros kv I. apply H'. right. exact I.
  - intros I. apply in_flat_map in I. destruct I as [[k v] [I J]]. destruct (H k v I) as [Ck [_ Cv]]. cbn [fst snd] in J. apply in_app_or in J. destruct J as [J|J]; [exact (proj2 (cw_line _ Ck) J)|].
    apply in_app_or in J. destruct J as [J|J]. { cbn [list_ascii_of_string] in J. repeat (destruct J as [J|J]; [discriminate J|]); destruct J. }
    apply in_app_or in J. destruct J as [J|J]; [exact (proj2 (cw_line _ Cv) J)|]. destruct J as [J|[]]. discriminate J.
Qed.
Lemma item_assigns k v : clean_word k -> ~ In "="%char k -> clean_word v -> assigns (item_text (k, v) ++ [lf]) k v.
Proof.
  intros Ck Ne Cv. exists (item_text (k, v) ++ [lf]), (k ++ $" "), ($" " ++ v ++ [lf]). split; [|split; [|split; [|split; [|split; [|split]]]]].
  - split; [|left; reflexivity]. unfold item_text. cbn [fst snd]. intros J. apply in_app_or in J. destruct J as [J|J]; [|destruct J as [J|[]]; discriminate J].
    apply in_app_or in J. destruct J as [J|J]; [exact (cw_hash _ Ck J)|]. apply in_app_or in J. destruct J as [J|J]; [|exact (cw_hash _ Cv J)]. cbn [list_ascii_of_string] in J. repeat (destruct J as [J|J]; [discriminate J|]); destruct J.
  - unfold item_text. cbn [fst snd]. rewrite <- !app_assoc. reflexivity.
  - intros J. apply in_app_or in J. destruct J as [J|J]; [exact (Ne J)|]. destruct J as [J|[]]. discriminate J.
  - exists [], ($" "). split; [reflexivity|]. split; [apply Ck|]. intros c [<-|[]]. reflexivity.
  - exists ($" "), [lf]. split; [reflexivity|]. split; [apply Cv|]. intros c [<-|[<-|[]]]; reflexivity.
  - apply Ck. - apply Cv.
Qed.
Lemma reads_items c : (forall k v, In (k, v) c -> clean_word k /\ ~ In "="%char k /\ clean_word v) -> reads_as (map (fun kv => item_text kv ++ [lf]) c) c [].
Proof.
  induction c as [|[k v] c IH]; intros H; [constructor|]. cbn [map]. destruct (H k v (or_introl eq_refl)) as [A [B C]]. constructor; [apply item_assigns; assumption|]. apply IH. intros k' v' I. apply H. right. exact I.
Qed.
Lemma assign_fresh es : forall c, NoDup (dkeys c ++ map fst es) -> assign_all es c = c ++ es.
Proof.
  induction es as [|[k v] es IH]; intros c N; [symmetry; apply app_nil_r|]. cbn [assign_all fold_left fst snd map] in *.
  assert (K : ~ In k (dkeys c)) by (intros I; apply NoDup_remove_2 in N; apply N, in_or_app; left; exact I).
  rewrite dset_new by exact K. fold (assign_all es (c ++ [(k, v)])). rewrite IH; [rewrite <- app_assoc; reflexivity|]. unfold dkeys. rewrite map_app, <- app_assoc. exact N.
Qed.
Lemma reload c : clean_config c -> load_text [] (config_text c) = (c, []).
Proof.
  intros H. unfold load_text. rewrite config_lines by exact H. destruct (load_lines_spec (map (fun kv => item_text kv ++ [lf]) c) [] []) as [es [os [ms [R [F E]]]]].
  destruct (reads_as_fun _ _ _ R _ _ (reads_items c (proj2 H))) as [-> ->]. inversion F; subst. etransitivity; [exact E|]. rewrite assign_fresh by apply (proj1 H). reflexivity.
Qed.
Lemma cfg_eqb_spec a b : NoDup (dkeys a) -> NoDup (dkeys b) -> cfg_eqb a b = true <-> same_items a b.
Proof.
  intros Na Nb. unfold cfg_eqb. rewrite andb_true_iff, Nat.eqb_eq, forallb_forall. split.
  - intros [L H]. assert (Inc : incl a b).
    { intros [k v] I. specialize (H _ I). cbn [fst snd] in H. destruct (dget k b) as [w|] eqn:G; [|discriminate]. apply str_eqb_eq in H. subst w. apply dget_in, G. }
    assert (Inc' : incl b a). { apply NoDup_length_incl; [eapply NoDup_map_inv; exact Na|rewrite L; apply le_n|exact Inc]. }
    intros k v. split; [apply Inc|apply Inc'].
  - intros S. split.
    + apply Nat.le_antisymm; apply NoDup_incl_length; try (eapply NoDup_map_inv; eassumption); intros [k v] I; apply S; exact I.
    + intros [k v] I. cbn [fst snd]. rewrite (dget_nodup _ v _ Nb) by (apply S, I). apply str_eqb_refl.
Qed.
(** a written configuration is read back exactly when it is clean *)
Lemma c47_exact c : NoDup (map fst c) -> cfg_eqb (fst (load_text [] (config_text c))) c = true <-> clean_config c.
Proof.
  intros N. split.
  - intros E. assert (C0 : clean_config []) by (split; [constructor|intros k v []]). pose proof (c46_clean [] (config_text c) C0) as [Nd H]. apply cfg_eqb_spec in E; [|exact Nd|exact N].
    split; [exact N|]. intros k v I. apply H, E, I.
  - intros H. rewrite reload by exact H. cbn [fst]. apply cfg_eqb_spec; [exact N|exact N|]. intros k v. reflexivity.
Qed.
