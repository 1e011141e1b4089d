(** * The command lines of the tools: the order of options, and the values of the tools *)
From Coq Require Import Permutation Lia.
From Verif Require Import ParseFacts StrFacts ConfigFacts.
From Verif Require Import Args SpecArgs ArgFacts.

(** ** Order *)
Lemma nodup_map_inj {A B} (f : A -> B) l a b : NoDup (map f l) -> In a l -> In b l -> f a = f b -> a = b.
Proof.
  induction l as [|x l IH]; intros N Ha Hb E; [destruct Ha|]. cbn [map] in N. apply NoDup_cons_iff in N. destruct N as [N1 N2]. destruct Ha as [->|Ha], Hb as [->|Hb].
  - reflexivity.
  - exfalso. apply N1. rewrite E. apply in_map. exact Hb.
  - exfalso. apply N1. rewrite <- E. apply in_map. exact Ha.
  - apply IH; assumption.
Qed.
Lemma nodup_left {A} (a b : list A) : NoDup (a ++ b) -> NoDup a.
Proof.
  induction a as [|x a IH]; intros N; [constructor|]. cbn [app] in N. apply NoDup_cons_iff in N. destruct N as [N1 N2]. constructor; [|apply IH; exact N2].
  intros H. apply N1. apply in_or_app. left. exact H.
Qed.
Lemma texts_app l l' : texts (l ++ l') = texts l ++ texts l'.
Proof. apply flat_map_app. Qed.
Lemma last_text_in p o l v : NoDup (map o_dest p) -> settings_of p l -> In o p -> takes_text o -> NoDup (texts l) ->
  last_text l (o_dest o) = Some v <-> In (o, Some v) l.
Proof.
  intros N S Ho T. revert S. induction l as [|s l IH] using rev_ind; intros S U; [split; [discriminate|intros []]|].
  apply Forall_app in S. destruct S as [S S']. apply Forall_cons_iff in S'. destruct S' as [[Hs P] _]. rewrite texts_app in U.
  rewrite (last_text_more l s), in_app_iff. cbn [In]. destruct (str_eqb_spec (o_dest (fst s)) (o_dest o)) as [E|Ne].
  - assert (Eo : fst s = o) by (apply (nodup_map_inj o_dest p); assumption). destruct s as [o' v']. unfold proper in P. cbn [fst snd] in *. subst o'.
    destruct P as [[K _]|[_ [x ->]]]; [exfalso; exact (flag_not_takes o K T)|]. split.
    + intros H. right. left. congruence.
    + intros [H|[H|[]]]; [|congruence]. exfalso. cbn [texts flat_map snd fst app] in U. apply NoDup_remove_2 in U. rewrite app_nil_r in U. apply U. unfold texts. apply in_flat_map. exists (o, Some v).
      split; [exact H|left; reflexivity].
  - assert (U' : NoDup (texts l)) by (apply (nodup_left _ _ U)). rewrite (IH S U'). split; [auto|]. intros [H|[H|[]]]; [exact H|]. subst s. exfalso. apply Ne. reflexivity.
Qed.
Lemma texts_perm l l' : Permutation l l' -> Permutation (texts l) (texts l').
Proof. intros P. unfold texts. apply Permutation_flat_map. exact P. Qed.
Lemma existsb_perm {A} (f : A -> bool) l l' : Permutation l l' -> existsb f l = existsb f l'.
Proof.
  induction 1 as [|x l l' P IH|x y l|l l' l'' P IH P' IH']; cbn [existsb]; [reflexivity|rewrite IH; reflexivity| |congruence].
  destruct (f x), (f y); reflexivity.
Qed.
Lemma values_perm p l l' : NoDup (map o_dest p) -> settings_of p l -> Permutation l l' -> NoDup (texts l) -> values p l = values p l'.
Proof.
  intros N S P U. unfold values. apply flat_map_same. intros o Ho. unfold value_of. rewrite (existsb_perm _ l l' P). destruct (o_kind o) eqn:K; [reflexivity| |reflexivity].
  assert (T : takes_text o) by (exists default; exact K).
  assert (S' : settings_of p l') by (unfold settings_of in *; apply (Permutation_Forall P S)).
  assert (U' : NoDup (texts l')) by (apply (Permutation_NoDup (texts_perm l l' P) U)).
  assert (E : last_text l (o_dest o) = last_text l' (o_dest o)); [|rewrite E; reflexivity].
  destruct (last_text l (o_dest o)) as [v|] eqn:E.
  - symmetry. apply (last_text_in p o l' v N S' Ho T U'). apply (Permutation_in _ P). apply (last_text_in p o l v N S Ho T U). exact E.
  - destruct (last_text l' (o_dest o)) as [v|] eqn:E'; [|reflexivity]. apply (last_text_in p o l' v N S' Ho T U') in E'. apply (Permutation_in _ (Permutation_sym P)) in E'.
    apply (last_text_in p o l v N S Ho T U) in E'. congruence.
Qed.
Lemma parts_line p parts : Forall (fun x => item p (fst x) (snd x)) parts -> line p (flat_map fst parts) (flat_map snd parts).
Proof. induction 1 as [|x parts I F IH]; [constructor|]. cbn [flat_map]. apply li_more; assumption. Qed.

(** ** The parsers of the tools *)
Fixpoint distinct (l : list str) : bool := match l with [] => true | x :: l' => negb (existsb (str_eqb x) l') && distinct l' end.
Lemma distinct_nodup l : distinct l = true -> NoDup l.
Proof.
  induction l as [|x l IH]; intros H; [constructor|]. cbn [distinct] in H. apply andb_true_iff in H. destruct H as [H1 H2]. constructor; [|apply IH; exact H2].
  intros I. apply negb_true_iff in H1. rewrite <- not_true_iff_false, existsb_exists in H1. apply H1. exists x. split; [exact I|apply str_eqb_refl].
Qed.
Definition form (n : str) : bool :=
  match n with
  | a :: c :: x => Ascii.eqb a "-" && (if Ascii.eqb c "-" then negb (str_eqb x []) && negb (existsb (Ascii.eqb "=") x) else str_eqb x [] && negb (Ascii.eqb c "="))
  | _ => false
  end.
Lemma form_ok n : form n = true -> short_name n \/ long_name n.
Proof.
  destruct n as [|a [|c x]]; try discriminate. cbn [form]. intros H. apply andb_true_iff in H. destruct H as [A H]. apply Ascii.eqb_eq in A. subst a. destruct (Ascii.eqb_spec c "-") as [->|C].
  - right. apply andb_true_iff in H. destruct H as [H1 H2]. exists x. split; [reflexivity|]. split; [intros ->; rewrite str_eqb_refl in H1; discriminate H1|].
    intros I. apply negb_true_iff in H2. rewrite <- not_true_iff_false, existsb_exists in H2. apply H2. exists "="%char. split; [exact I|reflexivity].
  - left. apply andb_true_iff in H. destruct H as [H1 H2]. apply str_eqb_eq in H1. subst x. exists c. split; [reflexivity|]. split; [exact C|]. intros ->. discriminate H2.
Qed.
Lemma declares p a b : distinct (all_names p) = true -> distinct (map o_dest p) = true -> forallb form (all_names p) = true ->
  In ($"--" ++ a) (all_names p) -> In ($"--" ++ b) (all_names p) -> a <> b -> declared p.
Proof.
  intros H1 H2 H3 Ha Hb Ne.
  assert (F : forall n, In n (all_names p) -> short_name n \/ long_name n) by (intros n Hn; apply form_ok; rewrite forallb_forall in H3; apply H3; exact Hn).
  assert (L : forall x, In ($"--" ++ x) (all_names p) -> long_name ($"--" ++ x)).
  { intros x Hx. destruct (F _ Hx) as [(c & E & C & _)|L]; [|exact L]. change ($"--" ++ x) with ("-"%char :: "-"%char :: x) in E. injection E as E _. congruence. }
  split; [apply distinct_nodup; exact H1|apply distinct_nodup; exact H2|exact F|].
  exists ($"--" ++ a), ($"--" ++ b). repeat split; auto. intros E. apply app_inv_head in E. exact (Ne E).
Qed.
Lemma convert_declared : declared convert_parser.
Proof. apply (declares _ ($"version") ($"empty")); [vm_compute; reflexivity..| | |discriminate]; vm_compute; auto 9. Qed.
Lemma diff_declared : declared diff_parser.
Proof. apply (declares _ ($"ddl1") ($"ddl2")); [vm_compute; reflexivity..| | |discriminate]; vm_compute; auto 9. Qed.
Lemma review_declared : declared review_parser.
Proof. apply (declares _ ($"version") ($"show_tests")); [vm_compute; reflexivity..| | |discriminate]; vm_compute; auto 9. Qed.

(** ** The values of the tools *)
Lemma dget_value p o l : declared p -> In o p -> dget (o_dest o) (values p l) = match value_of o l with (_, v) :: _ => Some v | [] => None end.
Proof.
  intros D Ho. assert (N := dp_dests p D). apply in_split in Ho. destruct Ho as (a & b & ->). rewrite values_split. rewrite map_app in N. cbn [map] in N. apply NoDup_remove_2 in N.
  assert (App : forall x y : dict arg, ~ In (o_dest o) (dkeys x) -> dget (o_dest o) (x ++ y) = dget (o_dest o) y).
  { intros x y H. induction x as [|[k v] x IH]; [reflexivity|]. cbn [app dget]. destruct (str_eqb_spec (o_dest o) k) as [E|_]; [exfalso; apply H; left; symmetry; exact E|]. apply IH. intros Q. apply H. right. exact Q. }
  rewrite App by (intros H; apply N; apply in_or_app; left; apply (values_keys a l _ H)).
  assert (B : dget (o_dest o) (values b l) = None) by (apply dget_none; intros H; apply N; apply in_or_app; right; apply (values_keys b l _ H)).
  unfold value_of. destruct (o_kind o); cbn [app dget]; rewrite ?str_eqb_refl; [reflexivity|reflexivity|exact B].
Qed.
Lemma read_flag p names long l : declared p -> In (flag names long) p -> flag_at (values p l) long = existsb (fun s => str_eqb (o_dest (fst s)) long) l.
Proof. intros D H. unfold flag_at. assert (E := dget_value p _ l D H). cbn [flag o_dest] in E. rewrite E. reflexivity. Qed.
Lemma read_text_ p names long l : declared p -> In (takes names long ANone) p -> text_at (values p l) long = last_text l long.
Proof.
  intros D H. unfold text_at. assert (E := dget_value p _ l D H). cbn [takes o_dest] in E. rewrite E. unfold value_of. cbn [takes o_kind o_dest]. destruct (last_text l long); reflexivity.
Qed.
Lemma read_default p names long d l : declared p -> In (takes names long (AText d)) p -> py_text (text_at (values p l) long) = match last_text l long with Some v => v | None => d end.
Proof.
  intros D H. unfold text_at. assert (E := dget_value p _ l D H). cbn [takes o_dest] in E. rewrite E. unfold value_of. cbn [takes o_kind o_dest]. destruct (last_text l long); reflexivity.
Qed.
Ltac member := first [left; reflexivity|right; member].
Lemma convert_read l : convert_args_of (values convert_parser l) = convert_values l.
Proof.
  assert (F := fun names long => read_flag convert_parser names long l convert_declared). assert (T := fun names long => read_text_ convert_parser names long l convert_declared).
  assert (P := fun names long d => read_default convert_parser names long d l convert_declared). unfold convert_args_of, convert_values.
  rewrite (F [] ($"version")) by member. rewrite (F [] ($"empty")) by member. rewrite (T [] ($"from_ddl")) by member. rewrite (T [] ($"to_tql")) by member. rewrite (T [] ($"from_ts")) by member.
  rewrite (T [] ($"to_ts")) by member. rewrite (P [] ($"username") ($"admin")) by member. rewrite (P [] ($"password") ($"th0ughtSp0t")) by member. rewrite (T [] ($"from_excel")) by member.
  rewrite (T [] ($"to_excel")) by member. rewrite (T [$"-d"] ($"database")) by member. rewrite (P [$"-s"] ($"schema") ($"falcon_default_schema")) by member. rewrite (F [$"-c"] ($"create_db")) by member.
  rewrite (F [$"-l"] ($"lowercase")) by member. rewrite (F [$"-u"] ($"uppercase")) by member. rewrite (F [] ($"camelcase")) by member. rewrite (F [$"-v"] ($"validate")) by member.
  rewrite (F [] ($"debug")) by member. reflexivity.
Qed.
Lemma diff_read l : diff_args_of (values diff_parser l) = diff_values l.
Proof.
  assert (F := fun names long => read_flag diff_parser names long l diff_declared). assert (T := fun names long => read_text_ diff_parser names long l diff_declared).
  assert (P := fun names long d => read_default diff_parser names long d l diff_declared). unfold diff_args_of, diff_values.
  rewrite (T [] ($"ddl1")) by member. rewrite (T [] ($"ddl2")) by member. rewrite (P [] ($"database") ($"MY_DATABASE")) by member. rewrite (P [] ($"schema") ($"falcon_default_schema")) by member.
  rewrite (F [] ($"alter1")) by member. rewrite (F [] ($"alter2")) by member. rewrite (F [] ($"ignore_case")) by member. reflexivity.
Qed.
Lemma review_read l : review_args_of (values review_parser l) = review_values l.
Proof.
  assert (F := fun names long => read_flag review_parser names long l review_declared). assert (T := fun names long => read_text_ review_parser names long l review_declared).
  assert (P := fun names long d => read_default review_parser names long d l review_declared). unfold review_args_of, review_values.
  rewrite (F [] ($"version")) by member. rewrite (F [] ($"show_tests")) by member. rewrite (T [] ($"database_file")) by member. rewrite (T [] ($"worksheet_file")) by member.
  rewrite (T [] ($"ts_ip")) by member. rewrite (P [] ($"username") ($"admin")) by member. rewrite (P [] ($"password") ($"th0ughtSp0t")) by member. rewrite (T [$"-d"] ($"database")) by member.
  rewrite (F [] ($"debug")) by member. rewrite (T [] ($"config_file")) by member. reflexivity.
Qed.
Lemma shown_default (t : option str) d : AText (match t with Some v => v | None => d end) = match t with Some v => AText v | None => AText d end.
Proof. destruct t; reflexivity. Qed.
Lemma convert_shown l : convert_namespace (convert_values l) = values convert_parser l.
Proof. unfold convert_namespace, convert_values. cbn [version empty from_ddl to_tql from_ts to_ts username password from_excel to_excel db_option schema_option create_db lower_option upper_option camel_option validate_option debug].
  unfold text_or. rewrite !shown_default. reflexivity. Qed.
Lemma diff_shown l : diff_namespace (diff_values l) = values diff_parser l.
Proof. unfold diff_namespace, diff_values. cbn [ddl1 ddl2 database1 schema1 alter1 alter2 ignore_case]. unfold text_or. rewrite !shown_default. reflexivity. Qed.
Lemma review_shown l : review_namespace (review_values l) = values review_parser l.
Proof. unfold review_namespace, review_values. cbn [r_version show_tests database_file worksheet_file ts_ip r_username r_password r_database r_debug config_file]. unfold text_or. rewrite !shown_default. reflexivity. Qed.
Lemma with_line p help usage main ws l : declared p -> line p ws l -> with_args p help usage main ws = main (values p l).
Proof. intros D L. unfold with_args. rewrite (proj2 (parse_exact p ws (values p l) D) (ex_intro _ l (conj L eq_refl))). reflexivity. Qed.
Lemma with_no_line p help usage main ws st : declared p -> (forall l, ~ line p ws l) ->
  exists st', with_args p help usage main ws st = (st', Ok tt) /\ files st' = files st /\ sent st' = sent st
    /\ ((parse_args p ws = Helped /\ out st' = out st ++ [Printed (help ++ [newline])] /\ err st' = err st)
        \/ (exists r, parse_args p ws = Refused r /\ out st' = out st /\ err st' = err st ++ [usage r ++ [newline]])).
Proof.
  intros D N. unfold with_args. destruct (parse_args p ws) as [ns| |r|e] eqn:E.
  - exfalso. apply (parse_exact p ws ns D) in E. destruct E as (l & L & _). exact (N l L).
  - eexists. split; [reflexivity|]. repeat split. left. auto.
  - eexists. split; [reflexivity|]. repeat split. right. exists r. auto.
  - exfalso. exact (parse_total p ws e E).
Qed.
Lemma reads_unknown p w : declared p -> parse_optional p w = Unknown -> unknown p w.
Proof.
  intros D E. split; [intros T; apply (text_word_argument p w D) in T; congruence|]. destruct w as [|a w]; [discriminate E|]. destruct (Ascii.eqb_spec a "-") as [->|A].
  2:{ unfold parse_optional in E. destruct (Ascii.eqb_spec a "-") as [H|_]; [contradiction|discriminate E]. }
  destruct w as [|c w].
  { assert (X : parse_optional p ["-"%char] = Argument) by (apply (text_word_argument p _ D); right; left; reflexivity). congruence. }
  destruct (Ascii.eqb_spec c "-") as [->|Hc].
  - destruct (split_equals w) as (x & v & X & ->). assert (LR := long_reading p x v D X). cbv zeta in LR. cbn [app] in LR.
    destruct LR as [(o & n & _ & _ & _ & R)|(_ & [(m & R & _)|(No & _)])]; [congruence|congruence|].
    assert (NW : ~ In "="%char ("-"%char :: "-"%char :: x)) by (intros [Q|[Q|Q]]; [discriminate|discriminate|exact (X Q)]).
    intros [(c & y & o & Q & Ho & Hn)|(y & Hy & Q & Ny & n & Hn & Bn)].
    + injection Q as Q _. subst c. apply (not_name p D). apply ar_name. exists o. auto.
    + assert (Ey : "-"%char :: "-"%char :: x = y); [|apply (No n Hn); rewrite Ey; exact Bn]. assert (P := partition_given ("-"%char :: "-"%char :: x) v NW). cbn [app] in P. destruct Q as [Q|[v' Q]]; rewrite Q in P.
      * rewrite (partition_none y Ny) in P. congruence.
      * change (y ++ $"=" ++ v') with (y ++ "="%char :: v') in P. rewrite (partition_found y v' Ny) in P. congruence.
  - rewrite (short_reading p c w D Hc) in E. destruct (dget ["-"%char; c] (actions p)) eqn:G; [discriminate E|].
    intros [(c' & y & o & Q & Hs)|(y & [z Hz] & _)].
    + injection Q as <- _. apply (ar_get p _ o D) in Hs. congruence.
    + injection Hz as Hz _. exact (Hc Hz).
Qed.
Lemma exact_long p o n : In o p -> In ($"--" ++ n) (o_names o) -> n <> [] -> names_long p ($"--" ++ n) o.
Proof.
  intros Ho Hn N. split; [exists n; reflexivity|]. split; [|split; [exact Ho|left; exact Hn]]. intros E. apply N. change ($"--") with ($"--" ++ []) in E at 2. apply app_inv_head in E. exact E.
Qed.
