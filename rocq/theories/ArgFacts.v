(** * Facts about the command lines *)
From Verif Require Import ParseFacts StrFacts ConfigFacts.
From Verif Require Import Args SpecArgs.
From Coq Require Import Lia.

(** ** Names *)
Lemma ar_keys p : dkeys (actions p) = all_names p.
Proof.
  unfold dkeys, actions, all_names. induction p as [|o p IH]; [reflexivity|]. cbn [flat_map]. rewrite map_app, IH, map_map. cbn [fst].
  rewrite map_id. reflexivity.
Qed.
Lemma ar_in p n o : In (n, o) (actions p) <-> In o p /\ In n (o_names o).
Proof.
  unfold actions. rewrite in_flat_map. split.
  - intros (o' & Ho & Hn). apply in_map_iff in Hn. destruct Hn as (n' & E & Hn). apply pair_equal_spec in E. destruct E as [-> ->]. auto.
  - intros [Ho Hn]. exists o. split; [exact Ho|]. apply in_map_iff. exists n. auto.
Qed.
Lemma ar_name p n : In n (all_names p) <-> exists o, In o p /\ In n (o_names o).
Proof. apply in_flat_map. Qed.
Lemma ar_get p n o : declared p -> dget n (actions p) = Some o <-> In o p /\ In n (o_names o).
Proof.
  intros D. rewrite <- ar_in. split; [apply dget_in|]. apply dget_nodup. rewrite ar_keys. apply dp_names. exact D.
Qed.
Lemma ar_get_none p n : dget n (actions p) = None <-> ~ In n (all_names p).
Proof. rewrite dget_none, ar_keys. tauto. Qed.
Lemma ar_same p n o o' : declared p -> In o p -> In n (o_names o) -> In o' p -> In n (o_names o') -> o = o'.
Proof. intros D H1 H2 H3 H4. assert (E : Some o = Some o') by (rewrite <- (proj2 (ar_get p n o D) (conj H1 H2)); apply (ar_get p n o' D); auto). congruence. Qed.

(** ** Matches *)
Lemma filter_one {A} (f : A -> bool) l : NoDup l ->
  match filter f l with
  | [] => forall x, In x l -> f x = false
  | [x] => In x l /\ f x = true /\ forall y, In y l -> f y = true -> y = x
  | x :: y :: _ => x <> y /\ In x l /\ In y l /\ f x = true /\ f y = true
  end.
Proof.
  intros N. assert (N' := NoDup_filter f N). destruct (filter f l) as [|x [|y r]] eqn:E.
  - intros x Hx. destruct (f x) eqn:F; [|reflexivity]. assert (I : In x (filter f l)) by (apply filter_In; auto). rewrite E in I. destruct I.
  - assert (I : In x (filter f l)) by (rewrite E; left; reflexivity). apply filter_In in I. destruct I as [I F]. split; [exact I|]. split; [exact F|].
    intros y Hy Fy. assert (J : In y (filter f l)) by (apply filter_In; auto). rewrite E in J. destruct J as [J|[]]. symmetry. exact J.
  - assert (I : In x (filter f l)) by (rewrite E; left; reflexivity). assert (J : In y (filter f l)) by (rewrite E; right; left; reflexivity).
    apply filter_In in I. apply filter_In in J. destruct I as [I F]. destruct J as [J G]. repeat split; try assumption. intros ->. inversion N' as [|? ? H _].
    apply H. left. reflexivity.
Qed.
Lemma flat_map_filter {A B} (f : A -> bool) (g : A -> B) l : flat_map (fun x => if f x then [g x] else []) l = map g (filter f l).
Proof. induction l as [|x l IH]; [reflexivity|]. cbn [flat_map filter]. destruct (f x); cbn [map app]; rewrite IH; reflexivity. Qed.
Lemma flat_map_same {A B} (f g : A -> list B) l : (forall x, In x l -> f x = g x) -> flat_map f l = flat_map g l.
Proof. induction l as [|x l IH]; intros H; [reflexivity|]. cbn [flat_map]. rewrite IH, (H x); [reflexivity|left; reflexivity|]. intros y Hy. apply H. right. exact Hy. Qed.
Lemma nodup_pairs {A B} (l : list (A * B)) : NoDup (map fst l) -> NoDup l.
Proof. apply NoDup_map_inv. Qed.
Lemma ar_nodup p : declared p -> NoDup (actions p).
Proof. intros D. apply nodup_pairs. change (map fst (actions p)) with (dkeys (actions p)). rewrite ar_keys. apply dp_names. exact D. Qed.

Lemma partition_none s : ~ In "="%char s -> partition_char "=" s = (s, false, []).
Proof.
  intros N. pose proof (partition_spec "=" s) as P. destruct (partition_char "=" s) as [[a f] b]. destruct P as [_ P]. destruct f.
  - subst s. exfalso. apply N. apply in_or_app. right. left. reflexivity.
  - destruct P as [-> ->]. reflexivity.
Qed.
Lemma partition_found a v : ~ In "="%char a -> partition_char "=" (a ++ "="%char :: v) = (a, true, v).
Proof.
  induction a as [|c a IH]; intros N.
  - cbn [app partition_char]. rewrite Ascii.eqb_refl. reflexivity.
  - cbn [app partition_char]. destruct (Ascii.eqb_spec c "=") as [->|_]; [exfalso; apply N; left; reflexivity|]. rewrite IH; [reflexivity|].
    intros H. apply N. right. exact H.
Qed.
(** a name has no equals sign *)
Lemma name_no_eq p n : declared p -> In n (all_names p) -> ~ In "="%char n.
Proof.
  intros D H. destruct (dp_forms p D n H) as [(c & -> & _ & C)|(x & -> & _ & X)].
  - intros [E|[E|[]]]; [discriminate|exact (C E)].
  - intros I. apply in_app_or in I. destruct I as [[I|[I|[]]]|I]; [discriminate|discriminate|exact (X I)].
Qed.
Lemma name_dash p n : declared p -> In n (all_names p) -> exists c r, n = "-"%char :: c :: r.
Proof. intros D H. destruct (dp_forms p D n H) as [(c & -> & _)|(x & -> & _)]; [exists c, []; reflexivity|exists "-"%char, x; reflexivity]. Qed.
(** a name that begins with two dashes is long *)
Lemma name_long p n x : declared p -> In n (all_names p) -> n = "-"%char :: "-"%char :: x -> long_name n.
Proof.
  intros D H E. destruct (dp_forms p D n H) as [(c & E' & C & _)|L]; [|exact L]. rewrite E in E'. injection E' as E' _. congruence.
Qed.
Lemma name_short p n c x : declared p -> In n (all_names p) -> n = "-"%char :: c :: x -> c <> "-"%char -> x = [].
Proof.
  intros D H E C. destruct (dp_forms p D n H) as [(c' & E' & _)|(y & E' & _)]; rewrite E in E'.
  - injection E' as _ E'. exact E'.
  - change ($"--" ++ y) with ("-"%char :: "-"%char :: y) in E'. injection E' as E' _. congruence.
Qed.
Lemma not_name p : declared p -> ~ In ($"--") (all_names p).
Proof.
  intros D H. destruct (dp_forms p D _ H) as [(c & E & C & _)|(x & E & X & _)].
  - change ($"--") with ["-"%char; "-"%char] in E. injection E as E. congruence.
  - change ($"--" ++ x) with ("-"%char :: "-"%char :: x) in E. change ($"--") with ["-"%char; "-"%char] in E. injection E as E. congruence.
Qed.

(** ** Words with two dashes *)
Definition given_value (v : option str) : str := match v with Some v => "="%char :: v | None => [] end.
Definition as_explicit (v : option str) : option (bool * str) := option_map (pair true) v.
Lemma partition_given a v : ~ In "="%char a -> partition_char "=" (a ++ given_value v) = (a, match v with Some _ => true | None => false end, match v with Some v => v | None => [] end).
Proof. destruct v; intros N; cbn [given_value]; [apply partition_found; exact N|rewrite app_nil_r; apply partition_none; exact N]. Qed.
Definition reads_nothing (r : reading) : Prop := match r with Option _ _ _ => False | _ => True end.
Lemma long_reading p x v : declared p -> ~ In "="%char x ->
  let w := "-"%char :: "-"%char :: x in
  (exists o n, names_long p w o /\ In n (o_names o) /\ long_name n /\ parse_optional p (w ++ given_value v) = Option o n (as_explicit v))
  \/ ((forall o, ~ names_long p w o)
      /\ ((exists l, parse_optional p (w ++ given_value v) = Ambiguous l /\ ~ In w (all_names p) /\ exists n m, In n (all_names p) /\ In m (all_names p) /\ n <> m /\ begins w n /\ begins w m)
          \/ ((forall n, In n (all_names p) -> ~ begins w n)
              /\ parse_optional p (w ++ given_value v) = if negative_number (w ++ given_value v) || contains ($" ") (w ++ given_value v) then Argument else Unknown))).
Proof.
  intros D N w. assert (Nw : ~ In "="%char w) by (intros [E|[E|E]]; [discriminate|discriminate|exact (N E)]).
  assert (P := partition_given w v Nw).
  assert (Long : forall n, In n (all_names p) -> begins w n -> long_name n).
  { intros n Hn [y Hy]. apply (name_long p n (x ++ y) D Hn). rewrite Hy. reflexivity. }
  assert (Exact : forall o, In o p -> In w (o_names o) -> names_long p w o).
  { intros o Ho Hw. split; [exists x; reflexivity|]. split; [|split; [exact Ho|left; exact Hw]]. intros E. apply (not_name p D). apply ar_name. exists o. rewrite <- E. auto. }
  assert (Red : parse_optional p (w ++ given_value v) =
     match dget w (actions p) with
     | Some o => Option o w (as_explicit v)
     | None => match option_tuples p (w ++ given_value v) with
               | [(o, name, explicit)] => Option o name explicit
               | (_ :: _) as l => Ambiguous (map (fun t => snd (fst t)) l)
               | [] => if negative_number (w ++ given_value v) || contains ($" ") (w ++ given_value v) then Argument else Unknown
               end
     end).
  { unfold parse_optional. destruct v as [v|]; cbn [given_value] in *.
    - assert (G : dget (w ++ "="%char :: v) (actions p) = None).
      { apply ar_get_none. intros H. apply (name_no_eq p _ D H). apply in_or_app. right. left. reflexivity. }
      rewrite G, P. cbn [w app negb Ascii.eqb Bool.eqb length Nat.eqb]. destruct (dget ("-"%char :: "-"%char :: x) (actions p)); reflexivity.
    - rewrite app_nil_r in *. rewrite P. cbn [w app negb Ascii.eqb Bool.eqb length Nat.eqb].
      destruct (dget ("-"%char :: "-"%char :: x) (actions p)); reflexivity. }
  rewrite Red. clear Red. destruct (dget w (actions p)) as [o|] eqn:G.
  { apply (ar_get p w o D) in G. destruct G as [Ho Hw]. left. exists o, w. split; [apply Exact; assumption|]. split; [exact Hw|]. split; [|reflexivity].
    apply Long; [apply ar_name; exists o; auto|exists []; rewrite app_nil_r; reflexivity]. }
  apply ar_get_none in G.
  assert (T : option_tuples p (w ++ given_value v) = map (fun no => (snd no, fst no, as_explicit v)) (filter (fun no => starts_with w (fst no)) (actions p))).
  { unfold option_tuples. change (w ++ given_value v) with ("-"%char :: "-"%char :: x ++ given_value v) at 1. cbn [Ascii.eqb Bool.eqb]. cbv iota.
    change ("-"%char :: "-"%char :: x ++ given_value v) with (w ++ given_value v). rewrite P. rewrite <- flat_map_filter. destruct v; reflexivity. }
  rewrite T. clear T. pose proof (filter_one (fun no => starts_with w (fst no)) (actions p) (ar_nodup p D)) as F.
  destruct (filter (fun no => starts_with w (fst no)) (actions p)) as [|[n o] [|[n' o'] r]].
  - right. split.
    + intros o (_ & _ & Ho & [Hw|(_ & n & Hn & B & _)]).
      * apply G. apply ar_name. exists o. auto.
      * assert (X := F (n, o) (proj2 (ar_in p n o) (conj Ho Hn))). cbn [fst] in X. assert (starts_with w n = true) by (apply ParseFacts.starts_with_spec; exact B). congruence.
    + right. split; [|reflexivity]. intros n Hn B. apply ar_name in Hn. destruct Hn as (o & Ho & Hn). assert (X := F (n, o) (proj2 (ar_in p n o) (conj Ho Hn))). cbn [fst] in X.
      assert (starts_with w n = true) by (apply ParseFacts.starts_with_spec; exact B). congruence.
  - destruct F as (I & S & U). cbn [fst] in S. apply ParseFacts.starts_with_spec in S. apply ar_in in I. destruct I as [Ho Hn].
    assert (An : In n (all_names p)) by (apply ar_name; exists o; auto).
    assert (Uniq : forall m, In m (all_names p) -> begins w m -> m = n).
    { intros m Hm B. apply ar_name in Hm. destruct Hm as (o' & Ho' & Hm). assert (X := U (m, o') (proj2 (ar_in p m o') (conj Ho' Hm))). cbn [fst] in X.
      assert (E : (m, o') = (n, o)) by (apply X; apply ParseFacts.starts_with_spec; exact B). apply pair_equal_spec in E. apply E. }
    left. exists o, n. split; [|split; [exact Hn|split; [apply Long; assumption|reflexivity]]].
    split; [exists x; reflexivity|]. split; [|split; [exact Ho|right; split; [exact G|exists n; auto]]].
    intros E. destruct (dp_two p D) as (a & b & Ha & Hb & La & Lb & Ne). apply Ne. transitivity n; [apply Uniq; [exact Ha|]|symmetry; apply Uniq; [exact Hb|]]; rewrite E.
    + destruct La as (y & -> & _). exists y. reflexivity.
    + destruct Lb as (y & -> & _). exists y. reflexivity.
  - destruct F as (Ne & I & I' & S & S'). cbn [fst] in S, S'. apply ParseFacts.starts_with_spec in S. apply ParseFacts.starts_with_spec in S'.
    apply ar_in in I. apply ar_in in I'. right. split.
    + intros q (_ & _ & Hq & [Hw|(_ & m & Hm & B & U)]); [apply G; apply ar_name; exists q; auto|].
      assert (E : n = m) by (apply U; [apply ar_name; exists o; exact I|exact S]). assert (E' : n' = m) by (apply U; [apply ar_name; exists o'; exact I'|exact S']).
      subst n n'. apply Ne. f_equal. apply (ar_same p m o o' D); tauto.
    + left. eexists. split; [reflexivity|]. split; [exact G|]. exists n, n'. split; [apply ar_name; exists o; exact I|]. split; [apply ar_name; exists o'; exact I'|].
      split; [|split; [exact S|exact S']]. intros ->. apply Ne. f_equal. apply (ar_same p n' o o' D); tauto.
Qed.

(** ** Words with one dash *)
Lemma short_reading p c x : declared p -> c <> "-"%char ->
  parse_optional p ("-"%char :: c :: x) =
  match dget ["-"%char; c] (actions p) with
  | Some o => Option o ["-"%char; c] (match x with [] => None | e :: v => if Ascii.eqb e "=" then Some (true, v) else Some (false, x) end)
  | None => if negative_number ("-"%char :: c :: x) || contains ($" ") ("-"%char :: c :: x) then Argument else Unknown
  end.
Proof.
  intros D C. set (w := "-"%char :: c :: x).
  assert (T : option_tuples p w = match dget ["-"%char; c] (actions p) with Some o => [(o, ["-"%char; c], Some (false, x))] | None => [] end).
  { unfold option_tuples, w. destruct (Ascii.eqb_spec c "-") as [->|_]; [exfalso; apply C; reflexivity|].
    transitivity (map (fun no => (snd no, fst no, Some (false, x))) (filter (fun no => str_eqb (fst no) ["-"%char; c]) (actions p))).
    - rewrite <- flat_map_filter. apply flat_map_same. intros [n o] I. cbn [fst snd]. destruct (str_eqb_spec n ["-"%char; c]) as [_|Ne]; [reflexivity|].
      destruct (starts_with ("-"%char :: c :: x) n) eqn:S; [|reflexivity]. exfalso. apply ParseFacts.starts_with_spec in S. destruct S as [y S].
      apply ar_in in I. assert (H : In n (all_names p)) by (apply ar_name; exists o; exact I).
      cbn [app] in S. assert (E := name_short p n c (x ++ y) D H S C). apply Ne. rewrite S, E. reflexivity.
    - pose proof (filter_one (fun no => str_eqb (fst no) ["-"%char; c]) (actions p) (ar_nodup p D)) as F.
      destruct (filter (fun no => str_eqb (fst no) ["-"%char; c]) (actions p)) as [|[n o] [|[n' o'] r]].
      + destruct (dget ["-"%char; c] (actions p)) as [o|] eqn:G; [|reflexivity]. apply dget_in in G. assert (X := F _ G). cbn [fst] in X. rewrite str_eqb_refl in X. discriminate X.
      + destruct F as (I & S & _). cbn [fst] in S. apply str_eqb_eq in S. subst n. apply ar_in in I. apply (ar_get p _ o D) in I. rewrite I. reflexivity.
      + destruct F as (Ne & I & I' & S & S'). cbn [fst] in S, S'. apply str_eqb_eq in S. apply str_eqb_eq in S'. subst n n'. apply ar_in in I. apply ar_in in I'.
        exfalso. apply Ne. f_equal. apply (ar_same p ["-"%char; c] o o' D); tauto. }
  assert (NoDash : dget ["-"%char] (actions p) = None).
  { apply ar_get_none. intros H. destruct (name_dash p _ D H) as (? & ? & E). discriminate E. }
  assert (NoMore : forall e v, dget ("-"%char :: c :: e :: v) (actions p) = None).
  { intros e v. apply ar_get_none. intros H. assert (E := name_short p _ c (e :: v) D H eq_refl C). discriminate E. }
  assert (NoEq : dget ["-"%char; "="%char] (actions p) = None).
  { apply ar_get_none. intros H. apply (name_no_eq p _ D H). right. left. reflexivity. }
  assert (Part : (let '(name, sep, v) := partition_char "=" w in match (if sep then dget name (actions p) else None) with Some o => Some (Option o name (Some (true, v))) | None => None end)
    = match x with e :: v => if Ascii.eqb e "=" then match dget ["-"%char; c] (actions p) with Some o => Some (Option o ["-"%char; c] (Some (true, v))) | None => None end else None | [] => None end).
  { pose proof (partition_spec "=" w) as P. destruct (partition_char "=" w) as [[name sep] v]. destruct P as [Nn P]. unfold w in *. destruct sep.
    - destruct name as [|a name]; [discriminate P|]. injection P as E P. subst a. destruct name as [|b name].
      + cbn [app] in P. injection P as E P. subst c. rewrite NoDash, NoEq. destruct x as [|e v']; [reflexivity|]. destruct (Ascii.eqb e "="); reflexivity.
      + cbn [app] in P. injection P as E P. subst b. destruct name as [|d name].
        * cbn [app] in P. rewrite P, Ascii.eqb_refl. reflexivity.
        * cbn [app] in P. rewrite P, NoMore. destruct (Ascii.eqb_spec d "=") as [->|_]; [|reflexivity]. exfalso. apply Nn. right. right. left. reflexivity.
    - destruct P as [P _]. destruct x as [|e v']; [reflexivity|]. destruct (Ascii.eqb_spec e "=") as [->|_]; [|reflexivity]. exfalso. apply Nn. rewrite <- P. right. right. left. reflexivity. }
  unfold parse_optional. unfold w at 1. change (Ascii.eqb "-" "-") with true. cbn [negb]. cbv iota. destruct x as [|e v].
  - destruct (dget ["-"%char; c] (actions p)) as [o|] eqn:G; change (dget w (actions p)) with (dget ["-"%char; c] (actions p)); rewrite G; [reflexivity|].
    change (Nat.eqb (length w) 1) with false. cbv iota.
    destruct (partition_char "=" w) as [[name sep] v]. destruct (if sep then dget name (actions p) else None); [discriminate Part|]. rewrite T. reflexivity.
  - change (dget w (actions p)) with (dget ("-"%char :: c :: e :: v) (actions p)). rewrite NoMore. change (Nat.eqb (length w) 1) with false. cbv iota.
    destruct (partition_char "=" w) as [[name sep] v']. destruct (if sep then dget name (actions p) else None) as [o|].
    + destruct (Ascii.eqb e "="); [|discriminate Part]. destruct (dget ["-"%char; c] (actions p)) as [o'|]; [|discriminate Part]. injection Part as -> -> ->. reflexivity.
    + rewrite T. destruct (dget ["-"%char; c] (actions p)) as [o'|]; [|reflexivity]. destruct (Ascii.eqb e "="); [discriminate Part|]. reflexivity.
Qed.

(** ** Numbers *)
Lemma ar_digit c : is_digit c = true <-> digit c.
Proof. unfold is_digit, digit. rewrite andb_true_iff, !Nat.leb_le. tauto. Qed.
Lemma ar_digits s : digits s = true <-> s <> [] /\ Forall digit s.
Proof.
  unfold digits. rewrite andb_true_iff, forallb_forall, Forall_forall, negb_true_iff. split.
  - intros [F N]. split; [intros ->; rewrite str_eqb_refl in N; discriminate N|]. intros c H. apply ar_digit. apply F. exact H.
  - intros [N F]. split; [intros c H; apply ar_digit; apply F; exact H|]. destruct (str_eqb_spec s []) as [E|_]; [contradiction|reflexivity].
Qed.
Definition body (a : str) : Prop := (a <> [] /\ Forall digit a) \/ exists b c, a = b ++ $"." ++ c /\ Forall digit b /\ c <> [] /\ Forall digit c.
Lemma partition_point a v : ~ In "."%char a -> partition_char "." (a ++ "."%char :: v) = (a, true, v).
Proof.
  induction a as [|c a IH]; intros N.
  - cbn [app partition_char]. rewrite Ascii.eqb_refl. reflexivity.
  - cbn [app partition_char]. destruct (Ascii.eqb_spec c ".") as [->|_]; [exfalso; apply N; left; reflexivity|]. rewrite IH; [reflexivity|].
    intros H. apply N. right. exact H.
Qed.
Lemma ar_body r : (digits r || (let '(a, point, b) := partition_char "." r in point && forallb is_digit a && digits b))%bool = true <-> body r.
Proof.
  rewrite orb_true_iff, ar_digits. unfold body. assert (K : (let '(a, point, b) := partition_char "." r in point && forallb is_digit a && digits b)%bool = true <->
    exists b c, r = b ++ $"." ++ c /\ Forall digit b /\ c <> [] /\ Forall digit c); [|tauto]. split.
  - pose proof (partition_spec "." r) as P. destruct (partition_char "." r) as [[a f] b]. destruct P as [_ P]. destruct f; [|discriminate]. intros H.
    apply andb_true_iff in H. destruct H as [H1 H2]. apply ar_digits in H2. destruct H2 as [H2 H3]. exists a, b. split; [exact P|]. split; [|auto].
    apply Forall_forall. intros c Hc. apply ar_digit. cbn [andb] in H1. rewrite forallb_forall in H1. apply H1. exact Hc.
  - intros (b & c & -> & Fb & Nc & Fc). change (b ++ $"." ++ c) with (b ++ "."%char :: c). rewrite partition_point.
    + cbn [andb]. apply andb_true_iff. split; [|apply ar_digits; auto]. apply forallb_forall. intros d Hd. apply ar_digit. rewrite Forall_forall in Fb. apply Fb. exact Hd.
    + intros H. rewrite Forall_forall in Fb. apply Fb in H. unfold digit in H. change (nat_of_ascii ".") with 46 in H. lia.
Qed.
Lemma body_last a : body a -> exists b d, a = b ++ [d] /\ digit d.
Proof.
  assert (L : forall s, s <> [] -> Forall digit s -> exists b d, s = b ++ [d] /\ digit d).
  { intros s N F. destruct (exists_last N) as (b & d & ->). exists b, d. split; [reflexivity|]. rewrite Forall_app in F. destruct F as [_ F]. inversion F. assumption. }
  intros [[N F]|(b & c & -> & _ & N & F)]; [apply L; assumption|]. destruct (L c N F) as (e & d & -> & Hd). exists (b ++ $"." ++ e), d.
  split; [rewrite <- !app_assoc; reflexivity|exact Hd].
Qed.
Lemma ar_negative s : negative_number s = true <-> number s.
Proof.
  unfold negative_number, number. split.
  - intros H. assert (E : exists e, (e = [] \/ e = [newline]) /\ s = no_newline s ++ e).
    { unfold no_newline. destruct (rev s) as [|c r] eqn:R; [exists []; rewrite app_nil_r; auto|]. destruct (Ascii.eqb_spec c newline) as [->|_]; [|exists []; rewrite app_nil_r; auto].
      exists [newline]. split; [auto|]. rewrite <- (rev_involutive s), R. reflexivity. }
    destruct E as (e & He & E). destruct (no_newline s) as [|c r]; [discriminate H|]. apply andb_true_iff in H. destruct H as [H1 H2]. apply Ascii.eqb_eq in H1. subst c.
    apply ar_body in H2. exists r, e. split; [exact He|]. split; [rewrite E; reflexivity|exact H2].
  - intros (a & e & He & E & B). assert (N : no_newline s = "-"%char :: a).
    { unfold no_newline. destruct He as [-> | ->]; rewrite E.
      - rewrite app_nil_r. destruct (body_last a B) as (b & d & -> & Hd). cbn [rev]. rewrite rev_app_distr. cbn [rev app]. destruct (Ascii.eqb_spec d newline) as [->|_]; [|reflexivity].
        exfalso. unfold digit in Hd. change (nat_of_ascii newline) with 10 in Hd. lia.
      - cbn [rev]. rewrite rev_app_distr. cbn [rev app]. rewrite Ascii.eqb_refl, rev_app_distr, rev_involutive. reflexivity. }
    rewrite N. apply andb_true_iff. split; [reflexivity|]. apply ar_body. exact B.
Qed.

(** ** Words that are texts *)
Lemma split_equals x : exists a v, ~ In "="%char a /\ x = a ++ given_value v.
Proof.
  pose proof (partition_spec "=" x) as P. destruct (partition_char "=" x) as [[a f] b]. destruct P as [N P]. destruct f.
  - exists a, (Some b). split; [exact N|exact P].
  - destruct P as [-> _]. exists a, None. split; [exact N|]. cbn [given_value]. rewrite app_nil_r. reflexivity.
Qed.
Lemma text_word_argument p w : declared p -> parse_optional p w = Argument <-> text_word p w.
Proof.
  intros D. destruct w as [|c w]; [split; [intros _; left; intros [y H]; discriminate H|reflexivity]|].
  destruct (Ascii.eqb_spec c "-") as [->|C].
  2:{ split; [|intros _; unfold parse_optional; destruct (Ascii.eqb_spec c "-") as [E|_]; [contradiction|reflexivity]].
      intros _. left. intros [y H]. injection H as H _. exact (C H). }
  assert (B : begins ($"-") ("-"%char :: w)) by (exists w; reflexivity).
  assert (Weird : forall s, (if negative_number s || contains ($" ") s then Argument else Unknown) = Argument <-> number s \/ In " "%char s).
  { intros s. rewrite <- ar_negative, <- (contains_char_in " "%char). change [" "%char] with ($" "). rewrite <- orb_true_iff. destruct (negative_number s || contains ($" ") s)%bool; intuition congruence. }
  destruct w as [|c w].
  { split; [intros _; right; left; reflexivity|intros _]. unfold parse_optional. change (Ascii.eqb "-" "-") with true. cbn [negb]. cbv iota.
    assert (G : dget ["-"%char] (actions p) = None) by (apply ar_get_none; intros H; destruct (name_dash p _ D H) as (? & ? & E); discriminate E). rewrite G. reflexivity. }
  assert (NotDash : "-"%char :: c :: w <> $"-") by discriminate.
  destruct (Ascii.eqb_spec c "-") as [->|C].
  - destruct (split_equals w) as (x & v & N & ->). change ("-"%char :: "-"%char :: x ++ given_value v) with (("-"%char :: "-"%char :: x) ++ given_value v) in *.
    set (W := "-"%char :: "-"%char :: x) in *. assert (NW : ~ In "="%char W) by (intros [E|[E|E]]; [discriminate|discriminate|exact (N E)]).
    assert (Looks : looks_like_option p (W ++ given_value v) <-> exists n, In n (all_names p) /\ begins W n).
    { split.
      - intros [(c & y & o & E & Ho & Hn)|(y & Hy & E & Ny & n & Hn & Bn)].
        + injection E as E _. subst c. exfalso. apply (not_name p D). apply ar_name. exists o. auto.
        + exists n. split; [exact Hn|]. assert (Ey : W = y); [|rewrite Ey; exact Bn]. assert (P := partition_given W v NW). destruct E as [E|[v' E]]; rewrite E in P.
          * rewrite (partition_none y Ny) in P. congruence.
          * change (y ++ $"=" ++ v') with (y ++ "="%char :: v') in P. rewrite (partition_found y v' Ny) in P. congruence.
      - intros (n & Hn & Bn). right. exists W. split; [exists (x ++ given_value v); reflexivity|]. split; [|split; [exact NW|exists n; auto]].
        destruct v as [v|]; [right; exists v; reflexivity|left; cbn [given_value]; apply app_nil_r]. }
    assert (LR := long_reading p x v D N). cbv zeta in LR. fold W in LR. destruct LR as [(o & n & (_ & _ & Ho & L) & Hn & _ & ->)|(_ & [(l & -> & _ & nn & _ & Am & _ & _ & Bm & _)|(No & ->)])].
    + split; [discriminate|]. intros [H|[H|[_ H]]]; [exfalso; apply H; exact B|contradiction|]. exfalso. apply H. apply Looks. destruct L as [L|(_ & m & Hm & Bm & _)].
      * exists W. split; [apply ar_name; exists o; auto|exists []; rewrite app_nil_r; reflexivity].
      * exists m. split; [apply ar_name; exists o; auto|exact Bm].
    + split; [discriminate|]. intros [H|[H|[_ H]]]; [exfalso; apply H; exact B|contradiction|]. exfalso. apply H. apply Looks. exists nn. auto.
    + rewrite Weird. split.
      * intros H. right. right. split; [exact H|]. intros L. apply Looks in L. destruct L as (n & Hn & Bn). exact (No n Hn Bn).
      * intros [H|[H|[H _]]]; [exfalso; apply H; exact B|contradiction|exact H].
  - rewrite (short_reading p c w D C). destruct (dget ["-"%char; c] (actions p)) as [o|] eqn:G.
    + apply (ar_get p _ o D) in G. split; [discriminate|]. intros [H|[H|[_ H]]]; [exfalso; apply H; exact B|contradiction|]. exfalso. apply H. left. exists c, w, o. split; [reflexivity|exact G].
    + rewrite Weird. split.
      * intros H. right. right. split; [exact H|]. intros [(c' & y & o & E & Hs)|(y & [z Hz] & _)].
        -- injection E as <- _. apply (ar_get p _ o D) in Hs. congruence.
        -- injection Hz as Hz _. exact (C Hz).
      * intros [H|[H|[H _]]]; [exfalso; apply H; exact B|contradiction|exact H].
Qed.

(** ** The words of a command line *)
Lemma dashes_ambiguous p : declared p -> exists l, parse_optional p ($"--") = Ambiguous l.
Proof.
  intros D. assert (LR := long_reading p [] None D (fun H => H)). cbv zeta in LR. cbn [given_value app] in LR. change ["-"%char; "-"%char] with ($"--") in LR.
  destruct LR as [(o & n & (_ & Ne & _) & _)|(_ & [(l & E & _)|(No & _)])]; [exfalso; apply Ne; reflexivity|exists l; exact E|].
  exfalso. destruct (dp_two p D) as (n & _ & Hn & _ & (x & E & _) & _). apply (No n Hn). exists x. exact E.
Qed.
Lemma text_not_dashes p v : declared p -> text_word p v -> v <> $"--".
Proof. intros D H E. apply (text_word_argument p v D) in H. destruct (dashes_ambiguous p D) as [l A]. rewrite E, A in H. discriminate H. Qed.
Lemma classify_more p w ws l : w <> $"--" -> (forall m, parse_optional p w <> Ambiguous m) -> classify p ws = inl l ->
  classify p (w :: ws) = inl ((w, Some (parse_optional p w)) :: l).
Proof.
  intros N A E. cbn [classify]. destruct (str_eqb_spec w ($"--")) as [H|_]; [contradiction|]. rewrite E. destruct (parse_optional p w) as [|m| |]; try reflexivity. exfalso. exact (A m eq_refl).
Qed.
Lemma classify_inv p w ws l : classify p (w :: ws) = inl l ->
  (w = $"--" /\ exists l', l = (w, None) :: l')
  \/ (w <> $"--" /\ (forall m, parse_optional p w <> Ambiguous m) /\ exists l', l = (w, Some (parse_optional p w)) :: l' /\ classify p ws = inl l').
Proof.
  cbn [classify]. destruct (str_eqb_spec w ($"--")) as [H|H]; intros E.
  - injection E as <-. left. split; [exact H|eexists; reflexivity].
  - right. split; [exact H|]. destruct (parse_optional p w) as [|m|o n e|] eqn:P; [|discriminate E| |]; (split; [discriminate|]);
      (destruct (classify p ws) as [l'|]; [|discriminate E]); injection E as <-; exists l'; auto.
Qed.

(** ** Options and their texts *)
Definition sets (l : list setting_) (ns : dict arg) : dict arg :=
  fold_left (fun ns s => dset (o_dest (fst s)) (match snd s with Some v => AText v | None => AFlag true end) ns) l ns.
Definition proper (s : setting_) : Prop := (is_flag (fst s) /\ snd s = None) \/ (takes_text (fst s) /\ exists v, snd s = Some v).
Lemma take_proper l ns : Forall proper l -> take_actions l ns = inl (sets l ns).
Proof.
  revert ns. induction l as [|[o v] l IH]; intros ns F; [reflexivity|]. inversion F as [|? ? P F' E]. subst. cbn [take_actions]. unfold take_action.
  destruct P as [[K V]|[[d K] [x V]]]; cbn [fst snd] in *; rewrite K, V; rewrite (IH _ F'); reflexivity.
Qed.
(** the part of a word after a letter *)
Definition cont (p : list option_) (o : option_) (c : ascii) (x : str) (rest : list word_) : (list (option_ * option str) * list str * list word_) + refusal :=
  match x with
  | [] => match from_words o rest with inl (l, rest') => inl (l, [], rest') | inr e => inr e end
  | e :: v => if Ascii.eqb e "=" then from_value p rest o ["-"%char; c] true v else from_value p rest o ["-"%char; c] false x
  end.
Lemma value_takes p rest o n sep v : takes_text o -> from_value p rest o n sep v = inl ([(o, Some v)], [], rest).
Proof. intros [d K]. destruct v; cbn [from_value]; rewrite K; reflexivity. Qed.
Lemma value_flag p rest o c e x : declared p -> names_short p c o -> ~ takes_text o ->
  from_value p rest o ["-"%char; c] false (e :: x) =
  if Ascii.eqb e "-" then inr (IgnoredExplicitArgument o (e :: x))
  else match dget ["-"%char; e] (actions p) with
       | Some o' => match cont p o' e x rest with inl (l, extras, rest') => inl ((o, None) :: l, extras, rest') | inr r => inr r end
       | None => inl ([(o, None)], ["-"%char :: e :: x], rest)
       end.
Proof.
  intros D [Ho Hn] N. assert (C : Ascii.eqb c "-" = false).
  { destruct (Ascii.eqb_spec c "-") as [->|_]; [|reflexivity]. exfalso. apply (not_name p D). apply ar_name. exists o. auto. }
  cbn [from_value nth]. rewrite C. cbn [orb]. destruct (o_kind o) eqn:K; [|exfalso; apply N; exists default; exact K|]; destruct (Ascii.eqb e "-"); reflexivity.
Qed.
Lemma value_sep p rest o c v : declared p -> names_short p c o -> ~ takes_text o -> exists r, from_value p rest o ["-"%char; c] true v = inr r.
Proof.
  intros D [Ho Hn] N. assert (C : Ascii.eqb c "-" = false).
  { destruct (Ascii.eqb_spec c "-") as [->|_]; [|reflexivity]. exfalso. apply (not_name p D). apply ar_name. exists o. auto. }
  destruct v as [|e v]; cbn [from_value nth]; destruct (o_kind o) eqn:K; try (exfalso; apply N; exists default; exact K); eexists; try reflexivity; rewrite C; reflexivity.
Qed.
Lemma flag_not_takes o : is_flag o -> ~ takes_text o.
Proof. unfold is_flag. intros K [d H]. congruence. Qed.
Lemma help_not_takes o : is_help o -> ~ takes_text o.
Proof. unfold is_help. intros K [d H]. congruence. Qed.
Lemma short_letter p c o : declared p -> names_short p c o -> c <> "-"%char /\ c <> "="%char.
Proof.
  intros D [Ho Hn]. assert (I : In ["-"%char; c] (all_names p)) by (apply ar_name; exists o; auto). split; intros ->.
  - exact (not_name p D I).
  - apply (name_no_eq p _ D I). right. left. reflexivity.
Qed.
Lemma letters_proper p s ws l : letters p s ws l -> Forall proper l.
Proof.
  induction 1; (constructor; [|try assumption; constructor]); unfold proper; cbn [fst snd]; first [left; split; [assumption|reflexivity]|right; split; [assumption|eexists; reflexivity]].
Qed.
Lemma letters_cont p s ws l cl : declared p -> letters p s ws l ->
  exists c x o, s = c :: x /\ names_short p c o /\ cont p o c x (map (fun w => (w, Some Argument)) ws ++ cl) = inl (l, [], cl).
Proof.
  intros D. induction 1 as [c o S F|c o s ws l S F L IH|c o v S T W|c o v S T|c o v S T N E].
  - exists c, [], o. split; [reflexivity|]. split; [exact S|]. cbn [cont map app]. unfold from_words. rewrite F. reflexivity.
  - destruct IH as (c' & x & o' & -> & S' & IH). exists c, (c' :: x), o. split; [reflexivity|]. split; [exact S|]. destruct (short_letter p c' o' D S') as [N1 N2].
    cbn [cont]. destruct (Ascii.eqb_spec c' "=") as [E|_]; [contradiction|]. rewrite (value_flag p _ o c c' x D S (flag_not_takes o F)).
    destruct (Ascii.eqb_spec c' "-") as [E|_]; [contradiction|]. rewrite (proj2 (ar_get p _ o' D) S'), IH. reflexivity.
  - exists c, [], o. split; [reflexivity|]. split; [exact S|]. destruct T as [d K]. cbn [cont map app]. unfold from_words. rewrite K. reflexivity.
  - exists c, ("="%char :: v), o. split; [reflexivity|]. split; [exact S|]. cbn [cont map app]. rewrite Ascii.eqb_refl. apply value_takes. exact T.
  - exists c, v, o. split; [reflexivity|]. split; [exact S|]. destruct v as [|e v]; [contradiction|]. cbn [cont map app]. destruct (Ascii.eqb_spec e "=") as [->|_].
    + exfalso. apply E. exists v. reflexivity.
    + apply value_takes. exact T.
Qed.
Definition no_help (l : list setting_) : Prop := Forall (fun s => ~ is_help (fst s)) l.
Lemma from_words_sound p o ws cl acts cl' : declared p -> classify p ws = inl cl -> from_words o cl = inl (acts, cl') -> no_help acts ->
  (is_flag o /\ acts = [(o, None)] /\ cl' = cl)
  \/ (takes_text o /\ exists v ws', ws = v :: ws' /\ text_word p v /\ acts = [(o, Some v)] /\ classify p ws' = inl cl').
Proof.
  intros D C F N. unfold from_words in F. destruct (o_kind o) eqn:K.
  - injection F as <- <-. left. auto.
  - right. split; [exists default; exact K|]. destruct cl as [|[v [[| | |]|]] cl]; try discriminate F. injection F as <- <-.
    destruct ws as [|w ws]; [discriminate C|]. apply classify_inv in C. destruct C as [(_ & l' & E)|(Ne & _ & l' & E & C)]; [discriminate E|].
    injection E as <- P <-. exists v, ws. split; [reflexivity|]. split; [apply (text_word_argument p v D); symmetry; exact P|]. auto.
  - injection F as <- <-. inversion N as [|? ? H]. exfalso. apply H. exact K.
Qed.
Lemma cont_sound p o c x ws cl acts cl' : declared p -> names_short p c o -> classify p ws = inl cl -> cont p o c x cl = inl (acts, [], cl') -> no_help acts ->
  exists used ws', ws = used ++ ws' /\ classify p ws' = inl cl' /\ letters p (c :: x) used acts.
Proof.
  intros D. revert o c acts. assert (G : forall n x o c acts, length x < n -> names_short p c o -> classify p ws = inl cl -> cont p o c x cl = inl (acts, [], cl') -> no_help acts ->
    exists used ws', ws = used ++ ws' /\ classify p ws' = inl cl' /\ letters p (c :: x) used acts).
  { intros n. induction n as [|n IH]; intros y o c acts L S C E N; [lia|]. destruct y as [|e y].
    - cbn [cont] in E. destruct (from_words o cl) as [[acts' cl'']|] eqn:F; [|discriminate E]. injection E as <- <-.
      destruct (from_words_sound p o ws cl acts' cl'' D C F N) as [(K & -> & ->)|(T & v & ws' & -> & W & -> & C')].
      + exists [], ws. split; [reflexivity|]. split; [exact C|]. apply let_flag; assumption.
      + exists [v], ws'. split; [reflexivity|]. split; [exact C'|]. apply let_next; assumption.
    - cbn [cont] in E. destruct (Ascii.eqb_spec e "=") as [->|Ne].
      + destruct (o_kind o) eqn:K.
        * destruct (value_sep p cl o c y D S (flag_not_takes o K)) as [r R]. rewrite R in E. discriminate E.
        * assert (T : takes_text o) by (exists default; exact K). rewrite (value_takes _ _ _ _ _ _ T) in E. injection E as <- <-. exists [], ws. split; [reflexivity|]. split; [exact C|]. apply let_equals; assumption.
        * destruct (value_sep p cl o c y D S (help_not_takes o K)) as [r R]. rewrite R in E. discriminate E.
      + assert (Kind : ~ takes_text o -> exists used ws', ws = used ++ ws' /\ classify p ws' = inl cl' /\ letters p (c :: e :: y) used acts).
        { intros T. rewrite (value_flag p cl o c e y D S T) in E. destruct (Ascii.eqb e "-"); [discriminate E|]. destruct (dget ["-"%char; e] (actions p)) as [o'|] eqn:G; [|discriminate E].
          destruct (cont p o' e y cl) as [[[l extras] rest']|] eqn:Q; [|discriminate E]. injection E as <- -> ->. apply (ar_get p _ o' D) in G. apply Forall_cons_iff in N. destruct N as [H N']. cbn [fst] in H.
          destruct (IH y o' e l ltac:(cbn [length] in L; lia) G C Q N') as (used & ws' & E1 & E2 & E3). exists used, ws'. split; [exact E1|]. split; [exact E2|]. apply let_more; [exact S| |exact E3].
          unfold is_flag. destruct (o_kind o) eqn:K; [reflexivity| |exfalso; exact (H K)]. exfalso. apply T. exists default. exact K. }
        destruct (o_kind o) eqn:K; [apply Kind; apply flag_not_takes; exact K| |apply Kind; apply help_not_takes; exact K]. clear Kind.
        assert (T : takes_text o) by (exists default; exact K). rewrite (value_takes _ _ _ _ _ _ T) in E. injection E as <- <-. exists [], ws. split; [reflexivity|]. split; [exact C|].
        apply let_joined; [exact S|exact T|discriminate|]. intros [z Z]. injection Z as Z _. exact (Ne Z). }
  intros o c acts. apply (G (Datatypes.S (length x))). lia.
Qed.

(** ** Items *)
Lemma consume_optional_value p o n e ns extras rest :
  consume_optional p o n e ns extras rest =
  match (match e with
         | Some (sep, v) => from_value p rest o n sep v
         | None => match from_words o rest with inl (l, rest') => inl (l, [], rest') | inr e => inr e end
         end) with
  | inr e => Stop (Refused e)
  | inl (l, more, rest') => match take_actions l ns with inl ns' => Next ns' (extras ++ more) rest' | inr e => Stop e end
  end.
Proof. reflexivity. Qed.
Lemma short_cont p c x o rest : match (match x with [] => None | e :: v => if Ascii.eqb e "=" then Some (true, v) else Some (false, x) end) with
         | Some (sep, v) => from_value p rest o ["-"%char; c] sep v
         | None => match from_words o rest with inl (l, rest') => inl (l, [], rest') | inr e => inr e end
         end = cont p o c x rest.
Proof. destruct x as [|e v]; [reflexivity|]. cbn [cont]. destruct (Ascii.eqb e "="); reflexivity. Qed.
Lemma classify_texts p vs ws cl : declared p -> Forall (text_word p) vs -> classify p ws = inl cl -> classify p (vs ++ ws) = inl (map (fun w => (w, Some Argument)) vs ++ cl).
Proof.
  intros D F C. induction F as [|v vs W F IH]; [exact C|]. cbn [app map]. rewrite <- (proj2 (text_word_argument p v D) W) at 1. apply classify_more; [apply (text_not_dashes p v D W)| |exact IH].
  intros m. rewrite (proj2 (text_word_argument p v D) W). discriminate.
Qed.
Lemma letters_texts p s ws l : letters p s ws l -> Forall (text_word p) ws.
Proof. induction 1; auto using Forall_nil, Forall_cons. Qed.
Lemma item_proper p ws l : item p ws l -> Forall proper l.
Proof.
  intros [s ws' l' L|w o N F|w o v N T W|w o v N T]; [apply (letters_proper p s ws' l' L)| | |];
    (constructor; [|constructor]); unfold proper; cbn [fst snd]; first [left; split; [assumption|reflexivity]|right; split; [assumption|eexists; reflexivity]].
Qed.
(** the beginnings of names have no equals sign *)
Lemma names_long_form p w o : declared p -> names_long p w o -> exists x, w = "-"%char :: "-"%char :: x /\ ~ In "="%char x.
Proof.
  intros D ((x & E) & _ & Ho & H). exists x. split; [exact E|]. intros I. destruct H as [H|(_ & n & Hn & (y & B) & _)].
  - apply (name_no_eq p w D); [apply ar_name; exists o; auto|]. rewrite E. apply in_or_app. right. exact I.
  - apply (name_no_eq p n D); [apply ar_name; exists o; auto|]. rewrite B, E. apply in_or_app. left. apply in_or_app. right. exact I.
Qed.
Lemma names_long_same p w o o' : declared p -> names_long p w o -> names_long p w o' -> o = o'.
Proof.
  intros D (_ & _ & Ho & H) (_ & _ & Ho' & H'). destruct H as [H|(N & n & Hn & B & U)], H' as [H'|(N' & n' & Hn' & B' & U')].
  - apply (ar_same p w o o' D); assumption.
  - exfalso. apply N'. apply ar_name. exists o. auto.
  - exfalso. apply N. apply ar_name. exists o'. auto.
  - assert (E : n' = n) by (apply U; [apply ar_name; exists o'; auto|exact B']). subst n'. apply (ar_same p n o o' D); assumption.
Qed.
Lemma long_found p w o v : declared p -> names_long p w o -> exists n, In n (o_names o) /\ long_name n /\ parse_optional p (w ++ given_value v) = Option o n (as_explicit v).
Proof.
  intros D N. destruct (names_long_form p w o D N) as (x & -> & X). assert (LR := long_reading p x v D X). cbv zeta in LR. destruct LR as [(o' & n & N' & H)|(No & _)].
  - rewrite (names_long_same p _ _ _ D N N'). exists n. exact H.
  - exfalso. exact (No o N).
Qed.
Lemma item_read p ws l rest cl : declared p -> item p ws l -> classify p rest = inl cl ->
  exists w used o n e, ws = w :: used /\ Forall (text_word p) used /\ classify p (ws ++ rest) = inl ((w, Some (Option o n e)) :: map (fun w => (w, Some Argument)) used ++ cl)
    /\ forall ns extras, consume_optional p o n e ns extras (map (fun w => (w, Some Argument)) used ++ cl) = Next (sets l ns) (extras ++ []) cl.
Proof.
  intros D I C. assert (P := item_proper p ws l I). destruct I as [s ws' l' L|w o N F|w o v N T W|w o v N T].
  - destruct (letters_cont p s ws' l' cl D L) as (c & x & o & -> & S & K). destruct (short_letter p c o D S) as [N1 N2].
    exists ("-"%char :: c :: x), ws', o, ["-"%char; c], (match x with [] => None | e :: v => if Ascii.eqb e "=" then Some (true, v) else Some (false, x) end).
    assert (R := short_reading p c x D N1). rewrite (proj2 (ar_get p _ o D) S) in R.
    split; [reflexivity|]. split; [apply (letters_texts p _ _ _ L)|]. split.
    + assert (CM := classify_more p ("-"%char :: c :: x) (ws' ++ rest) _ ltac:(intros E; injection E as E _; exact (N1 E)) ltac:(intros m; rewrite R; discriminate)
        (classify_texts p ws' rest cl D (letters_texts p _ _ _ L) C)). rewrite R in CM. exact CM.
    + intros ns extras. rewrite consume_optional_value, short_cont, K, (take_proper _ _ P). reflexivity.
  - destruct (long_found p w o None D N) as (n & Hn & Ln & R). cbn [given_value as_explicit option_map] in R. rewrite app_nil_r in R. exists w, [], o, n, None.
    split; [reflexivity|]. split; [constructor|]. split.
    + cbn [app map]. rewrite <- R. apply classify_more; [apply N|intros m; rewrite R; discriminate|exact C].
    + intros ns extras. rewrite consume_optional_value. unfold from_words. rewrite F, (take_proper _ _ P). reflexivity.
  - destruct (long_found p w o None D N) as (n & Hn & Ln & R). cbn [given_value as_explicit option_map] in R. rewrite app_nil_r in R. exists w, [v], o, n, None.
    split; [reflexivity|]. split; [constructor; [exact W|constructor]|]. split.
    + cbn [app map]. rewrite <- R. apply classify_more; [apply N|intros m; rewrite R; discriminate|]. apply (classify_texts p [v] rest cl D); [constructor; [exact W|constructor]|exact C].
    + intros ns extras. rewrite consume_optional_value. destruct T as [d K]. unfold from_words. rewrite K. cbn [map app]. rewrite (take_proper _ _ P). reflexivity.
  - destruct (long_found p w o (Some v) D N) as (n & Hn & Ln & R). cbn [given_value as_explicit option_map] in R. change (w ++ $"=" ++ v) with (w ++ "="%char :: v).
    exists (w ++ "="%char :: v), [], o, n, (Some (true, v)).
    split; [reflexivity|]. split; [constructor|]. split.
    + assert (NE : w ++ "="%char :: v <> $"--") by (intros E; destruct (dashes_ambiguous p D) as [m A]; rewrite E, A in R; discriminate R).
      assert (CM := classify_more p _ rest cl NE ltac:(intros m; rewrite R; discriminate) C). rewrite R in CM. exact CM.
    + intros ns extras. rewrite consume_optional_value, (value_takes _ _ _ _ _ _ T), (take_proper _ _ P). reflexivity.
Qed.
Lemma line_consumed p ws l : declared p -> line p ws l -> exists cl, classify p ws = inl cl /\ forall fuel ns, length cl <= fuel -> consume fuel p ns [] cl = Parsed (sets l ns).
Proof.
  intros D. induction 1 as [|ws l ws' l' I L (cl & C & IH)].
  - exists []. split; [reflexivity|]. intros [|fuel] ns _; reflexivity.
  - destruct (item_read p ws l ws' cl D I C) as (w & used & o & n & e & E & W & C' & K). eexists. split; [exact C'|]. intros fuel ns Hf. cbn [length] in Hf. rewrite app_length in Hf.
    destruct fuel as [|fuel]; [inversion Hf|]. apply le_S_n in Hf. cbn [consume]. rewrite K. cbn [app].
    rewrite IH by (eapply Nat.le_trans; [|exact Hf]; apply Nat.le_add_l). unfold sets. rewrite fold_left_app. reflexivity.
Qed.

(** ** The other direction *)
Lemma extras_refused p fuel : forall ns x e cl ns', consume fuel p ns (x :: e) cl <> Parsed ns'.
Proof.
  induction fuel as [|fuel IH]; intros ns x e cl ns'; destruct cl as [|[w r] cl]; try discriminate. cbn [consume].
  destruct r as [[|m|o n v|]|]; try apply IH. rewrite consume_optional_value.
  destruct (match v with Some (sep, v0) => from_value p cl o n sep v0 | None => match from_words o cl with inl (l, rest') => inl (l, [], rest') | inr e0 => inr e0 end end) as [[[l more] rest']|]; [|discriminate].
  destruct (take_actions l ns) as [ns''|out] eqn:T; [apply IH|]. clear IH. revert ns T. induction l as [|[q u] l IH]; intros ns T; [discriminate T|]. cbn [take_actions] in T.
  destruct (take_action q u ns) as [ns''|out'] eqn:A; [apply (IH _ T)|]. injection T as <-. unfold take_action in A. destruct (o_kind q), u; try discriminate A; injection A as <-; discriminate.
Qed.
Lemma take_no_help l : forall ns ns', take_actions l ns = inl ns' -> no_help l.
Proof.
  induction l as [|[o v] l IH]; intros ns ns' E; [constructor|]. cbn [take_actions] in E. destruct (take_action o v ns) as [ns''|] eqn:A; [|discriminate E].
  constructor; [|apply (IH _ _ E)]. cbn [fst]. unfold is_help. intros K. unfold take_action in A. rewrite K in A. discriminate A.
Qed.
Lemma take_stop l : forall ns out ns', take_actions l ns = inr out -> out <> Parsed ns'.
Proof.
  induction l as [|[o v] l IH]; intros ns out ns' E; [discriminate E|]. cbn [take_actions] in E. destruct (take_action o v ns) as [ns''|out'] eqn:A; [apply (IH _ _ _ E)|].
  injection E as <-. unfold take_action in A. destruct (o_kind o), v; try discriminate A; injection A as <-; discriminate.
Qed.
Lemma option_item p w o n e ws cl acts cl' : declared p -> w <> $"--" -> parse_optional p w = Option o n e -> classify p ws = inl cl ->
  match e with
  | Some (sep, v) => from_value p cl o n sep v
  | None => match from_words o cl with inl (l, rest') => inl (l, [], rest') | inr e => inr e end
  end = inl (acts, [], cl') -> no_help acts ->
  exists used ws', ws = used ++ ws' /\ classify p ws' = inl cl' /\ item p (w :: used) acts.
Proof.
  intros D Nw R C E N. destruct w as [|a w]; [discriminate R|]. destruct (Ascii.eqb_spec a "-") as [->|A].
  2:{ unfold parse_optional in R. destruct (Ascii.eqb_spec a "-") as [H|_]; [contradiction|discriminate R]. }
  destruct w as [|c w].
  { assert (X : parse_optional p ["-"%char] = Argument) by (apply (text_word_argument p _ D); right; left; reflexivity). congruence. }
  destruct (Ascii.eqb_spec c "-") as [->|Hc].
  - destruct (split_equals w) as (x & v & X & ->). assert (LR := long_reading p x v D X). cbv zeta in LR. cbn [app] in LR.
    destruct LR as [(o' & n' & L & Hn & Ln & R')|(_ & [(m & R' & _)|(_ & R')])].
    2:{ congruence. }
    2:{ rewrite R' in R. destruct (_ || _)%bool; discriminate R. }
    rewrite R' in R. injection R as -> -> <-. destruct v as [v|]; cbn [as_explicit option_map given_value] in *.
    + assert (K : takes_text o).
      { destruct (o_kind o) eqn:K; [|exists default; exact K|]; exfalso; destruct Ln as (y & -> & _); destruct v as [|c v]; cbn [from_value] in E; rewrite K in E; discriminate E. }
      rewrite (value_takes _ _ _ _ _ _ K) in E. injection E as <- <-. exists [], ws. split; [reflexivity|]. split; [exact C|].
      apply (it_equals p ("-"%char :: "-"%char :: x) o v L K).
    + rewrite app_nil_r in *. destruct (from_words o cl) as [[acts' cl'']|] eqn:F; [|discriminate E]. injection E as <- <-.
      destruct (from_words_sound p o ws cl acts' cl'' D C F N) as [(K & -> & ->)|(T & v & ws' & -> & W & -> & C')].
      * exists [], ws. split; [reflexivity|]. split; [exact C|]. apply it_flag; assumption.
      * exists [v], ws'. split; [reflexivity|]. split; [exact C'|]. apply it_text; assumption.
  - rewrite (short_reading p c w D Hc) in R. destruct (dget ["-"%char; c] (actions p)) as [o'|] eqn:G; [|destruct (_ || _)%bool; discriminate R].
    injection R as -> <- <-. rewrite short_cont in E. apply (ar_get p _ o D) in G.
    destruct (cont_sound p o c w ws cl acts cl' D G C E N) as (used & ws' & E1 & E2 & E3). exists used, ws'. split; [exact E1|]. split; [exact E2|]. apply it_letters. exact E3.
Qed.
Lemma consumed_line p fuel : declared p -> forall ws cl ns ns', classify p ws = inl cl -> consume fuel p ns [] cl = Parsed ns' -> exists l, line p ws l /\ ns' = sets l ns.
Proof.
  intros D. induction fuel as [|fuel IH]; intros ws cl ns ns' C E.
  - destruct cl; [|discriminate E]. injection E as <-. destruct ws as [|w ws]; [exists []; split; [constructor|reflexivity]|].
    apply classify_inv in C. destruct C as [(_ & l' & X)|(_ & _ & l' & X & _)]; discriminate X.
  - destruct ws as [|w ws]; [injection C as <-; injection E as <-; exists []; split; [constructor|reflexivity]|].
    apply classify_inv in C. destruct C as [(Ew & l' & ->)|(Nw & _ & l' & -> & C)].
    + cbn [consume app] in E. exfalso. exact (extras_refused _ _ _ _ _ _ _ E).
    + cbn [consume app] in E. destruct (parse_optional p w) as [|m|o n e|] eqn:R; try (exfalso; exact (extras_refused _ _ _ _ _ _ _ E)).
      rewrite consume_optional_value in E.
      destruct (match e with Some (sep, v0) => from_value p l' o n sep v0 | None => match from_words o l' with inl (l, rest') => inl (l, [], rest') | inr e0 => inr e0 end end) as [[[l more] rest']|] eqn:F; [|discriminate E].
      destruct (take_actions l ns) as [ns''|out] eqn:T; [|exfalso; exact (take_stop _ _ _ _ T E)]. destruct more as [|m more]; [|exfalso; exact (extras_refused _ _ _ _ _ _ _ E)].
      destruct (option_item p w o n e ws l' l rest' D Nw R C F (take_no_help _ _ _ T)) as (used & ws' & -> & C' & I).
      destruct (IH ws' rest' ns'' ns' C' E) as (l2 & L2 & ->). exists (l ++ l2). split; [apply (li_more p (w :: used) l ws' l2 I L2)|].
      rewrite (take_proper l ns (item_proper p _ _ I)) in T. injection T as <-. unfold sets. rewrite fold_left_app. reflexivity.
Qed.

(** ** Values *)
Lemma default_values p : defaults p = values p [].
Proof. unfold defaults, values. apply flat_map_same. intros o _. unfold value_of. destruct (o_kind o); reflexivity. Qed.
Lemma last_text_more l (s : setting_) d : last_text (l ++ [s]) d = if str_eqb (o_dest (fst s)) d then snd s else last_text l d.
Proof. unfold last_text. rewrite fold_left_app. reflexivity. Qed.
Lemma value_other o l (s : setting_) : o_dest (fst s) <> o_dest o -> value_of o (l ++ [s]) = value_of o l.
Proof.
  intros N. unfold value_of. rewrite last_text_more, existsb_app. cbn [existsb]. destruct (str_eqb_spec (o_dest (fst s)) (o_dest o)) as [E|_]; [contradiction|].
  rewrite !orb_false_r. reflexivity.
Qed.
Lemma values_other p l (s : setting_) : ~ In (o_dest (fst s)) (map o_dest p) -> values p (l ++ [s]) = values p l.
Proof. intros N. unfold values. apply flat_map_same. intros o Ho. apply value_other. intros E. apply N. rewrite E. apply in_map. exact Ho. Qed.
Lemma values_keys p l d : In d (dkeys (values p l)) -> In d (map o_dest p).
Proof.
  unfold dkeys, values. rewrite in_map_iff. intros ([k v] & <- & H). apply in_flat_map in H. destruct H as (o & Ho & H). cbn [fst]. unfold value_of in H.
  destruct (o_kind o); [destruct H as [H|[]]|destruct H as [H|[]]|destruct H]; injection H as <- _; apply in_map; exact Ho.
Qed.
Lemma dset_part {A} k (v w : A) a b : ~ In k (dkeys a) -> dset k w (a ++ (k, v) :: b) = a ++ (k, w) :: b.
Proof.
  intros N. induction a as [|[k' v'] a IH]; cbn [app dset].
  - rewrite str_eqb_refl. reflexivity.
  - destruct (str_eqb_spec k' k) as [E|_].
    + exfalso. apply N. left. exact E.
    + destruct (str_eqb_spec k k') as [E|_]; [exfalso; apply N; left; symmetry; exact E|]. rewrite IH; [reflexivity|]. intros H. apply N. right. exact H.
Qed.
Lemma values_split a o b l : values (a ++ o :: b) l = values a l ++ value_of o l ++ values b l.
Proof. unfold values. rewrite flat_map_app. reflexivity. Qed.
Lemma values_more p l (s : setting_) : NoDup (map o_dest p) -> In (fst s) p -> proper s ->
  dset (o_dest (fst s)) (match snd s with Some v => AText v | None => AFlag true end) (values p l) = values p (l ++ [s]).
Proof.
  intros N I P. apply in_split in I. destruct I as (a & b & E). rewrite E in N |- *. rewrite map_app in N. cbn [map] in N. apply NoDup_remove in N. destruct N as [_ N].
  assert (Na : ~ In (o_dest (fst s)) (map o_dest a)) by (intros H; apply N; apply in_or_app; left; exact H).
  assert (Nb : ~ In (o_dest (fst s)) (map o_dest b)) by (intros H; apply N; apply in_or_app; right; exact H).
  rewrite !values_split, (values_other a l s Na), (values_other b l s Nb).
  assert (V : exists x, value_of (fst s) l = [(o_dest (fst s), x)]).
  { unfold value_of. destruct P as [[K _]|[[d K] _]]; rewrite K; eexists; reflexivity. }
  destruct V as [x V]. rewrite V. cbn [app]. rewrite dset_part by (intros H; apply Na; apply (values_keys a l _ H)). f_equal.
  unfold value_of. rewrite last_text_more, existsb_app. cbn [existsb]. rewrite str_eqb_refl, orb_true_r. destruct P as [[K ->]|[[d K] [v ->]]]; rewrite K; reflexivity.
Qed.
Definition settings_of (p : list option_) (l : list setting_) : Prop := Forall (fun s => In (fst s) p /\ proper s) l.
Lemma sets_values p l : NoDup (map o_dest p) -> settings_of p l -> sets l (defaults p) = values p l.
Proof.
  intros N. rewrite default_values. change l with ([] ++ l) at 3. generalize (@nil setting_). unfold sets. induction l as [|s l IH]; intros l0 F.
  - rewrite app_nil_r. reflexivity.
  - apply Forall_cons_iff in F. destruct F as [[I P] F]. cbn [fold_left]. rewrite (values_more p l0 s N I P), (IH _ F), <- app_assoc. reflexivity.
Qed.
Lemma letters_in p s ws l : letters p s ws l -> Forall (fun s => In (fst s) p) l.
Proof. induction 1; constructor; try constructor; try assumption; cbn [fst]; match goal with H : names_short _ _ _ |- _ => apply H end. Qed.
Lemma item_settings p ws l : item p ws l -> settings_of p l.
Proof.
  intros I. unfold settings_of. apply Forall_and; [|apply (item_proper p ws l I)]. destruct I as [s ws l L|w o N F|w o v N T W|w o v N T]; [apply (letters_in p s ws l L)| | |];
    (constructor; [apply N|constructor]).
Qed.
Lemma line_settings p ws l : line p ws l -> settings_of p l.
Proof. induction 1 as [|ws l ws' l' I L IH]; [constructor|]. apply Forall_app. split; [apply (item_settings p ws l I)|exact IH]. Qed.
Lemma parse_exact p ws ns : declared p -> parse_args p ws = Parsed ns <-> exists l, line p ws l /\ ns = values p l.
Proof.
  intros D. unfold parse_args. split.
  - destruct (classify p ws) as [cl|] eqn:C; [|discriminate]. intros E. destruct (consumed_line p (length cl) D ws cl _ ns C E) as (l & L & ->). exists l. split; [exact L|].
    apply sets_values; [apply dp_dests; exact D|apply (line_settings p ws l L)].
  - intros (l & L & ->). destruct (line_consumed p ws l D L) as (cl & C & K). rewrite C, K by apply Nat.le_refl. rewrite sets_values; [reflexivity|apply dp_dests; exact D|apply (line_settings p ws l L)].
Qed.

(** ** No word is read forever *)
Definition quiet (s : option_ * option str) : Prop := match o_kind (fst s) with Takes _ => snd s <> None | _ => True end.
Lemma take_quiet l : forall ns e, Forall quiet l -> take_actions l ns <> inr (Crashed e).
Proof.
  induction l as [|[o v] l IH]; intros ns e F; [discriminate|]. apply Forall_cons_iff in F. destruct F as [Q F]. cbn [take_actions]. unfold quiet in Q. cbn [fst snd] in Q. unfold take_action.
  destruct (o_kind o); [apply IH; exact F| |discriminate]. destruct v as [v|]; [apply IH; exact F|contradiction].
Qed.
Lemma words_quiet o rest l rest' : from_words o rest = inl (l, rest') -> Forall quiet l /\ length rest' <= length rest.
Proof.
  unfold from_words. intros E. destruct (o_kind o) eqn:K.
  - injection E as <- <-. split; [constructor; [unfold quiet; cbn [fst]; rewrite K; exact I|constructor]|reflexivity].
  - destruct rest as [|[v [[| | |]|]] rest]; try discriminate E. injection E as <- <-. split; [constructor; [unfold quiet; cbn [fst snd]; rewrite K; discriminate|constructor]|cbn [length]; lia].
  - injection E as <- <-. split; [constructor; [unfold quiet; cbn [fst]; rewrite K; exact I|constructor]|reflexivity].
Qed.
Lemma value_quiet p rest : forall n v o name sep l more rest', length v < n -> from_value p rest o name sep v = inl (l, more, rest') -> Forall quiet l /\ length rest' <= length rest.
Proof.
  induction n as [|n IH]; intros v o name sep l more rest' L E; [lia|].
  assert (Done : forall o', (o_kind o' = Flag \/ o_kind o' = Help) -> quiet (o', None)) by (intros o' [K|K]; unfold quiet; cbn [fst]; rewrite K; exact I).
  assert (Step : (o_kind o = Flag \/ o_kind o = Help) -> Forall quiet l /\ length rest' <= length rest).
  { intros K. assert (E' : match v with
      | c :: value' =>
          if Ascii.eqb (nth 1 name "-"%char) "-" then inr (IgnoredExplicitArgument o v)
          else if sep || Ascii.eqb c "-" then inr (IgnoredExplicitArgument o v)
          else match dget ["-"%char; c] (actions p) with
          | Some o' =>
              match cont p o' c value' rest with
              | inl (l, extras, rest') => inl ((o, None) :: l, extras, rest')
              | inr e => inr e
              end
          | None => inl ([(o, None)], ["-"%char :: v], rest)
          end
      | [] => inr (IgnoredExplicitArgument o v)
      end = inl (l, more, rest')) by (destruct K as [K|K]; destruct v; cbn [from_value] in E; rewrite K in E; exact E).
    clear E. destruct v as [|c v]; [discriminate E'|]. destruct (Ascii.eqb (nth 1 name "-"%char) "-"); [discriminate E'|]. destruct (sep || Ascii.eqb c "-")%bool; [discriminate E'|].
    destruct (dget ["-"%char; c] (actions p)) as [o'|].
    - destruct (cont p o' c v rest) as [[[l' extras] rest'']|] eqn:Q; [|discriminate E']. injection E' as <- <- <-.
      assert (G : Forall quiet l' /\ length rest'' <= length rest); [|destruct G as [G1 G2]; split; [constructor; [apply Done; exact K|exact G1]|exact G2]].
      destruct v as [|e v]; cbn [cont] in Q.
      + destruct (from_words o' rest) as [[l0 r0]|] eqn:W; [|discriminate Q]. injection Q as <- _ <-. apply (words_quiet _ _ _ _ W).
      + cbn [length] in L. destruct (Ascii.eqb e "="); [apply (IH v o' _ _ _ _ _ ltac:(lia) Q)|apply (IH (e :: v) o' _ _ _ _ _ ltac:(cbn [length]; lia) Q)].
    - injection E' as <- _ <-. split; [constructor; [apply Done; exact K|constructor]|reflexivity]. }
  destruct (o_kind o) eqn:K; [apply Step; auto| |apply Step; auto]. rewrite (value_takes p rest o name sep v) in E by (exists default; exact K). injection E as <- _ <-.
  split; [constructor; [unfold quiet; cbn [fst snd]; rewrite K; discriminate|constructor]|reflexivity].
Qed.
Lemma consume_total p fuel : forall ns extras cl e, length cl <= fuel -> consume fuel p ns extras cl <> Crashed e.
Proof.
  induction fuel as [|fuel IH]; intros ns extras cl e L.
  - destruct cl; [|cbn [length] in L; lia]. cbn [consume]. destruct extras; discriminate.
  - destruct cl as [|[w r] cl]; [cbn [consume]; destruct extras; discriminate|]. cbn [length] in L. apply le_S_n in L. cbn [consume]. destruct r as [[|m|o n v|]|]; try (apply IH; exact L).
    rewrite consume_optional_value.
    destruct (match v with Some (sep, v0) => from_value p cl o n sep v0 | None => match from_words o cl with inl (l, rest') => inl (l, [], rest') | inr e0 => inr e0 end end) as [[[l more] rest']|] eqn:F; [|discriminate].
    assert (Q : Forall quiet l /\ length rest' <= length cl).
    { destruct v as [[sep v]|]; [apply (value_quiet p cl (S (length v)) v o n sep l more rest' (Nat.lt_succ_diag_r _) F)|].
      destruct (from_words o cl) as [[l0 r0]|] eqn:W; [|discriminate F]. injection F as <- _ <-. apply (words_quiet _ _ _ _ W). }
    destruct Q as [Q1 Q2]. destruct (take_actions l ns) as [ns'|out] eqn:T; [apply IH; apply (Nat.le_trans _ _ _ Q2 L)|]. intros ->. exact (take_quiet l ns e Q1 T).
Qed.
Lemma parse_total p ws e : parse_args p ws <> Crashed e.
Proof. unfold parse_args. destruct (classify p ws) as [cl|]; [apply consume_total; reflexivity|discriminate]. Qed.

(** ** Help *)
Lemma ambiguous_iff p w : declared p -> w <> $"--" -> (exists l, parse_optional p w = Ambiguous l) <-> ambiguous p w.
Proof.
  intros D N. split.
  - intros [l E]. split; [exact N|]. destruct w as [|a w]; [discriminate E|]. destruct (Ascii.eqb_spec a "-") as [->|A].
    2:{ unfold parse_optional in E. destruct (Ascii.eqb_spec a "-") as [H|_]; [contradiction|discriminate E]. }
    destruct w as [|c w].
    { assert (X : parse_optional p ["-"%char] = Argument) by (apply (text_word_argument p _ D); right; left; reflexivity). congruence. }
    destruct (Ascii.eqb_spec c "-") as [->|Hc].
    + destruct (split_equals w) as (x & v & X & ->). assert (LR := long_reading p x v D X). cbv zeta in LR. cbn [app] in LR.
      destruct LR as [(o & n & _ & _ & _ & R)|(_ & [(m & R & H1 & H2)|(_ & R)])]; [congruence| |rewrite R in E; destruct (_ || _)%bool; discriminate E].
      exists ("-"%char :: "-"%char :: x). split; [destruct v as [v|]; [right; exists v; reflexivity|left; cbn [given_value]; rewrite app_nil_r; reflexivity]|].
      split; [intros [Q|[Q|Q]]; [discriminate|discriminate|exact (X Q)]|]. split; [exists x; reflexivity|]. auto.
    + rewrite (short_reading p c w D Hc) in E. destruct (dget ["-"%char; c] (actions p)); [discriminate E|]. destruct (_ || _)%bool; discriminate E.
  - intros (_ & y & E & Ny & (x & ->) & G & n & m & Hn & Hm & Ne & Bn & Bm). assert (X : ~ In "="%char x) by (intros H; apply Ny; apply in_or_app; right; exact H).
    assert (V : exists v, w = ("-"%char :: "-"%char :: x) ++ given_value v).
    { destruct E as [->|[v ->]]; [exists None; cbn [given_value]; rewrite app_nil_r; reflexivity|exists (Some v); reflexivity]. }
    destruct V as [v ->]. assert (LR := long_reading p x v D X). cbv zeta in LR. destruct LR as [(o & k & (_ & _ & Ho & [H|(_ & j & _ & _ & U)]) & _)|(_ & [(l & R & _)|(No & _)])].
    + exfalso. apply G. apply ar_name. exists o. auto.
    + exfalso. apply Ne. rewrite (U n Hn Bn), (U m Hm Bm). reflexivity.
    + exists l. exact R.
    + exfalso. exact (No n Hn Bn).
Qed.
Lemma names_actions p : all_names p = map fst (actions p).
Proof. unfold all_names, actions. induction p as [|o p IH]; [reflexivity|]. cbn [flat_map]. rewrite map_app, map_map, IH. f_equal. cbn [fst]. rewrite map_id. reflexivity. Qed.
(** the names an ambiguous word may stand for *)
Lemma ambiguous_names p w x l : (w = x \/ exists v, w = x ++ $"=" ++ v) -> ~ In "="%char x -> begins ($"--") x ->
  parse_optional p w = Ambiguous l -> l = filter (starts_with x) (all_names p).
Proof.
  intros W N [y ->] E. assert (V : exists v, w = ($"--" ++ y) ++ given_value v).
  { destruct W as [->|[v ->]]; [exists None; cbn [given_value]; rewrite app_nil_r; reflexivity|exists (Some v); reflexivity]. }
  clear W. destruct V as [v W]. assert (L : l = map (fun t => snd (fst t)) (option_tuples p w)).
  { unfold parse_optional in E. destruct w as [|c w]; [discriminate E|]. destruct (negb _); [discriminate E|]. destruct (dget _ _); [discriminate E|]. destruct (Nat.eqb _ 1); [discriminate E|].
    destruct (partition_char "=" (c :: w)) as [[name sep] z]. destruct (if sep then dget name (actions p) else None); [discriminate E|].
    destruct (option_tuples p (c :: w)) as [|[[o n] e] [|t r]]; [destruct (_ || _)%bool; discriminate E|discriminate E|]. injection E as E. symmetry. exact E. }
  rewrite L, W. unfold option_tuples. change (($"--" ++ y) ++ given_value v) with ("-"%char :: "-"%char :: y ++ given_value v) at 1. cbn [Ascii.eqb Bool.eqb]. cbv iota.
  change ("-"%char :: "-"%char :: y ++ given_value v) with (($"--" ++ y) ++ given_value v). rewrite (partition_given _ v N).
  rewrite names_actions. clear. induction (actions p) as [|[n o] a IH]; [reflexivity|]. cbn [flat_map map filter fst snd]. destruct (starts_with ($"--" ++ y) n); [cbn [app map fst snd]; f_equal; exact IH|exact IH].
Qed.
Lemma classify_clear p ws : declared p -> Forall (fun w => ~ ambiguous p w) ws -> exists cl, classify p ws = inl cl.
Proof.
  intros D. induction 1 as [|w ws A F [cl IH]]; [exists []; reflexivity|]. destruct (str_eqb_spec w ($"--")) as [->|N].
  - eexists. cbn [classify]. rewrite str_eqb_refl. reflexivity.
  - eexists. apply (classify_more p w ws cl N); [|exact IH]. intros m E. apply A. apply (ambiguous_iff p w D N). exists m. exact E.
Qed.
Lemma classify_ambiguous p a w b x : declared p -> ~ In ($"--") a -> Forall (fun v => ~ ambiguous p v) a -> ambiguous p w ->
  (w = x \/ exists v, w = x ++ $"=" ++ v) -> ~ In "="%char x -> begins ($"--") x ->
  classify p (a ++ w :: b) = inr (AmbiguousOption w (filter (starts_with x) (all_names p))).
Proof.
  intros D N F A W X B. induction F as [|v a C F IH]; cbn [app classify].
  - destruct (str_eqb_spec w ($"--")) as [E|Ne]; [exfalso; exact (proj1 A E)|]. apply (ambiguous_iff p w D Ne) in A. destruct A as [l A]. rewrite A, (ambiguous_names p w x l W X B A). reflexivity.
  - destruct (str_eqb_spec v ($"--")) as [E|Ne]; [exfalso; apply N; left; exact E|]. rewrite IH; [|intros H; apply N; right; exact H].
    destruct (parse_optional p v) eqn:E; try reflexivity. exfalso. apply C. apply (ambiguous_iff p v D Ne). eauto.
Qed.
Lemma line_then p ws l tail ct : declared p -> line p ws l -> classify p tail = inl ct ->
  exists cl, classify p (ws ++ tail) = inl cl /\ forall fuel ns, length cl <= fuel -> exists fuel', length ct <= fuel' /\ consume fuel p ns [] cl = consume fuel' p (sets l ns) [] ct.
Proof.
  intros D L C. induction L as [|ws l ws' l' I L (cl & C' & IH)].
  - exists ct. split; [exact C|]. intros fuel ns H. exists fuel. split; [exact H|reflexivity].
  - destruct (item_read p ws l (ws' ++ tail) cl D I C') as (w & used & o & n & e & E & W & C'' & K). eexists. split; [rewrite <- app_assoc; exact C''|]. intros fuel ns Hf. cbn [length] in Hf. rewrite app_length in Hf.
    destruct fuel as [|fuel]; [inversion Hf|]. apply le_S_n in Hf. cbn [consume]. rewrite K. cbn [app].
    destruct (IH fuel (sets l ns)) as (fuel' & H1 & H2); [eapply Nat.le_trans; [|exact Hf]; apply Nat.le_add_l|]. exists fuel'. split; [exact H1|]. rewrite H2. unfold sets. rewrite fold_left_app. reflexivity.
Qed.
Lemma parse_help p ws l w o rest : declared p -> line p ws l -> (names_long p w o \/ exists c, w = ["-"%char; c] /\ names_short p c o) -> is_help o ->
  Forall (fun w => ~ ambiguous p w) rest -> parse_args p (ws ++ w :: rest) = Helped.
Proof.
  intros D L N K F. destruct (classify_clear p rest D F) as [cr R].
  assert (W : exists n, w <> $"--" /\ parse_optional p w = Option o n None).
  { destruct N as [N|(c & -> & S)].
    - destruct (long_found p w o None D N) as (n & _ & _ & P). cbn [given_value as_explicit option_map] in P. rewrite app_nil_r in P. exists n. split; [apply N|exact P].
    - destruct (short_letter p c o D S) as [N1 N2]. exists ["-"%char; c]. split; [intros E; injection E as E; exact (N1 E)|]. rewrite (short_reading p c [] D N1), (proj2 (ar_get p _ o D) S). reflexivity. }
  destruct W as (n & Nw & P). assert (C : classify p (w :: rest) = inl ((w, Some (Option o n None)) :: cr)).
  { rewrite <- P. apply classify_more; [exact Nw|intros m; rewrite P; discriminate|exact R]. }
  destruct (line_then p ws l (w :: rest) _ D L C) as (cl & C' & H). unfold parse_args. rewrite C'. destruct (H (length cl) (defaults p) (Nat.le_refl _)) as (fuel & H1 & ->).
  destruct fuel as [|fuel]; [inversion H1|]. cbn [consume]. rewrite consume_optional_value. unfold from_words. rewrite K. cbn [take_actions]. unfold take_action. rewrite K. reflexivity.
Qed.

(** ** Words that are never accepted *)
Lemma line_words p ws l : declared p -> line p ws l -> Forall (fun w => text_word p w \/ looks_like_option p w) ws.
Proof.
  intros D. induction 1 as [|ws l ws' l' I L IH]; [constructor|]. apply Forall_app. split; [|exact IH]. clear L IH.
  assert (Long : forall w o v, names_long p w o -> looks_like_option p (w ++ given_value v)).
  { intros w o v N. destruct (names_long_form p w o D N) as (x & E & X). right. exists w. destruct N as ((z & B) & _ & Ho & H). split; [exists (z ++ given_value v); rewrite B; rewrite <- app_assoc; reflexivity|].
    split; [destruct v as [v|]; [right; exists v; reflexivity|left; cbn [given_value]; apply app_nil_r]|]. split; [rewrite E; intros [Q|[Q|Q]]; [discriminate|discriminate|exact (X Q)]|].
    destruct H as [H|(_ & n & Hn & B' & _)]; [exists w; split; [apply ar_name; exists o; auto|exists []; rewrite app_nil_r; reflexivity]|exists n; split; [apply ar_name; exists o; auto|exact B']]. }
  destruct I as [s ws l L|w o N F|w o v N T W|w o v N T].
  - constructor.
    + right. left. destruct L as [c o S|c o s ws l S|c o v S|c o v S|c o v S]; exists c; eexists; exists o; (split; [reflexivity|exact S]).
    + apply letters_texts in L. apply Forall_forall. intros w H. left. rewrite Forall_forall in L. apply L. exact H.
  - constructor; [right; assert (Q := Long w o None N); cbn [given_value] in Q; rewrite app_nil_r in Q; exact Q|constructor].
  - constructor; [right; assert (Q := Long w o None N); cbn [given_value] in Q; rewrite app_nil_r in Q; exact Q|constructor; [left; exact W|constructor]].
  - constructor; [right; exact (Long w o (Some v) N)|constructor].
Qed.
Lemma line_unknown p ws l w : declared p -> unknown p w -> In w ws -> ~ line p ws l.
Proof. intros D [U1 U2] H L. apply (line_words p ws l D) in L. rewrite Forall_forall in L. destruct (L w H); tauto. Qed.
