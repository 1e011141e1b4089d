(** * C78: what becomes of a worksheet file whose YAML is understood *)
From Verif Require Import StrFacts.
From Verif Require Import SpecYaml ParseFacts PropsWorksheet.
From Coq Require Import Lia.

(** ** The meaning does not change when all lines are moved by a blank *)
Definition moved (p : nat * str) : nat * str := (S (fst p), snd p).
Lemma belongs_moved n h p : belongs (S n) h (moved p) = belongs n h p.
Proof. reflexivity. Qed.
Lemma below_moved n h ls : below (S n) h (map moved ls) = (map moved (fst (below n h ls)), map moved (snd (below n h ls))).
Proof.
  induction ls as [|p r IH]; [reflexivity|]. cbn [map below]. rewrite belongs_moved. destruct (belongs n h p); [|reflexivity]. rewrite IH. destruct (below n h r) as [a b]. reflexivity.
Qed.
Lemma groups_moved f n ls : groups f (S n) (map moved ls) = match groups f n ls with Some gs => Some (map (fun g => (fst g, map moved (snd g))) gs) | None => None end.
Proof.
  revert ls. induction f as [|f IH]; intros [|[i c] r]; try reflexivity. cbn [map groups moved fst snd]. change (Nat.eqb (S i) (S n)) with (Nat.eqb i n). destruct (Nat.eqb i n); [|reflexivity].
  rewrite below_moved. destruct (below n c r) as [a b]. cbn [fst snd]. rewrite IH. destruct (groups f n b); reflexivity.
Qed.
Lemma node_moved scalar f ls : node scalar f (map moved ls) = node scalar f ls.
Proof.
  revert ls. induction f as [|f IH]; intros ls; [reflexivity|]. destruct ls as [|[n c] r]; [reflexivity|]. cbn [node]. rewrite map_length.
  change (map moved ((n, c) :: r)) with ((S n, c) :: map moved r). cbv iota. change ((S n, c) :: map moved r) with (map moved ((n, c) :: r)). rewrite groups_moved.
  destruct (groups (length ((n, c) :: r)) n ((n, c) :: r)) as [gs|]; [|reflexivity].
  assert (D : forallb (fun g => dash (fst g)) (map (fun g => (fst g, map moved (snd g))) gs) = forallb (fun g : str * list (nat * str) => dash (fst g)) gs) by (clear; induction gs as [|g gs IH]; [reflexivity|]; cbn [map forallb fst]; rewrite IH; reflexivity).
  rewrite D. rewrite !map_map. cbn [fst snd]. destruct (forallb _ gs).
  - replace (map (fun x => match key_and_value (skipn 2 (fst x)) with Some _ => _ | None => _ end) gs) with
      (map (fun g => let x := skipn 2 (fst g) in match key_and_value x, snd g with Some _, under => node scalar f ((n + 2, x) :: under) | None, [] => scalar x | None, _ => None end) gs); [reflexivity|].
    apply map_ext. intros [h u]. cbn [fst snd]. destruct (key_and_value (skipn 2 h)).
    + change ((S n + 2, skipn 2 h) :: map moved u) with (map moved ((n + 2, skipn 2 h) :: u)). symmetry. apply IH.
    + destruct u; reflexivity.
  - match goal with |- match all ?a with _ => _ end = match all ?b with _ => _ end => replace a with b; [reflexivity|] end.
    apply map_ext. intros [h u]. cbn [fst snd]. destruct (key_and_value h) as [[k [t|]]|]; [destruct u; reflexivity| |destruct u; reflexivity]. destruct u as [|p u]; [reflexivity|].
    change (map moved (p :: u)) with (moved p :: map moved u). cbv iota. change (moved p :: map moved u) with (map moved (p :: u)). rewrite IH. reflexivity.
Qed.
Lemma outline_moved ls : outline (map (fun l => $" " ++ l) ls) = map moved (outline ls).
Proof.
  induction ls as [|l ls IH]; [reflexivity|]. unfold outline in *. cbn [map filter]. rewrite IH.
  replace (indented ($" " ++ l)) with (moved (indented l)) by (change ($" " ++ l) with (" "%char :: l); cbn [indented]; destruct (indented l); reflexivity).
  change (counts (moved (indented l))) with (counts (indented l)). destruct (counts (indented l)); reflexivity.
Qed.
(** the text handed over *)
Lemma handed_text l ls : Forall (fun l => ~ In newline l) (l :: ls) -> Forall (fun l => ~ In (chr 13) l) (l :: ls) ->
  worksheet_text (text_of_lines (l :: ls) []) = text_of_lines (l :: map (fun l => $" " ++ l) ls) [].
Proof.
  intros F R. unfold worksheet_text. rewrite no_cr.
  2: { clear F. unfold text_of_lines. rewrite app_nil_r. intros I. apply in_concat in I. destruct I as (x & X & I). apply in_map_iff in X. destruct X as (y & <- & Y). rewrite Forall_forall in R. apply in_app_iff in I. destruct I as [I|[I|[]]]; [exact (R y Y I)|discriminate I]. }
  rewrite lines_of by (assumption || intros []). unfold text_of_lines. cbn [map app]. rewrite !app_nil_r. clear. revert l. induction ls as [|x ls IH]; intros l; [cbn; rewrite app_nil_r; reflexivity|].
  change (join ($" ") ((l ++ [newline]) :: map (fun l => l ++ [newline]) (x :: ls))) with ((l ++ [newline]) ++ $" " ++ join ($" ") ((x ++ [newline]) :: map (fun l => l ++ [newline]) ls)).
  rewrite IH. cbn [map concat]. rewrite <- !app_assoc. reflexivity.
Qed.
Lemma word_cut k r : forallb word_char k = true -> match r with c :: _ => word_char c = false | [] => True end -> first_word (k ++ r) = (k, r).
Proof.
  intros K R. induction k as [|c k IH]; cbn [app first_word].
  - destruct r as [|c r]; [reflexivity|]. cbn [first_word]. rewrite R. reflexivity.
  - cbn [forallb] in K. apply andb_prop in K. destruct K as [-> K]. rewrite (IH K). reflexivity.
Qed.
Lemma key_line k : a_word k -> key_and_value (k ++ $":") = Some (k, None).
Proof. intros [N K]. unfold key_and_value. rewrite word_cut by (assumption || reflexivity). rewrite N. reflexivity. Qed.
Lemma value_line k t : a_word k -> key_and_value (k ++ $": " ++ t) = Some (k, Some t).
Proof. intros [N K]. unfold key_and_value. rewrite word_cut by (assumption || reflexivity). rewrite N. reflexivity. Qed.
Lemma word_line k r : a_word k -> indented (k ++ r) = (0, k ++ r) /\ counts (0, k ++ r) = true /\ dash (k ++ r) = false.
Proof.
  intros [N K]. destruct k as [|c k]; [discriminate|]. clear N. cbn [forallb] in K. apply andb_prop in K. destruct K as [K _]. cbn [app]. unfold dash, counts. cbn [snd].
  assert (A : forall x, word_char x = false -> Ascii.eqb c x = false) by (intros x X; destruct (Ascii.eqb_spec c x) as [->|_]; [congruence|reflexivity]).
  split; [|split; [rewrite (A "#"%char) by reflexivity; reflexivity|]].
  - cbn [indented]. destruct c as [[|] [|] [|] [|] [|] [|] [|] [|]]; try reflexivity. discriminate K.
  - change ($"- ") with ["-"%char; " "%char]. cbn [starts_with]. rewrite (Ascii.eqb_sym "-" c), (A "-"%char) by reflexivity. reflexivity.
Qed.
Lemma below_all n h ls : Forall (fun p => belongs n h p = true) ls -> below n h ls = (ls, []).
Proof. induction 1 as [|p ls P _ IH]; [reflexivity|]. cbn [below]. rewrite P, IH. reflexivity. Qed.
Lemma moved_all h ls : Forall (fun p => belongs 0 h p = true) (map moved ls).
Proof. apply Forall_forall. intros p I. apply in_map_iff in I. destruct I as (q & <- & _). reflexivity. Qed.
Lemma one_group scalar f k o : a_word k -> Forall (fun p => belongs 0 (k ++ $":") p = true) o ->
  node scalar (S f) ((0, k ++ $":") :: o) = match o with [] => Some (YMap [(k, YNull)]) | _ => match node scalar f o with Some v => Some (YMap [(k, v)]) | None => None end end.
Proof.
  intros K B. cbn [node length groups]. change (Nat.eqb 0 0) with true. cbv iota. rewrite (below_all _ _ _ B). replace (groups (length o) 0 []) with (@Some (list (str * list (nat * str))) []) by (destruct o; reflexivity). cbn [forallb fst snd map].
  destruct (word_line k ($":") K) as (_ & _ & ->). cbn [andb]. rewrite (key_line k K). destruct o as [|p o]; [reflexivity|]. destruct (node scalar f (p :: o)); reflexivity.
Qed.
Lemma owned k ls : a_word k -> Forall (fun l => ~ other_key l) ls -> Forall (fun p => belongs 0 (k ++ $":") p = true) (outline ls).
Proof.
  intros K F. unfold outline. apply Forall_forall. intros p I. apply filter_In in I. destruct I as [I C]. apply in_map_iff in I. destruct I as (l & <- & I). rewrite Forall_forall in F. specialize (F l I).
  unfold belongs. destruct (fst (indented l)) as [|n] eqn:E; [|reflexivity]. cbn [Nat.ltb Nat.leb Nat.eqb orb andb]. destruct (word_line k ($":") K) as (_ & _ & ->). cbn [negb]. rewrite Bool.andb_true_r.
  assert (S0 : snd (indented l) = l). { destruct l as [|c l]; [reflexivity|]. cbn [indented] in *. destruct c as [[|] [|] [|] [|] [|] [|] [|] [|]]; try reflexivity. destruct (indented l). discriminate E. }
  rewrite S0. destruct (dash l) eqn:D; [reflexivity|]. exfalso. apply F. split; [|split; [exact E|exact D]]. unfold outline. cbn [map filter]. rewrite C. discriminate.
Qed.
Lemma printable_no l : printable l -> ~ In newline l /\ ~ In (chr 13) l.
Proof. intros P. split; intros I; specialize (P _ I); cbn in P; lia. Qed.
Lemma word_printable k : a_word k -> printable k.
Proof.
  intros [_ K] c I. rewrite forallb_forall in K. specialize (K c I). unfold word_char in K. rewrite !Bool.orb_true_iff, !Bool.andb_true_iff, !Nat.leb_le, Nat.eqb_eq in K. lia.
Qed.
Lemma handed_lines k r ls : a_word k -> printable r -> Forall printable ls ->
  worksheet_text (text_of_lines ((k ++ r) :: ls) []) = text_of_lines ((k ++ r) :: map (fun l => $" " ++ l) ls) [] /\ Forall printable ((k ++ r) :: map (fun l => $" " ++ l) ls)
  /\ outline ((k ++ r) :: map (fun l => $" " ++ l) ls) = (0, k ++ r) :: map moved (outline ls).
Proof.
  intros K R F. assert (P : printable (k ++ r)) by (intros c I; apply in_app_iff in I; destruct I as [I|I]; [exact (word_printable k K c I)|exact (R c I)]).
  split; [|split].
  - apply handed_text; (constructor; [apply (printable_no _ P)|eapply Forall_impl; [|exact F]; intros l X; apply (printable_no _ X)]).
  - constructor; [exact P|]. apply Forall_map. eapply Forall_impl; [|exact F]. intros l X c [<-|I]; [cbn; lia|exact (X c I)].
  - destruct (word_line k r K) as (W1 & W2 & _). unfold outline at 1. cbn [map filter]. rewrite W1, W2. fold (outline (map (fun l => $" " ++ l) ls)). rewrite outline_moved. reflexivity.
Qed.
(** C78: a file that begins with its only key, such as worksheet:, is read as its YAML says. *)
Theorem C78_one_key : forall scalar safe_load k ls v, understands scalar safe_load -> a_word k -> Forall (fun l => printable l /\ ~ other_key l) ls ->
  simple_yaml scalar ((k ++ $":") :: ls) = Some v -> read_worksheet safe_load (text_of_lines ((k ++ $":") :: ls) []) = create_worksheet v.
Proof.
  intros scalar safe_load k ls v U K F E. destruct (handed_lines k ($":") ls K) as (H & L & O); [intros c [<-|[]]; cbn; lia|eapply Forall_impl; [|exact F]; intros l X; apply X|].
  unfold read_worksheet. rewrite H. rewrite (U _ v L); [reflexivity|]. rewrite <- E. unfold simple_yaml. rewrite O. destruct (word_line k ($":") K) as (W1 & W2 & _).
  replace (outline ((k ++ $":") :: ls)) with ((0, k ++ $":") :: outline ls) by (unfold outline; cbn [map filter]; rewrite W1, W2; reflexivity).
  cbn [length]. rewrite map_length. replace (2 * S (length (outline ls))) with (S (S (2 * length (outline ls)))) by lia.
  rewrite !one_group; [|exact K|apply owned; [exact K|eapply Forall_impl; [|exact F]; intros l X; apply X]|exact K|apply moved_all]. rewrite node_moved. destruct (outline ls); reflexivity.
Qed.
Print Assumptions C78_one_key.

(** C78: so is a file that begins with an empty line or a comment, whatever keys it has. *)
Theorem C78_comment_first : forall scalar safe_load l ls v, understands scalar safe_load -> printable l -> outline [l] = [] -> Forall printable ls ->
  simple_yaml scalar (l :: ls) = Some v -> read_worksheet safe_load (text_of_lines (l :: ls) []) = create_worksheet v.
Proof.
  intros scalar safe_load l ls v U P O F E.
  assert (A : forall ls, outline (l :: ls) = outline ls) by (intros x; unfold outline in *; cbn [map filter] in *; destruct (counts (indented l)); [discriminate|reflexivity]).
  unfold read_worksheet. rewrite handed_text by (constructor; [apply (printable_no _ P)|eapply Forall_impl; [|exact F]; intros x X; apply (printable_no _ X)]).
  rewrite (U _ v); [reflexivity| |].
  - constructor; [exact P|]. apply Forall_map. eapply Forall_impl; [|exact F]. intros x X c [<-|I]; [cbn; lia|exact (X c I)].
  - rewrite <- E. unfold simple_yaml. rewrite !A, outline_moved, map_length. apply node_moved.
Qed.
Print Assumptions C78_comment_first.

Lemma all_more {A B} (f g : A -> option B) l r : (forall x y, f x = Some y -> g x = Some y) -> all (map f l) = Some r -> all (map g l) = Some r.
Proof.
  intros K. revert r. induction l as [|x l IH]; intros r E; [exact E|]. cbn [map all] in *. destruct (f x) as [y|] eqn:X; [|discriminate]. rewrite (K _ _ X). destruct (all (map f l)) as [ys|]; [|discriminate]. rewrite (IH ys eq_refl). exact E.
Qed.
Lemma node_more scalar f : forall ls v, node scalar f ls = Some v -> node scalar (S f) ls = Some v.
Proof.
  induction f as [|f IH]; intros ls v E; [discriminate|]. destruct ls as [|[n c] r]; [discriminate|]. remember (S f) as g eqn:G. cbn [node]. rewrite G in E. cbn [node] in E.
  destruct (groups (length ((n, c) :: r)) n ((n, c) :: r)) as [gs|]; [|discriminate]. destruct (forallb _ gs).
  - match type of E with match all ?a with _ => _ end = _ => destruct (all a) as [vs|] eqn:A; [|discriminate] end. erewrite all_more; [exact E| |exact A]. intros [h u] y. cbn [fst snd].
    destruct (key_and_value (skipn 2 h)); [intros X; apply IH, X|auto].
  - match type of E with match all ?a with _ => _ end = _ => destruct (all a) as [vs|] eqn:A; [|discriminate] end. erewrite all_more; [exact E| |exact A]. intros [h u] y. cbn [fst snd].
    destruct (key_and_value h) as [[k [t|]]|]; [auto| |auto]. destruct u as [|p u]; [auto|]. destruct (node scalar f (p :: u)) as [w|] eqn:N; [|discriminate]. rewrite (IH _ _ N). auto.
Qed.
(** C78: if the first key has no value, all keys after it are taken as its value, and the worksheet is not found. *)
Theorem C78_swallowed_refuted : forall scalar safe_load k ls v, understands scalar safe_load -> a_word k -> k <> $"worksheet" -> Forall printable ls ->
  simple_yaml scalar ls = Some v ->
  let content := text_of_lines ((k ++ $":") :: ls) [] in
  safe_load (worksheet_text content) = Ok (YMap [(k, v)]) /\ read_worksheet safe_load content = Err KeyError.
Proof.
  intros scalar safe_load k ls v U K N F E. cbv zeta. destruct (handed_lines k ($":") ls K) as (H & L & O); [intros c [<-|[]]; cbn; lia|exact F|].
  assert (S0 : safe_load (worksheet_text (text_of_lines ((k ++ $":") :: ls) [])) = Ok (YMap [(k, v)])).
  { rewrite H. apply U; [exact L|]. unfold simple_yaml. rewrite O. cbn [length]. rewrite map_length. replace (2 * S (length (outline ls))) with (S (S (2 * length (outline ls)))) by lia. rewrite one_group; [|exact K|apply moved_all].
    unfold simple_yaml in E. rewrite node_moved, (node_more _ _ _ _ E). destruct (outline ls); [discriminate|reflexivity]. }
  split; [exact S0|]. unfold read_worksheet. rewrite S0. cbn [bind]. unfold create_worksheet. replace (item (YMap [(k, v)]) ($"worksheet")) with (@Err yaml KeyError); [reflexivity|].
  unfold item. cbn [dget]. destruct (str_eqb_spec ($"worksheet") k) as [E'|_]; [exfalso; apply N; rewrite E'; reflexivity|reflexivity].
Qed.
Print Assumptions C78_swallowed_refuted.
(** C78: if the first key has a value, as guid: has in files that ThoughtSpot exports, the text handed over is no
    longer YAML of this form. *)
Theorem C78_first_value_refuted : forall scalar k t ls, a_word k -> printable t -> Forall printable ls ->
  outline ls <> [] -> exists handed, worksheet_text (text_of_lines ((k ++ $": " ++ t) :: ls) []) = text_of_lines handed [] /\ simple_yaml scalar handed = None.
Proof.
  intros scalar k t ls K N F O. destruct (handed_lines k ($": " ++ t) ls K) as (H & L & E); [intros c [<-|[<-|I]]; [cbn; lia|cbn; lia|exact (N c I)]|exact F|].
  eexists. split; [exact H|]. unfold simple_yaml. rewrite E. cbn [length]. rewrite map_length. replace (2 * S (length (outline ls))) with (S (S (2 * length (outline ls)))) by lia. set (f := S (2 * length (outline ls))). cbn [node length groups]. change (Nat.eqb 0 0) with true. cbv iota.
  rewrite (below_all _ _ _ (moved_all _ _)). replace (groups (length (map moved (outline ls))) 0 []) with (@Some (list (str * list (nat * str))) []) by (destruct (map moved (outline ls)); reflexivity). cbn [forallb fst snd map].
  destruct (word_line k ($": " ++ t) K) as (_ & _ & ->). cbn [andb]. rewrite (value_line k t K). destruct (outline ls); [contradiction|reflexivity].
Qed.
Print Assumptions C78_first_value_refuted.

Lemma below_parts n h ls : fst (below n h ls) ++ snd (below n h ls) = ls /\ Forall (fun p => n <= fst p) (fst (below n h ls)).
Proof.
  induction ls as [|p r [I J]]; [split; [reflexivity|constructor]|]. cbn [below]. destruct (belongs n h p) eqn:B; [|split; [reflexivity|constructor]]. destruct (below n h r) as [a b]. cbn [fst snd app] in *. split; [rewrite I; reflexivity|]. constructor; [|exact J].
  unfold belongs in B. apply Bool.orb_true_iff in B. destruct B as [B|B]; [apply Nat.ltb_lt in B; lia|]. rewrite !Bool.andb_true_iff, Nat.eqb_eq in B. lia.
Qed.
Lemma groups_deep f n : forall ls gs, groups f n ls = Some gs -> Forall (fun p => n <= fst p) ls.
Proof.
  induction f as [|f IH]; intros [|[i c] r] gs E; try constructor; try discriminate; cbn [groups] in E; destruct (Nat.eqb_spec i n) as [->|_]; try discriminate; [apply le_n|].
  destruct (below_parts n c r) as [P Q]. destruct (below n c r) as [a b]. cbn [fst snd] in *. destruct (groups f n b) as [g|] eqn:G; [|discriminate]. rewrite <- P. apply Forall_app. split; [exact Q|exact (IH _ _ G)].
Qed.
(** C78: if the first key has an indented value and another key follows, likewise. *)
Theorem C78_second_key_refuted : forall scalar k ls i c o, a_word k -> Forall printable ls -> outline ls = (i, c) :: o -> 0 < i -> (exists l, In l ls /\ other_key l) ->
  exists handed, worksheet_text (text_of_lines ((k ++ $":") :: ls) []) = text_of_lines handed [] /\ simple_yaml scalar handed = None.
Proof.
  intros scalar k ls i c o K F O I (l & L & A & B & _). destruct (handed_lines k ($":") ls K) as (H & _ & E); [intros x [<-|[]]; cbn; lia|exact F|].
  eexists. split; [exact H|]. unfold simple_yaml. rewrite E. cbn [length]. rewrite map_length. replace (2 * S (length (outline ls))) with (S (S (2 * length (outline ls)))) by lia. rewrite one_group; [|exact K|apply moved_all].
  rewrite node_moved. set (f := 2 * length (outline ls)). clearbody f. destruct (map moved (outline ls)) eqn:M; [rewrite O in M; discriminate|]. clear M. cbn [node].
  destruct (outline ls) as [|[i' c'] o'] eqn:Q; [discriminate|]. injection O as -> -> ->. destruct (groups _ i _) as [gs|] eqn:G; [exfalso|reflexivity]. apply groups_deep in G. rewrite <- Q in G. rewrite Forall_forall in G.
  specialize (G (indented l)). rewrite B in G. assert (X : i <= 0); [|lia]. apply G. unfold outline. apply filter_In. split; [apply in_map, L|]. unfold outline in A. cbn [map filter] in A. destruct (counts (indented l)); [reflexivity|contradiction].
Qed.
Print Assumptions C78_second_key_refuted.

(** ** A reader that understands this part of YAML, and files *)
Definition small_load (scalar : str -> option yaml) (s : str) : result yaml := match simple_yaml scalar (map (fun l => removelast l) (file_lines s)) with Some v => Ok v | None => Err ValueError end.
Lemma small_understands scalar : understands scalar (small_load scalar).
Proof.
  intros ls v F E. unfold small_load. rewrite lines_of; [|eapply Forall_impl; [|exact F]; intros l X; apply (printable_no _ X)|intros []]. rewrite app_nil_r, map_map. replace (map (fun l => removelast (l ++ [newline])) ls) with ls; [rewrite E; reflexivity|].
  clear. induction ls as [|l ls IH]; [reflexivity|]. cbn [map]. rewrite removelast_last, <- IH. reflexivity.
Qed.
Definition sheet_lines : list str :=
  [$"  name: Sales"; $"  # two tables"; $"  properties:"; $"    is_bypass_rls: no"; []; $"  tables:"; $"  - name: orders"; $"    type: table"; $"  - name: customers";
   $"  joins:"; $"    - by"; $"    - with"].
Example C78_one_key_case : a_word ($"worksheet") /\ Forall (fun l => printable l /\ ~ other_key l) sheet_lines
  /\ simple_yaml (fun s => Some (YStr s)) (($"worksheet" ++ $":") :: sheet_lines)
     = Some (YMap [($"worksheet", YMap [($"name", YStr ($"Sales")); ($"properties", YMap [($"is_bypass_rls", YStr ($"no"))]);
               ($"tables", YList [YMap [($"name", YStr ($"orders")); ($"type", YStr ($"table"))]; YMap [($"name", YStr ($"customers"))]]); ($"joins", YList [YStr ($"by"); YStr ($"with")])])]).
Proof.
  split; [split; vm_compute; reflexivity|]. split; [|vm_compute; reflexivity].
  apply Forall_forall. intros l I. split.
  - intros c C. assert (B : forallb (fun l => forallb (fun c => Nat.leb 32 (nat_of_ascii c) && Nat.leb (nat_of_ascii c) 126) l) sheet_lines = true) by (vm_compute; reflexivity).
    rewrite forallb_forall in B. specialize (B l I). rewrite forallb_forall in B. specialize (B c C). apply andb_prop in B. rewrite !Nat.leb_le in B. exact B.
  - intros (A & B & D). unfold sheet_lines in I. repeat (destruct I as [<-|I]; [vm_compute in A, B; congruence|]). destruct I.
Qed.
Example C78_swallowed_case : simple_yaml (fun s => Some (YStr s)) [$"description:"; $"worksheet:"; $"  name: x"] = Some (YMap [($"description", YNull); ($"worksheet", YMap [($"name", YStr ($"x"))])])
  /\ simple_yaml (fun s => Some (YStr s)) [$"worksheet:"; $"  name: x"] = Some (YMap [($"worksheet", YMap [($"name", YStr ($"x"))])])
  /\ simple_yaml (fun s => Some (YStr s)) [$"guid: 1"; $"worksheet:"; $"  name: x"] = Some (YMap [($"guid", YStr ($"1")); ($"worksheet", YMap [($"name", YStr ($"x"))])]).
Proof. repeat split; vm_compute; reflexivity. Qed.
Example C78_comment_first_case : outline [$"  # exported"] = [] /\ simple_yaml (fun s => Some (YStr s)) [$"  # exported"; $"guid: 1"; $"worksheet:"; $"  name: x"] = Some (YMap [($"guid", YStr ($"1")); ($"worksheet", YMap [($"name", YStr ($"x"))])]).
Proof. split; vm_compute; reflexivity. Qed.
Example C78_second_key_case : outline [$"  name: x"; $"guid: 1"] = [(2, $"name: x"); (0, $"guid: 1")] /\ other_key ($"guid: 1")
  /\ simple_yaml (fun s => Some (YStr s)) [$"worksheet:"; $"  name: x"; $"guid: 1"] = Some (YMap [($"worksheet", YMap [($"name", YStr ($"x"))]); ($"guid", YStr ($"1"))]).
Proof. split; [reflexivity|]. split; [split; [discriminate|split; reflexivity]|]. vm_compute. reflexivity. Qed.
