(** * More about C12, C67 and C100: letters and white space *)
From Verif Require Import SpecLetters ScriptFacts ConfigFacts.

Lemma all_characters (P : ascii -> bool) : forallb (fun n => P (ascii_of_nat n)) (seq 0 256) = true -> forall c, P c = true.
Proof.
  intros F c. rewrite forallb_forall in F. rewrite <- (ascii_nat_embedding c). apply F, in_seq. pose proof (nat_ascii_bounded c). lia.
Qed.
Definition stands_b (from to : str) (a b : ascii) : bool :=
  existsb (fun p => Ascii.eqb (fst p) a && Ascii.eqb (snd p) b) (combine from to) || (negb (existsb (Ascii.eqb a) from) && Ascii.eqb b a).
Lemma stands_ok from to a b : length from = length to -> stands_b from to a b = true -> stands_for from to a b.
Proof.
  intros L. unfold stands_b. rewrite orb_true_iff, andb_true_iff, negb_true_iff. intros [E|[N E]]; [left|right].
  - apply existsb_exists in E. destruct E as ([x y] & I & E). cbn [fst snd] in E. apply andb_true_iff in E. destruct E as [E E'].
    apply Ascii.eqb_eq in E. apply Ascii.eqb_eq in E'. subst. revert to L I. induction from as [|f from IH]; intros [|t to] L I; cbn [combine length] in *; try discriminate; [destruct I|].
    destruct I as [I|I]; [apply pair_equal_spec in I; destruct I as [-> ->]; exists 0; auto|]. injection L as L. destruct (IH to L I) as [i H]. exists (S i). exact H.
  - split; [|apply Ascii.eqb_eq, E]. intros I. enough (existsb (Ascii.eqb a) from = true) by congruence. apply existsb_exists. exists a. split; [exact I|apply Ascii.eqb_refl].
Qed.
Lemma lower_stands s : Forall2 (stands_for capitals smalls) s (lower s).
Proof.
  unfold lower. induction s as [|c s IH]; cbn [map]; constructor; [|exact IH]. apply stands_ok; [reflexivity|].
  revert c. apply (all_characters (fun c => stands_b capitals smalls c (lower_char c))). vm_compute. reflexivity.
Qed.
Lemma upper_stands s : Forall2 (stands_for smalls capitals) s (upper s).
Proof.
  unfold upper. induction s as [|c s IH]; cbn [map]; constructor; [|exact IH]. apply stands_ok; [reflexivity|].
  revert c. apply (all_characters (fun c => stands_b smalls capitals c (upper_char c))). vm_compute. reflexivity.
Qed.

(** C12: what becomes of each letter of a name *)
Theorem C12_letters : forall o v, v <> default_schema ->
  (lowercase o = true -> exists w, to_case o v = Ok w /\ Forall2 (stands_for capitals smalls) v w)
  /\ (lowercase o = false -> uppercase o = true -> exists w, to_case o v = Ok w /\ Forall2 (stands_for smalls capitals) v w).
Proof.
  intros o v N. unfold to_case. destruct (str_eqb_spec v DEFAULT_SCHEMA) as [E|E]; [destruct (N E)|]. split; [intros ->|intros -> ->].
  - exists (lower v). split; [reflexivity|apply lower_stands].
  - exists (upper v). split; [reflexivity|apply upper_stands].
Qed.
Print Assumptions C12_letters.
Example C12_letters_case : to_case {| lowercase := true; uppercase := true; camelcase := false |} ($"AZ_az[@`{9") = Ok ($"az_az[@`{9")
  /\ to_case {| lowercase := false; uppercase := true; camelcase := false |} ($"AZ_az[@`{9") = Ok ($"AZ_AZ[@`{9").
Proof. split; vm_compute; reflexivity. Qed.

(** C100: what white space is, and what is left when a text is stripped of it *)
Lemma white_iff c : is_space c = true <-> In c white.
Proof.
  assert (E : is_space c = existsb (Ascii.eqb c) white).
  { apply eqb_prop. revert c. apply all_characters. vm_compute. reflexivity. }
  rewrite E, existsb_exists. split; [intros (x & I & X); apply Ascii.eqb_eq in X; subst; exact I|]. intros I. exists c. split; [exact I|apply Ascii.eqb_refl].
Qed.
Lemma not_white_iff c : is_space c = false <-> ~ In c white.
Proof. rewrite <- white_iff. destruct (is_space c); split; congruence. Qed.
Theorem C100_white : (forall s, all_space s <-> forall c, In c s -> In c white) /\ (forall s, no_space s <-> forall c, In c s -> ~ In c white)
  /\ forall s t, strip s = t <-> cut_out s t.
Proof.
  split; [|split].
  - intros s. unfold all_space. setoid_rewrite white_iff. reflexivity.
  - intros s. unfold no_space. setoid_rewrite not_white_iff. reflexivity.
  - assert (Q : forall s t, trims s t <-> cut_out s t).
    { intros s t. unfold trims, cut_out, trimmed. setoid_rewrite white_iff. setoid_rewrite not_white_iff. firstorder. }
    intros s t. rewrite <- Q. split; [intros <-; apply strip_trims|apply strip_unique].
Qed.
Print Assumptions C100_white.
Example C100_white_case : strip (map ascii_of_nat [32; 9; 31; 97; 32; 98; 28; 10]) = $"a b" /\ ~ In (ascii_of_nat 8) white /\ ~ In (ascii_of_nat 14) white.
Proof. split; [vm_compute; reflexivity|]. split; intros E; vm_compute in E; repeat destruct E as [E|E]; try discriminate; exact E. Qed.
