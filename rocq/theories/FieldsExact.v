(** * Lemmas: where the parser cuts fields (C41) *)
From Verif Require Import StrFacts TypeFacts FieldFacts.
From Verif Require Export SpecFields.
From Coq Require Import List ZArith Lia. Import ListNotations.

Lemma place_cons f fs a : fs <> [] -> cut_place (f :: fs) a <-> a = f \/ exists a', a = f ++ ","%char :: a' /\ cut_place fs a'.
Proof.
  intros N. split.
  - intros [pre [post [N1 [N2 [E ->]]]]]. destruct pre as [|p pre]; [contradiction|]. cbn [app] in E. injection E as <- E. destruct pre as [|q pre]; [left; reflexivity|].
    right. exists (join ($",") (q :: pre)). split; [rewrite join_cons by discriminate; reflexivity|]. exists (q :: pre), post. repeat split; [discriminate|exact N2|exact E].
  - intros [->|[a' [-> [pre [post [N1 [N2 [E ->]]]]]]]].
    + exists [f], fs. repeat split; [discriminate|exact N].
    + exists (f :: pre), post. repeat split; [discriminate|exact N2|rewrite E; reflexivity|]. rewrite join_cons by exact N1. reflexivity.
Qed.
Lemma place_one f a : ~ cut_place [f] a.
Proof. intros [[|p [|q pre]] [post [N1 [N2 [E _]]]]]; [contradiction| |discriminate]. cbn [app] in E. injection E as _ E. symmetry in E. contradiction. Qed.
Lemma comma_cases f s a b : f ++ ","%char :: s = a ++ ","%char :: b ->
  (exists c, f = a ++ ","%char :: c) \/ (a = f /\ b = s) \/ exists a', a = f ++ ","%char :: a' /\ s = a' ++ ","%char :: b.
Proof.
  revert a. induction f as [|x f IH]; intros [|y a] E; cbn [app] in E.
  - injection E as <-. right. left. auto.
  - injection E as <- E. right. right. exists a. split; [reflexivity|exact E].
  - injection E as -> _. left. exists f. reflexivity.
  - injection E as <- E. destruct (IH a E) as [[c ->]|[[-> ->]|[a' [-> ->]]]]; [left; exists c; reflexivity|right; left; auto|right; right; exists a'; auto].
Qed.
Lemma cut_one (P : str -> Prop) f : (forall a b, f = a ++ ","%char :: b -> ~ P a) -> cut_where P f [f].
Proof. intros I. split; [discriminate|]. split; [reflexivity|]. intros a b E. split; [intros X; destruct (I a b E X)|intros X; destruct (place_one f a X)]. Qed.
Lemma cut_more (P : str -> Prop) f s fs : (forall a b, f = a ++ ","%char :: b -> ~ P a) -> P f -> (forall a, P (f ++ ","%char :: a) <-> P a) -> cut_where P s fs ->
  cut_where P (f ++ ","%char :: s) (f :: fs).
Proof.
  intros I F C [N [E H]]. split; [discriminate|]. split; [rewrite join_cons by exact N; rewrite E; reflexivity|]. intros a b X. rewrite (place_cons f fs a N). destruct (comma_cases f s a b X) as [[c ->]|[[-> _]|[a' [-> Y]]]].
  - split; [intros Q; destruct (I a c eq_refl Q)|]. intros [Q|[a' [Q _]]]; exfalso; apply (f_equal (@length ascii)) in Q; rewrite !app_length in Q; cbn [length] in Q; lia.
  - split; [intros _; left; reflexivity|intros _; exact F].
  - rewrite C, (H a' b Y). split; [intros Q; right; exists a'; auto|]. intros [Q|[a2 [Q R]]]; [exfalso; apply (f_equal (@length ascii)) in Q; rewrite app_length in Q; cbn [length] in Q; lia|].
    apply app_inv_head in Q. injection Q as <-. exact R.
Qed.
Lemma place_prefix fs a : cut_place fs a -> exists b, join ($",") fs = a ++ ","%char :: b.
Proof.
  revert a. induction fs as [|f fs IH]; intros a H; [destruct H as [[|p pre] [post [N1 [_ [E _]]]]]; [contradiction|discriminate]|]. destruct fs as [|g fs]; [destruct (place_one f a H)|].
  apply place_cons in H; [|discriminate]. rewrite join_cons by discriminate. destruct H as [->|[a' [-> H]]]; [exists (join ($",") (g :: fs)); reflexivity|].
  destruct (IH a' H) as [b ->]. exists b. rewrite <- app_assoc. reflexivity.
Qed.
Lemma places_fun fs : forall gs, fs <> [] -> gs <> [] -> join ($",") fs = join ($",") gs -> (forall a, cut_place fs a <-> cut_place gs a) -> fs = gs.
Proof.
  induction fs as [|f fs IH]; intros [|g gs] N M E H; try contradiction. destruct fs as [|f2 fs].
  - destruct gs as [|g2 gs]; [cbn [join] in E; subst; reflexivity|]. exfalso. apply (place_one f g). apply H. apply place_cons; [discriminate|left; reflexivity].
  - destruct gs as [|g2 gs]; [exfalso; apply (place_one g f); apply H; apply place_cons; [discriminate|left; reflexivity]|].
    assert (Q : f = g).
    { assert (A : cut_place (g :: g2 :: gs) f) by (apply H; apply place_cons; [discriminate|left; reflexivity]). assert (B : cut_place (f :: f2 :: fs) g) by (apply H; apply place_cons; [discriminate|left; reflexivity]).
      apply place_cons in A; [|discriminate]. apply place_cons in B; [|discriminate]. destruct A as [A|[a [A _]]]; [exact A|]. destruct B as [B|[b [B _]]]; [auto|]. exfalso. rewrite B in A. apply (f_equal (@length ascii)) in A. rewrite !app_length in A. cbn [length] in A. lia. }
    subst g. f_equal. apply IH; [discriminate|discriminate| |].
    + rewrite !join_cons in E by discriminate. apply app_inv_head in E. injection E as E. exact E.
    + intros a. specialize (H (f ++ ","%char :: a)). rewrite !place_cons in H by discriminate.
      assert (X : forall hs, (f ++ ","%char :: a = f \/ (exists a', f ++ ","%char :: a = f ++ ","%char :: a' /\ cut_place hs a')) <-> cut_place hs a).
      { intros hs. split; [intros [Q|[a' [Q R]]]|intros R; right; exists a; auto]; [apply (f_equal (@length ascii)) in Q; rewrite app_length in Q; cbn [length] in Q; lia|]. apply app_inv_head in Q. injection Q as <-. exact R. }
      rewrite !X in H. exact H.
Qed.
Lemma cut_fun (P Q : str -> Prop) s fs gs : cut_where P s fs -> cut_where Q s gs -> (forall a b, s = a ++ ","%char :: b -> (P a <-> Q a)) -> fs = gs.
Proof.
  intros [N1 [E1 H1]] [N2 [E2 H2]] R. apply places_fun; [exact N1|exact N2|congruence|]. intros a. split; intros C.
  - destruct (place_prefix fs a C) as [b X]. rewrite <- E1 in X. apply (H2 a b X), (R a b X), (H1 a b X), C.
  - destruct (place_prefix gs a C) as [b X]. rewrite <- E2 in X. apply (H1 a b X), (R a b X), (H2 a b X), C.
Qed.

(** ** The two ways to cut *)
Lemma shut_nil : shut [].
Proof. intros [|] y E; discriminate. Qed.
Lemma shut_open f : ~ shut (f ++ ["("%char]).
Proof. intros H. exact (H f [] eq_refl). Qed.
Lemma shut_close f : shut (f ++ [")"%char]).
Proof. intros x y E. destruct y as [|z y _] using rev_ind; [apply app_inj_tail in E; destruct E; discriminate|]. rewrite app_comm_cons, app_assoc in E. apply app_inj_tail in E. destruct E as [_ <-]. apply in_or_app. right. left. reflexivity. Qed.
Lemma shut_other f c : c <> "("%char -> c <> ")"%char -> shut (f ++ [c]) <-> shut f.
Proof.
  intros A B. split; intros H x y E.
  - specialize (H x (y ++ [c])). rewrite E, <- app_assoc in H. specialize (H eq_refl). apply in_app_or in H. destruct H as [H|[H|[]]]; [exact H|congruence].
  - destruct y as [|z y _] using rev_ind; [apply app_inj_tail in E; destruct E; congruence|]. rewrite app_comm_cons, app_assoc in E. apply app_inj_tail in E. destruct E as [E <-]. apply in_or_app. left. exact (H x y E).
Qed.
Lemma shut_app f a : shut f -> shut (f ++ ","%char :: a) <-> shut a.
Proof.
  intros F. split; intros H x y E.
  - apply (H (f ++ ","%char :: x)). rewrite E, <- app_assoc. reflexivity.
  - revert x E. assert (G : forall f, shut f -> forall x, f ++ ","%char :: a = x ++ "("%char :: y -> In ")"%char y); [|exact (G f F)]. clear f F. induction f as [|c f IH]; intros F [|d x] E; cbn [app] in E.
    + discriminate.
    + injection E as _ E. exact (H x y E).
    + injection E as -> E. subst y. apply in_or_app. left. exact (F [] f eq_refl).
    + injection E as -> E. apply (IH (fun u v W => F (d :: u) v (f_equal (cons d) W)) x E).
Qed.
Lemma top_where s fs : cut_at_top s fs -> cut_where (fun a => depth a = 0%Z) s fs.
Proof.
  revert s. induction fs as [|f fs IH]; intros s [A B C D]; [contradiction|]. destruct fs as [|g fs].
  - cbn [join] in B. subst s. apply cut_one. intros a b E. exact (D f a b (or_introl eq_refl) E).
  - rewrite join_cons in B by discriminate. subst s. change ($"," ++ ?r) with (","%char :: r). assert (F : depth f = 0%Z) by (apply (C [] f (g :: fs) eq_refl); discriminate). apply cut_more.
    + intros a b E. exact (D f a b (or_introl eq_refl) E).
    + exact F.
    + intros a. change (f ++ ","%char :: a) with (f ++ [","%char] ++ a). rewrite !depth_app, F. reflexivity.
    + apply IH. split; [discriminate|reflexivity| |].
      * intros pre h post E. apply (C (f :: pre)). rewrite E. reflexivity.
      * intros h a b I. apply D. right. exact I.
Qed.
Lemma loop_shut s : forall field op acc, (op = false <-> shut field) -> (forall a b, field = a ++ ","%char :: b -> ~ shut a) ->
  exists init last, cut_where shut (field ++ s) (init ++ [last]) /\ raw_fields_loop s field op acc = acc ++ map strip init ++ (if str_eqb last [] then [] else [strip last]).
Proof.
  induction s as [|c s IH]; intros field op acc O I.
  - exists [], field. rewrite app_nil_r. split; [apply cut_one, I|]. cbn [raw_fields_loop map app]. destruct (str_eqb field []); cbn [negb]; [rewrite app_nil_r|]; reflexivity.
  - assert (K : forall op', (op' = false <-> shut (field ++ [c])) -> (c = ","%char -> ~ shut field) ->
      exists init last, cut_where shut (field ++ c :: s) (init ++ [last]) /\ raw_fields_loop s (field ++ [c]) op' acc = acc ++ map strip init ++ (if str_eqb last [] then [] else [strip last])).
    { intros op' O' N. destruct (IH (field ++ [c]) op' acc O') as [init [lst [E H]]].
      - intros a b E. destruct b as [|x b _] using rev_ind; [apply app_inj_tail in E; destruct E as [<- ->]; apply N; reflexivity|].
        rewrite app_comm_cons, app_assoc in E. apply app_inj_tail in E. destruct E as [E ->]. exact (I _ _ E).
      - exists init, lst. rewrite <- app_assoc in E. split; assumption. }
    cbn [raw_fields_loop]. destruct op.
    + assert (NS : ~ shut field) by (intros X; apply O in X; discriminate). apply K; [|intros _; exact NS]. destruct (Ascii.eqb_spec c ")") as [->|N]; cbn [negb]; [split; [intros _; apply shut_close|reflexivity]|].
      split; [discriminate|]. intros X. exfalso. destruct (Ascii.eqb_spec c "(") as [->|M]; [exact (shut_open _ X)|]. exact (NS (proj1 (shut_other field c M N) X)).
    + assert (SF : shut field) by (apply O; reflexivity). destruct (Ascii.eqb_spec c "(") as [->|M]; [apply K; [split; [discriminate|intros X; destruct (shut_open _ X)]|discriminate]|].
      destruct (Ascii.eqb_spec c ",") as [->|N].
      * destruct (IH [] false (acc ++ [strip field])) as [init [lst [E H]]]; [split; [intros _; exact shut_nil|reflexivity]|intros [|] b Q; discriminate|].
        exists (field :: init), lst. split; [|rewrite H, <- app_assoc; reflexivity]. apply cut_more; [exact I|exact SF|intros a; apply shut_app, SF|exact E].
      * apply K; [|intros X; contradiction]. split; [intros _|reflexivity]. destruct (Ascii.eqb_spec c ")") as [->|L]; [apply shut_close|]. exact (proj2 (shut_other field c M L) SF).
Qed.
Lemma fields_shut s : exists fs, cut_where shut s fs /\ fields_of fs (raw_fields s).
Proof.
  destruct (loop_shut s [] false []) as [init [lst [E H]]]; [split; [intros _; exact shut_nil|reflexivity]|intros [|] b Q; discriminate|].
  exists (init ++ [lst]). split; [exact E|]. exists init, lst. split; [reflexivity|exact H].
Qed.

(** ** Different cuts give different fields *)
Definition commas (s : str) : nat := count_occ ascii_dec s ","%char.
Lemma commas_strip s : commas (strip s) = commas s.
Proof.
  assert (L : forall s, commas (lstrip s) = commas s).
  { clear s. induction s as [|c s IH]; [reflexivity|]. cbn [lstrip]. destruct (is_space c) eqn:E; [|reflexivity]. rewrite IH. unfold commas. cbn [count_occ]. destruct (ascii_dec c ","%char) as [->|]; [discriminate|reflexivity]. }
  assert (R : forall s, commas (rstrip s) = commas s).
  { clear s L. intros s. destruct (rstrip_prefix s) as [w [E B]]. assert (Z : commas w = 0). { clear E. unfold commas. apply count_occ_not_In. intros J. discriminate (B _ J). } rewrite E at 2. unfold commas in *. rewrite count_occ_app. lia. }
  unfold strip. rewrite R, L. reflexivity.
Qed.
Lemma fields_fun fs : forall gs r, join ($",") fs = join ($",") gs -> fields_of fs r -> fields_of gs r -> fs = gs.
Proof.
  assert (T : forall f fs g gs r, fs <> [] -> join ($",") (f :: fs) = join ($",") (g :: gs) -> fields_of (f :: fs) r -> fields_of (g :: gs) r -> length f < length g -> False).
  { clear. intros f fs g gs r N E [i1 [l1 [A1 A2]]] [i2 [l2 [B1 B2]]] L. destruct i1 as [|x i1]; [cbn [app] in A1; injection A1 as _ A1; contradiction|]. cbn [app] in A1. injection A1 as <- A1. cbn [map app] in A2.
    assert (G : exists q, join ($",") (g :: gs) = g ++ q) by (destruct gs; [exists []; symmetry; apply app_nil_r|eexists; reflexivity]). destruct G as [q G].
    rewrite join_cons, G in E by exact N. destruct (app_split_lt _ _ _ _ E L) as [z [Nz [Ez X]]]. destruct z as [|z0 z]; [contradiction|]. cbn [app] in X. injection X as X1 X2. subst z0.
    assert (K : strip f = strip g).
    { destruct i2 as [|y i2]; cbn [app] in B1; injection B1 as B0 B1; subst; cbn [map app] in B2.
      - destruct (str_eqb_spec (f ++ ","%char :: z) []) as [Z|_]; [destruct f; discriminate|]. congruence.
      - congruence. }
    apply (f_equal commas) in K. rewrite !commas_strip, Ez in K. unfold commas in K. rewrite count_occ_app in K. cbn [count_occ] in K. destruct (ascii_dec ","%char ","%char); [lia|contradiction]. }
  induction fs as [|f fs IH]; intros gs r E A B.
  - destruct A as [i [l [A _]]]. destruct i; discriminate.
  - destruct gs as [|g gs]; [destruct B as [i [l [B _]]]; destruct i; discriminate|].
    assert (L : length f = length g).
    { destruct (lt_eq_lt_dec (length f) (length g)) as [[L|L]|L]; [|exact L|]; exfalso.
      - destruct fs as [|f2 fs]; [|exact (T f (f2 :: fs) g gs r ltac:(discriminate) E A B L)]. change (join ($",") [f]) with f in E. assert (G : exists q, join ($",") (g :: gs) = g ++ q) by (destruct gs; [exists []; symmetry; apply app_nil_r|eexists; reflexivity]). destruct G as [q G]. rewrite G in E. apply (f_equal (@length ascii)) in E. rewrite app_length in E. lia.
      - destruct gs as [|g2 gs]; [|exact (T g (g2 :: gs) f fs r ltac:(discriminate) (eq_sym E) B A L)]. change (join ($",") [g]) with g in E. assert (G : exists q, join ($",") (f :: fs) = f ++ q) by (destruct fs; [exists []; symmetry; apply app_nil_r|eexists; reflexivity]). destruct G as [q G]. rewrite G in E. apply (f_equal (@length ascii)) in E. rewrite app_length in E. lia. }
    destruct fs as [|f2 fs], gs as [|g2 gs].
    + cbn [join] in E. subst. reflexivity.
    + rewrite (join_cons _ g) in E by discriminate. apply (f_equal (@length ascii)) in E. rewrite app_length in E. cbn in E. lia.
    + rewrite (join_cons _ f) in E by discriminate. apply (f_equal (@length ascii)) in E. rewrite app_length in E. cbn in E. lia.
    + rewrite !join_cons in E by discriminate. apply app_inj_len in E; [|exact L]. destruct E as [<- E]. injection E as E. f_equal.
      destruct A as [i1 [l1 [A1 A2]]], B as [i2 [l2 [B1 B2]]]. destruct i1 as [|x i1]; [discriminate|]. destruct i2 as [|y i2]; [discriminate|]. cbn [app] in A1, B1. injection A1 as <- A1. injection B1 as <- B1. cbn [map app] in A2, B2.
      destruct r as [|r0 r]; [discriminate|]. injection A2 as _ A2. injection B2 as _ B2. apply (IH (g2 :: gs) r E); [exists i1, l1; auto|exists i2, l2; auto].
Qed.
