(** * C121: using a DDL parser again *)
From Verif Require Import StrFacts RenumFacts ParserObject MessageSame PropsMessages.
From Coq Require Import Lia.

Lemma put_same {A} (v : A) : forall l i, i < length l -> nth_error (put_at i v l) i = Some v.
Proof. induction l as [|x l IH]; intros [|i] L; cbn [length] in L; try lia; [reflexivity|]. cbn [put_at nth_error]. apply IH. lia. Qed.
Lemma put_other {A} (v : A) : forall l i j, i <> j -> nth_error (put_at i v l) j = nth_error l j.
Proof. induction l as [|x l IH]; intros [|i] [|j] N; try reflexivity; [destruct (N eq_refl)|]. cbn [put_at nth_error]. apply IH. lia. Qed.
Lemma put_length {A} (v : A) : forall l i, length (put_at i v l) = length l.
Proof. induction l as [|x l IH]; intros [|i]; try reflexivity. cbn [put_at length]. rewrite IH. reflexivity. Qed.

(** what the loop does: only the one object changes *)
Lemma loop_is schema i : forall l s d, nth_error (ss_bases s) i = Some d ->
  let '(s', r, ms) := object_statements schema i l s in
  ss_parsers s' = ss_parsers s /\ length (ss_bases s') = length (ss_bases s) /\ (forall j, j <> i -> nth_error (ss_bases s') j = nth_error (ss_bases s) j)
  /\ ms = snd (heard_statements schema (ss_ids s) l d)
  /\ (forall d', parse_statements schema (ss_ids s) l d = Ok d' -> r = Ok tt /\ nth_error (ss_bases s') i = Some d' /\ ss_ids s' = ss_ids s + length l)
  /\ (forall e, parse_statements schema (ss_ids s) l d = Err e -> r = Err e /\ exists l1 x l2 d', l = l1 ++ x :: l2 /\ parse_statements schema (ss_ids s) l1 d = Ok d'
        /\ parse_statement schema (ss_ids s + length l1) d' x = Err e /\ nth_error (ss_bases s') i = Some d').
Proof.
  induction l as [|x l IH]; intros s d E; cbn [object_statements].
  - do 4 (split; [reflexivity || auto|]). cbn [parse_statements length]. split; [|discriminate]. intros d' H. apply TypeFacts.ok_inj in H. subst d'. rewrite Nat.add_0_r. auto.
  - rewrite E. cbn [heard_statements parse_statements]. pose proof (heard_statement_same schema (ss_ids s) d x) as Q.
    destruct (heard_statement schema (ss_ids s) d x) as [[d1|e] ms]; cbn [fst] in Q; rewrite <- Q; cbn [bind].
    + assert (L : i < length (ss_bases s)) by (apply nth_error_Some; congruence).
      specialize (IH (set_base i d1 (use_id s)) d1 (put_same d1 _ _ L)). cbn [set_base use_id ss_parsers ss_bases ss_ids] in IH.
      destruct (object_statements schema i l (set_base i d1 (use_id s))) as [[s' r] ms']. destruct IH as (A & B & C & D & F & G).
      split; [exact A|]. split; [rewrite B; apply put_length|]. split; [intros j J; rewrite C by exact J; apply put_other; auto|].
      split; [rewrite D; destruct (heard_statements schema (S (ss_ids s)) l d1); reflexivity|]. split.
      * intros d' H. destruct (F d' H) as (R & V & I). repeat split; [exact R|exact V|]. rewrite I. cbn [length]. lia.
      * intros e H. destruct (G e H) as (R & l1 & y & l2 & d' & -> & P1 & P2 & V). split; [exact R|]. exists (x :: l1), y, l2, d'. split; [reflexivity|].
        cbn [parse_statements length]. rewrite <- Q. cbn [bind]. split; [exact P1|]. split; [|exact V]. rewrite <- plus_n_Sm. exact P2.
    + cbn [use_id ss_parsers ss_bases ss_ids snd]. do 4 (split; [auto|]). split; [discriminate|]. intros e' H.
      assert (e' = e) by congruence. subst e'. split; [reflexivity|]. exists [], x, l, d. cbn [parse_statements length app]. rewrite Nat.add_0_r. repeat split; auto.
Qed.

(** the parts of a session that a parse with parser [p] leaves alone: all databases there were, and the other parsers *)
Definition others_kept (p : nat) (s s' : session) : Prop :=
  (forall j d, nth_error (ss_bases s) j = Some d -> nth_error (ss_bases s') j = Some d)
  /\ (forall q, q <> p -> nth_error (ss_parsers s') q = nth_error (ss_parsers s) q).
(** parser [p] of a session holds this database, under names it was given *)
Definition parser_holds (s : session) (p : nat) (name : option str) (schema : str) (i : nat) (d : database) : Prop :=
  nth_error (ss_parsers s) p = Some {| po_name := name; po_schema := schema; po_base := Some i |} /\ nth_error (ss_bases s) i = Some d.

(** Whatever happened before, a parser reads a file as a new one would: it returns a new database with the
    model of the text (shard keys are new objects, with numbers not used so far), writes the same messages, raises the same
    exception.  Databases returned before and other parsers stay as they are.  After an exception the parser holds
    the model of the statements before the one that raised. *)
Theorem C121_parse : forall files p (f text : str) s name schema b s' r said,
  nth_error (ss_parsers s) p = Some {| po_name := Some name; po_schema := schema; po_base := b |} -> f <> [] -> files f = Some text ->
  object_parse files p (Some f) s = (s', r, said) ->
  let i := length (ss_bases s) in
  others_kept p s s' /\ said = map AboutStatement (snd (heard_text name schema text))
  /\ (forall d, parse_text name schema text = Ok d -> r = Ok (Some i) /\ parser_holds s' p (Some name) schema i (renum (ss_ids s) d))
  /\ (forall e, parse_text name schema text = Err e -> r = Err e
        /\ exists l1 x l2 d, get_statements text = l1 ++ x :: l2 /\ parse_statements schema 0 l1 (empty_database name) = Ok d
             /\ parse_statement schema (length l1) d x = Err e /\ parser_holds s' p (Some name) schema i (renum (ss_ids s) d)).
Proof.
  intros files p f text s name schema b s' r said P F T E i. destruct f as [|c f]; [destruct (F eq_refl)|]. unfold object_parse in E. rewrite P in E. cbn [po_name po_schema mk_database] in E.
  rewrite T in E. fold i in E.
  match type of E with context [object_statements _ _ _ ?z] => set (s1 := z) in E end.
  assert (N : nth_error (ss_bases s1) i = Some (empty_database name)).
  { cbn [s1 set_parser ss_bases]. rewrite nth_error_app2 by (unfold i; lia). unfold i. rewrite Nat.sub_diag. reflexivity. }
  pose proof (loop_is schema i (get_statements text) s1 _ N) as L. destruct (object_statements schema i (get_statements text) s1) as [[s2 r2] ms].
  apply pair_equal_spec in E. destruct E as [E E3]. apply pair_equal_spec in E. destruct E as [E1 E2]. subst s2.
  destruct L as (A & B & C & D & G & H). change (ss_ids s1) with (ss_ids s) in *.
  assert (LP : p < length (ss_parsers s)) by (apply nth_error_Some; congruence).
  assert (Q : nth_error (ss_parsers s') p = Some {| po_name := Some name; po_schema := schema; po_base := Some i |}) by (rewrite A; apply put_same, LP).
  split; [split|split; [|split]].
  - intros j d J. assert (j < i) by (apply nth_error_Some; congruence). rewrite C by lia. cbn [s1 set_parser ss_bases]. rewrite nth_error_app1 by assumption. exact J.
  - intros q N'. rewrite A. apply put_other. auto.
  - rewrite <- E3, D. f_equal. rewrite heard_from. reflexivity.
  - intros d K. pose proof (parse_from (ss_ids s) name schema text) as PF. rewrite K in PF. cbn [map_ok] in PF. destruct (G _ PF) as (R & V & _). rewrite R in E2. split; [symmetry; exact E2|]. split; [exact Q|exact V].
  - intros e K. pose proof (parse_from (ss_ids s) name schema text) as PF. rewrite K in PF. cbn [map_ok] in PF. destruct (H _ PF) as (R & l1 & x & l2 & d & S1 & S2 & S3 & V). rewrite R in E2.
    split; [symmetry; exact E2|]. change (empty_database name) with (renum (ss_ids s) (empty_database name)) in S2. rewrite <- (Nat.add_0_r (ss_ids s)) in S2 at 1. rewrite statements_renum in S2.
    destruct (parse_statements schema 0 l1 (empty_database name)) as [d0|e0] eqn:S0; cbn [map_ok] in S2; [|discriminate S2]. apply TypeFacts.ok_inj in S2. subst d.
    rewrite statement_renum in S3. exists l1, x, l2, d0. split; [exact S1|]. split; [exact S0|]. split; [|split; [exact Q|exact V]].
    destruct (parse_statement schema (length l1) d0 x) as [d1|e1]; cbn [map_ok] in S3; congruence.
Qed.
Print Assumptions C121_parse.

(** Without a file name it always raises TypeError, and holds an empty database then.  A file that does not exist is
    reported, gives None and changes nothing: the parser still holds what it read last. *)
Theorem C121_no_file : forall files p s name schema b, nth_error (ss_parsers s) p = Some {| po_name := Some name; po_schema := schema; po_base := b |} ->
  (forall filename : option str, filename = None \/ filename = Some [] -> exists s', object_parse files p filename s = (s', Err TypeError, []) /\ others_kept p s s'
     /\ parser_holds s' p (Some name) schema (length (ss_bases s)) (empty_database name))
  /\ (forall f : str, f <> [] -> files f = None -> object_parse files p (Some f) s = (s, Ok None, [NoFile f])).
Proof.
  intros files p s name schema b P. assert (LP : p < length (ss_parsers s)) by (apply nth_error_Some; congruence). split.
  - intros filename K. eexists. split; [unfold object_parse; rewrite P; destruct K as [-> | ->]; reflexivity|]. split; [split|split].
    + intros j d J. cbn [set_parser ss_bases]. rewrite nth_error_app1 by (apply nth_error_Some; congruence). exact J.
    + intros q N. cbn [set_parser ss_parsers]. apply put_other. auto.
    + apply put_same, LP.
    + cbn [set_parser ss_bases]. rewrite nth_error_app2 by lia. rewrite Nat.sub_diag. reflexivity.
  - intros f F N. unfold object_parse. rewrite P. destruct f as [|c f]; [destruct (F eq_refl)|]. rewrite N. reflexivity.
Qed.
Print Assumptions C121_no_file.

(** A database, once returned, is changed by nothing but the program that has it: any number of parses with any parsers,
    failing or not, leave it alone. *)
Theorem C121_kept : forall cs s i d, nth_error (ss_bases s) i = Some d -> (forall c, In c cs -> forall d', c <> UseBase i d') ->
  nth_error (ss_bases (fold_left (fun s c => run_session_call c s) cs s)) i = Some d.
Proof.
  induction cs as [|c cs IH]; intros s i d E N; [exact E|]. cbn [fold_left]. apply IH; [|intros c' I; apply N; right; exact I].
  assert (Nc : forall d', c <> UseBase i d') by (apply N; left; reflexivity).
  destruct c as [name schema|p name schema|files p filename|j d']; cbn [run_session_call].
  - exact E.
  - destruct (nth_error (ss_parsers s) p); exact E.
  - destruct (nth_error (ss_parsers s) p) as [[[name|] schema b]|] eqn:P.
    + assert (Q : (filename = None \/ filename = Some []) \/ exists f : str, f <> [] /\ filename = Some f).
      { destruct filename as [[|c f]|]; [left; right; reflexivity| |left; left; reflexivity]. right. exists (c :: f). split; [discriminate|reflexivity]. }
      destruct Q as [Q|[f [NE ->]]]; [destruct (proj1 (C121_no_file files p s name schema b P) filename Q) as [s' [R [[K _] _]]]; rewrite R; apply K, E|].
      destruct (files f) as [text|] eqn:T.
      * destruct (object_parse files p (Some f) s) as [[s' r] said] eqn:R. destruct (C121_parse files p f text s name schema b s' r said P NE T R) as [[K _] _]. apply K, E.
      * rewrite (proj2 (C121_no_file files p s name schema b P) f NE T). exact E.
    + unfold object_parse. rewrite P. destruct filename as [[|c f]|]; cbn [po_name mk_database]; [exact E| |exact E]. destruct (files (c :: f)); exact E.
    + unfold object_parse. rewrite P. exact E.
  - cbn [set_base ss_bases]. rewrite put_other; [exact E|]. intros ->. exact (Nc d' eq_refl).
Qed.
Print Assumptions C121_kept.

(** A parser reads a file, is asked for one that is missing, reads one that raises, and reads the first again: both times it
    returns the same model, as two databases. *)
Definition some_files : str -> option str := fun f =>
  if str_eqb f ($"a") then Some ($"create table t (x int, y int) partition by hash (4) key (x);")
  else if str_eqb f ($"b") then Some ($"create table u (x int);" ++ [newline] ++ $"create table v (x int,, y int);") else None.
Definition started : session := run_session_call (NewParser (Some ($"d")) ($"s")) {| ss_bases := []; ss_parsers := []; ss_ids := 0 |}.
Example C121_case : exists d u,
  parse_text ($"d") ($"s") ($"create table t (x int, y int) partition by hash (4) key (x);") = Ok d /\ length (db_tables d) = 1 /\ (exists t, In t (db_iter d) /\ t_shard t <> None)
  /\ let s1 := run_session_call (ParseFile some_files 0 (Some ($"a"))) started in
     let s2 := run_session_call (ParseFile some_files 0 (Some ($"missing"))) s1 in
     let s3 := run_session_call (ParseFile some_files 0 (Some ($"b"))) s2 in
     let s4 := run_session_call (ParseFile some_files 0 (Some ($"a"))) s3 in
     ss_bases s1 = [d] /\ s2 = s1 /\ ss_bases s3 = [d; u] /\ get_table_names u = [$"u"] /\ (exists e, snd (fst (object_parse some_files 0 (Some ($"b")) s2)) = Err e)
     /\ ss_bases s4 = [d; u; renum 3 d].
Proof. do 2 eexists. split; [vm_compute; reflexivity|]. split; [reflexivity|]. split; [eexists; split; [left; reflexivity|discriminate]|]. cbn zeta. repeat split; try (vm_compute; reflexivity). eexists. vm_compute. reflexivity. Qed.

(** The model used everywhere else: what is returned is what [parse_ddl] returns, up to the numbers of shard keys. *)
Theorem C121_same : forall files p filename s name schema b s' r said,
  nth_error (ss_parsers s) p = Some {| po_name := Some name; po_schema := schema; po_base := b |} ->
  object_parse files p filename s = (s', r, said) ->
  match parse_ddl files name schema filename with
  | Ok (Some d) => exists i, r = Ok (Some i) /\ nth_error (ss_bases s) i = None /\ nth_error (ss_bases s') i = Some (renum (ss_ids s) d)
  | Ok None => r = Ok None /\ s' = s
  | Err e => r = Err e
  end.
Proof.
  intros files p filename s name schema b s' r said P E.
  assert (Q : (filename = None \/ filename = Some []) \/ exists f : str, f <> [] /\ filename = Some f).
  { destruct filename as [[|c f]|]; [left; right; reflexivity| |left; left; reflexivity]. right. exists (c :: f). split; [discriminate|reflexivity]. }
  destruct Q as [Q|[f [NE ->]]].
  - destruct (proj1 (C121_no_file files p s name schema b P) filename Q) as [s1 [R _]]. rewrite R in E. apply pair_equal_spec in E. destruct E as [E _]. apply pair_equal_spec in E. destruct E as [_ <-].
    destruct Q as [-> | ->]; reflexivity.
  - destruct (files f) as [text|] eqn:T.
    + destruct (C121_parse files p f text s name schema b s' r said P NE T E) as (_ & _ & A & B).
      replace (parse_ddl files name schema (Some f)) with (d <- parse_text name schema text ;; Ok (Some d)) by (unfold parse_ddl; destruct f; [destruct (NE eq_refl)|rewrite T; reflexivity]).
      destruct (parse_text name schema text) as [d|e]; cbn [bind]; [|apply B; reflexivity]. destruct (A d eq_refl) as [R [_ V]].
      exists (length (ss_bases s)). split; [exact R|]. split; [apply nth_error_None, le_n|exact V].
    + rewrite (proj2 (C121_no_file files p s name schema b P) f NE T) in E. apply pair_equal_spec in E. destruct E as [E _]. apply pair_equal_spec in E. destruct E as [<- <-].
      unfold parse_ddl. destruct f; [destruct (NE eq_refl)|]. rewrite T. split; reflexivity.
Qed.
Print Assumptions C121_same.
