(** * Lemmas for C109 *)
From Verif Require Import StrFacts SplitFacts ConfigFacts ParsedFacts MessageSame PropsCreate.
From Verif Require Export SpecStop.
From Coq Require Import List Lia. Import ListNotations.

Lemma read_whole raws : forall st, read_source st (whole raws) = (fold_left read_line raws st, []).
Proof. induction raws as [|r l IH]; intros st; [reflexivity|]. cbn [whole read_source fold_left]. apply IH. Qed.
Lemma read_torn raws why : forall st, read_source st (torn raws why) = (fold_left read_line raws st, [why]).
Proof. induction raws as [|r l IH]; intros st; [reflexivity|]. cbn [torn read_source fold_left]. apply IH. Qed.
Lemma lines_are text raws : lines_of text raws -> raws = file_lines (universal_newlines text).
Proof.
  intros [t [N L]]. pose proof (newlines_fun _ _ _ N (universal_ok (length text) text (le_n _))) as ->. exact (in_lines_fun _ _ _ L (file_lines_ok _)).
Qed.
Lemma text_lines text : lines_of text (file_lines (universal_newlines text)).
Proof. eexists. split; [exact (universal_ok (length text) text (le_n _))|apply file_lines_ok]. Qed.
(** the first lines of a file, written to a file of their own *)
Lemma lines_front t raws k : in_lines t raws -> in_lines (concat (firstn k raws)) (firstn k raws).
Proof.
  intros H. revert k. induction H as [|w Nw Nl|w s ls Nl H IH]; intros k.
  - rewrite firstn_nil. constructor.
  - destruct k; cbn [firstn concat]; [constructor|]. rewrite firstn_nil. cbn [concat]. rewrite app_nil_r. constructor; assumption.
  - destruct k; cbn [firstn concat]; [constructor|]. rewrite <- app_assoc. cbn [app]. constructor; [assumption|apply IH].
Qed.
Lemma no_cr_read s : ~ In cr s -> newlines_read s s.
Proof. induction s as [|c s IH]; intros H; [constructor|]. apply nr_other; [intros ->; apply H; left; reflexivity|]. apply IH. intros I. apply H. right. exact I. Qed.
Lemma in_front t raws k c : in_lines t raws -> In c (concat (firstn k raws)) -> In c t.
Proof.
  intros H. revert k. induction H as [|w Nw Nl|w s ls Nl H IH]; intros k.
  - rewrite firstn_nil. intros [].
  - destruct k; cbn [firstn concat]; [intros []|]. rewrite firstn_nil. cbn [concat]. rewrite app_nil_r. tauto.
  - destruct k; cbn [firstn concat]; [intros []|]. rewrite <- app_assoc, !in_app_iff. cbn [app In]. intros [I|[[I|[]]|I]]; [auto|auto|right; right; eapply IH, I].
Qed.
Lemma front_lines text raws k : lines_of text raws -> lines_of (concat (firstn k raws)) (firstn k raws).
Proof.
  intros [t [N L]]. exists (concat (firstn k raws)). split; [|exact (lines_front _ _ _ L)]. apply no_cr_read. intros I. apply (in_front _ _ _ _ L) in I. exact (nr_no_cr _ _ N I).
Qed.
Lemma statements_whole text raws : lines_of text raws -> statements_from (whole raws) = (get_statements text, []).
Proof. intros L. unfold statements_from. rewrite read_whole, (lines_are _ _ L). reflexivity. Qed.
Lemma statements_torn text raws why : lines_of text raws -> statements_from (torn raws why) = (get_statements text, [why]).
Proof. intros L. unfold statements_from. rewrite read_torn, (lines_are _ _ L). reflexivity. Qed.

(** reading more lines only adds statements *)
Lemma line_more st raw : exists l, r_statements (read_line st raw) = r_statements st ++ l.
Proof.
  unfold read_line. destruct (should_ignore_line _); [exists []; symmetry; apply app_nil_r|]. destruct (feed _ _ _) as [b c]. destruct (contains _ b); [eexists; reflexivity|exists []; symmetry; apply app_nil_r].
Qed.
Lemma lines_more raws : forall st, exists l, r_statements (fold_left read_line raws st) = r_statements st ++ l.
Proof.
  induction raws as [|r raws IH]; intros st; [exists []; symmetry; apply app_nil_r|]. cbn [fold_left]. destruct (IH (read_line st r)) as [l ->]. destruct (line_more st r) as [l' ->]. exists (l' ++ l). symmetry. apply app_assoc.
Qed.
Lemma front_statements text raws k : lines_of text raws -> exists l, get_statements text = get_statements (concat (firstn k raws)) ++ l.
Proof.
  intros L. unfold get_statements. rewrite <- (lines_are _ _ L), <- (lines_are _ _ (front_lines _ _ k L)). unfold read_lines.
  assert (Q : fold_left read_line raws start_reading = fold_left read_line (skipn k raws) (fold_left read_line (firstn k raws) start_reading)) by (rewrite <- fold_left_app, firstn_skipn; reflexivity). rewrite Q.
  destruct (lines_more (skipn k raws) (fold_left read_line (firstn k raws) start_reading)) as [l ->]. rewrite map_app. eexists. reflexivity.
Qed.

Lemma statements_app schema l : forall l' id d, parse_statements schema id (l ++ l') d = (d' <- parse_statements schema id l d ;; parse_statements schema (id + length l) l' d').
Proof.
  induction l as [|x l IH]; intros l' id d; [cbn [app parse_statements bind length]; rewrite PeanoNat.Nat.add_0_r; reflexivity|]. cbn [app parse_statements length]. destruct (parse_statement schema id d x) as [d'|e]; [|reflexivity]. cbn [bind].
  rewrite IH. replace (S id + length l) with (id + S (length l)) by lia. reflexivity.
Qed.
(** tables are only added, and new ones come last *)
Lemma statement_names schema id d s d' : parse_statement schema id d s = Ok d' -> exists l, get_table_names d' = get_table_names d ++ l.
Proof.
  intros E. destruct (contains_spec ($"create database") (lower s)) as [D|D].
  - unfold parse_statement in E. rewrite (proj2 (contains_true _ _) D) in E. injection E as <-. exists []. symmetry. apply app_nil_r.
  - assert (C : (occurs ($"create table") (lower s) \/ occurs ($"create or replace table") (lower s)) \/ (~ occurs ($"create table") (lower s) /\ ~ occurs ($"create or replace table") (lower s))).
    { destruct (contains_spec ($"create table") (lower s)); [tauto|]. destruct (contains_spec ($"create or replace table") (lower s)); tauto. }
    destruct C as [C|[C1 C2]].
    + destruct (C74_replaces schema id s C D) as [[t H]|[e H]]; [|rewrite H in E; discriminate]. destruct (H d) as [d1 [E1 [_ [_ [_ [_ N]]]]]]. rewrite E in E1. injection E1 as <-. rewrite N.
      destruct (str_in _ _); [exists []; symmetry; apply app_nil_r|eexists; reflexivity].
    + destruct (c43 schema id d s C1 C2) as [d1 [E1 [[_ [N _]] _]]]. rewrite E in E1. injection E1 as <-. exists []. rewrite N. symmetry. apply app_nil_r.
Qed.
Lemma statements_names schema l : forall id d d', parse_statements schema id l d = Ok d' -> exists n, get_table_names d' = get_table_names d ++ n.
Proof.
  induction l as [|x l IH]; intros id d d' E; cbn [parse_statements] in E; [injection E as <-; exists []; symmetry; apply app_nil_r|].
  destruct (parse_statement schema id d x) as [d1|e] eqn:E1; [|discriminate]. cbn [bind] in E. destruct (IH _ _ _ E) as [n ->]. destruct (statement_names _ _ _ _ _ E1) as [n' ->]. exists (n' ++ n). symmetry. apply app_assoc.
Qed.
