(** * C109: a DDL file that cannot be read to its end *)
From Verif Require Import StrFacts MessageSame StopFacts.
From Coq Require Import List Lia. Import ListNotations.

(** A file that is read in full is parsed as everywhere else in this model. *)
Theorem C109_whole : forall name schema text raws, lines_of text raws ->
  parse_source name schema (whole raws) = (fst (heard_text name schema text), [], snd (heard_text name schema text)).
Proof.
  intros name schema text raws L. unfold parse_source, heard_text. rewrite (statements_whole _ _ L). destruct (heard_statements _ _ _ _). reflexivity.
Qed.
Print Assumptions C109_whole.

(** Not so: that a file is either parsed in full or refused.  Wherever the reading fails, the parser goes
    on as if the file ended there; the text of the exception is the only sign. *)
Theorem C109_refuted : forall name schema text raws k why, lines_of text raws ->
  parse_source name schema (torn (firstn k raws) why)
    = (parse_text name schema (concat (firstn k raws)), [why], snd (heard_text name schema (concat (firstn k raws)))).
Proof.
  intros name schema text raws k why L. unfold parse_source, heard_text, parse_text. rewrite (statements_torn _ _ _ (front_lines _ _ k L)).
  rewrite <- (heard_statements_same schema). destruct (heard_statements _ _ _ _). reflexivity.
Qed.
Print Assumptions C109_refuted.

(** The statements used are the first ones of the file, in full: no statement is cut short. *)
Theorem C109_statements : forall text raws k why, lines_of text raws ->
  exists lost, get_statements text = fst (statements_from (torn (firstn k raws) why)) ++ lost.
Proof. intros text raws k why L. rewrite (statements_torn _ _ _ (front_lines _ _ k L)). exact (front_statements _ _ k L). Qed.
Print Assumptions C109_statements.

(** If the whole file can be parsed, a database is returned at every failure, and its tables are the first
    ones of the whole file. *)
Theorem C109_database : forall name schema text raws k why d, lines_of text raws -> parse_text name schema text = Ok d ->
  exists d' ms, parse_source name schema (torn (firstn k raws) why) = (Ok d', [why], ms)
  /\ exists lost, get_table_names d = get_table_names d' ++ lost.
Proof.
  intros name schema text raws k why d L E. rewrite (C109_refuted _ _ _ _ _ _ L). destruct (front_statements _ _ k L) as [l S]. unfold parse_text in *. rewrite S, statements_app in E.
  destruct (parse_statements schema 0 (get_statements (concat (firstn k raws))) (empty_database name)) as [d'|e]; [|discriminate]. cbn [bind] in E.
  eexists _, _. split; [reflexivity|]. exact (statements_names _ _ _ _ _ E).
Qed.
Print Assumptions C109_database.
(** A failure to read hides errors and adds none. *)
Theorem C109_error : forall name schema text raws k why e, lines_of text raws ->
  fst (fst (parse_source name schema (torn (firstn k raws) why))) = Err e -> parse_text name schema text = Err e.
Proof.
  intros name schema text raws k why e L E. rewrite (C109_refuted _ _ _ _ _ _ L) in E. cbn [fst] in E. destruct (front_statements _ _ k L) as [l S]. unfold parse_text in *. rewrite S, statements_app, E. reflexivity.
Qed.
Print Assumptions C109_error.
(** Nothing is lost if the last statement had ended before the failure. *)
Theorem C109_complete : forall name schema text raws k why, lines_of text raws ->
  length (fst (statements_from (torn (firstn k raws) why))) = length (get_statements text) ->
  parse_source name schema (torn (firstn k raws) why) = (parse_text name schema text, [why], snd (heard_text name schema text)).
Proof.
  intros name schema text raws k why L N. rewrite (C109_refuted _ _ _ _ _ _ L). rewrite (statements_torn _ _ _ (front_lines _ _ k L)) in N. cbn [fst] in N. destruct (front_statements _ _ k L) as [l S].
  rewrite S, app_length in N. destruct l; [|cbn [length] in N; lia]. rewrite app_nil_r in S. unfold heard_text, parse_text. rewrite S. reflexivity.
Qed.
Print Assumptions C109_complete.

(** Three lines of two tables and a key: every number of lines before the failure. *)
Definition torn_text : str := $"create table a (x int);" ++ [newline] ++ $"create table b (y int);" ++ [newline] ++ $"alter table a add constraint primary key (x);".
Example C109_case : exists raws, lines_of torn_text raws /\ length raws = 3
  /\ map (fun k => match parse_source ($"d") ($"s") (torn (firstn k raws) ($"bad byte")) with
                   | (Ok d, out, ms) => (get_table_names d, map t_pk (db_iter d), out, ms) | _ => ([], [], [], []) end) [0; 1; 2; 3]
     = [([], [], [$"bad byte"], []); ([$"a"], [[]], [$"bad byte"], []); ([$"a"; $"b"], [[]; []], [$"bad byte"], []); ([$"a"; $"b"], [[$"x"]; []], [$"bad byte"], [])].
Proof. eexists. split; [apply text_lines|]. split; vm_compute; reflexivity. Qed.
