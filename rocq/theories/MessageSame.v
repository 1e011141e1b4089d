(** * Lemmas: the messages do not change what is read (for C96, C45) *)
From Verif Require Export Messages.
From Coq Require Import List. Import ListNotations.

Lemma heard_pk_same d s : fst (heard_primary_key d s) = parse_primary_key d s.
Proof.
  unfold heard_primary_key, parse_primary_key. destruct (rmatch pk_pattern s) as [[|g1 [|g2 [|? ?]]]|]; try reflexivity.
  destruct (extract_table_name g1) as [n|e]; [|reflexivity]. destruct (get_table d n); [|reflexivity]. destruct (set_primary_key _ _); reflexivity.
Qed.
Lemma heard_loop_same s n cs : forall d, fst (heard_fk_loop s n cs d) = fk_loop n cs d.
Proof.
  induction cs as [|c cs IH]; intros d; [reflexivity|]. cbn [heard_fk_loop fk_loop]. cbn zeta.
  destruct (fk_parts _) as [[[[nm fc] [tt|e]] tc]|]; try reflexivity. destruct (get_table d n).
  - destruct (add_fk_parts _ _ _ _ _); [apply IH | reflexivity].
  - rewrite <- IH. destruct (heard_fk_loop s n cs d). reflexivity.
Qed.
Lemma heard_fk_same d s : fst (heard_foreign_key d s) = parse_foreign_key d s.
Proof. unfold heard_foreign_key, parse_foreign_key. destruct (rmatch add_pattern s) as [[|g [|? ?]]|]; try reflexivity. apply heard_loop_same. Qed.
Lemma heard_rel_same d s : fst (heard_relationship d s) = parse_relationship d s.
Proof.
  unfold heard_relationship, parse_relationship. destruct (rel_parts s) as [[[[[n|e] nm] [tt|e']] c]|]; try reflexivity.
  destruct (get_table d n); [|reflexivity]. destruct (add_rel_parts _ _ _ _); reflexivity.
Qed.
Lemma heard_create_same schema id d s : fst (heard_create_table schema id d s) = parse_create_table schema id d s.
Proof.
  unfold heard_create_table, parse_create_table. cbn zeta. destruct (parse_columns _ _); [|reflexivity]. cbn [bind]. destruct (contains _ _); reflexivity.
Qed.
Lemma heard_statement_same schema id d s : fst (heard_statement schema id d s) = parse_statement schema id d s.
Proof.
  unfold heard_statement, parse_statement. cbn zeta. destruct (contains ($"create database") _); [reflexivity|].
  destruct (contains ($"create table") _ || contains ($"create or replace table") _); [apply heard_create_same|].
  destruct (contains ($"alter table") _); [|reflexivity].
  destruct (contains ($"primary key") _); [rewrite <- heard_pk_same; destruct (heard_primary_key d s); reflexivity|].
  destruct (contains ($"foreign") _); [rewrite <- heard_fk_same; destruct (heard_foreign_key d s); reflexivity|].
  destruct (contains ($"relationship") _); [rewrite <- heard_rel_same; destruct (heard_relationship d s); reflexivity|].
  destruct (contains ($"hash") _); reflexivity.
Qed.
Lemma heard_statements_same schema l : forall id d, fst (heard_statements schema id l d) = parse_statements schema id l d.
Proof.
  induction l as [|x l IH]; intros id d; [reflexivity|]. cbn [heard_statements parse_statements]. rewrite <- heard_statement_same.
  destruct (heard_statement schema id d x) as [[d'|e] ms]; [|reflexivity]. cbn [fst bind]. rewrite <- IH. destruct (heard_statements schema (S id) l d'). reflexivity.
Qed.
