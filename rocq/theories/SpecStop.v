(** * Specification for C109: files that cannot be read to their end *)
From Verif Require Export ReadStop SpecParse.
From Coq Require Import List. Import ListNotations.

(** a file that is read in full *)
Fixpoint whole (raws : list str) : source := match raws with [] => Done | raw :: l => Next raw (whole l) end.
(** a file that yields some lines and then fails *)
Fixpoint torn (raws : list str) (why : str) : source := match raws with [] => Raises why | raw :: l => Next raw (torn l why) end.
(** [raws] are the lines of the text *)
Definition lines_of (text : str) (raws : list str) : Prop := exists t, newlines_read text t /\ in_lines t raws.
