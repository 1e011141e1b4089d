(** * Specification: where the parser cuts the fields of a CREATE TABLE (C41) *)
From Verif Require Export SpecParse.
From Coq Require Import List. Import ListNotations.

(** [fs] joined with commas; the comma after [a] is one of those between the fields *)
Definition cut_place (fs : list str) (a : str) : Prop :=
  exists pre post, pre <> [] /\ post <> [] /\ fs = pre ++ post /\ a = join ($",") pre.
(** the text cut at the commas before which the text satisfies [P], and at no other *)
Definition cut_where (P : str -> Prop) (s : str) (fs : list str) : Prop :=
  fs <> [] /\ s = join ($",") fs /\ forall a b, s = a ++ ","%char :: b -> (P a <-> cut_place fs a).
(** some closing parenthesis comes after every opening one *)
Definition shut (a : str) : Prop := forall x y, a = x ++ "("%char :: y -> In ")"%char y.
