(** * The text of a list of names, as in ['a', 'b'] *)
From Verif Require Export SpecDetails.

(** what comes after the opening bracket: literals with a comma and a blank between two of them *)
Inductive items : list str -> str -> Prop :=
| it_last s text : read_literal text = Some (s, $"]") -> items [s] text
| it_more s l text rest : read_literal text = Some (s, $", " ++ rest) -> items l rest -> items (s :: l) text.
Definition is_list (l : list str) (text : str) : Prop := (l = [] /\ text = $"[]") \/ exists rest, text = $"[" ++ rest /\ items l rest.
