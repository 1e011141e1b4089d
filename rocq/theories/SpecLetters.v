(** * Specification: letters and white space (C12, C100)

    Those of ASCII, one by one. *)
From Verif Require Export SpecScript SpecLayout SpecConfig.

Definition capitals : str := $"ABCDEFGHIJKLMNOPQRSTUVWXYZ".
Definition smalls : str := $"abcdefghijklmnopqrstuvwxyz".
(** [b] is what stands in the place of [a]: the letter at its place in the other alphabet, or [a] itself *)
Definition stands_for (from to : str) (a b : ascii) : Prop :=
  (exists i, nth_error from i = Some a /\ nth_error to i = Some b) \/ (~ In a from /\ b = a).
(** tab, line feed, vertical tab, form feed, carriage return, the four separators and the blank *)
Definition white : list ascii := map ascii_of_nat [9; 10; 11; 12; 13; 28; 29; 30; 31; 32].
(** [t] is [s] without the white space around it *)
Definition cut_out (s t : str) : Prop :=
  exists a b, s = a ++ t ++ b /\ (forall c, In c (a ++ b) -> In c white)
    /\ (forall c r, t = c :: r -> ~ In c white) /\ (forall c r, t = r ++ [c] -> ~ In c white).
