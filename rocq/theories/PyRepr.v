(** * Python [repr] of strings and of lists of strings *)
From Verif Require Export PyDict.

(** the double quote *)
Definition dquote : ascii := chr 34.

(** [repr] of a character in a string quoted by [q]; [\x..] for what cannot be printed: control
    characters, the blank that does not break and the soft hyphen *)
Definition hex_digit (n : nat) : ascii := if Nat.ltb n 10 then chr (48 + n) else chr (87 + n).
Definition repr_char (q c : ascii) : str :=
  let n := ord c in
  if Ascii.eqb c q || Ascii.eqb c "\" then ["\"%char; c]
  else if Nat.eqb n 9 then $"\t" else if Nat.eqb n 10 then $"\n" else if Nat.eqb n 13 then $"\r"
  else if Nat.ltb n 32 || (Nat.leb 127 n && Nat.leb n 160) || Nat.eqb n 173 then $"\x" ++ [hex_digit (n / 16); hex_digit (n mod 16)]
  else [c].
(** [repr(s)] *)
Definition py_repr (s : str) : str :=
  let q := if existsb (Ascii.eqb "'") s && negb (existsb (Ascii.eqb dquote) s) then dquote else "'"%char in
  [q] ++ flat_map (repr_char q) s ++ [q].
(** [str(l)] for a list of strings *)
Definition list_repr (l : list str) : str := $"[" ++ join ($", ") (map py_repr l) ++ $"]".
