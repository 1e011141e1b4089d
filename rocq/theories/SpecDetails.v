(** * Specification vocabulary: Excel cells, Python literals, missing YAML values *)
From Verif Require Export SpecExcel SpecWorksheet ReviewGraph.

(** ** What openpyxl refuses (C48) *)
Definition control (c : ascii) : Prop :=
  In (nat_of_ascii c) [0; 1; 2; 3; 4; 5; 6; 7; 8; 11; 12; 14; 15; 16; 17; 18; 19; 20; 21; 22; 23; 24; 25; 26; 27; 28; 29; 30; 31].
(** a control character among the 32767 that fit into a cell *)
Definition refused_text (s : str) : Prop := exists a c b, s = a ++ c :: b /\ control c /\ (N.of_nat (length a) < 32767)%N.
(** the texts of a database that become cells *)
Definition row_texts (d : database) (t : table) : list str :=
  [db_name d; t_schema t; t_name t; join ($", ") (t_pk t)]
  ++ match t_shard t with Some sk => [join ($", ") (sk_keys sk)] | None => [] end
  ++ flat_map (fun c => [column_name c; column_type c]) (table_iter t)
  ++ flat_map (fun f => [fk_name f; fk_from_table f; join ($", ") (fk_from_keys f); fk_to_table f; join ($", ") (fk_to_keys f)]) (foreign_keys_iter t)
  ++ flat_map (fun r => [rel_name r; rel_from_table r; rel_to_table r; rel_conditions r]) (relationships_iter t).
Definition cell_texts (d : database) : list str := flat_map (row_texts d) (db_iter d).

(** ** Python literals (C54) *)
Definition hex_value (c : ascii) : option nat :=
  let n := nat_of_ascii c in
  if Nat.leb 48 n && Nat.leb n 57 then Some (n - 48) else if Nat.leb 97 n && Nat.leb n 102 then Some (n - 87) else None.
(** the text a literal stands for up to its closing quote [q], and what follows *)
Fixpoint literal (q : ascii) (s : str) : option (str * str) :=
  match s with
  | [] => None
  | c :: r =>
      if Ascii.eqb c q then Some ([], r)
      else if Ascii.eqb c "\" then
        match r with
        | "x"%char :: h :: l :: r' =>
            match hex_value h, hex_value l, literal q r' with
            | Some a, Some b, Some (x, rest) => Some (ascii_of_nat (16 * a + b) :: x, rest)
            | _, _, _ => None
            end
        | e :: r' =>
            match (if Ascii.eqb e "t" then Some 9 else if Ascii.eqb e "n" then Some 10 else if Ascii.eqb e "r" then Some 13
                   else if Ascii.eqb e "\" || Ascii.eqb e "'" || Ascii.eqb e dquote then Some (nat_of_ascii e) else None), literal q r' with
            | Some n, Some (x, rest) => Some (ascii_of_nat n :: x, rest)
            | _, _ => None
            end
        | [] => None
        end
      else if Ascii.eqb c newline then None
      else match literal q r with Some (x, rest) => Some (c :: x, rest) | None => None end
  end.
Definition read_literal (s : str) : option (str * str) :=
  match s with q :: r => if Ascii.eqb q "'" || Ascii.eqb q dquote then literal q r else None | [] => None end.

(** ** Values that count as missing (C64) *)
Definition nothing (v : yaml) : Prop :=
  v = YNull \/ v = YBool false \/ (exists q, v = YNum q /\ (q == 0)%Q) \/ v = YStr [] \/ v = YList [] \/ v = YMap [].
