(** * Specification: single sheets of a workbook (C71, C75, C76) *)
From Verif Require Export SpecExcel.

(** In this sheet the column with this header, of which there is only one, has this letter. *)
Definition letter_in (w : workbook value) (sheet title letter : str) : Prop :=
  exists h rows i, dget sheet w = Some (h :: rows) /\ nth_error h i = Some (VText title)
    /\ (forall j, nth_error h j = Some (VText title) -> j = i) /\ i < 26 /\ letter = [ascii_of_nat (65 + i)].
(** In this sheet the row with this number (the header has number 1) holds [v] under this header. *)
Definition cell_at (w : workbook value) (sheet title : str) (number : nat) (v : value) : Prop :=
  exists h rows i row, dget sheet w = Some (h :: rows) /\ nth_error h i = Some (VText title)
    /\ nth_error (h :: rows) (number - 1) = Some row /\ nth_error row i = Some v.

(** Excel: the number of rows of [sheet] whose columns a, b, c hold the same as the cells a', b', c' of
    row r of the sheet Tables *)
Definition count_rows (sheet a a' b b' c c' r : str) : str :=
  $"=COUNTIFS(" ++ sheet ++ $"!" ++ a ++ $":" ++ a ++ $",Tables!" ++ a' ++ r
    ++ $", " ++ sheet ++ $"!" ++ b ++ $":" ++ b ++ $",Tables!" ++ b' ++ r
    ++ $", " ++ sheet ++ $"!" ++ c ++ $":" ++ c ++ $",Tables!" ++ c' ++ r ++ $")".
(** Excel: the number of cells in column a of [sheet] that hold what cell a' of row r of this sheet
    holds, and nothing instead of 0 *)
Definition count_cells (sheet a a' r : str) : str :=
  let n := $"COUNTIF('" ++ sheet ++ $"'!$" ++ a ++ $":$" ++ a ++ $",""=""&$" ++ a' ++ r ++ $")" in
  $"=IF(" ++ n ++ $">0," ++ n ++ $","""")".

(** the list of names in a cell: nothing, or names between commas *)
Definition names_in (text : str) (l : list str) : Prop :=
  (strip text = [] /\ l = [])
  \/ (strip text <> [] /\ exists pieces, Forall (fun p => ~ In ","%char p) pieces /\ strip text = join ($",") pieces /\ l = map strip pieces).
