(** * Specification: the layout of a DDL file (C100)

    Only what the words of its statements are counts. *)
From Verif Require Export SpecParse.

Definition all_space (s : str) : Prop := forall c, In c s -> is_space c = true.
Definition no_space (s : str) : Prop := forall c, In c s -> is_space c = false.
(** the words of a text, separated by any white space *)
Inductive in_words : str -> list str -> Prop :=
| iw_none w : all_space w -> in_words w []
| iw_last w x : all_space w -> x <> [] -> no_space x -> in_words (w ++ x) [x]
| iw_word w x c s ws : all_space w -> x <> [] -> no_space x -> is_space c = true -> in_words s ws ->
    in_words (w ++ x ++ c :: s) (x :: ws).
(** a line up to its first double dash *)
Definition without_comment (raw l : str) : Prop :=
  (exists b, first_cut ($"--") raw l b) \/ (~ occurs ($"--") raw /\ l = raw).
Definition begins_go (l : str) : Prop := exists w r, all_space w /\ l = w ++ $"GO" ++ r.
(** the lines of code: comments cut off, lines that begin with GO left out *)
Inductive code_lines : list str -> list str -> Prop :=
| cl_none : code_lines [] []
| cl_code raw l raws ls : without_comment raw l -> ~ begins_go l -> code_lines raws ls -> code_lines (raw :: raws) (l :: ls)
| cl_go raw l raws ls : without_comment raw l -> begins_go l -> code_lines raws ls -> code_lines (raw :: raws) ls.
(** a file whose statements consist of the words [wss]: there are no block comments, and no line has
    two semicolons *)
Record laid_out (text : str) (wss : list (list str)) : Prop := {
  lo_code : exists t raws ls ps rest, newlines_read text t /\ in_lines t raws /\ code_lines raws ls
    /\ (forall c, In c t -> is_space c = true -> In c [" "%char; ascii_of_nat 9; lf])
    /\ (forall l, In l ls -> ~ occurs ($"/*") l /\ semicolons l <= 1)
    /\ flat_map (fun l => l ++ [lf]) ls = terminated ps ++ rest
    /\ Forall (fun p => ~ In ";"%char p) ps /\ ~ In ";"%char rest
    /\ Forall2 in_words ps wss }.
