(** * C100: the layout of a DDL file does not matter *)
From Verif Require Import LayoutFacts Messages.

(** C100: the statements of a file are its words, whatever the line breaks, blank lines, indentation,
    comments after a double dash and newline convention. *)
Theorem C100_layout_partial : forall text wss, laid_out text wss -> get_statements text = map (join ($" ")) wss.
Proof. exact laid_out_words. Qed.
Print Assumptions C100_layout_partial.

(** files of the same words give the same model and the same messages *)
Theorem C100_same : forall name schema text text' wss, laid_out text wss -> laid_out text' wss ->
  parse_text name schema text = parse_text name schema text' /\ heard_text name schema text = heard_text name schema text'.
Proof. intros name schema text text' wss H H'. unfold parse_text, heard_text. rewrite (C100_layout_partial _ _ H), (C100_layout_partial _ _ H'). split; reflexivity. Qed.
Print Assumptions C100_same.

(** the same two statements in two layouts *)
Definition wide : str :=
  $"create table a (x int); -- first; second" ++ [cr; lf] ++ $"GO" ++ [cr; lf] ++ $"drop b;" ++ [cr; lf].
Definition tall : str :=
  [lf; ascii_of_nat 9] ++ $"create" ++ [lf] ++ $"  table   a -- the table" ++ [lf; lf] ++ $"(x" ++ [ascii_of_nat 9] ++ $"int)" ++ [lf] ++ $";" ++ [lf] ++ $"drop" ++ [lf] ++ $" b ;".
Example C100_case : let wss := [[$"create"; $"table"; $"a"; $"(x"; $"int)"]; [$"drop"; $"b"]] in
  laid_out wide wss /\ laid_out tall wss /\ get_statements wide = [$"create table a (x int)"; $"drop b"].
Proof.
  intros wss. assert (W : laid_out wide wss) by exact (plain_text_ok wide eq_refl).
  split; [exact W|split; [exact (plain_text_ok tall eq_refl)|rewrite (C100_layout_partial _ _ W); reflexivity]].
Qed.

(** C100 is false for lines that begin with GO: they are lost, whatever follows. *)
Theorem C100_go_refuted : forall a w r b, all_space w -> ~ In lf w -> ~ In lf r -> ~ In cr (a ++ w ++ r ++ b) ->
  get_statements (a ++ lf :: w ++ $"GO" ++ r ++ lf :: b) = get_statements (a ++ lf :: b).
Proof. exact go_lost. Qed.
Print Assumptions C100_go_refuted.
Example C100_go_case :
  get_statements ($"create table t (" ++ lf :: $"  " ++ $"GO" ++ $"AL int," ++ lf :: $"x int);") = [$"create table t ( x int)"]
  /\ get_statements ($"create table t (GOAL int," ++ lf :: $"x int);") = [$"create table t (GOAL int, x int)"].
Proof. split; vm_compute; reflexivity. Qed.

(** and for lines with a block comment: their first word is glued to the line before. *)
Theorem C100_comment_refuted : forall x y c, no_space x -> no_space y -> no_space c -> x <> [] -> y <> [] ->
  free_of [";"; "-"; "/"]%char (x ++ y) -> free_of [";"; "-"; "*"]%char c -> ~ begins_go x -> ~ begins_go y ->
  get_statements (x ++ lf :: y ++ $"/*" ++ c ++ $"*/;") = [x ++ y].
Proof. exact comment_glues. Qed.
Print Assumptions C100_comment_refuted.
(** so a comment can make a table vanish without a message *)
Example C100_comment_case : parse_text ($"d") ($"s") ($"create" ++ lf :: $"table t (a int);") <> Ok (empty_database ($"d"))
  /\ get_statements ($"create" ++ lf :: $"table /* mine */ t (a int);") = [$"createtable t (a int)"]
  /\ parse_text ($"d") ($"s") ($"create" ++ lf :: $"table /* mine */ t (a int);") = Ok (empty_database ($"d")).
Proof.
  split; [vm_compute; discriminate|]. repeat split; vm_compute; reflexivity.
Qed.
