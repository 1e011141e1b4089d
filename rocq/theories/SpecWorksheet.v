(** * Specification vocabulary for reading worksheets *)
From Verif Require Export Worksheet SpecParse.

(** the value under a key of a map *)
Definition at_key (v : yaml) (key : str) (x : yaml) : Prop := exists m, v = YMap m /\ dget key m = Some x.
Definition without (v : yaml) (key : str) : Prop := exists m, v = YMap m /\ dget key m = None.
(** a value, or nothing *)
Definition absent (v : yaml) (key : str) : Prop := without v key \/ exists x, at_key v key x /\ truthy x = false.
Definition at_key_or (v : yaml) (key : str) (default x : yaml) : Prop := at_key v key x \/ (without v key /\ x = default).
Definition list_at (v : yaml) (key : str) (l : list yaml) : Prop := at_key v key (YList l).

Definition table_doc (v : yaml) (t : ws_table) : Prop :=
  at_key v ($"name") (wt_name t) /\ truthy (wt_name t) = true /\ at_key_or v ($"type") (YStr ($"table")) (wt_type t)
  /\ exists s, wt_type t = YStr s /\ In s [$"table"; $"alias"; $"fqn"].
Definition join_doc (v : yaml) (j : ws_join) : Prop :=
  at_key v ($"name") (wj_name j) /\ at_key v ($"source") (wj_source j) /\ at_key v ($"destination") (wj_destination j)
  /\ at_key v ($"type") (wj_type j) /\ at_key v ($"is_one_to_one") (wj_one_to_one j).
(** one step of a join path: a list of joins, or none *)
Definition step_doc (v : yaml) (joins : list yaml) : Prop := list_at v ($"join") joins \/ (absent v ($"join") /\ joins = []).
Definition path_doc (v : yaml) (p : ws_path) : Prop :=
  at_key v ($"id") (wp_id p) /\ at_key v ($"table") (wp_table p)
  /\ exists steps joins, list_at v ($"join_path") steps /\ Forall2 step_doc steps joins /\ wp_joins p = concat joins.
Definition formula_doc (v : yaml) (f : ws_formula) : Prop :=
  at_key v ($"name") (wf_name f) /\ truthy (wf_name f) = true /\ at_key v ($"expr") (wf_expression f) /\ truthy (wf_expression f) = true
  /\ at_key_or v ($"id") YNull (wf_id f).
(** a column of a table has a column id; otherwise it has the id of a formula, if any *)
Definition column_doc (v : yaml) (c : ws_column) : Prop :=
  at_key v ($"name") (wc_name c) /\ truthy (wc_name c) = true
  /\ at_key v ($"properties") (YMap (wc_properties c)) /\ NoDup (dkeys (wc_properties c))
  /\ ((at_key v ($"column_id") (wc_id c) /\ truthy (wc_id c) = true /\ wc_is_formula c = false)
      \/ (absent v ($"column_id") /\ at_key v ($"formula_id") (wc_id c) /\ truthy (wc_id c) = true /\ wc_is_formula c = true)
      \/ (absent v ($"column_id") /\ at_key_or v ($"formula_id") YNull (wc_id c) /\ truthy (wc_id c) = false /\ wc_is_formula c = false)).

(** the document describes the worksheet *)
Definition worksheet_doc (doc : yaml) (w : worksheet) : Prop :=
  exists v ts js ps fs cs, at_key doc ($"worksheet") v
  /\ at_key v ($"name") (ws_name w) /\ truthy (ws_name w) = true
  /\ ((at_key v ($"description") (ws_description w) /\ truthy (ws_description w) = true) \/ (absent v ($"description") /\ ws_description w = YStr []))
  /\ (at_key v ($"properties") (YMap (ws_properties w)) \/ (exists p, at_key v ($"properties") p /\ truthy p = false /\ ws_properties w = []))
  /\ list_at v ($"tables") ts /\ Forall2 table_doc ts (ws_tables w)
  /\ list_at v ($"joins") js /\ Forall2 join_doc js (ws_joins w)
  /\ list_at v ($"table_paths") ps /\ Forall2 path_doc ps (ws_paths w)
  /\ (list_at v ($"formulas") fs \/ (without v ($"formulas") /\ fs = [])) /\ Forall2 formula_doc fs (ws_formulas w)
  /\ list_at v ($"worksheet_columns") cs /\ Forall2 column_doc cs (ws_columns w).

(** the lines of a text put together with their newlines; the last may have none *)
Definition text_of_lines (ls : list str) (last : str) : str := concat (map (fun l => l ++ [newline]) ls) ++ last.
