(** * Specification: what reviews print while they run (C104) *)
From Verif Require Export SpecJoin SpecWsJoin SpecCliReview.

(** [a] with some elements of [b] left out *)
Inductive within {A} : list A -> list A -> Prop :=
| wi_nil : within [] []
| wi_both x a b : within a b -> within (x :: a) (x :: b)
| wi_skip x a b : within a b -> within a (x :: b).

(** a query about a join is shown; if no count can be read in the answer, the reason is given *)
Definition query_voiced (ask : oracle) (why : list str -> str -> str) (h : list str) (q : str) (vs : list voice) : Prop :=
  ((exists n, counts (ask h q) n) /\ vs = [Shown q])
  \/ ((forall n, ~ counts (ask h q) n) /\ vs = [Shown q; Warned ($"Error in query: " ++ why h q)]).
(** the joins of the model in turn *)
Inductive joins_voiced (ask : oracle) (why : list str -> str -> str) (d : database) : list str -> list join_between -> list voice -> list str -> Prop :=
| voiced_end h : joins_voiced ask why d h [] [] h
| voiced_join h j js q1 q2 v1 v2 vs h' :
    query_of_join d (jb_from j) (jb_to j) (jb_where j) q1 -> query_of_join d (jb_to j) (jb_from j) (jb_where j) q2 ->
    query_voiced ask why h (count_text q1) v1 -> query_voiced ask why (h ++ [count_text q1]) (count_text q2) v2 ->
    joins_voiced ask why d (h ++ [count_text q1; count_text q2]) js vs h' ->
    joins_voiced ask why d h (j :: js)
      (Shown ($"-- comparing " ++ jb_name j ++ $" between " ++ t_name (jb_from j) ++ $" and " ++ t_name (jb_to j)) :: v1 ++ v2 ++ vs) h'.

(** the first table of the worksheet with the name has this type *)
Definition of_type (w : worksheet) (name : str) (type : yaml) : Prop :=
  exists pre (x : ws_table) post, ws_tables w = pre ++ x :: post /\ Worksheet.wt_name x = YStr name /\ Worksheet.wt_type x = type /\ forall y : ws_table, In y pre -> Worksheet.wt_name y <> YStr name.
(** A join of a worksheet: the queries asked and the lines.  Either two queries are asked and shown, or
    a line on standard error names the table or the join that is not reviewed. *)
Inductive ws_voiced (text_of : yaml -> str) (d : database) (w : worksheet) (j : ws_join) : list str -> list voice -> Prop :=
| wv_asked source destination name s t fk a b q1 q2 :
    wj_source j = YStr source -> of_type w source (YStr ($"table")) -> get_table d source = Some s ->
    wj_destination j = YStr destination -> of_type w destination (YStr ($"table")) -> get_table d destination = Some t ->
    wj_name j = YStr name -> get_foreign_key s name = Some fk -> List.hd_error (fk_from_keys fk) = Some a -> List.hd_error (fk_to_keys fk) = Some b ->
    (length (fk_from_keys fk) = length (fk_to_keys fk) ->
       q1 = probe_text d s t source destination fk destination a /\ q2 = probe_text d s t source destination fk source b) ->
    ws_voiced text_of d w j [q1; q2] [Shown q1; Shown q2]
| wv_source n type : wj_source j = YStr n -> of_type w n type -> type <> YStr ($"table") ->
    ws_voiced text_of d w j [] [Warned ($"Table " ++ n ++ $" of type " ++ text_of type ++ $" not supported.  Only 'table' type supported.")]
| wv_destination n type : wj_destination j = YStr n -> of_type w n type -> type <> YStr ($"table") ->
    ws_voiced text_of d w j [] [Warned ($"Table " ++ n ++ $" of type " ++ text_of type ++ $" not supported. Only 'table' type supported.")]
| wv_no_key n s name : wj_source j = YStr n -> get_table d n = Some s -> wj_name j = YStr name -> get_foreign_key s name = None ->
    ws_voiced text_of d w j [] [Warned ($"Unable to access None for join " ++ name ++ $".  Only foreign keys supported.")].
Inductive ws_all_voiced (text_of : yaml -> str) (d : database) (w : worksheet) : list ws_join -> list str -> list voice -> Prop :=
| wav_none : ws_all_voiced text_of d w [] [] []
| wav_join j js qs vs qs' vs' : ws_voiced text_of d w j qs vs -> ws_all_voiced text_of d w js qs' vs' -> ws_all_voiced text_of d w (j :: js) (qs ++ qs') (vs ++ vs').

(** the lines of a review without a connection *)
Definition offline_lines (name : str) : list str :=
  [$"reviewing circular relationships for " ++ name ++ $" database"; $"reviewing long chain (> 2) relationships for " ++ name ++ $" database";
   $"reviewing primary keys for " ++ name ++ $" database"; $"reviewing relationships vs. foreign keys for " ++ name ++ $" database";
   $"Skipping review_sharding(database, rtql, config_file)"; $"Skipping review_table_joins(database, rtql)";
   $"Skipping review_worksheet_joins(database, rtql, worksheet)"].
(** the text of a YAML value *)
Definition value_text (other : yaml -> str) (v : yaml) : str := match v with YStr s => s | _ => other v end.
