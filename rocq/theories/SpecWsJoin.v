(** * Specification vocabulary for the review of worksheet joins *)
From Verif Require Export SpecJoin.

(** the worksheet says that the table is of this kind (the first entry with the name counts) *)
Definition of_kind (w : worksheet) (name kind : str) : Prop :=
  name <> [] /\ exists pre t post, ws_tables w = pre ++ t :: post /\ wt_name t = YStr name /\ wt_type t = YStr kind
                                   /\ forall x, In x pre -> wt_name x <> YStr name.
(** a table as written in queries *)
Definition place (d : database) (t : table) (name : str) : str := quoted (db_name d) ++ $"." ++ quoted (t_schema t) ++ $"." ++ quoted name.
(** the query for the pairs of rows without partner in the table named, by a column that is NULL then *)
Definition probe_text (d : database) (s t : table) (sname tname : str) (fk : foreign_key) (null_table null_column : str) : str :=
  let col n u k := place d u n ++ $"." ++ quoted k in
  $"select " ++ join ($",") (map (col sname s) (fk_from_keys fk)) ++ $", " ++ join ($",") (map (col tname t) (fk_to_keys fk))
  ++ $" FROM " ++ place d s sname ++ $" full outer join " ++ place d t tname ++ $" ON "
  ++ join ($" AND ") (map (fun p => $"(" ++ col sname s (fst p) ++ $" = " ++ col tname t (snd p) ++ $")") (combine (fk_from_keys fk) (fk_to_keys fk)))
  ++ $" WHERE " ++ quoted null_table ++ $"." ++ quoted null_column ++ $" = NULL;".
(** the kind of join that keeps the rows found by the first probe (left) and the second one (right) *)
Definition suggested (left right : list row) (kind : str) : Prop :=
  (left = [] /\ right = [] /\ kind = $"INNER") \/ (left <> [] /\ right = [] /\ kind = $"LEFT_OUTER")
  \/ (left = [] /\ right <> [] /\ kind = $"RIGHT_OUTER") \/ (left <> [] /\ right <> [] /\ kind = $"OUTER").

(** What is to be said about a join of a worksheet, and which queries are to be asked, after the queries [h].
    Nothing is said about joins of an unsupported kind: of aliases or other things that are no tables, and
    joins that are no foreign keys. *)
Inductive ws_reviewed (ask : oracle) (d : database) (w : worksheet) (h : list str) (j : ws_join) : list str -> list str -> Prop :=
| no_table_source source kind :
    wj_source j = YStr source -> of_kind w source kind -> kind <> $"table" -> ws_reviewed ask d w h j [] h
| no_table_destination source destination s kind :
    wj_source j = YStr source -> of_kind w source ($"table") -> get_table d source = Some s ->
    wj_destination j = YStr destination -> of_kind w destination kind -> kind <> $"table" -> ws_reviewed ask d w h j [] h
| no_foreign_key source destination name s t :
    wj_source j = YStr source -> of_kind w source ($"table") -> get_table d source = Some s ->
    wj_destination j = YStr destination -> of_kind w destination ($"table") -> get_table d destination = Some t ->
    wj_name j = YStr name -> get_foreign_key s name = None -> ws_reviewed ask d w h j [] h
| asked source destination name type s t fk a from_keys b to_keys left right kind said :
    wj_source j = YStr source -> of_kind w source ($"table") -> get_table d source = Some s ->
    wj_destination j = YStr destination -> of_kind w destination ($"table") -> get_table d destination = Some t ->
    wj_name j = YStr name -> get_foreign_key s name = Some fk -> wj_type j = YStr type ->
    fk_from_keys fk = a :: from_keys -> fk_to_keys fk = b :: to_keys -> length from_keys = length to_keys ->
    let q1 := probe_text d s t source destination fk destination a in
    let q2 := probe_text d s t source destination fk source b in
    ask h q1 = Ok left -> ask (h ++ [q1]) q2 = Ok right -> suggested left right kind ->
    (type = kind -> said = []) ->
    (type <> kind -> said = [$"Join " ++ name ++ $" is type " ++ type ++ $", but should probably be " ++ kind ++ $"."]) ->
    ws_reviewed ask d w h j said (h ++ [q1; q2]).
(** the same for joins one after the other *)
Inductive ws_all_reviewed (ask : oracle) (d : database) (w : worksheet) : list str -> list ws_join -> list str -> list str -> Prop :=
| reviewed_none h : ws_all_reviewed ask d w h [] [] h
| reviewed_cons h j js said h1 rest h2 :
    ws_reviewed ask d w h j said h1 -> ws_all_reviewed ask d w h1 js rest h2 -> ws_all_reviewed ask d w h (j :: js) (said ++ rest) h2.

(** A join that can be reviewed: its fields are texts, its tables are in the worksheet and, if they are
    tables, in the database, and its foreign key, if there is one, pairs columns. *)
Record reviewable (d : database) (w : worksheet) (j : ws_join) : Prop := {
  rb_texts : exists source destination name type, wj_source j = YStr source /\ wj_destination j = YStr destination /\ wj_name j = YStr name /\ wj_type j = YStr type;
  rb_kinds : forall n, wj_source j = YStr n \/ wj_destination j = YStr n -> exists kind, of_kind w n kind;
  rb_known : forall n, wj_source j = YStr n \/ wj_destination j = YStr n -> of_kind w n ($"table") -> get_table d n <> None;
  rb_paired : forall n s name fk, wj_source j = YStr n -> get_table d n = Some s -> wj_name j = YStr name -> get_foreign_key s name = Some fk ->
                fk_from_keys fk <> [] /\ length (fk_from_keys fk) = length (fk_to_keys fk) }.

(** the last clause of a query refers to a column of a table of the database *)
Definition where_fits (d : database) (q : str) : Prop :=
  exists pre t c u, q = pre ++ $" WHERE " ++ quoted t ++ $"." ++ quoted c ++ $" = NULL;" /\ get_table d t = Some u /\ In c (get_column_names u).
