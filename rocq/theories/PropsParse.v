(** * Properties of the DDL parser (C36-C44, C67-C69) *)
From Verif Require Import ParsedFacts.

(** C36: the statements delivered are what the text specification says, and nothing else. *)
Theorem C36_splitting : forall text stmts, delivers text stmts <-> stmts = get_statements text.
Proof. exact c36. Qed.
Print Assumptions C36_splitting.
(** without block comments: the cleaned lines, rejoined *)
Theorem C36_lines : forall text t raws ls, newlines_read text t -> in_lines t raws -> kept_lines raws ls ->
  (forall l, In l ls -> ~ occurs ($"/*") l) ->
  exists ps rest, flat_map (fun l => " "%char :: l) ls = terminated ps ++ rest /\ Forall (fun p => ~ In ";"%char p) ps
    /\ Forall2 tidy ps (get_statements text) /\ length (get_statements text) <= length ls.
Proof. exact c36_lines. Qed.
Print Assumptions C36_lines.
(** a line holding a block comment is glued to the line before *)
Example C36_case : get_statements ($"create  table" ++ [lf] ++ $"t (a int) -- note" ++ [lf] ++ $"; GO" ++ [lf] ++ $"GO" ++ [lf] ++ $"drop /* x */ y;")
  = [$"create table t (a int)"; $"GOdrop y"].
Proof. vm_compute. reflexivity. Qed.

(** C37 is false: of several statements ended on one line only one is delivered then. *)
Theorem C37_delivery_refuted : exists text xs ps rest, splits text xs ps rest
  /\ semicolons (concat xs) = 2 /\ rest = $" b;" /\ get_statements text = [$"a"].
Proof. exact c37_refuted. Qed.
Print Assumptions C37_delivery_refuted.
(** what holds: with at most one semicolon on each line all are delivered *)
Theorem C37_delivery_partial : forall text t raws, newlines_read text t -> in_lines t raws ->
  Forall (fun r => semicolons r <= 1) raws ->
  exists xs ps rest, splits text xs ps rest /\ Forall2 tidy ps (get_statements text)
    /\ ~ In ";"%char rest /\ length (get_statements text) = semicolons (concat xs).
Proof. exact c37_partial. Qed.
Print Assumptions C37_delivery_partial.
(** in general: the number delivered and the number left waiting *)
Theorem C37_exact : forall text xs ps rest, splits text xs ps rest ->
  semicolons (concat xs) = length (get_statements text) + left_waiting 0 (map semicolons xs)
  /\ length (get_statements text) <= length xs.
Proof. exact c37_exact. Qed.
Print Assumptions C37_exact.
Example C37_case : get_statements ($"a;" ++ [lf] ++ $"b" ++ [lf] ++ $"c; d" ++ [lf] ++ $";") = [$"a"; $"b c"; $"d"].
Proof. vm_compute. reflexivity. Qed.

(** C38: delivered statements are clean. *)
Theorem C38_clean : forall text s, In s (get_statements text) -> clean_statement s.
Proof. exact c38_clean. Qed.
Print Assumptions C38_clean.
Theorem C38_dashes : forall text t raws ls, newlines_read text t -> in_lines t raws -> kept_lines raws ls ->
  (forall l, In l ls -> ~ occurs ($"/*") l) -> forall s, In s (get_statements text) -> ~ occurs ($"--") s.
Proof. exact c38_dashes. Qed.
Print Assumptions C38_dashes.
(** the content of block comments does not matter *)
Theorem C38_comments : forall text text' t t' raws raws' ls ls',
  newlines_read text t -> in_lines t raws -> kept_lines raws ls ->
  newlines_read text' t' -> in_lines t' raws' -> kept_lines raws' ls' ->
  comments_only false ls ls' -> get_statements text = get_statements text'.
Proof. exact c38_comments. Qed.
Print Assumptions C38_comments.
(** limits: a double dash inside a block comment hides its end, a second comment on a line stays *)
Theorem C38_limits : (exists u v, get_statements ($"/* a -- b */" ++ [lf] ++ u) = [] /\ get_statements ($"/* a b */" ++ [lf] ++ u) = [v])
  /\ (exists text s, get_statements text = [s] /\ occurs ($"/*b*/") s).
Proof. exact c38_refuted. Qed.
Print Assumptions C38_limits.

(** C39: type conversion gives an accepted type, or ValueError for a malformed NUMBER(p,s) only. *)
Theorem C39_types : forall s t, looked_at s t ->
  (forall ty, convert_type s = Ok ty -> In ty target_types /\ exists c, mk_column (Some []) (Some ty) = Ok c)
  /\ (forall e, convert_type s = Err e <-> e = ValueError /\ (forall w, In w before_number -> ~ occurs w (lower t))
        /\ occurs ($"number") (lower t) /\ In ")"%char t /\ malformed_number (lower t)).
Proof. exact c39. Qed.
Print Assumptions C39_types.
(** every type text has such a part *)
Theorem C39_looked_at : forall s, exists t, looked_at s t.
Proof. exact looked_at_exists. Qed.
Print Assumptions C39_looked_at.
Example C39_case : convert_type ($"NUMBER(x,0)") = Err ValueError /\ convert_type ($"NUMBER(1,2,3)") = Err ValueError
  /\ convert_type ($"NUMERIC(10,2) NOT NULL") = Ok ($"DOUBLE").
Proof. repeat split; vm_compute; reflexivity. Qed.

(** C40: converting again changes INT only, and then nothing. *)
Theorem C40_stable : forall s ty, convert_type s = Ok ty -> exists ty2, convert_type ty = Ok ty2
  /\ ty2 = (if str_eqb ty ($"INT") then $"BIGINT" else ty) /\ convert_type ty2 = Ok ty2.
Proof. exact c40. Qed.
Print Assumptions C40_stable.
Example C40_case : convert_type ($"serial") = Ok ($"INT") /\ convert_type ($"INT") = Ok ($"BIGINT").
Proof. split; reflexivity. Qed.

(** C67: letter case, and what follows the type, do not matter. *)
Theorem C67_case : forall s, convert_type (upper s) = convert_type s /\ convert_type (lower s) = convert_type s.
Proof. exact c67_case. Qed.
Print Assumptions C67_case.
Theorem C67_after_paren : forall a b, ~ In ")"%char a -> convert_type (a ++ $")" ++ b) = convert_type (a ++ $")").
Proof. exact c67_paren. Qed.
Print Assumptions C67_after_paren.
Theorem C67_after_blank : forall a b, ~ In ")"%char a -> ~ In ")"%char b -> ~ In " "%char a ->
  convert_type (a ++ $" " ++ b) = convert_type a.
Proof. exact c67_blank. Qed.
Print Assumptions C67_after_blank.
Example C67_example : convert_type ($"DateTime NOT NULL") = Ok ($"DATETIME") /\ convert_type ($"datetime") = Ok ($"DATETIME").
Proof. split; reflexivity. Qed.

(** C68: NUMBER of any precision and scale. *)
Theorem C68_number : forall p s, let d := n_to_str p in let e := n_to_str s in
  convert_type ($"number(" ++ d ++ $"," ++ e ++ $")")
    = Ok (if N.eqb s 0 then if N.leb p 9 then $"INT" else $"BIGINT" else $"DOUBLE")
  /\ convert_type ($"number(" ++ d ++ $")") = Ok ($"INT")
  /\ convert_type ($"number(*," ++ e ++ $")") = Ok (if N.eqb s 0 then $"BIGINT" else $"DOUBLE")
  /\ convert_type ($"number") = Ok ($"BIGINT").
Proof. exact c68. Qed.
Print Assumptions C68_number.
Example C68_case : convert_type ($"number(9,0)") = Ok ($"INT") /\ convert_type ($"number(10,0)") = Ok ($"BIGINT")
  /\ convert_type ($"number(38)") = Ok ($"INT") /\ convert_type ($"number(10,2)") = Ok ($"DOUBLE").
Proof. repeat split; reflexivity. Qed.

(** C41 is false as stated: nested parentheses mislead the splitting. *)
Theorem C41_fields_refuted : exists s fs, cut_at_top s fs /\ ~ fields_of fs (raw_fields s).
Proof. exact c41_refuted. Qed.
Print Assumptions C41_fields_refuted.
(** true when parentheses are not nested *)
Theorem C41_fields_partial : forall s, flat_parens s -> exists fs, cut_at_top s fs /\ fields_of fs (raw_fields s).
Proof. exact c41_flat. Qed.
Print Assumptions C41_fields_partial.
(** there is one way only to cut a text at its top-level commas *)
Theorem C41_cut_unique : forall fs s gs, cut_at_top s fs -> cut_at_top s gs -> fs = gs.
Proof. exact cut_at_top_fun. Qed.
Print Assumptions C41_cut_unique.
(** and always nothing but white space is lost *)
Theorem C41_nothing_lost : forall s, exists fs, s = join ($",") fs /\ fields_of fs (raw_fields s).
Proof. exact c41_keeps. Qed.
Print Assumptions C41_nothing_lost.
Example C41_case : raw_fields ($"a int, b decimal(10,2) , primary key (a,b)") = [$"a int"; $"b decimal(10,2)"; $"primary key (a,b)"].
Proof. vm_compute. reflexivity. Qed.

(** C42: names are free of quoting. *)
Theorem C42_create_name : forall schema id d s d', parse_create_table schema id d s = Ok d' ->
  exists t, d' = add_table d t /\ free_of create_marks (t_name t).
Proof. intros schema id d s d' E. pose proof (create_ok schema id d s) as C. rewrite E in C. destruct C as [t [-> [_ [P _]]]]. exists t. split; [reflexivity|apply P]. Qed.
Print Assumptions C42_create_name.
Theorem C42_alter_name : forall s n, extract_table_name s = Ok n -> free_of alter_marks n.
Proof. exact extract_table_name_free. Qed.
Print Assumptions C42_alter_name.
Theorem C42_key_columns : forall s k, In k (key_columns_of s) -> free_of (","%char :: alter_marks) k.
Proof. exact key_columns_free. Qed.
Print Assumptions C42_key_columns.
Example C42_case : extract_table_name ([dq] ++ $"s" ++ [dq; "."%char; dq] ++ $"t" ++ [dq] ++ $" x") = Ok ($"t")
  /\ key_columns_of ($"[a] , b") = [$"a"; $"b"].
Proof. split; vm_compute; reflexivity. Qed.

(** C43: statements other than CREATE TABLE never raise, keep tables and columns, and touch only the
    kind of constraint they mention. *)
Theorem C43_alter : forall schema id d s,
  ~ occurs ($"create table") (lower s) -> ~ occurs ($"create or replace table") (lower s) ->
  exists d', parse_statement schema id d s = Ok d' /\ same_columns d d'
    /\ (~ occurs ($"alter table") (lower s) -> d' = d)
    /\ (occurs ($"primary key") (lower s) -> same_part t_fks d d' /\ same_part t_rels d d')
    /\ (~ occurs ($"primary key") (lower s) -> same_part t_pk d d')
    /\ (~ occurs ($"foreign") (lower s) -> same_part t_fks d d')
    /\ (~ occurs ($"relationship") (lower s) -> same_part t_rels d d').
Proof. exact c43. Qed.
Print Assumptions C43_alter.

(** C44: parsed databases are well formed. *)
Theorem C44_parsed : forall name schema text d, parse_text name schema text = Ok d ->
  db_name d = name /\ well_formed d /\ (forall t, In t (db_iter d) -> parsed_table schema t)
  /\ forall s, In s (get_schema_names d) -> s = schema.
Proof. intros name schema text d E. destruct (c44 _ _ _ _ E) as [A [B C]]. split; [exact A|]. split; [exact B|]. split; [exact C|]. exact (c44_schemas _ _ _ _ E). Qed.
Print Assumptions C44_parsed.
Definition sample : str :=
  $"create table a (id int not null, n varchar(20), primary key (id));" ++ [lf]
  ++ $"create table b (bid int, [aid] number(10,0), key (aid)) partition by hash (4) key (bid);" ++ [lf]
  ++ $"alter table b add constraint pk_b primary key (bid);" ++ [lf]
  ++ $"alter table b add constraint fk_b foreign key (aid) references a (id);" ++ [lf]
  ++ $"alter table a add relationship r with b as (a.id = b.aid);".
Example C44_case : exists d a b, parse_text ($"db") ($"s") sample = Ok d
  /\ get_table_names d = [$"a"; $"b"] /\ get_table d ($"a") = Some a /\ get_table d ($"b") = Some b
  /\ map (fun c => (column_name c, column_type c)) (table_iter b) = [($"bid", $"BIGINT"); ($"aid", $"BIGINT")]
  /\ t_pk a = [$"id"] /\ t_pk b = [$"bid"] /\ t_shard b = Some {| sk_id := 1; sk_keys := [$"bid"]; sk_shards := 4 |}
  /\ map fk_name (foreign_keys_iter b) = [$"fk_b"] /\ map rel_conditions (relationships_iter a) = [$"(a.id = b.aid)"].
Proof. eexists _, _, _. split; [vm_compute; reflexivity|]. repeat split; vm_compute; reflexivity. Qed.

(** C69: what a parse can raise, and for which statements. *)
Theorem C69_parse_errors : forall name schema text e, parse_text name schema text = Err e ->
  (e = IndexError \/ e = ValueError) /\ exists s, In s (get_statements text)
    /\ (occurs ($"create table") (lower s) \/ occurs ($"create or replace table") (lower s)).
Proof. exact c69. Qed.
Print Assumptions C69_parse_errors.
Example C69_case : parse_text ($"db") ($"s") ($"create table a (x int,, y int);") = Err IndexError
  /\ parse_text ($"db") ($"s") ($"create table a (x number(a,0));") = Err ValueError.
Proof. split; vm_compute; reflexivity. Qed.
