(** * Specification: ALTER TABLE statements as other databases write them (C101)

    The abstract syntax of statements that add a primary key, foreign keys or a relationship, the
    texts, and the tables that should result. *)
From Verif Require Export SpecDialect.

(** a name after those of its schema and database *)
Definition qualified (path : list (quoting * str)) (q : quoting) (n : str) : str :=
  flat_map (fun x => spelled x ++ $".") path ++ spell q n.
(** back quotes are not understood, nor are brackets around a name with blanks *)
Record good_target (path : list (quoting * str)) (q : quoting) (n : str) : Prop := {
  gr_names : forall r m, In (r, m) path \/ (r, m) = (q, n) -> good_name r m;
  gr_trimmed : trimmed n;
  gr_quoting : q <> BackQuotes /\ (q = Brackets -> blank_free n) }.
(** a list of columns in parentheses *)
Definition columns_text (l : list (bool * (quoting * str) * bool)) : str := join ($",") (map (padded spelled) l).
Definition columns_names (l : list (bool * (quoting * str) * bool)) : list str := map (fun x => snd (snd (fst x))) l.
Definition good_columns (l : list (bool * (quoting * str) * bool)) : Prop :=
  l <> [] /\ forall a q n b, In (a, (q, n), b) l -> good_name q n /\ q <> BackQuotes.
(** [s] is [w] in any case *)
Definition says (w s : str) : Prop := lower s = w.
(** statements that create nothing *)
Definition alters_only (s : str) : Prop :=
  ~ occurs ($"create database") (lower s) /\ ~ occurs ($"create table") (lower s) /\ ~ occurs ($"create or replace table") (lower s).

(** ** Primary keys: ALTER TABLE t ADD CONSTRAINT k PRIMARY KEY CLUSTERED (a, b) ON x *)
Record key_statement := {
  ka_head : str; ka_path : list (quoting * str); ka_quoting : quoting; ka_table : str;
  ka_words : str;                                  (** ADD, ADD CONSTRAINT k *)
  ka_key : str; ka_kind : str;                     (** PRIMARY KEY, CLUSTERED *)
  ka_columns : list (bool * (quoting * str) * bool);
  ka_more : str }.
Definition key_statement_text (k : key_statement) : str :=
  ka_head k ++ qualified (ka_path k) (ka_quoting k) (ka_table k) ++ $" " ++ ka_words k ++ ka_key k ++ ka_kind k
  ++ $"(" ++ columns_text (ka_columns k) ++ $")" ++ ka_more k.
Record good_key_statement (k : key_statement) : Prop := {
  gk_clean : clean_statement (key_statement_text k);
  gk_only : alters_only (key_statement_text k);
  gk_head' : says ($"alter table ") (ka_head k);
  gk_target : good_target (ka_path k) (ka_quoting k) (ka_table k);
  gk_words' : ~ In "."%char (ka_words k);
  gk_key : says ($"primary key") (ka_key k);
  gk_once : ~ occurs ($"primary key") (lower (ka_kind k ++ $"(" ++ columns_text (ka_columns k) ++ $")" ++ ka_more k));
  gk_columns' : good_columns (ka_columns k);
  gk_more' : ~ In ")"%char (ka_more k) }.

(** ** Foreign keys: ALTER TABLE t ADD CONSTRAINT f FOREIGN KEY (a) REFERENCES s.u (b) ON DELETE CASCADE,
       CONSTRAINT g ... *)
Record reference := {
  rf_word : str;                                   (** CONSTRAINT *)
  rf_name : option (quoting * str);
  rf_key : str; rf_gap : bool;                     (** FOREIGN KEY *)
  rf_from : list (bool * (quoting * str) * bool);
  rf_references : str; rf_gap2 : bool;
  rf_path : list (quoting * str); rf_quoting : quoting; rf_table : str;
  rf_to : list (bool * (quoting * str) * bool);
  rf_more : str }.
Definition reference_text (r : reference) : str :=
  match rf_name r with Some x => spelled x ++ $" " | None => [] end
  ++ rf_key r ++ gap (rf_gap r) ++ $"(" ++ columns_text (rf_from r) ++ $") " ++ rf_references r ++ gap (rf_gap2 r)
  ++ qualified (rf_path r) (rf_quoting r) (rf_table r) ++ $" (" ++ columns_text (rf_to r) ++ $")" ++ rf_more r.
Record reference_statement := {
  ra_head : str; ra_path : list (quoting * str); ra_quoting : quoting; ra_table : str; ra_add : str;
  ra_references : list reference }.
Definition references_text (l : list reference) : str := join ($",") (map (fun r => $" " ++ rf_word r ++ $" " ++ reference_text r) l).
Definition reference_statement_text (s : reference_statement) : str :=
  ra_head s ++ qualified (ra_path s) (ra_quoting s) (ra_table s) ++ $" " ++ ra_add s ++ references_text (ra_references s).
Record good_reference (r : reference) : Prop := {
  gf_word : says ($"constraint") (rf_word r) /\ says ($"foreign key") (rf_key r) /\ says ($"references") (rf_references r);
  gf_name : forall q n, rf_name r = Some (q, n) -> good_name q n /\ q <> BackQuotes;
  gf_from : good_columns (rf_from r);
  gf_target : good_target (rf_path r) (rf_quoting r) (rf_table r);
  gf_to : good_columns (rf_to r);
  gf_pairs : length (rf_from r) = length (rf_to r);
  gf_more : ~ In ")"%char (rf_more r);
  gf_once : ~ occurs ($"constraint") (lower (reference_text r))
    /\ forall x y, lower (reference_text r) = x ++ $"foreign key" ++ y -> x = lower (match rf_name r with Some n => spelled n ++ $" " | None => [] end) }.
Record good_reference_statement (s : reference_statement) : Prop := {
  gs_clean : clean_statement (reference_statement_text s);
  gs_only : alters_only (reference_statement_text s) /\ ~ occurs ($"primary key") (lower (reference_statement_text s));
  gs_head : says ($"alter table ") (ra_head s) /\ says ($"add") (ra_add s);
  gs_names : forall q n, In (q, n) (ra_path s) \/ (q, n) = (ra_quoting s, ra_table s) -> good_name q n;
  gs_quoting : ra_quoting s <> BackQuotes;
  gs_some : ra_references s <> [];
  gs_references : forall r, In r (ra_references s) -> good_reference r;
  gs_once : ~ occurs ($" add") (lower (references_text (ra_references s)))
    /\ ~ occurs ($"constraint") (lower (qualified (ra_path s) (ra_quoting s) (ra_table s))) }.
(** the foreign key a reference stands for *)
Definition reference_key (from : str) (r : reference) : foreign_key :=
  {| fk_name := match rf_name r with Some (_, n) => n | None => $"FK_" ++ from ++ $"_to_" ++ rf_table r end;
     fk_from_table := from; fk_from_keys := columns_names (rf_from r);
     fk_to_table := rf_table r; fk_to_keys := columns_names (rf_to r) |}.
Definition with_references (t : table) (l : list reference) : table :=
  with_fks t (fold_left (fun fks fk => dset (fk_name fk) fk fks) (map (reference_key (t_name t)) l) (t_fks t)).

(** ** Relationships: ALTER TABLE t ADD RELATIONSHIP r WITH u AS "t"."a" = "u"."b" *)
Record relation_statement := {
  la_head : str; la_path : list (quoting * str); la_quoting : quoting; la_table : str;
  la_add : str; la_name : option (quoting * str); la_with : str;
  la_to_path : list (quoting * str); la_to_quoting : quoting; la_to_table : str;
  la_as : str; la_condition : str }.
Definition relation_target (s : relation_statement) : str := qualified (la_path s) (la_quoting s) (la_table s).
Definition relation_tail (s : relation_statement) : str :=
  qualified (la_to_path s) (la_to_quoting s) (la_to_table s) ++ $" " ++ la_as s ++ $" " ++ la_condition s.
Definition relation_rest (s : relation_statement) : str :=
  la_add s ++ $" " ++ match la_name s with Some x => spelled x ++ $" " | None => [] end ++ la_with s ++ $" " ++ relation_tail s.
Definition relation_statement_text (s : relation_statement) : str := la_head s ++ relation_target s ++ $" " ++ relation_rest s.
Record good_relation_statement (s : relation_statement) : Prop := {
  gl_clean : clean_statement (relation_statement_text s);
  gl_only : alters_only (relation_statement_text s) /\ ~ occurs ($"primary key") (lower (relation_statement_text s))
    /\ ~ occurs ($"foreign") (lower (relation_statement_text s));
  gl_words : says ($"alter table ") (la_head s) /\ says ($"add relationship") (la_add s) /\ says ($"with") (la_with s) /\ says ($"as") (la_as s);
  gl_target : good_target (la_path s) (la_quoting s) (la_table s);
  gl_name : forall q n, la_name s = Some (q, n) -> good_name q n /\ q <> BackQuotes;
  gl_to : good_target (la_to_path s) (la_to_quoting s) (la_to_table s);
  (** each keyword occurs once *)
  gl_once : ~ occurs ($" add relationship ") (lower (relation_target s ++ $" add relationship"))
    /\ ~ occurs ($" add relationship ") (lower (relation_rest s))
    /\ ~ occurs ($" with ") (lower (la_with s ++ $" " ++ relation_tail s))
    /\ ~ occurs ($" as ") (lower (la_as s ++ $" " ++ la_condition s)) }.
Definition statement_relation (from : str) (s : relation_statement) : relationship :=
  {| rel_name := match la_name s with Some (_, n) => n | None => $"REL_" ++ from ++ $"_to_" ++ la_to_table s end;
     rel_from_table := from; rel_to_table := la_to_table s; rel_conditions := la_condition s |}.

(** the database with one table changed *)
Definition with_table (d : database) (n : str) (t : table) : database :=
  {| db_name := db_name d; db_tables := dset n t (db_tables d); db_schemas := db_schemas d |}.
