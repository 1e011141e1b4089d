(** * C101: ALTER TABLE statements of other databases *)
From Verif Require Import AlterDialect.

(** C101: under the conditions of [good_key_statement] the key of the table becomes the columns listed,
    nothing else changes and nothing is reported. *)
Theorem C101_key_partial : forall schema id d k t, good_key_statement k -> get_table d (ka_table k) = Some t ->
  heard_statement schema id d (key_statement_text k) = (Ok (with_table d (ka_table k) (with_pk t (columns_names (ka_columns k)))), []).
Proof. exact key_statement_heard. Qed.
Print Assumptions C101_key_partial.
(** The foreign keys are added in the order of the statement. *)
Theorem C101_references_partial : forall schema id d s t, good_reference_statement s -> get_table d (ra_table s) = Some t ->
  heard_statement schema id d (reference_statement_text s) = (Ok (with_table d (ra_table s) (with_references t (ra_references s))), []).
Proof. exact reference_statement_heard. Qed.
Print Assumptions C101_references_partial.
(** The relationship is added. *)
Theorem C101_relation_partial : forall schema id d s t, good_relation_statement s -> get_table d (la_table s) = Some t ->
  let r := statement_relation (t_name t) s in
  heard_statement schema id d (relation_statement_text s) = (Ok (with_table d (la_table s) (with_rels t (dset (rel_name r) r (t_rels t)))), []).
Proof. intros schema id d s t H G. exact (relation_statement_heard schema id d s t H G). Qed.
Print Assumptions C101_relation_partial.

(** concrete statements *)
Definition tbl (n : str) : table := mk_table n ($"s") None None.
Definition two : database := add_table (add_table (empty_database ($"d")) (tbl ($"Orders"))) (tbl ($"Order Lines")).
Definition a_key : key_statement :=
  {| ka_head := $"ALTER TABLE "; ka_path := [(Brackets, $"dbo")]; ka_quoting := DoubleQuotes; ka_table := $"Order Lines"; ka_words := $"ADD CONSTRAINT [PK_o] ";
     ka_key := $"PRIMARY KEY"; ka_kind := $" CLUSTERED "; ka_columns := [(true, (Brackets, $"id no"), false); (true, (Bare, $"line"), true)]; ka_more := $" ON [PRIMARY" |}.
Lemma a_key_good : good_key_statement a_key.
Proof.
  split; [apply clean_statement_ok|apply alters_only_ok|apply says_ok|apply good_target_ok|apply noch_ok|apply says_ok|apply lacks_ok|apply good_columns_ok|apply noch_ok]; vm_compute; reflexivity.
Qed.
Definition references : reference_statement :=
  {| ra_head := $"alter table "; ra_path := [(Bare, $"sales"); (DoubleQuotes, $"dbo")]; ra_quoting := Brackets; ra_table := $"Order Lines"; ra_add := $"ADD";
     ra_references :=
       [{| rf_word := $"CONSTRAINT"; rf_name := Some (DoubleQuotes, $"FK one"); rf_key := $"FOREIGN KEY"; rf_gap := false; rf_from := [(false, (Bare, $"a"), false); (true, (Bare, $"b"), false)];
           rf_references := $"REFERENCES"; rf_gap2 := true; rf_path := [(Bare, $"dbo")]; rf_quoting := Brackets; rf_table := $"Orders"; rf_to := [(false, (SingleQuotes, $"c"), false); (false, (Bare, $"d"), false)];
           rf_more := $" ON DELETE CASCADE" |};
        {| rf_word := $"constraint"; rf_name := None; rf_key := $"foreign key"; rf_gap := true; rf_from := [(false, (Bare, $"x"), true)];
           rf_references := $"references"; rf_gap2 := true; rf_path := []; rf_quoting := Bare; rf_table := $"Orders"; rf_to := [(true, (Bare, $"y"), false)]; rf_more := [] |}] |}.
Lemma references_good : good_reference_statement references.
Proof.
  split.
  - apply clean_statement_ok. vm_compute. reflexivity.
  - split; [apply alters_only_ok|apply lacks_ok]; vm_compute; reflexivity.
  - split; apply says_ok; reflexivity.
  - intros q n H. apply good_name_ok. destruct H as [[H|[H|[]]]|H]; apply pair_equal_spec in H; (destruct H as [<- <-] || destruct H as [-> ->]); reflexivity.
  - discriminate.
  - discriminate.
  - intros r [<-|[<-|[]]]; apply good_reference_ok; vm_compute; reflexivity.
  - split; apply lacks_ok; vm_compute; reflexivity.
Qed.
Definition relation (name : option (quoting * str)) : relation_statement :=
  {| la_head := $"ALTER TABLE "; la_path := []; la_quoting := Bare; la_table := $"Orders"; la_add := $"ADD RELATIONSHIP"; la_name := name; la_with := $"WITH";
     la_to_path := [(Bare, $"dbo")]; la_to_quoting := DoubleQuotes; la_to_table := $"Order Lines"; la_as := $"as"; la_condition := $"""Orders"".""a"" = ""Order Lines"".""b""" |}.
Lemma relation_good name : name = None \/ name = Some (Bare, $"R1") -> good_relation_statement (relation name).
Proof.
  intros H. split.
  - apply clean_statement_ok. destruct H as [-> | ->]; vm_compute; reflexivity.
  - split; [apply alters_only_ok|split; apply lacks_ok]; destruct H as [-> | ->]; vm_compute; reflexivity.
  - repeat split; apply says_ok; reflexivity.
  - apply good_target_ok. reflexivity.
  - intros q n E. destruct H as [-> | ->]; [discriminate|]. cbn [la_name relation] in E. assert (E' : (Bare, $"R1") = (q, n)) by (inversion E; reflexivity). apply pair_equal_spec in E'. destruct E' as [<- <-]. split; [apply good_name_ok; reflexivity|discriminate].
  - apply good_target_ok. reflexivity.
  - repeat split; apply lacks_ok; destruct H as [-> | ->]; vm_compute; reflexivity.
Qed.
Example C101_case :
  key_statement_text a_key = $"ALTER TABLE [dbo].""Order Lines"" ADD CONSTRAINT [PK_o] PRIMARY KEY CLUSTERED ( [id no], line ) ON [PRIMARY"
  /\ heard_statement ($"s") 0 two (key_statement_text a_key) = (Ok (with_table two ($"Order Lines") (with_pk (tbl ($"Order Lines")) [$"id no"; $"line"])), [])
  /\ reference_statement_text references = $"alter table sales.""dbo"".[Order Lines] ADD CONSTRAINT ""FK one"" FOREIGN KEY(a, b) REFERENCES dbo.[Orders] ('c',d) ON DELETE CASCADE, constraint foreign key (x ) references Orders ( y)"
  /\ (exists t, heard_statement ($"s") 0 two (reference_statement_text references) = (Ok (with_table two ($"Order Lines") t), [])
      /\ map (fun fk => (fk_name fk, fk_from_keys fk, fk_to_table fk, fk_to_keys fk)) (foreign_keys_iter t)
         = [($"FK one", [$"a"; $"b"], $"Orders", [$"c"; $"d"]); ($"FK_Order Lines_to_Orders", [$"x"], $"Orders", [$"y"])])
  /\ (forall name, name = None \/ name = Some (Bare, $"R1") -> exists t, heard_statement ($"s") 0 two (relation_statement_text (relation name)) = (Ok (with_table two ($"Orders") t), [])
      /\ map (fun r => (rel_name r, rel_to_table r)) (relationships_iter t) = [(match name with None => $"REL_Orders_to_Order Lines" | Some _ => $"R1" end, $"Order Lines")]).
Proof.
  split; [vm_compute; reflexivity|]. split; [exact (C101_key_partial ($"s") 0 two a_key _ a_key_good eq_refl)|]. split; [vm_compute; reflexivity|]. split.
  - eexists. split; [exact (C101_references_partial ($"s") 0 two references _ references_good eq_refl)|]. vm_compute. reflexivity.
  - intros name H. eexists. split; [exact (C101_relation_partial ($"s") 0 two _ _ (relation_good name H) eq_refl)|]. destruct H as [-> | ->]; vm_compute; reflexivity.
Qed.

(** ** Limits *)
(** C101 is false for a primary key with options in parentheses: the key becomes the last option list. *)
Theorem C101_options_refuted : forall schema id d k t m1 o m2,
  says ($"alter table ") (ka_head k) -> says ($"primary key") (ka_key k) -> good_target (ka_path k) (ka_quoting k) (ka_table k) -> ~ In "."%char (ka_words k) ->
  clean_statement (key_statement_text k) -> alters_only (key_statement_text k) ->
  ~ occurs ($"primary key") (lower (ka_kind k ++ $"(" ++ columns_text (ka_columns k) ++ $")" ++ ka_more k)) ->
  ka_more k = m1 ++ $"(" ++ o ++ $")" ++ m2 -> free_of name_marks o -> trimmed o -> ~ In ")"%char m2 -> get_table d (ka_table k) = Some t ->
  heard_statement schema id d (key_statement_text k) = (Ok (with_table d (ka_table k) (with_pk t [o])), []).
Proof. exact options_read. Qed.
Print Assumptions C101_options_refuted.
Example C101_options_case :
  heard_statement ($"s") 0 two ($"ALTER TABLE [dbo].[Orders] ADD CONSTRAINT [PK_o] PRIMARY KEY CLUSTERED ([id]) WITH (PAD_INDEX = OFF) ON [PRIMARY]")
  = (Ok (with_table two ($"Orders") (with_pk (tbl ($"Orders")) [$"PAD_INDEX = OFF"])), []).
Proof.
  refine (C101_options_refuted ($"s") 0 two {| ka_head := $"ALTER TABLE "; ka_path := [(Brackets, $"dbo")]; ka_quoting := Brackets; ka_table := $"Orders"; ka_words := $"ADD CONSTRAINT [PK_o] ";
    ka_key := $"PRIMARY KEY"; ka_kind := $" CLUSTERED "; ka_columns := [(false, (Brackets, $"id"), false)]; ka_more := $" WITH (PAD_INDEX = OFF) ON [PRIMARY]" |} (tbl ($"Orders")) ($" WITH ") ($"PAD_INDEX = OFF") ($" ON [PRIMARY]") _ _ _ _ _ _ _ _ _ _ _ _).
  all: first [apply clean_statement_ok; vm_compute; reflexivity | apply alters_only_ok; vm_compute; reflexivity | apply says_ok; reflexivity | apply good_target_ok; reflexivity | apply lacks_ok; vm_compute; reflexivity
    | apply noch_ok; reflexivity | reflexivity | apply hard_trimmed; reflexivity | intros c H; apply not_in_b; revert c H; apply Forall_forall; repeat constructor].
Qed.

(** Words between the table and ADD become part of the table name; the foreign keys are lost. *)
Theorem C101_with_check_refuted : forall schema id d s words, words <> [] -> trimmed words -> free_of name_marks words ->
  says ($"alter table ") (ra_head s) -> says ($"add") (ra_add s) -> (forall q n, In (q, n) (ra_path s) \/ (q, n) = (ra_quoting s, ra_table s) -> good_name q n) -> ra_quoting s <> BackQuotes ->
  ra_references s <> [] -> (forall r, In r (ra_references s) -> good_reference r) ->
  let target := qualified (ra_path s) (ra_quoting s) (ra_table s) ++ $" " ++ words in
  let text := ra_head s ++ target ++ $" " ++ ra_add s ++ references_text (ra_references s) in
  clean_statement text -> alters_only text -> ~ occurs ($"primary key") (lower text) -> ~ occurs ($" add") (lower (references_text (ra_references s))) -> ~ occurs ($"constraint") (lower target) ->
  get_table d (ra_table s ++ $" " ++ words) = None ->
  heard_statement schema id d text = (Ok d, map (fun _ => NoTable ForeignKey (ra_table s ++ $" " ++ words)) (ra_references s)).
Proof. exact with_words_lost. Qed.
Print Assumptions C101_with_check_refuted.
Example C101_with_check_case : heard_statement ($"s") 0 two ($"ALTER TABLE [dbo].[Orders] WITH CHECK ADD CONSTRAINT [FK_o] FOREIGN KEY([a]) REFERENCES [dbo].[Lines] ([b])")
  = (Ok two, [NoTable ForeignKey ($"Orders WITH CHECK")]).
Proof.
  refine (C101_with_check_refuted ($"s") 0 two {| ra_head := $"ALTER TABLE "; ra_path := [(Brackets, $"dbo")]; ra_quoting := Brackets; ra_table := $"Orders"; ra_add := $"ADD";
    ra_references := [{| rf_word := $"CONSTRAINT"; rf_name := Some (Brackets, $"FK_o"); rf_key := $"FOREIGN KEY"; rf_gap := false; rf_from := [(false, (Brackets, $"a"), false)]; rf_references := $"REFERENCES"; rf_gap2 := true;
      rf_path := [(Brackets, $"dbo")]; rf_quoting := Brackets; rf_table := $"Lines"; rf_to := [(false, (Brackets, $"b"), false)]; rf_more := [] |}] |} ($"WITH CHECK") _ _ _ _ _ _ _ _ _ _ _ _ _ _ _).
  all: try first [discriminate | apply clean_statement_ok; vm_compute; reflexivity | apply alters_only_ok; vm_compute; reflexivity | apply says_ok; reflexivity | apply lacks_ok; vm_compute; reflexivity
    | reflexivity | apply hard_trimmed; reflexivity].
  - intros c H. apply not_in_b. revert c H. apply Forall_forall. repeat constructor.
  - intros q n H. apply good_name_ok. destruct H as [[H|[]]|H]; apply pair_equal_spec in H; (destruct H as [<- <-] || destruct H as [-> ->]); reflexivity.
  - intros r [<-|[]]. apply good_reference_ok. vm_compute. reflexivity.
Qed.

(** A reference without a blank before the second parenthesis is not understood. *)
Theorem C101_no_blank_refuted : forall schema id d head target add w c x y, says ($"alter table ") head -> says ($"add") add -> says ($"constraint") w ->
  let body := c :: x ++ $")" ++ y in let text := head ++ target ++ $" " ++ add ++ $" " ++ w ++ $" " ++ body in
  clean_statement text -> about_foreign_key text -> ~ occurs ($" add") (lower ($" " ++ w ++ $" " ++ body)) -> ~ occurs ($"constraint") (lower target) -> ~ occurs ($"constraint") (lower body) ->
  is_space c = false -> c <> ","%char -> ~ In ")"%char (c :: x) -> ~ occurs ($" (") y ->
  heard_statement schema id d text = (Ok d, [Unable ForeignKey text]).
Proof. exact no_blank_lost. Qed.
Print Assumptions C101_no_blank_refuted.
Example C101_no_blank_case : let text := $"alter table Orders add constraint fk foreign key (a) references u(b)" in
  heard_statement ($"s") 0 two text = (Ok two, [Unable ForeignKey text]).
Proof.
  refine (C101_no_blank_refuted ($"s") 0 two ($"alter table ") ($"Orders") ($"add") ($"constraint") "f"%char ($"k foreign key (a") ($" references u(b)") _ _ _ _ _ _ _ _ _ _ _ _).
  all: try first [discriminate | apply clean_statement_ok; vm_compute; reflexivity | apply says_ok; reflexivity | apply lacks_ok; vm_compute; reflexivity | reflexivity | apply noch_ok; reflexivity | apply contains_false; reflexivity].
  split; [split|split]; first [apply contains_true; vm_compute; reflexivity | apply contains_false; vm_compute; reflexivity].
Qed.

(** A second " add", as in a reference to a table Address or in the list of ADDs that MySQL writes, loses the foreign keys. *)
Theorem C101_add_refuted : forall schema id d head t a x a' y, says ($"alter table ") head -> says ($" add") a -> says ($" add") a' -> let text := head ++ t ++ a ++ x ++ a' ++ y in
  clean_statement text -> about_foreign_key text -> ~ occurs ($" add") (lower y) -> free_of [dq; sq; "["; "]"; "."]%char (t ++ x) ->
  (forall n tb, get_table d n = Some tb -> ~ occurs ($" add") (lower n)) -> (exists c t', t = c :: t' /\ is_space c = false) ->
  fst (heard_statement schema id d text) = Ok d.
Proof. exact later_add. Qed.
Print Assumptions C101_add_refuted.
Example C101_add_case :
  fst (heard_statement ($"s") 0 two ($"ALTER TABLE Orders ADD CONSTRAINT f FOREIGN KEY (a) REFERENCES u (b), ADD CONSTRAINT g FOREIGN KEY (c) REFERENCES u (d)")) = Ok two
  /\ fst (heard_statement ($"s") 0 two ($"ALTER TABLE Orders ADD CONSTRAINT fk FOREIGN KEY (a) REFERENCES Address (b)")) = Ok two.
Proof.
  split; [vm_compute; reflexivity|].
  refine (C101_add_refuted ($"s") 0 two ($"ALTER TABLE ") ($"Orders") ($" ADD") ($" CONSTRAINT fk FOREIGN KEY (a) REFERENCES") ($" Add") ($"ress (b)") _ _ _ _ _ _ _ _ _).
  all: try first [apply clean_statement_ok; vm_compute; reflexivity | apply says_ok; reflexivity | apply lacks_ok; vm_compute; reflexivity].
  - split; [split|split]; first [apply contains_true; vm_compute; reflexivity | apply contains_false; vm_compute; reflexivity].
  - intros c H. apply not_in_b. revert c H. apply Forall_forall. repeat constructor.
  - assert (E : get_table_names two = [$"Orders"; $"Order Lines"]) by reflexivity.
    intros n tb G. assert (I : In n (get_table_names two)) by (exact (proj2 (dget_some_in n (db_tables two)) (ex_intro _ tb G))).
    rewrite E in I. destruct I as [<- | [<- | []]]; apply contains_false; vm_compute; reflexivity.
  - exists "O"%char, ($"rders"). split; reflexivity.
Qed.

(** Back quotes stay part of the name of the table: the key is lost. *)
Theorem C101_back_quotes_refuted : forall schema id d k, ka_quoting k = BackQuotes -> ~ In " "%char (ka_table k) -> (forall r m, In (r, m) (ka_path k) \/ (r, m) = (BackQuotes, ka_table k) -> good_name r m) ->
  says ($"alter table ") (ka_head k) -> says ($"primary key") (ka_key k) -> ~ In "."%char (ka_words k) -> clean_statement (key_statement_text k) -> alters_only (key_statement_text k) ->
  ~ occurs ($"primary key") (lower (ka_kind k ++ $"(" ++ columns_text (ka_columns k) ++ $")" ++ ka_more k)) -> ~ In "("%char (columns_text (ka_columns k)) -> ~ In ")"%char (ka_more k) ->
  get_table d (spell BackQuotes (ka_table k)) = None ->
  heard_statement schema id d (key_statement_text k) = (Ok d, [NoTable PrimaryKey (spell BackQuotes (ka_table k))]).
Proof. exact back_key. Qed.
Print Assumptions C101_back_quotes_refuted.
Example C101_back_quotes_case : heard_statement ($"s") 0 two ($"ALTER TABLE `Orders` ADD PRIMARY KEY (`id`)") = (Ok two, [NoTable PrimaryKey ($"`Orders`")]).
Proof.
  refine (C101_back_quotes_refuted ($"s") 0 two {| ka_head := $"ALTER TABLE "; ka_path := []; ka_quoting := BackQuotes; ka_table := $"Orders"; ka_words := $"ADD ";
    ka_key := $"PRIMARY KEY"; ka_kind := $" "; ka_columns := [(false, (BackQuotes, $"id"), false)]; ka_more := [] |} _ _ _ _ _ _ _ _ _ _ _ _).
  all: try first [apply clean_statement_ok; vm_compute; reflexivity | apply alters_only_ok; vm_compute; reflexivity | apply says_ok; reflexivity | apply lacks_ok; vm_compute; reflexivity | apply noch_ok; reflexivity | reflexivity].
  intros q n [[]|H]. apply pair_equal_spec in H. destruct H as [-> ->]. apply good_name_ok. reflexivity.
Qed.
