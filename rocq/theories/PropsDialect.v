(** * C99: CREATE TABLE statements of other databases *)
From Verif Require Import DialectFacts.

(** C99: under the conditions of [good_create_decl] a statement is read as the table it describes. *)
Theorem C99_create_partial : forall schema id d c types, good_create_decl c ->
  Forall2 (fun x ty => convert_type (written_type x) = Ok ty) (columns_of (items_of c)) types ->
  parse_statement schema id d (create_decl_text c) = Ok (add_table d (described schema c types)).
Proof. exact create_read. Qed.
Print Assumptions C99_create_partial.

(** the types of other databases, in any case, with arguments or without *)
Theorem C99_types : forall w t w' a, In (w, t) dialect_types -> lower w' = w -> plain_args a -> convert_type (w' ++ args_text a) = Ok t.
Proof. exact dialect_read. Qed.
Print Assumptions C99_types.

(** a statement as SQL Server writes it *)
Definition orders : create_decl :=
  {| dt_head := $"CREATE TABLE "; dt_path := [(Brackets, $"dbo")]; dt_quoting := Brackets; dt_name := $"Order Lines"; dt_gap := false;
     dt_items :=
       [(true, IColumn {| dc_quoting := Brackets; dc_name := $"id"; dc_type_quoting := Brackets; dc_type := $"int"; dc_args := None; dc_more := $" NOT NULL" |}, false);
        (true, IColumn {| dc_quoting := BackQuotes; dc_name := $"full name"; dc_type_quoting := Brackets; dc_type := $"NVarChar"; dc_args := Some ($"max"); dc_more := $" DEFAULT ('a,b')" |}, true);
        (true, IColumn {| dc_quoting := Bare; dc_name := $"price"; dc_type_quoting := Bare; dc_type := $"decimal"; dc_args := Some ($"10,2"); dc_more := [] |}, false);
        (true, IKey {| kd_head := $"CONSTRAINT [PK_o] PRIMARY KEY CLUSTERED "; kd_columns := [(false, (Brackets, $"id"), true); (true, (Bare, $"price"), false)]; kd_more := [] |}, true);
        (false, IOther ($"FOREIGN KEY (id) REFERENCES b (id)"), true)];
     dt_more := $" ON [PRIMARY]" |}.
Ltac freeb := let c := fresh in let H := fresh in intros c H; apply not_in_b; revert c H; apply Forall_forall; repeat (constructor; [reflexivity|]); constructor.
Ltac blankb := let c := fresh in let H := fresh in intros c H; revert c H; apply Forall_forall; repeat (constructor; [reflexivity|]); constructor.
Ltac occb := apply contains_true; reflexivity.
Ltac noccb := apply contains_false; reflexivity.
Ltac commab := repeat first [apply ci_nil | apply ci_char; [discriminate|discriminate|]].
Lemma orders_good : good_create_decl orders.
Proof.
  split.
  - left. reflexivity.
  - intros q n [[E|[]]|E]; apply pair_equal_spec in E; destruct E as [<- <-] || destruct E as [-> ->]; (split; [discriminate|freeb|discriminate]).
  - intros _. noccb.
  - intros i H. repeat (destruct H as [<-|H]; [cbn [good_item]|]); [..|destruct H].
    + split; cbn [dc_quoting dc_name dc_type_quoting dc_type dc_args dc_more].
      * split; [discriminate|freeb|discriminate].
      * split; [discriminate|split; [freeb|apply hard_trimmed; reflexivity]].
      * discriminate.
      * intros _. split; [blankb|apply not_in_b; reflexivity].
      * split; [apply hard_trimmed; reflexivity|commab].
      * right. eexists. reflexivity.
      * noccb.
    + split; cbn [dc_quoting dc_name dc_type_quoting dc_type dc_args dc_more].
      * split; [discriminate|freeb|discriminate].
      * split; [discriminate|split; [freeb|apply hard_trimmed; reflexivity]].
      * intros a E. injection E as <-. freeb.
      * discriminate.
      * split; [apply hard_trimmed; reflexivity|]. change ($" DEFAULT ('a,b')") with ($" DEFAULT " ++ $"(" ++ $"'a,b'" ++ $")" ++ []). apply commas_app; [commab|]. apply ci_paren; [apply not_in_b; reflexivity|apply ci_nil].
      * right. eexists. reflexivity.
      * noccb.
    + split; cbn [dc_quoting dc_name dc_type_quoting dc_type dc_args dc_more].
      * split; [discriminate|freeb|intros _; blankb].
      * split; [discriminate|split; [freeb|apply hard_trimmed; reflexivity]].
      * intros a E. injection E as <-. freeb.
      * discriminate.
      * split; [apply hard_trimmed; reflexivity|apply ci_nil].
      * left. reflexivity.
      * noccb.
    + split; cbn [kd_head kd_columns kd_more].
      * split; [freeb|apply hard_trimmed; reflexivity].
      * split; occb.
      * discriminate.
      * intros a q n b H. repeat (destruct H as [E|H]; [|]); [..|destruct H]; injection E as <- <- <- <-; (split; [split; [discriminate|freeb|]|split; [apply not_in_b; reflexivity|split; discriminate]]); [discriminate|intros _; blankb].
      * split; [apply hard_trimmed; reflexivity|apply ci_nil].
    + split.
      * split; [discriminate|split; [apply hard_trimmed; reflexivity|]].
        change ($"FOREIGN KEY (id) REFERENCES b (id)") with ($"FOREIGN KEY " ++ $"(" ++ $"id" ++ $")" ++ $" REFERENCES b " ++ $"(" ++ $"id" ++ $")" ++ []).
        apply commas_app; [commab|]. apply ci_paren; [apply not_in_b; reflexivity|]. apply commas_app; [commab|]. apply ci_paren; [apply not_in_b; reflexivity|apply ci_nil].
      * split; [occb|noccb].
  - cbn [items_of orders dt_items map fst snd columns_of flat_map app dc_name]. repeat constructor; cbn [In]; intuition discriminate.
  - apply not_in_b. reflexivity.
  - split; noccb.
Qed.
Example C99_case : create_decl_text orders
    = $"CREATE TABLE [dbo].[Order Lines]( [id] [int] NOT NULL, `full name` [NVarChar](max) DEFAULT ('a,b') , price decimal(10,2), CONSTRAINT [PK_o] PRIMARY KEY CLUSTERED ([id] , price) ,FOREIGN KEY (id) REFERENCES b (id) ) ON [PRIMARY]"
  /\ parse_statement ($"s") 0 (empty_database ($"d")) (create_decl_text orders)
     = Ok (add_table (empty_database ($"d")) (described ($"s") orders [$"BIGINT"; $"VARCHAR(0)"; $"DOUBLE"]))
  /\ get_column_names (described ($"s") orders [$"BIGINT"; $"VARCHAR(0)"; $"DOUBLE"]) = [$"id"; $"full name"; $"price"]
  /\ t_pk (described ($"s") orders [$"BIGINT"; $"VARCHAR(0)"; $"DOUBLE"]) = [$"id"; $"price"].
Proof.
  split; [reflexivity|split; [|split; reflexivity]]. apply C99_create_partial; [exact orders_good|]. repeat constructor.
Qed.

(** ** Limits *)
(** what is read from one statement: the name, the columns and the primary key *)
Definition read_one (s : string) : option (str * list (str * str) * list str) :=
  match parse_statement ($"s") 0 (empty_database ($"d")) (list_ascii_of_string s) with
  | Ok d => match db_iter d with [t] => Some (t_name t, map (fun c => (column_name c, column_type c)) (table_iter t), t_pk t) | _ => None end
  | Err _ => None
  end.
(** a bare column whose name ends with "key" is lost *)
Theorem C99_key_column_refuted : forall schema id d T n r, good_name Bare T -> good_name Bare n -> lower n = r ++ $"key" ->
  ~ occurs ($"primary") (lower n) -> harmless ($"create table " ++ T ++ $" (" ++ n ++ $" int)") ->
  parse_statement schema id d ($"create table " ++ T ++ $" (" ++ n ++ $" int)") = Ok (add_table d (mk_table T schema None None)).
Proof.
  intros schema id d T n r GT Gn E Np H. assert (X : $"create table " ++ T ++ $" (" ++ n ++ $" int)" = create_decl_text (one_item T (IOther (n ++ $" int")))).
  { rewrite one_text. cbn [item_text]. rewrite <- (app_assoc n). reflexivity. }
  assert (Go : good_other (n ++ $" int")).
  { split.
    - split; [|split].
      + intros Y. apply app_eq_nil in Y. destruct Y as [_ Y]. discriminate Y.
      + apply hard_trimmed. change (n ++ $" int") with (n ++ $" in" ++ $"t"). apply hard_join; [|apply (gn_some _ _ Gn)|reflexivity|discriminate].
        pose proof (spell_hard Bare n (gn_some _ _ Gn) (gn_bare _ _ Gn)) as Y. rewrite ends_hard_eq in Y. apply andb_true_iff in Y. apply Y.
      + apply commas_app; [apply commas_flat; apply (name_not_in _ _ _ Gn); cbn; tauto|commab].
    - rewrite lower_app, E. split.
      + exists r, ($"int"). rewrite <- app_assoc. reflexivity.
      + rewrite <- E. apply contains_false. change (lower n ++ lower ($" int")) with (lower n ++ " "%char :: $"int"). rewrite occ_sep by (apply not_in_b; reflexivity). apply contains_false in Np. rewrite Np. reflexivity. }
  rewrite X. rewrite (C99_create_partial schema id d _ []); [reflexivity| |constructor]. apply one_good; [exact GT|exact Go|]. cbn [item_text]. rewrite <- app_assoc. exact H.
Qed.
Print Assumptions C99_key_column_refuted.
Example C99_key_column_case : harmless ($"create table " ++ $"Sales" ++ $" (" ++ $"Product_Key" ++ $" int)")
  /\ parse_statement ($"s") 0 (empty_database ($"d")) ($"create table Sales (Product_Key int)") = Ok (add_table (empty_database ($"d")) (mk_table ($"Sales") ($"s") None None)).
Proof. split; [split; noccb|reflexivity]. Qed.

(** a column with a named default in parentheses is BIGINT, whatever its type *)
Theorem C99_default_refuted : forall schema id d T n ty x v, good_name Bare T -> good_name Bare n -> good_name Bare ty -> good_name Bare x ->
  ~ In ")"%char v -> let f := n ++ $" " ++ ty ++ $" constraint " ++ x ++ $" default (" ++ v ++ $")" in
  ~ occurs ($"key ") (lower f) -> harmless ($"create table " ++ T ++ $" (" ++ f ++ $")") ->
  exists t, parse_statement schema id d ($"create table " ++ T ++ $" (" ++ f ++ $")") = Ok (add_table d t)
    /\ t_cols t = [(n, {| column_name := n; column_type := $"BIGINT" |})].
Proof.
  intros schema id d T n ty x v GT Gn Gt Gx Hv f Nk [H1 H2]. set (stmt := $"create table " ++ T ++ $" (" ++ f ++ $")") in *.
  assert (Cf : commas_inside f).
  { unfold f. apply commas_app; [apply commas_flat; apply (name_not_in _ _ _ Gn); cbn; tauto|]. apply commas_app; [commab|]. apply commas_app; [apply commas_flat; apply (name_not_in _ _ _ Gt); cbn; tauto|].
    apply commas_app; [commab|]. apply commas_app; [apply commas_flat; apply (name_not_in _ _ _ Gx); cbn; tauto|].
    change ($" default (" ++ v ++ $")") with ($" default " ++ $"(" ++ v ++ $")" ++ []). apply commas_app; [commab|]. apply ci_paren; [exact Hv|apply ci_nil]. }
  assert (Hf : ends_hard f = true).
  { unfold f. pose proof (spell_hard Bare n (gn_some _ _ Gn) (gn_bare _ _ Gn)) as Y. rewrite ends_hard_eq in Y. apply andb_true_iff in Y.
    apply hard_join; [apply Y|apply (gn_some _ _ Gn)| |].
    - rewrite !app_assoc, last_hard_app by discriminate. reflexivity.
    - intros Z. apply app_eq_nil in Z. apply (gn_some _ _ Gt), Z. }
  assert (Nf : f <> []) by (unfold f; intros Z; apply app_eq_nil in Z; apply (gn_some _ _ Gn), Z).
  unfold parse_statement. rewrite (proj2 (contains_false _ _) H1). replace (contains ($"create table") (lower stmt)) with true by (symmetry; apply contains_true; exists [], (lower ($" " ++ T ++ $" (" ++ f ++ $")")); reflexivity).
  cbn [orb]. unfold parse_create_table. rewrite unbracket, contains_unb by reflexivity. rewrite (proj2 (contains_false _ _) H2).
  assert (E : map unb stmt = ($"create table " ++ T ++ $" ") ++ "("%char :: map unb f ++ ")"%char :: []).
  { unfold stmt. rewrite !map_app. pose proof (unb_spell Bare T (gn_free _ _ GT)) as ET. cbn [spell uq] in ET. rewrite ET. rewrite <- !app_assoc. reflexivity. }
  unfold parse_columns. rewrite E. rewrite column_text_of; [|intros X; apply in_app_or in X; destruct X as [X|X]; [revert X; apply not_in_b; reflexivity|apply in_app_or in X; destruct X as [X|[X|[]]]; [revert X; apply (name_not_in _ _ _ GT); cbn; tauto|discriminate]]|intros []].
  pose proof (raw_items (fun s : str => map unb s) [(false, f, false)]) as R. cbn [map padded join gap app fst snd mid] in R. rewrite app_nil_r in R. rewrite R.
  2:{ intros y [<-|[]]. split; [apply closed_unb, Cf|split; [rewrite unb_hard; exact Hf|]]. intros Z. apply map_eq_nil in Z. contradiction. }
  clear R. cbn [fields_loop]. rewrite contains_unb by reflexivity. rewrite (proj2 (contains_false _ _) Nk).
  assert (Em : map unb f = spell Bare n ++ $" " ++ map unb (ty ++ $" constraint " ++ x ++ $" default (" ++ v) ++ ")"%char :: []).
  { unfold f. pose proof (unb_spell Bare n (gn_free _ _ Gn)) as En. cbn [spell uq] in En. cbn [spell]. rewrite !map_app, En. rewrite <- !app_assoc. reflexivity. }
  rewrite Em, field_name_spelled by (exact Gn || discriminate). cbn [bind is_quoted]. rewrite app_assoc, field_type_closed.
  - assert (Cv : convert_type (map unb (ty ++ $" constraint " ++ x ++ $" default (" ++ v) ++ $")") = Ok ($"BIGINT")).
    { unfold convert_type. rewrite (type_text_spec _ (map unb (ty ++ $" constraint " ++ x ++ $" default (" ++ v) ++ $")")).
      - replace (contains ($"int") _) with true; [reflexivity|]. symmetry. apply contains_true. rewrite !map_app, !lower_app.
        exists (lower (map unb ty) ++ $" constra"). eexists. rewrite <- !app_assoc. reflexivity.
      - left. eexists. exists []. split; [|reflexivity]. apply cut_char; [reflexivity|]. rewrite unb_in by discriminate. intros X. apply in_app_or in X.
        destruct X as [X|X]; [revert X; apply (name_not_in _ _ _ Gt); cbn; tauto|]. apply in_app_or in X. destruct X as [X|X]; [revert X; apply not_in_b; reflexivity|].
        apply in_app_or in X. destruct X as [X|X]; [revert X; apply (name_not_in _ _ _ Gx); cbn; tauto|]. apply in_app_or in X. destruct X as [X|X]; [revert X; apply not_in_b; reflexivity|contradiction]. }
    rewrite Cv. cbn [bind]. rewrite target_accepted by (cbn; tauto). cbn [bind app]. eexists. split; [reflexivity|reflexivity].
  - apply (spelled_length Bare).
  - rewrite unb_in by discriminate. intros X. apply in_app_or in X.
    destruct X as [X|X]; [revert X; apply (name_not_in _ _ _ Gt); cbn; tauto|]. apply in_app_or in X. destruct X as [X|X]; [revert X; apply not_in_b; reflexivity|].
    apply in_app_or in X. destruct X as [X|X]; [revert X; apply (name_not_in _ _ _ Gx); cbn; tauto|]. apply in_app_or in X. destruct X as [X|X]; [revert X; apply not_in_b; reflexivity|contradiction].
Qed.
Print Assumptions C99_default_refuted.
Example C99_default_case : ~ occurs ($"key ") (lower ($"sold" ++ $" " ++ $"datetime" ++ $" constraint " ++ $"df" ++ $" default (" ++ $"0" ++ $")"))
  /\ harmless ($"create table " ++ $"Sales" ++ $" (" ++ ($"sold" ++ $" " ++ $"datetime" ++ $" constraint " ++ $"df" ++ $" default (" ++ $"0" ++ $")") ++ $")")
  /\ read_one "create table Sales (sold datetime constraint df default (0))" = Some ($"Sales", [($"sold", $"BIGINT")], [])
  /\ read_one "create table [Sales] ([sold] [datetime] constraint [df] default (getdate()))" = Some ($"Sales", [($"sold", $"BIGINT")], []).
Proof. repeat split; try noccb; vm_compute; reflexivity. Qed.

(** a key declared with its column is lost *)
Theorem C99_inline_key_refuted : forall schema id d T n ty, good_name Bare T -> good_name Bare n -> good_name Bare ty -> convert_type ty = Ok ($"BIGINT") ->
  let f := n ++ $" " ++ ty ++ $" primary key" in ~ occurs ($"key ") (lower f) -> harmless ($"create table " ++ T ++ $" (" ++ f ++ $")") ->
  exists t, parse_statement schema id d ($"create table " ++ T ++ $" (" ++ f ++ $")") = Ok (add_table d t)
    /\ t_cols t = [(n, {| column_name := n; column_type := $"BIGINT" |})] /\ t_pk t = [].
Proof.
  intros schema id d T n ty GT Gn Gt Cv f Nk H. set (c := {| dc_quoting := Bare; dc_name := n; dc_type_quoting := Bare; dc_type := ty; dc_args := None; dc_more := $" primary key" |}).
  assert (E : f = column_decl_text c) by (unfold f, column_decl_text, c; cbn [dc_quoting dc_name dc_type_quoting dc_type dc_args dc_more spell args_text app]; reflexivity).
  assert (Ht : ends_hard ty = true) by (apply (spell_hard Bare); [apply (gn_some _ _ Gt)|apply (gn_bare _ _ Gt)]).
  assert (Gc : good_column_decl c).
  { split; cbn [c dc_quoting dc_name dc_type_quoting dc_type dc_args dc_more].
    - exact Gn.
    - split; [apply (gn_some _ _ Gt)|split; [apply (gn_free _ _ Gt)|apply hard_trimmed, Ht]].
    - discriminate.
    - intros _. split; [apply (gn_bare _ _ Gt eq_refl)|apply not_in_b; reflexivity].
    - split; [|commab]. apply hard_trimmed. change (ty ++ $" primary key") with (ty ++ $" " ++ $"primary key"). apply hard_join; [|apply (gn_some _ _ Gt)|reflexivity|discriminate]. rewrite ends_hard_eq in Ht. apply andb_true_iff in Ht. apply Ht.
    - right. eexists. reflexivity.
    - rewrite <- E. exact Nk. }
  assert (X : $"create table " ++ T ++ $" (" ++ f ++ $")" = create_decl_text (one_item T (IColumn c))) by (rewrite one_text, E; reflexivity).
  rewrite X. eexists. split; [apply (C99_create_partial schema id d _ [$"BIGINT"])|split; reflexivity].
  - apply one_good; [exact GT|exact Gc|]. cbn [item_text]. rewrite <- E. exact H.
  - constructor; [|constructor]. unfold written_type. cbn [c dc_type dc_args args_text]. rewrite app_nil_r. exact Cv.
Qed.
Print Assumptions C99_inline_key_refuted.
(** and with more words after it the column is lost too; the remaining misreadings, each on a statement *)
Theorem C99_limits :
  (** the column goes with the words after its key, and the key has an empty name *)
  read_one "create table t (id int primary key not null, b int)" = Some ($"t", [($"b", $"BIGINT")], [[]])
  (** without a blank after KEY the clause is a column *)
  /\ read_one "create table t (id int, primary key(id))" = Some ($"t", [($"id", $"BIGINT"); ($"primary", $"UNKNOWN")], [])
  (** the order of a key column is glued to its name *)
  /\ read_one "create table t (id int, primary key (id asc))" = Some ($"t", [($"id", $"BIGINT")], [$"idasc"])
  (** back quotes stay in key columns *)
  /\ read_one "create table t (`id` int, primary key (`id`))" = Some ($"t", [($"id", $"BIGINT")], [$"`id`"])
  (** IF NOT EXISTS goes into the name *)
  /\ read_one "create table if not exists t (id int)" = Some ($"if not exists t", [($"id", $"BIGINT")], [])
  (** UNIQUE and CHECK clauses are columns *)
  /\ read_one "create table t (id int, unique (id))" = Some ($"t", [($"id", $"BIGINT"); ($"unique", $"UNKNOWN")], [])
  (** words of a type's arguments and parts of its name count *)
  /\ read_one "create table t (a enum('print','web'), b interval, c point, d bigserial)"
     = Some ($"t", [($"a", $"BIGINT"); ($"b", $"BIGINT"); ($"c", $"BIGINT"); ($"d", $"INT")], []).
Proof. repeat split; vm_compute; reflexivity. Qed.
Print Assumptions C99_limits.
