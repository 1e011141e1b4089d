(** * Properties of the command line tools (C65, ...) *)
From Verif Require Import StrFacts SpecCli CliFacts.

(** C65, convert_ddl: accepted exactly when something is to be done and the database is named where it
    is needed; otherwise one message, and nothing else happens. *)
Theorem C65_convert : forall a st,
  (convert_accepts a -> convert_valid_args a st = (st, Ok true))
  /\ (~ convert_accepts a -> exists m st', convert_valid_args a st = (st', Ok false) /\ only_messages st st' [m]
        /\ (~ convert_something a -> m = $"--version, --empty, --from_ddl, --from_excel, or from_ts must be provided as arguments.")
        /\ (convert_something a -> m = $"--from_ddl and --from_ts require the --database parameter.")
        /\ forall H message, convert H message a st = (st', Ok tt)).
Proof.
  intros a st.
  assert (D : (negb (empty a) && negb (version a) && negb (given (from_ddl a)) && negb (given (from_excel a)) && negb (given (to_excel a)) && negb (given (from_ts a))) = true
              <-> ~ (version a = true \/ empty a = true \/ is_given (from_ddl a) \/ is_given (from_excel a) \/ is_given (from_ts a) \/ is_given (to_excel a))).
  { rewrite <- !given_iff. destruct (empty a), (version a), (given (from_ddl a)), (given (from_excel a)), (given (to_excel a)), (given (from_ts a)); cbn; intuition congruence. }
  assert (E : ((given (from_ddl a) || given (from_ts a)) && negb (given (db_option a))) = true <-> ~ (is_given (from_ddl a) \/ is_given (from_ts a) -> is_given (db_option a))).
  { rewrite <- !given_iff. destruct (given (from_ddl a)), (given (from_ts a)), (given (db_option a)); cbn; intuition congruence. }
  unfold convert_valid_args. split.
  - intros [S N]. destruct (_ && negb (given (from_ts a))) eqn:B; [destruct (proj1 D eq_refl S)|].
    destruct (_ && negb (given (db_option a))) eqn:C; [destruct (proj1 E eq_refl N)|reflexivity].
  - intros NA.
    assert (K : forall st', convert_valid_args a st = (st', Ok false) -> forall H message, convert H message a st = (st', Ok tt))
      by (intros st' K H message; unfold convert, then_; rewrite K; reflexivity).
    unfold convert_valid_args in K. destruct (_ && negb (given (from_ts a))) eqn:B.
    + eexists _, _. split; [reflexivity|]. split; [repeat split|]. split; [reflexivity|]. split; [intros S; destruct (proj1 D eq_refl S)|]. apply K. reflexivity.
    + assert (S : convert_something a).
      { unfold convert_something. rewrite <- !given_iff in *. destruct (version a), (empty a), (given (from_ddl a)), (given (from_excel a)), (given (from_ts a)), (given (to_excel a)); auto 10; discriminate. }
      destruct (_ && negb (given (db_option a))) eqn:C.
      * eexists _, _. split; [reflexivity|]. split; [repeat split|]. split; [intros N; destruct (N S)|]. split; [reflexivity|]. apply K. reflexivity.
      * destruct NA. split; [exact S|]. rewrite <- !given_iff. destruct (given (from_ddl a)), (given (from_ts a)), (given (db_option a)); cbn in C; intuition congruence.
Qed.
Print Assumptions C65_convert.
Definition nothing_given : convert_args :=
  {| version := false; empty := false; from_ddl := None; to_tql := None; from_ts := None; to_ts := None;
     username := $"admin"; password := $"pw"; from_excel := None; to_excel := None; db_option := None; schema_option := $"falcon_default_schema";
     create_db := false; lower_option := false; upper_option := false; camel_option := false; validate_option := false; debug := false |}.
Definition ddl_to_tql (f g : str) (n : option str) : convert_args :=
  {| version := false; empty := false; from_ddl := Some f; to_tql := Some g; from_ts := None; to_ts := None;
     username := $"admin"; password := $"pw"; from_excel := None; to_excel := None; db_option := n; schema_option := $"falcon_default_schema";
     create_db := false; lower_option := false; upper_option := false; camel_option := false; validate_option := false; debug := false |}.
Definition to_excel_only (x : str) (n : option str) : convert_args :=
  {| version := false; empty := false; from_ddl := None; to_tql := None; from_ts := None; to_ts := None;
     username := $"admin"; password := $"pw"; from_excel := None; to_excel := Some x; db_option := n; schema_option := $"falcon_default_schema";
     create_db := false; lower_option := false; upper_option := false; camel_option := false; validate_option := false; debug := false |}.
Lemma C65_convert_case' : convert_accepts (ddl_to_tql ($"a.ddl") ($"a.tql") (Some ($"d"))) /\ ~ convert_accepts (ddl_to_tql ($"a.ddl") ($"a.tql") None)
  /\ ~ convert_accepts nothing_given.
Proof.
  split; [|split].
  - split; [right; right; left; discriminate|intros _; discriminate].
  - intros [_ N]. apply N; [left; discriminate|reflexivity].
  - intros [[E|[E|[E|[E|[E|E]]]]] _]; try discriminate; exact (E eq_refl).
Qed.
Example C65_convert_case : exists a b, convert_accepts a /\ ~ convert_accepts b.
Proof. eexists _, _. split; [exact (proj1 C65_convert_case')|exact (proj1 (proj2 C65_convert_case'))]. Qed.
(** C65 does not hold for convert_ddl: the message names --version, --empty, --from_ddl, --from_excel and
    --from_ts, but --to_excel alone is accepted too, and then the missing name of a database is fatal. *)
Theorem C65_convert_refuted : forall H message x st, x <> [] ->
  convert_accepts (to_excel_only x None) /\ snd (convert H message (to_excel_only x None) st) = Err AssertionError.
Proof. intros H message [|c x] st N; [destruct (N eq_refl)|]. split; [|reflexivity]. split; [right; right; right; right; right; exact N|]. intros [E|E]; destruct (E eq_refl). Qed.
Print Assumptions C65_convert_refuted.

Lemma missing_in o1 o2 st m :
  In m ((if exists_ st (text o1) then [] else [$"file " ++ text o1 ++ $" doesn't exist"])
        ++ (if exists_ st (text o2) then [] else [$"file " ++ text o2 ++ $" doesn't exist"]))
  <-> exists f, m = $"file " ++ f ++ $" doesn't exist" /\ (f = text o1 \/ f = text o2) /\ ~ file_exists st f.
Proof.
  rewrite in_app_iff. split.
  - intros [I|I]; match type of I with context [exists_ st ?f] => destruct (exists_ st f) eqn:E; [destruct I|] end;
      destruct I as [<-|[]]; apply exists_false in E; eexists; (split; [reflexivity|]); (split; [|exact E]); [left|right]; reflexivity.
  - intros [f [-> [[->| ->] N]]]; apply exists_false in N; rewrite N; [left|right]; left; reflexivity.
Qed.
Lemma check_file_is n st : check_file n st = ({| files := files st; out := out st; err := err st ++ map line (if exists_ st n then [] else [$"file " ++ n ++ $" doesn't exist"]); sent := sent st; objects := objects st |}, Ok (exists_ st n)).
Proof. unfold check_file. destruct (exists_ st n); [|reflexivity]. cbn [map]. rewrite app_nil_r. destruct st; reflexivity. Qed.

(** C65, ddldiff: accepted exactly when both files are given and exist; the messages are those of the
    conditions that are not met, and then nothing else happens. *)
Theorem C65_ddldiff : forall a st,
  (diff_accepts a st -> diff_valid_args a st = (st, Ok true))
  /\ (~ diff_accepts a st -> exists ms st', diff_valid_args a st = (st', Ok false) /\ only_messages st st' ms
        /\ (~ (is_given (ddl1 a) /\ is_given (ddl2 a)) -> ms = [$"--ddl1 and --ddl2 must be provided"])
        /\ (is_given (ddl1 a) /\ is_given (ddl2 a) -> forall m, In m ms <-> exists f, m = $"file " ++ f ++ $" doesn't exist"
              /\ (f = text (ddl1 a) \/ f = text (ddl2 a)) /\ ~ file_exists st f)
        /\ forall H, ddldiff H a st = (st', Ok tt)).
Proof.
  intros a st.
  assert (G : (given (ddl1 a) && given (ddl2 a)) = true <-> is_given (ddl1 a) /\ is_given (ddl2 a)) by (rewrite andb_true_iff, !given_iff; reflexivity).
  assert (DD : forall st', diff_valid_args a st = (st', Ok false) -> forall H, ddldiff H a st = (st', Ok tt))
    by (intros st' E H; unfold ddldiff, then_; rewrite E; reflexivity).
  unfold diff_valid_args in *. rewrite <- negb_andb in *. destruct (given (ddl1 a) && given (ddl2 a)) eqn:GG; cbn [negb] in *.
  - pose proof (proj1 G eq_refl) as [G1 G2]. destruct (given_text _ G1) as [T1 _], (given_text _ G2) as [T2 _]. rewrite T1, T2 in *.
    unfold then_ in *. rewrite check_file_is in *. rewrite check_file_is in *.
    match goal with |- context [exists_ {| files := ?f; out := _; err := _; sent := _; objects := _ |} ?n] =>
      change (exists_ {| files := f; out := out st; err := err st ++ map line (if exists_ st (text (ddl1 a)) then [] else [$"file " ++ text (ddl1 a) ++ $" doesn't exist"]); sent := sent st; objects := objects st |} n) with (exists_ st n) in * end.
    split.
    + intros [_ [E1 E2]]. apply exists_iff in E1. apply exists_iff in E2. rewrite E1, E2. cbn [map err files out sent objects]. rewrite !app_nil_r. destruct st; reflexivity.
    + intros NA. eexists _, _. assert (X : exists_ st (text (ddl1 a)) && exists_ st (text (ddl2 a)) = false).
      { destruct (exists_ st (text (ddl1 a)) && exists_ st (text (ddl2 a))) eqn:X; [|reflexivity]. destruct NA. apply andb_true_iff in X. rewrite !exists_iff in X. split; [split; assumption|exact X]. }
      rewrite X in *. split; [reflexivity|]. split; [repeat split; cbn [err]; rewrite <- app_assoc, <- map_app; reflexivity|].
      split; [intros N; destruct N; split; assumption|]. split; [intros _ m; apply missing_in|]. apply DD. reflexivity.
  - assert (N : ~ (is_given (ddl1 a) /\ is_given (ddl2 a))) by (intros X; apply G in X; discriminate).
    split; [intros A; destruct (N (da_given _ _ A))|]. intros _. eexists [_], _. split; [reflexivity|]. split; [repeat split|]. split; [reflexivity|].
    split; [intros X; destruct (N X)|]. apply DD. reflexivity.
Qed.
Print Assumptions C65_ddldiff.
Example C65_ddldiff_case : forall st, (forall n, files st n = if str_eqb n ($"a.ddl") then Some (Text []) else None) ->
  let a g := {| ddl1 := Some ($"a.ddl"); ddl2 := g; database1 := $"d"; schema1 := $"s"; alter1 := false; alter2 := true; ignore_case := false |} in
  diff_accepts (a (Some ($"a.ddl"))) st /\ ~ diff_accepts (a (Some ($"b.ddl"))) st /\ ~ diff_accepts (a None) st.
Proof.
  intros st F a. split; [split; [split; discriminate|]|split].
  - split; unfold file_exists, a; cbn [text ddl1 ddl2]; rewrite F; discriminate.
  - intros [_ [_ N]]. apply N. unfold a. cbn [text ddl2]. rewrite F. reflexivity.
  - intros [[_ N] _]. exact (N eq_refl).
Qed.

(** C79: what is read is written to every place that is named, and nothing else is touched. *)
Theorem C79_converted : forall H message a st d ms script w r response,
  no_failures H -> convert_accepts a -> version a = false -> reads H message a st d ms ->
  (validate_option a = true -> validate d = Ok r) ->
  (is_given (to_tql a) \/ is_given (to_ts a) -> tql_script (case_of a) (create_db a) d = Ok script) ->
  (is_given (to_excel a) -> exists f, write_database (h_fresh H) new_writer d (text (to_excel a)) = Ok (w, f)) ->
  (forall c, In c (to_send a script) -> h_run H (sent st ++ asked a) c = Ok response) ->
  exists st', convert H message a st = (st', Ok tt) /\ converted a d script (saved (h_calc H) w) r ms response st st'.
Proof.
  intros H message a st d ms script w r response NF CA NV RD V S X R.
  destruct (does_read H message a _ d ms NF CA (reads_emit _ _ _ _ _ _ (Namespace (convert_namespace a)) RD)) as [dd [AL [CN DR]]].
  pose (excel := xls_filename (text (to_excel a))).
  assert (X' : is_given (to_excel a) -> exists w', write_database (h_fresh H) new_writer d (text (to_excel a)) = Ok (w', excel) /\ saved (h_calc H) w = saved (h_calc H) w').
  { intros G. destruct (X G) as [f E]. exists w. split; [|reflexivity]. rewrite E. rewrite (database_file_name _ _ _ _ _ _ E). reflexivity. }
  destruct (does_convert H message a st d dd ms script _ excel r response _ NF CA NV AL DR V S X' R) as [st' [E [F O ER SE]]].
  exists st'. split; [exact E|]. unfold write_files in F. split.
  - intros n [G [ND ->]] NE NT. rewrite F. rewrite (proj2 (given_iff _) G). destruct (str_eqb_spec (text (to_tql a)) ($"-")) as [?|_]; [contradiction|].
    destruct (given (to_ts a)) eqn:T; unfold upd at 1.
    + apply given_iff in T. destruct (str_eqb_spec (text (to_tql a)) (db_name d ++ $".tmp")) as [?|_]; [destruct NT; split; assumption|].
      destruct (given (to_excel a)) eqn:Y; unfold upd; [|rewrite str_eqb_refl; reflexivity]. apply given_iff in Y.
      destruct (str_eqb_spec (text (to_tql a)) excel) as [?|_]; [destruct NE; apply excel_file_iff; split; assumption|rewrite str_eqb_refl; reflexivity].
    + destruct (given (to_excel a)) eqn:Y; [|unfold upd; rewrite str_eqb_refl; reflexivity]. apply given_iff in Y.
      destruct (str_eqb_spec (text (to_tql a)) excel) as [?|_]; [destruct NE; apply excel_file_iff; split; assumption|unfold upd; rewrite str_eqb_refl; reflexivity].
  - intros n XF. apply excel_file_iff in XF. destruct XF as [G ->]. rewrite F, (proj2 (given_iff _) G). fold excel.
    assert (Q : upd (if given (to_tql a) then if str_eqb (text (to_tql a)) ($"-") then if is_from_cluster a then upd (files (emit (Namespace (convert_namespace a)) st)) (db_name d ++ $".tmp") None else files (emit (Namespace (convert_namespace a)) st) else upd (if is_from_cluster a then upd (files (emit (Namespace (convert_namespace a)) st)) (db_name d ++ $".tmp") None else files (emit (Namespace (convert_namespace a)) st)) (text (to_tql a)) (Some (Text script)) else if is_from_cluster a then upd (files (emit (Namespace (convert_namespace a)) st)) (db_name d ++ $".tmp") None else files (emit (Namespace (convert_namespace a)) st)) excel (Some (Book (saved (h_calc H) w))) excel = Some (Book (saved (h_calc H) w))) by (unfold upd at 1; rewrite str_eqb_refl; reflexivity).
    destruct (given (to_ts a)); [|exact Q]. unfold upd at 1. destruct (str_eqb_spec excel (db_name d ++ $".tmp")) as [B|_]; [destruct (xls_not_temp _ _ B)|exact Q].
  - intros n -> T. rewrite F. destruct (given (to_ts a)) eqn:TS; [unfold upd at 1; rewrite str_eqb_refl; reflexivity|]. apply given_false in TS. destruct T as [?|[C NT]]; [contradiction|].
    rewrite (proj2 (from_cluster_iff a) C).
    assert (Q : (if given (to_tql a) then if str_eqb (text (to_tql a)) ($"-") then upd (files (emit (Namespace (convert_namespace a)) st)) (db_name d ++ $".tmp") None else upd (upd (files (emit (Namespace (convert_namespace a)) st)) (db_name d ++ $".tmp") None) (text (to_tql a)) (Some (Text script)) else upd (files (emit (Namespace (convert_namespace a)) st)) (db_name d ++ $".tmp") None) (db_name d ++ $".tmp") = None).
    { destruct (given (to_tql a)) eqn:TQ; [|unfold upd; rewrite str_eqb_refl; reflexivity]. apply given_iff in TQ. destruct (str_eqb_spec (text (to_tql a)) ($"-")) as [|ND]; [unfold upd; rewrite str_eqb_refl; reflexivity|].
      unfold upd at 1. destruct (str_eqb_spec (db_name d ++ $".tmp") (text (to_tql a))) as [B|_]; [destruct NT; split; [exact TQ|split; assumption]|unfold upd; rewrite str_eqb_refl; reflexivity]. }
    destruct (given (to_excel a)); [|exact Q]. unfold upd at 1. destruct (str_eqb_spec (db_name d ++ $".tmp") excel) as [B|_]; [destruct (xls_not_temp (text (to_excel a)) (db_name d)); symmetry; exact B|exact Q].
  - intros n NT NX NC. rewrite F.
    assert (Q1 : (if is_from_cluster a then upd (files (emit (Namespace (convert_namespace a)) st)) (db_name d ++ $".tmp") None else files (emit (Namespace (convert_namespace a)) st)) n = files st n).
    { destruct (is_from_cluster a) eqn:C; [|reflexivity]. apply from_cluster_iff in C. unfold upd. destruct (str_eqb_spec n (db_name d ++ $".tmp")) as [->|_]; [|reflexivity]. destruct NC as [NC|NC]; [destruct NC; right; exact C|congruence]. }
    assert (Q2 : (if given (to_tql a) then if str_eqb (text (to_tql a)) ($"-") then if is_from_cluster a then upd (files (emit (Namespace (convert_namespace a)) st)) (db_name d ++ $".tmp") None else files (emit (Namespace (convert_namespace a)) st) else upd (if is_from_cluster a then upd (files (emit (Namespace (convert_namespace a)) st)) (db_name d ++ $".tmp") None else files (emit (Namespace (convert_namespace a)) st)) (text (to_tql a)) (Some (Text script)) else if is_from_cluster a then upd (files (emit (Namespace (convert_namespace a)) st)) (db_name d ++ $".tmp") None else files (emit (Namespace (convert_namespace a)) st)) n = files st n).
    { destruct (given (to_tql a)) eqn:TQ; [|exact Q1]. apply given_iff in TQ. destruct (str_eqb_spec (text (to_tql a)) ($"-")) as [|ND]; [exact Q1|]. unfold upd at 1. destruct (str_eqb_spec n (text (to_tql a))) as [->|_]; [destruct NT; split; [exact TQ|split; [exact ND|reflexivity]]|exact Q1]. }
    assert (Q3 : forall g : str -> option content, g n = files st n -> (if given (to_excel a) then upd g excel (Some (Book (saved (h_calc H) w))) else g) n = files st n).
    { intros g G. destruct (given (to_excel a)) eqn:Y; [|exact G]. apply given_iff in Y. unfold upd. destruct (str_eqb_spec n excel) as [->|_]; [destruct NX; apply excel_file_iff; split; [exact Y|reflexivity]|exact G]. }
    destruct (given (to_ts a)) eqn:T; [|exact (Q3 _ Q2)]. apply given_iff in T. unfold upd at 1. destruct (str_eqb_spec n (db_name d ++ $".tmp")) as [->|_]; [|exact (Q3 _ Q2)].
    destruct NC as [NC|NC]; [destruct NC; left; exact T|congruence].
  - exact SE.
  - unfold read_out in O. rewrite <- !app_assoc in O. exact O.
  - exact ER.
Qed.
Print Assumptions C79_converted.
(** everything at once: a small file to TQL, Excel and a cluster, with validation *)
Definition quiet : host :=
  {| h_env := {| open_fails := fun _ => false; write_fails := fun _ _ _ => false |}; h_run := fun _ _ => Ok [$"Statement executed successfully."];
     h_calc := fun _ => CText []; h_fresh := fun _ n => n; h_as_text := fun _ => []; h_as_book := fun _ => Err ValueError; h_path := $"/tools"; h_reason := fun _ _ _ => []; h_query_error := fun _ _ => $"no connection"; h_yaml_text := fun _ => [] |}.
Definition small_ddl : str := $"create table t (id int, v varchar(5), primary key (id)) partition by hash (2) key (id);" ++ [newline_char] ++ $"alter table t add constraint f foreign key (id) references u (id);" ++ [newline_char].
Definition small_state : state :=
  {| files := fun n => if str_eqb n ($"in.ddl") then Some (Text small_ddl) else None; out := []; err := []; sent := []; objects := 0 |}.
Definition to_everything : convert_args :=
  {| version := false; empty := false; from_ddl := Some ($"in.ddl"); to_tql := Some ($"out.tql"); from_ts := None; to_ts := Some ($"10.1.1.1");
     username := $"admin"; password := $"pw"; from_excel := None; to_excel := Some ($"out"); db_option := Some ($"d"); schema_option := $"falcon_default_schema";
     create_db := true; lower_option := false; upper_option := false; camel_option := false; validate_option := true; debug := false |}.
Example C79_case : exists d script w r f, no_failures quiet /\ convert_accepts to_everything /\ reads quiet (fun _ => []) to_everything small_state d []
  /\ validate d = Ok r /\ issues r <> [] /\ tql_script (case_of to_everything) (create_db to_everything) d = Ok script
  /\ write_database (h_fresh quiet) new_writer d ($"out") = Ok (w, f) /\ to_send to_everything script <> [].
Proof.
  destruct (parse_text ($"d") ($"falcon_default_schema") small_ddl) as [d|] eqn:P; [|vm_compute in P; discriminate].
  exists d. pose proof P as P'. vm_compute in P'. injection P' as <-.
  do 4 eexists. split; [split; reflexivity|]. split; [split; [right; right; left; discriminate|intros _; discriminate]|].
  split; [assert (R := reads_ddl quiet (fun _ => []) to_everything small_state small_ddl _ ltac:(discriminate) eq_refl P);
          assert (Q : complaints quiet (text (db_option to_everything)) (schema_option to_everything) small_ddl = []) by (vm_compute; reflexivity); rewrite Q in R; exact R|].
  split; [vm_compute; reflexivity|]. split; [vm_compute; discriminate|]. split; [vm_compute; reflexivity|]. split; [vm_compute; reflexivity|]. discriminate.
Qed.
