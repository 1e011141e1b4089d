(** * More about C16, C46, C48, C54, C64, C77 and C80 *)
From Verif Require ExcelTalkFacts.
From Verif Require Import DetailFacts PropsScript SpecReviewer PropsReviewer CliFacts PropsCliFail PropsExcel.

(** C16: the statement written for a table shows what [get_number_shards] and [get_shard_key_columns]
    return. *)
Theorem C16_shard_accessors : forall o t s, writable_table t -> gen_create_table o t = Ok s ->
  exists schema name cols pk shard, read_script s = Some [SCreateTable schema name cols pk shard]
    /\ get_number_shards t = match shard with Some (n, _) => Some n | None => None end
    /\ get_shard_key_columns t = match shard with Some (_, ks) => Some ks | None => None end.
Proof.
  intros o t s W H. eexists _, _, _, _, (shard_of t). split; [exact (C16_create_table_reads_back o t s W H)|]. unfold get_number_shards, get_shard_key_columns, shard_of. destruct (t_shard t); auto.
Qed.
Print Assumptions C16_shard_accessors.

(** C46: the size of a configuration is the number of its keys. *)
Theorem C46_size : forall files c f c' ok ms ks, NoDup (map fst c) -> load_from_file files c f = (c', ok, ms) ->
  NoDup ks -> (forall k, In k ks <-> cfg_getitem c' k <> None) -> cfg_len c' = length ks.
Proof.
  intros files c f c' ok ms ks N L K E.
  assert (N' : NoDup (dkeys c')).
  { revert L. unfold load_from_file. destruct (files f) as [text|]; [|intros L; injection L as <- _ _; exact N].
    destruct (load_text_spec c text) as [t [raws [es [os [ms' [_ [_ [_ [_ Q]]]]]]]]]. rewrite Q. intros L. apply pair_equal_spec in L. destruct L as [L _]. apply pair_equal_spec in L. destruct L as [<- _]. apply assign_all_nodup, N. }
  assert (I : forall k, In k ks <-> In k (dkeys c')).
  { intros k. rewrite E, dget_some_in. unfold cfg_getitem, cfg_get. destruct (dget k c') as [v|]; [|split; [congruence|intros [? ?]; discriminate]]. split; [eauto|congruence]. }
  unfold cfg_len. apply Nat.le_antisymm; apply NoDup_incl_length; try assumption; intros k; apply I.
Qed.
Print Assumptions C46_size.
Example C46_size_case : let c := [($"a", $"1"); ($"b", $"2")] in cfg_len c = 2 /\ forall k, In k [$"a"; $"b"] <-> cfg_getitem c k <> None.
Proof.
  split; [reflexivity|]. intros k. unfold cfg_getitem, cfg_get. cbn [dget]. split.
  - intros [<-|[<-|[]]]; vm_compute; discriminate.
  - destruct (str_eqb_spec k ($"a")) as [->|]; [left; reflexivity|]. destruct (str_eqb_spec k ($"b")) as [->|]; [right; left; reflexivity|]. intros X. destruct (X eq_refl).
Qed.

(** C48: writing fails exactly if a text has a control character (other than tab, newline and carriage
    return) that would be stored, and then no workbook is saved. *)
Theorem C48_refused_exact : forall fresh sheet w d filename,
  ((exists s, In s (cell_texts d) /\ refused_text s) -> write_database fresh (sheet :: w) d filename = Err IllegalCharacterError)
  /\ ((~ exists s, In s (cell_texts d) /\ refused_text s) -> exists w', write_database fresh (sheet :: w) d filename = Ok w').
Proof.
  intros fresh x w d f. destruct (errs_database fresh x w d f) as [[P E]|[P E]]; rewrite cells_iff in P; (split; intros Q; [try exact E|try exact E]); contradiction.
Qed.
Print Assumptions C48_refused_exact.
Example C48_refused_case : refused_text ($"a" ++ [ascii_of_nat 7]) /\ ~ refused_text ($"a" ++ [ascii_of_nat 9]).
Proof. split; [apply refused_iff; vm_compute; reflexivity|]. intros E. apply refused_iff in E. vm_compute in E. discriminate. Qed.

(** C54: the paths reported can be told apart: the text of a name is a Python literal for it, and the
    text of a path stands for that path only.  The literal is in single quotes, unless the name has
    single quotes and no double quote. *)
Theorem C54_names : forall s rest, read_literal (py_repr s ++ rest) = Some (s, rest) /\ (forall c, In c (py_repr s) -> 32 <= nat_of_ascii c)
  /\ exists q inside, py_repr s = q :: inside ++ [q] /\ (q = "'"%char \/ q = dquote) /\ (q = dquote <-> In "'"%char s /\ ~ In dquote s).
Proof.
  intros s rest. split; [apply repr_read|]. split; [intros c; apply repr_printable|]. unfold py_repr.
  assert (B : forall c l, existsb (Ascii.eqb c) l = true <-> In c l).
  { intros c l. rewrite existsb_exists. split; [intros (x & I & E); apply Ascii.eqb_eq in E; subst; exact I|]. intros I. exists c. split; [exact I|apply Ascii.eqb_refl]. }
  pose proof (B "'"%char s) as B1. pose proof (B dquote s) as B2.
  destruct (existsb (Ascii.eqb "'") s), (existsb (Ascii.eqb dquote) s); cbn [negb andb]; eexists _, _; (split; [reflexivity|]); (split; [auto|]); split;
    try discriminate; try (intros _; split; [apply B1; reflexivity|]; intros I; apply B2 in I; discriminate); try reflexivity; intros [I N]; exfalso.
  all: first [apply N, B2; reflexivity | apply B1 in I; discriminate].
Qed.
Print Assumptions C54_names.
Theorem C54_paths : forall p p', list_repr p = list_repr p' -> p = p'.
Proof. intros p p' E. unfold list_repr in E. apply app_inv_head in E. exact (reprs_one p p' E). Qed.
Print Assumptions C54_paths.
Example C54_names_case : py_repr ($"it's") = [dquote] ++ $"it's" ++ [dquote] /\ py_repr ($"a\b" ++ [newline]) = $"'a\\b\n'" /\ py_repr ($"it's " ++ [dquote]) = $"'it\'s " ++ [dquote] ++ $"'".
Proof. repeat split; vm_compute; reflexivity. Qed.

(** C64: what counts as missing *)
Theorem C64_nothing : forall v key, absent v key <-> without v key \/ exists x, at_key v key x /\ nothing x.
Proof.
  intros v key. unfold absent. split; (intros [H|[x [A B]]]; [left; exact H|right; exists x; split; [exact A|apply nothing_iff, B]]).
Qed.
Print Assumptions C64_nothing.
Theorem C64_names_given : forall name description properties,
  (nothing name <-> mk_worksheet name description properties = Err AssertionError)
  /\ forall w, mk_worksheet name description properties = Ok w -> ws_name w = name /\ (nothing description -> ws_description w = YStr []) /\ (~ nothing description -> ws_description w = description).
Proof.
  intros n d p. unfold mk_worksheet. pose proof (nothing_iff n) as N. pose proof (nothing_iff d) as D. destruct (truthy n); cbn [negb]; split.
  - split; [intros H; apply N in H; discriminate|]. destruct (truthy p); [|discriminate]. destruct p; discriminate.
  - intros w H. assert (E : ws_name w = n /\ ws_description w = if truthy d then d else YStr []) by (destruct (truthy p); [destruct p|]; cbn [bind] in H; try discriminate; injection H as <-; split; reflexivity). destruct E as [-> ->]. split; [reflexivity|]. destruct (truthy d); split; intros X; try reflexivity; [apply D in X; discriminate|exfalso; apply X, D; reflexivity].
  - split; [reflexivity|intros _; apply N; reflexivity]. - discriminate.
Qed.
Print Assumptions C64_names_given.
(** the properties of a column are those of its description *)
Theorem C64_column_properties : forall v c name x, column_doc v c -> (get_property c name = Some x <-> exists m, at_key v ($"properties") (YMap m) /\ In (name, x) m).
Proof.
  intros v c name x [_ [_ [A [N _]]]]. unfold get_property. split.
  - intros H. exists (wc_properties c). split; [exact A|apply dget_in, H].
  - intros [m [B I]]. destruct A as [k [-> A]], B as [k' [E B]]. injection E as <-. rewrite A in B. injection B as <-. exact (dget_nodup name x _ N I).
Qed.
Print Assumptions C64_column_properties.
Example C64_nothing_case : nothing (YNum 0) /\ ~ nothing (YStr ($"0"))
  /\ get_property {| wc_name := YStr ($"n"); wc_id := YStr ($"f"); wc_properties := [($"column_type", YStr ($"MEASURE"))]; wc_is_formula := true |} ($"column_type") = Some (YStr ($"MEASURE")).
Proof. split; [apply nothing_iff; reflexivity|]. split; [|reflexivity]. intros H. apply nothing_iff in H. discriminate. Qed.

(** C77: a review without documentation ends the listing. *)
Theorem C77_undocumented : forall documented f params rest, (forall e, In e documented -> snd e <> [] /\ Forall (fun l => ~ In newline l) (snd e)) ->
  NoDup (map signature (filter is_review documented)) ->
  get_test_descriptions (map in_module documented ++ ($"review_" ++ f, params, None) :: rest) = Err AttributeError.
Proof.
  intros es f ps rest H N. unfold get_test_descriptions.
  assert (G : forall es ds, describe (map in_module es ++ ($"review_" ++ f, ps, None) :: rest) ds = match describe (map in_module es) ds with Ok ds' => describe (($"review_" ++ f, ps, None) :: rest) ds' | Err e => Err e end).
  { clear. induction es as [|[[g qs] ls] es IH]; intros ds; [reflexivity|]. cbn [map app in_module describe fst snd]. destruct (starts_with _ g); apply IH. }
  rewrite G, (describe_from es [] H N). reflexivity.
Qed.
Print Assumptions C77_undocumented.
Example C77_undocumented_case : get_test_descriptions [($"helper", [], None); ($"review_x", [], None)] = Err AttributeError.
Proof. reflexivity. Qed.

(** C80: when a workbook holds no database, that is said, and nothing else goes to standard error. *)
Lemma happen_err tr : forall st, err (fold_left happen tr st) = err st.
Proof. induction tr as [|e tr IH]; intros st; [reflexivity|]. cbn [fold_left]. rewrite IH. destruct e as [n|[] x|h]; reflexivity. Qed.
Theorem C80_no_database : forall H message a st w ms, convert_accepts a -> version a = false ->
  ~ is_given (from_ddl a) -> is_given (from_excel a) -> files st (text (from_excel a)) = Some (Book w) -> read_xls (objects st) [] w = Ok ([], ms) ->
  err (fst (convert H message a st)) = err st ++ map line (map message ms ++ [$"ERROR:  No databases read."]).
Proof.
  intros H message a st w ms CA NV GD GX F X. rewrite (convert_starts H message a st CA NV).
  assert (R : exists st1, read_step H message a (emit (Namespace (convert_namespace a)) st) = (st1, Ok None) /\ err st1 = err st ++ map line (map message ms ++ [$"ERROR:  No databases read."])).
  { unfold read_step. rewrite (proj2 (given_false _) GD), (proj2 (given_iff _) GX). unfold then_ at 1, print, read_excel. destruct (given_text _ GX) as [-> _]. unfold then_ at 1. rewrite (read_book_is H message _ w); [|exact F].
    rewrite ?objects_emit. apply ExcelTalkFacts.heard_ok in X. rewrite X. cbn [dvals map]. eexists. split; [reflexivity|]. cbn [err]. rewrite (map_app line), app_assoc. reflexivity. }
  destruct R as [st1 [R E]]. unfold then_ at 1. rewrite R, <- E. clear R E.
  unfold then_ at 1. destruct (validate_option a); cbn [when validate_step done]; [reflexivity|].
  unfold then_ at 1. destruct (given (to_tql a)); cbn [when].
  - unfold then_ at 1, print, write_tql_of, perform. destruct (smart_open _ _ _ []) as [tr r] eqn:S. pose proof (happen_err tr (emit (Printed ($"Writing TQL ..." ++ [newline])) st1)) as He. unfold then_. cbn beta iota.
    assert (Rr : exists e, r = Err e); [|destruct Rr as [e ->]; cbn [fst]; exact He].
    revert S. unfold smart_open, io_bind, do_open, throw, do_close. destruct (to_tql a) as [f|]; [destruct (negb _ && negb _)|].
    + destruct (open_fails _ _); cbn; intros S; apply pair_equal_spec in S; destruct S as [_ <-]; eauto.
    + cbn. intros S; apply pair_equal_spec in S; destruct S as [_ <-]; eauto.
    + cbn. intros S; apply pair_equal_spec in S; destruct S as [_ <-]; eauto.
  - unfold done, then_ at 1. destruct (given (to_excel a)); cbn [when]; [reflexivity|]. destruct (given (to_ts a)); reflexivity.
Qed.
Print Assumptions C80_no_database.
Definition from_book : convert_args := {| version := false; empty := false; from_ddl := None; to_tql := Some ($"o.tql"); from_ts := None; to_ts := None; username := $"u"; password := $"p";
  from_excel := Some ($"m.xlsx"); to_excel := None; db_option := None; schema_option := $"s"; create_db := false; lower_option := false; upper_option := false; camel_option := false; validate_option := false; debug := false |}.
Example C80_no_database_case : exists w ms, convert_accepts from_book /\ read_xls 0 [] w = Ok ([], ms) /\ ms = [].
Proof.
  destruct (C48_no_tables (fun _ t => t) (fun _ => CText []) 0 [] (empty_database ($"d")) [] eq_refl) as [w [_ R]]. eexists _, []. split; [split; [right; right; right; left; discriminate|]|split; [exact R|reflexivity]].
  intros [E|E]; destruct (E eq_refl).
Qed.
