(** * C102: the command line means what it says *)
From Coq Require Import Permutation.
From Verif Require Import Args SpecArgs ArgFacts ArgTools.

(** A command line is accepted exactly if it is a sequence of options, each spelled in one of the ways there
    are, and then every option has the last text given or its default. *)
Theorem C102_exact p ws ns : declared p -> parse_args p ws = Parsed ns <-> exists l, line p ws l /\ ns = values p l.
Proof. exact (parse_exact p ws ns). Qed.
Print Assumptions C102_exact.

(** Every other command line prints the help or is refused. *)
Theorem C102_total p ws : (exists ns, parse_args p ws = Parsed ns) \/ parse_args p ws = Helped \/ exists r, parse_args p ws = Refused r.
Proof.
  destruct (parse_args p ws) as [ns| |r|e] eqn:E; [left; exists ns; reflexivity|right; left; reflexivity|right; right; exists r; reflexivity|].
  exfalso. exact (parse_total p ws e E).
Qed.
Print Assumptions C102_total.

(** The order does not matter unless an option is given a text twice. *)
Theorem C102_order p parts parts' : declared p -> Forall (fun x => item p (fst x) (snd x)) parts -> Permutation parts parts' ->
  NoDup (texts (flat_map snd parts)) -> parse_args p (flat_map fst parts) = parse_args p (flat_map fst parts').
Proof.
  intros D F P U. assert (F' : Forall (fun x => item p (fst x) (snd x)) parts') by (apply (Permutation_Forall P F)).
  assert (L := parts_line p parts F). assert (L' := parts_line p parts' F').
  rewrite (proj2 (parse_exact p _ _ D) (ex_intro _ _ (conj L eq_refl))), (proj2 (parse_exact p _ _ D) (ex_intro _ _ (conj L' eq_refl))). f_equal.
  apply values_perm; [apply dp_dests; exact D|apply (line_settings p _ _ L)|apply Permutation_flat_map; exact P|exact U].
Qed.
Print Assumptions C102_order.

(** The help is printed as soon as it is asked for, whatever follows, unless a word is ambiguous. *)
Theorem C102_help p ws l w o rest : declared p -> line p ws l -> (names_long p w o \/ exists c, w = ["-"%char; c] /\ names_short p c o) -> is_help o ->
  Forall (fun w => ~ ambiguous p w) rest -> parse_args p (ws ++ w :: rest) = Helped.
Proof. exact (parse_help p ws l w o rest). Qed.
Print Assumptions C102_help.
(** The first ambiguous word is refused; the message names it and exactly the names it may stand for, in the order
    in which they are declared. *)
Theorem C102_ambiguous p before w after x : declared p -> ~ In ($"--") before -> Forall (fun v => ~ ambiguous p v) before -> ambiguous p w ->
  (w = x \/ exists v, w = x ++ $"=" ++ v) -> ~ In "="%char x -> begins ($"--") x ->
  exists l, parse_args p (before ++ w :: after) = Refused (AmbiguousOption w l)
    /\ (forall n, In n l <-> In n (all_names p) /\ begins x n) /\ left_out l (all_names p).
Proof.
  intros D N F A W X B. exists (filter (starts_with x) (all_names p)). split; [unfold parse_args; rewrite (classify_ambiguous p before w after x D N F A W X B); reflexivity|]. split.
  - intros n. rewrite filter_In, ParseFacts.starts_with_spec. reflexivity.
  - induction (all_names p) as [|n l IH]; [constructor|]. cbn [filter]. destruct (starts_with x n); constructor; exact IH.
Qed.
Print Assumptions C102_ambiguous.

(** Nothing after two dashes is taken for an option, not even the help: all these words are left over. *)
Lemma leftover p after : forall fuel ns extras, length after <= fuel -> consume fuel p ns extras (map (fun x => (x, Some Argument)) after) =
  match extras ++ after with [] => Parsed ns | x => Refused (Unrecognized x) end.
Proof.
  induction after as [|w after IH]; intros fuel ns extras L; [rewrite app_nil_r; destruct fuel, extras; reflexivity|]. destruct fuel as [|fuel]; [inversion L|]. cbn [map consume].
  rewrite IH by (apply le_S_n; exact L). rewrite <- app_assoc. reflexivity.
Qed.
Theorem C102_dashes p ws l after : declared p -> line p ws l -> parse_args p (ws ++ $"--" :: after) = Refused (Unrecognized ($"--" :: after)).
Proof.
  intros D L. assert (C : classify p ($"--" :: after) = inl (($"--", None) :: map (fun x => (x, Some Argument)) after)) by reflexivity.
  destruct (line_then p ws l _ _ D L C) as (cl & C' & K). unfold parse_args. rewrite C'. destruct (K (length cl) (defaults p) (Nat.le_refl _)) as (fuel & F & ->).
  destruct fuel as [|fuel]; [inversion F|]. cbn [length] in F. apply le_S_n in F. rewrite map_length in F. exact (leftover p after fuel (sets l (defaults p)) [$"--"] F).
Qed.
Print Assumptions C102_dashes.
Example C102_dashes_case : parse_args diff_parser [$"--alter1"; $"--"; $"--help"] = Refused (Unrecognized [$"--"; $"--help"]) /\ parse_args diff_parser [$"--alter1"; $"--help"] = Helped.
Proof. split; vm_compute; reflexivity. Qed.

(** A word with a dash in front that is not an option is not accepted anywhere, not even as a text; with an
    equals sign every text can be given. *)
Theorem C102_unknown p ws w ns : declared p -> unknown p w -> In w ws -> parse_args p ws <> Parsed ns.
Proof. intros D U H E. apply (parse_exact p ws ns D) in E. destruct E as (l & L & _). exact (line_unknown p ws l w D U H L). Qed.
Print Assumptions C102_unknown.
Theorem C102_any_text p o n v ws l : declared p -> In o p -> In ($"--" ++ n) (o_names o) -> takes_text o -> line p ws l ->
  parse_args p (ws ++ [$"--" ++ n ++ $"=" ++ v]) = Parsed (values p (l ++ [(o, Some v)])).
Proof.
  intros D Ho Hn T L. apply (parse_exact p _ _ D). exists (l ++ [(o, Some v)]). split; [|reflexivity].
  assert (N : n <> []) by (intros ->; apply (not_name p D); apply ar_name; exists o; split; [exact Ho|exact Hn]).
  assert (I : item p [($"--" ++ n) ++ $"=" ++ v] [(o, Some v)]) by (apply it_equals; [apply exact_long; assumption|exact T]). rewrite <- app_assoc in I.
  clear Hn N. induction L as [|ws l ws' l' I' L IH]; [exact (li_more p _ _ [] [] I (li_none p))|]. rewrite <- !app_assoc. apply li_more; assumption.
Qed.
Print Assumptions C102_any_text.

(** ** The tools *)
(** Each tool runs with the values of its command line and prints them; with another command line it prints
    the help or a reason, and does nothing else. *)
Theorem C102_convert H message help usage ws : 
  (forall l, line convert_parser ws l -> convert_main H message help usage ws = convert H message (convert_values l) /\ convert_namespace (convert_values l) = values convert_parser l)
  /\ ((forall l, ~ line convert_parser ws l) -> forall st, exists st', convert_main H message help usage ws st = (st', Ok tt) /\ files st' = files st /\ sent st' = sent st
        /\ ((parse_args convert_parser ws = Helped /\ out st' = out st ++ [Printed (help ++ [newline])] /\ err st' = err st)
            \/ (exists r, parse_args convert_parser ws = Refused r /\ out st' = out st /\ err st' = err st ++ [usage r ++ [newline]]))).
Proof.
  split.
  - intros l L. split; [|apply convert_shown]. unfold convert_main. rewrite (with_line _ _ _ _ ws l convert_declared L), convert_read. reflexivity.
  - intros N st. apply with_no_line; [exact convert_declared|exact N].
Qed.
Print Assumptions C102_convert.
Theorem C102_diff H help usage ws :
  (forall l, line diff_parser ws l -> diff_main H help usage ws = ddldiff H (diff_values l) /\ diff_namespace (diff_values l) = values diff_parser l)
  /\ ((forall l, ~ line diff_parser ws l) -> forall st, exists st', diff_main H help usage ws st = (st', Ok tt) /\ files st' = files st /\ sent st' = sent st
        /\ ((parse_args diff_parser ws = Helped /\ out st' = out st ++ [Printed (help ++ [newline])] /\ err st' = err st)
            \/ (exists r, parse_args diff_parser ws = Refused r /\ out st' = out st /\ err st' = err st ++ [usage r ++ [newline]]))).
Proof.
  split.
  - intros l L. split; [|apply diff_shown]. unfold diff_main. rewrite (with_line _ _ _ _ ws l diff_declared L), diff_read. reflexivity.
  - intros N st. apply with_no_line; [exact diff_declared|exact N].
Qed.
Print Assumptions C102_diff.
Theorem C102_review H order rnd commas float_str fuel safe_load queries help documented usage ws :
  (forall l, line review_parser ws l ->
     review_main H order rnd commas float_str fuel safe_load queries help documented usage ws
       = review_tool H order rnd commas float_str fuel safe_load queries help documented (review_values l)
     /\ review_namespace (review_values l) = values review_parser l)
  /\ ((forall l, ~ line review_parser ws l) -> forall st, exists st', review_main H order rnd commas float_str fuel safe_load queries help documented usage ws st = (st', Ok tt)
        /\ files st' = files st /\ sent st' = sent st
        /\ ((parse_args review_parser ws = Helped /\ out st' = out st ++ [Printed (help ++ [newline])] /\ err st' = err st)
            \/ (exists r, parse_args review_parser ws = Refused r /\ out st' = out st /\ err st' = err st ++ [usage r ++ [newline]]))).
Proof.
  split.
  - intros l L. split; [|apply review_shown]. unfold review_main. rewrite (with_line _ _ _ _ ws l review_declared L), review_read. reflexivity.
  - intros N st. apply with_no_line; [exact review_declared|exact N].
Qed.
Print Assumptions C102_review.

(** ** The documentation *)
(** The usage in the README names the options; for the review, [--config_file] is missing. *)
Theorem C102_documented :
  map usage_of convert_parser = readme_convert /\ map usage_of diff_parser = readme_diff
  /\ map usage_of review_parser = readme_review ++ [([$"--config_file"], true)].
Proof. repeat split. Qed.
Print Assumptions C102_documented.

(** The README's sample commands for [convert_ddl] (README.md:104, 110 and 116) do what it says, for all names
    that can be texts. *)
Theorem C102_samples H message help usage f g d : text_word convert_parser f -> text_word convert_parser g -> text_word convert_parser d ->
  convert_main H message help usage [$"--from_ddl"; f; $"--to_excel"; g; $"--database"; d]
    = convert H message {| version := false; empty := false; from_ddl := Some f; to_tql := None; from_ts := None; to_ts := None; username := $"admin"; password := $"th0ughtSp0t";
        from_excel := None; to_excel := Some g; db_option := Some d; schema_option := $"falcon_default_schema"; create_db := false; lower_option := false; upper_option := false;
        camel_option := false; validate_option := false; debug := false |}
  /\ convert_main H message help usage [$"--from_excel"; f; $"--validate"]
    = convert H message {| version := false; empty := false; from_ddl := None; to_tql := None; from_ts := None; to_ts := None; username := $"admin"; password := $"th0ughtSp0t";
        from_excel := Some f; to_excel := None; db_option := None; schema_option := $"falcon_default_schema"; create_db := false; lower_option := false; upper_option := false;
        camel_option := false; validate_option := true; debug := false |}
  /\ convert_main H message help usage [$"--from_excel"; f; $"--to_tql"; g]
    = convert H message {| version := false; empty := false; from_ddl := None; to_tql := Some g; from_ts := None; to_ts := None; username := $"admin"; password := $"th0ughtSp0t";
        from_excel := Some f; to_excel := None; db_option := None; schema_option := $"falcon_default_schema"; create_db := false; lower_option := false; upper_option := false;
        camel_option := false; validate_option := false; debug := false |}.
Proof.
  intros F G K.
  assert (Text : forall names n dflt v, In (takes names n dflt) convert_parser -> n <> [] -> text_word convert_parser v -> item convert_parser [$"--" ++ n; v] [(takes names n dflt, Some v)]).
  { intros names n dflt v Hn N W. apply it_text; [|exists dflt; reflexivity|exact W]. apply exact_long; [exact Hn| |exact N]. unfold takes. cbn [o_names]. apply in_or_app. right. left. reflexivity. }
  assert (On : forall names n, In (flag names n) convert_parser -> n <> [] -> item convert_parser [$"--" ++ n] [(flag names n, None)]).
  { intros names n Hn N. apply it_flag; [|reflexivity]. apply exact_long; [exact Hn| |exact N]. unfold flag. cbn [o_names]. apply in_or_app. right. left. reflexivity. }
  assert (Run : forall parts a, Forall (fun x => item convert_parser (fst x) (snd x)) parts -> convert_values (flat_map snd parts) = a ->
    convert_main H message help usage (flat_map fst parts) = convert H message a).
  { intros parts a P <-. apply (proj1 (C102_convert H message help usage _)). apply parts_line. exact P. }
  split; [|split].
  - apply (Run [([$"--" ++ $"from_ddl"; f], [(takes [] ($"from_ddl") ANone, Some f)]); ([$"--" ++ $"to_excel"; g], [(takes [] ($"to_excel") ANone, Some g)]);
                ([$"--" ++ $"database"; d], [(takes [$"-d"] ($"database") ANone, Some d)])]); [|vm_compute; reflexivity].
    apply Forall_cons; [apply Text; [member|discriminate|exact F]|]. apply Forall_cons; [apply Text; [member|discriminate|exact G]|].
    apply Forall_cons; [apply Text; [member|discriminate|exact K]|]. apply Forall_nil.
  - apply (Run [([$"--" ++ $"from_excel"; f], [(takes [] ($"from_excel") ANone, Some f)]); ([$"--" ++ $"validate"], [(flag [$"-v"] ($"validate"), None)])]); [|vm_compute; reflexivity].
    apply Forall_cons; [apply Text; [member|discriminate|exact F]|]. apply Forall_cons; [apply On; [member|discriminate]|]. apply Forall_nil.
  - apply (Run [([$"--" ++ $"from_excel"; f], [(takes [] ($"from_excel") ANone, Some f)]); ([$"--" ++ $"to_tql"; g], [(takes [] ($"to_tql") ANone, Some g)])]); [|vm_compute; reflexivity].
    apply Forall_cons; [apply Text; [member|discriminate|exact F]|]. apply Forall_cons; [apply Text; [member|discriminate|exact G]|]. apply Forall_nil.
Qed.
Print Assumptions C102_samples.
(** The sample command for the review of a cluster (README.md:254) is always refused, and so is the option
    [--show_descriptions] of the usage (README.md:164). *)
Theorem C102_review_sample_refuted ip user password database ws ns :
  parse_args review_parser (readme_sample ip user password database) <> Parsed ns
  /\ (In ($"--show_descriptions") ws -> parse_args review_parser ws <> Parsed ns).
Proof.
  split.
  - apply (C102_unknown _ _ ($"--ts_url")); [exact review_declared|apply reads_unknown; [exact review_declared|vm_compute; reflexivity]|left; reflexivity].
  - apply (C102_unknown _ _ ($"--show_descriptions")); [exact review_declared|apply reads_unknown; [exact review_declared|vm_compute; reflexivity]].
Qed.
Print Assumptions C102_review_sample_refuted.

(** ** Cases *)
(** [-vd sales --from_d=a.sql --to_tql -1 -cl] *)
Example C102_case : line convert_parser [$"-vd"; $"sales"; $"--from_d=a.sql"; $"--to_tql"; $"-1"; $"-cl"]
  [(flag [$"-v"] ($"validate"), None); (takes [$"-d"] ($"database") ANone, Some ($"sales")); (takes [] ($"from_ddl") ANone, Some ($"a.sql"));
   (takes [] ($"to_tql") ANone, Some ($"-1")); (flag [$"-c"] ($"create_db"), None); (flag [$"-l"] ($"lowercase"), None)].
Proof.
  assert (W : forall v, parse_optional convert_parser v = Argument -> text_word convert_parser v) by (intros v E; apply (text_word_argument _ _ convert_declared); exact E).
  assert (Sh : forall c o, In o convert_parser -> In ["-"%char; c] (o_names o) -> names_short convert_parser c o) by (intros c o H1 H2; split; assumption).
  apply (li_more _ [$"-vd"; $"sales"] [_; _]).
  { apply (it_letters _ ($"vd") [$"sales"]). apply (let_more _ "v" _ ($"d")); [apply Sh; [member|left; reflexivity]|reflexivity|]. apply let_next; [apply Sh; [member|left; reflexivity]|eexists; reflexivity|].
    apply W. vm_compute. reflexivity. }
  apply (li_more _ [$"--from_d=a.sql"] [_]).
  { apply (it_equals _ ($"--from_d") _ ($"a.sql")); [|eexists; reflexivity]. split; [exists ($"from_d"); reflexivity|]. split; [discriminate|]. split; [member|]. right.
    split; [apply ar_get_none; vm_compute; reflexivity|]. exists ($"--from_ddl"). split; [left; reflexivity|]. split; [exists ($"dl"); reflexivity|]. intros m Hm [y ->].
    vm_compute in Hm. repeat (destruct Hm as [Hm|Hm]; [first [discriminate Hm|injection Hm as <-; reflexivity]|]). destruct Hm. }
  apply (li_more _ [$"--to_tql"; $"-1"] [_]).
  { apply it_text; [apply (exact_long _ _ ($"to_tql")); [member|left; reflexivity|discriminate]|eexists; reflexivity|]. apply W. vm_compute. reflexivity. }
  apply (li_more _ [$"-cl"] [_; _] [] []); [|constructor]. apply (it_letters _ ($"cl") []). apply (let_more _ "c" _ ($"l")); [apply Sh; [member|left; reflexivity]|reflexivity|].
  apply let_flag; [apply Sh; [member|left; reflexivity]|reflexivity].
Qed.
(** [--to] could be several options; [--help] after options prints the help *)
Example C102_case_ambiguous : ambiguous convert_parser ($"--to") /\ ~ ambiguous convert_parser ($"--to_e") /\ unknown convert_parser ($"-x").
Proof.
  split; [|split].
  - apply (ambiguous_iff _ _ convert_declared); [discriminate|]. eexists. vm_compute. reflexivity.
  - intros A. apply (ambiguous_iff _ _ convert_declared) in A; [|discriminate]. destruct A as [l A]. vm_compute in A. discriminate A.
  - apply reads_unknown; [exact convert_declared|vm_compute; reflexivity].
Qed.
Example C102_case_names : parse_args convert_parser [$"-l"; $"--to=x"] = Refused (AmbiguousOption ($"--to=x") [$"--to_tql"; $"--to_ts"; $"--to_excel"]).
Proof. vm_compute. reflexivity. Qed.
