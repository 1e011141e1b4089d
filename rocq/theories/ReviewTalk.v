(** * dt/review: what the reviews print while they run

    The reviews of [ReviewData.v] and the loop of [Reviewer.v] once more, with the lines they print on
    standard output and standard error. *)
From Verif Require Export Reviewer.

(** [print] and [eprint] *)
Inductive voice := Shown (s : str) | Warned (s : str).
(** an action of [ReviewData.v] that also prints *)
Definition talk (A : Type) := list str -> result A * list str * list voice.
Definition mute {A} (a : act A) : talk A := fun h => (a h, []).
Definition say (v : voice) : talk unit := fun h => (Ok tt, h, [v]).
Definition tbind {A B} (a : talk A) (f : A -> talk B) : talk B := fun h =>
  match a h with
  | (Ok x, h', vs) => let '(r, h2, vs') := f x h' in (r, h2, vs ++ vs')
  | (Err e, h', vs) => (Err e, h', vs)
  end.
Notation "x <~~ e1 ;; e2" := (tbind e1 (fun x => e2)) (at level 61, e1 at next level, right associativity).

(** the parameters of a review as [inspect.signature] names them *)
Definition param_name (p : param) : str :=
  match p with PDatabase => $"database" | PRtql => $"rtql" | PWorksheet => $"worksheet" | PConfig => $"config_file" end.
(** dt/review/review.py:88-89, 95-96 *)
Definition skip_line (name : str) (params : list param) : str := $"Skipping " ++ name ++ $"(" ++ join ($", ") (map param_name params) ++ $")".

Section Talk.
(** The text of the exception that a query raises, or that reading its answer raises; and the text of a
    YAML value that is none. *)
Variable why : list str -> str -> str.
Variable yaml_text : yaml -> str.
Definition shown_value (v : yaml) : str := match v with YStr s => s | _ => yaml_text v end.

Section Data.
Variable ask : oracle.
(** dt/review/review_tests.py:491-507 [query_for_cardinality] *)
Definition talk_cardinality (q : str) : talk Z := fun h =>
  (query_for_cardinality ask q h,
   Shown q :: match ask h q with
              | Ok (r :: _) => match int_column r ($"c1") with Ok _ => [] | Err _ => [Warned ($"Error in query: " ++ why h q)] end
              | _ => [Warned ($"Error in query: " ++ why h q)]
              end).
(** dt/review/review_tests.py:324-343 *)
Fixpoint talk_test_joins (l : list query_parts) : talk (list str) :=
  match l with
  | [] => mute (ret (Ok []))
  | p :: l' =>
      _ <~~ say (Shown ($"-- comparing " ++ q_name p ++ $" between " ++ q_from_table p ++ $" and " ++ q_to_table p)) ;;
      q1 <~~ mute (ret (get_to_table_cardinality_query p)) ;;
      count_to <~~ talk_cardinality q1 ;;
      q2 <~~ mute (ret (get_from_table_cardinality_query p)) ;;
      count_from <~~ talk_cardinality q2 ;;
      rest <~~ talk_test_joins l' ;;
      mute (ret (Ok (join_verdict (q_name p) count_to count_from ++ rest)))
  end.
(** dt/review/review_tests.py:307-343 *)
Fixpoint talk_tables (d : database) (ts : list table) : talk (list str) :=
  match ts with
  | [] => mute (ret (Ok []))
  | t :: ts' =>
      joins <~~ mute (ret (joins_to_test d t)) ;;
      issues <~~ talk_test_joins joins ;;
      rest <~~ talk_tables d ts' ;;
      mute (ret (Ok (issues ++ rest)))
  end.
(** dt/review/review_tests.py:290-356 [review_table_joins] *)
Definition talk_table_joins (d : database) : talk (list str) :=
  _ <~~ say (Shown ($"reviewing table joins for the """ ++ db_name d ++ $""" database")) ;;
  talk_tables d (db_iter d).

(** dt/review/review_tests.py:623-625, 639-641 *)
Definition talk_query (q : str) : talk (list row) := _ <~~ say (Shown q) ;; mute (query ask q).
(** dt/review/review_tests.py:572-655 one join *)
Definition talk_ws_join (d : database) (w : worksheet) (j : ws_join) : talk (list str) :=
  source <~~ mute (ret (as_text (wj_source j))) ;;
  source_type <~~ mute (ret (table_type w source)) ;;
  if negb (is_table source_type) then
    _ <~~ say (Warned ($"Table " ++ source ++ $" of type " ++ shown_value source_type ++ $" not supported.  Only 'table' type supported.")) ;;
    mute (ret (Ok []))
  else
    source_table <~~ mute (ret (match get_table d source with Some t => Ok t | None => Err AttributeError end)) ;;
    destination <~~ mute (ret (as_text (wj_destination j))) ;;
    destination_type <~~ mute (ret (table_type w destination)) ;;
    if negb (is_table destination_type) then
      _ <~~ say (Warned ($"Table " ++ destination ++ $" of type " ++ shown_value destination_type ++ $" not supported. Only 'table' type supported.")) ;;
      mute (ret (Ok []))
    else
      destination_table <~~ mute (ret (match get_table d destination with Some t => Ok t | None => Err AttributeError end)) ;;
      name <~~ mute (ret (as_text (wj_name j))) ;;
      match get_foreign_key source_table name with
      | None =>
          _ <~~ say (Warned ($"Unable to access None for join " ++ name ++ $".  Only foreign keys supported.")) ;;
          mute (ret (Ok []))
      | Some fk =>
          let from := quoted (db_name d) ++ $"." ++ quoted (t_schema source_table) ++ $"." ++ quoted source in
          let to := quoted (db_name d) ++ $"." ++ quoted (t_schema destination_table) ++ $"." ++ quoted destination in
          join_on <~~ mute (ret (ws_condition true from to (fk_from_keys fk) (fk_to_keys fk))) ;;
          left_fk <~~ mute (ret (match fk_from_keys fk with k :: _ => Ok k | [] => Err IndexError end)) ;;
          right_pk <~~ mute (ret (match fk_to_keys fk with k :: _ => Ok k | [] => Err IndexError end)) ;;
          let columns := join ($",") (map (fun k => from ++ $"." ++ quoted k) (fk_from_keys fk)) ++ $", "
                         ++ join ($",") (map (fun k => to ++ $"." ++ quoted k) (fk_to_keys fk)) in
          missing_fks <~~ talk_query (ws_probe columns from to join_on destination left_fk) ;;
          missing_pks <~~ talk_query (ws_probe columns from to join_on source right_pk) ;;
          let should_be := suggested_join (match missing_fks with [] => false | _ => true end) (match missing_pks with [] => false | _ => true end) in
          type <~~ mute (ret (as_text (wj_type j))) ;;
          mute (ret (Ok (when (negb (str_eqb type should_be))
                              ($"Join " ++ name ++ $" is type " ++ type ++ $", but should probably be " ++ should_be ++ $"."))))
      end.
Fixpoint talk_ws_joins (d : database) (w : worksheet) (js : list ws_join) : talk (list str) :=
  match js with
  | [] => mute (ret (Ok []))
  | j :: js' =>
      issues <~~ talk_ws_join d w j ;;
      rest <~~ talk_ws_joins d w js' ;;
      mute (ret (Ok (issues ++ rest)))
  end.
(** dt/review/review_tests.py:546-657 [review_worksheet_joins] *)
Definition talk_worksheet_joins (d : database) (w : worksheet) : talk (list str) :=
  _ <~~ say (Shown ($"reviewing worksheet joins for worksheet " ++ shown_value (ws_name w) ++ $" using " ++ db_name d ++ $" database")) ;;
  talk_ws_joins d w (ws_joins w).
End Data.

(** the reviews of [Reviewer.v] *)
Record talking := { tk_name : str; tk_params : list param; tk_run : option oracle -> option worksheet -> talk (list str) }.
(** dt/review/review.py:69-106 *)
Fixpoint talk_loop (test_names : list str) (ws : option worksheet) (rtql : option oracle) (l : list talking)
         (recommendations : dict (list str)) : talk (dict (list str)) :=
  match l with
  | [] => mute (ret (Ok recommendations))
  | r :: l' =>
      if negb (match test_names with [] => true | _ => false end) && negb (str_in (tk_name r) test_names)
      then talk_loop test_names ws rtql l' recommendations
      else if starts_with ($"review_") (tk_name r) then
        if (has_param PRtql (tk_params r) && match rtql with None => true | _ => false end)
           || (has_param PWorksheet (tk_params r) && match ws with None => true | _ => false end)
        then _ <~~ say (Shown (skip_line (tk_name r) (tk_params r))) ;; talk_loop test_names ws rtql l' recommendations
        else match tk_params r with
             | [] => talk_loop test_names ws rtql l' recommendations
             | _ =>
                 issues <~~ tk_run r (if has_param PRtql (tk_params r) then rtql else None)
                                     (if has_param PWorksheet (tk_params r) then ws else None) ;;
                 talk_loop test_names ws rtql l' (match issues with [] => recommendations | _ => dset (tk_name r) issues recommendations end)
             end
      else talk_loop test_names ws rtql l' recommendations
  end.

Section Tests.
Variable order : list str -> list str.
Variable rnd : Q -> Q.
Variable commas : setting -> str.
Variable float_str : Q -> str.
Variable fuel : nat.
Definition tneed {A B} (o : option A) (f : A -> talk B) : talk B := match o with Some a => f a | None => mute (ret (Err TypeError)) end.
(** dt/review/review_tests.py:63-73, 103-113, 173-183, 206-220, 259-267 and the reviews above *)
Definition talk_tests (d : database) (c : settings) : list talking :=
  [ {| tk_name := $"review_circular_relationships"; tk_params := [PDatabase];
       tk_run := fun _ _ => _ <~~ say (Shown ($"reviewing circular relationships for " ++ db_name d ++ $" database")) ;;
                            mute (ret (review_circular_relationships order fuel d)) |};
    {| tk_name := $"review_long_chain_relationships"; tk_params := [PDatabase; PConfig];
       tk_run := fun _ _ => _ <~~ say (Shown ($"reviewing long chain (> 2) relationships for " ++ db_name d ++ $" database")) ;;
                            mute (ret (review_long_chain_relationships order fuel d c)) |};
    {| tk_name := $"review_pks"; tk_params := [PDatabase];
       tk_run := fun _ _ => _ <~~ say (Shown ($"reviewing primary keys for " ++ db_name d ++ $" database")) ;; mute (ret (Ok (review_pks d))) |};
    {| tk_name := $"review_relationships"; tk_params := [PDatabase];
       tk_run := fun _ _ => _ <~~ say (Shown ($"reviewing relationships vs. foreign keys for " ++ db_name d ++ $" database")) ;;
                            mute (ret (Ok (review_relationships d))) |};
    {| tk_name := $"review_sharding"; tk_params := [PDatabase; PRtql; PConfig];
       tk_run := fun q _ => tneed q (fun ask => _ <~~ say (Shown ($"reviewing sharding for " ++ db_name d)) ;;
                                                mute (review_sharding ask rnd commas float_str d c)) |};
    {| tk_name := $"review_table_joins"; tk_params := [PDatabase; PRtql];
       tk_run := fun q _ => tneed q (fun ask => talk_table_joins ask d) |};
    {| tk_name := $"review_worksheet_joins"; tk_params := [PDatabase; PRtql; PWorksheet];
       tk_run := fun q w => tneed q (fun ask => tneed w (fun ws => talk_worksheet_joins ask d ws)) |} ].
(** dt/review/review.py:47-106 [review_model] *)
Definition review_aloud (c : settings) (d : database) (test_names : list str) (ws : option worksheet) (rtql : option oracle)
  : result (dict (list str)) * list str * list voice := talk_loop test_names ws rtql (talk_tests d c) [] [].
End Tests.
End Talk.
