(** * dt/review/review.py: DataModelReviewer *)
From Verif Require Export ReviewData.

(** the parameters of a review that matter (dt/review/review.py:82-99) *)
Inductive param := PDatabase | PRtql | PWorksheet | PConfig.
Definition param_eqb (a b : param) : bool :=
  match a, b with PDatabase, PDatabase | PRtql, PRtql | PWorksheet, PWorksheet | PConfig, PConfig => true | _, _ => false end.
Definition has_param (p : param) (l : list param) : bool := existsb (param_eqb p) l.

(** A name found in a module with tests and, for a review, what calling it does.  What a review needs of
    the database and the configuration is part of [rv_run]; the connection and the worksheet are [None]
    when they are not passed. *)
Record review := { rv_name : str; rv_params : list param; rv_run : option oracle -> option worksheet -> act (list str) }.

(** what happens, in order: reviews called, and reviews skipped with a message *)
Inductive event := Called (name : str) | Skipped (name : str).

(** dt/review/review.py:69-104 the loop over the names of one module.  [test_names] is empty when none
    were given. *)
Fixpoint review_loop (test_names : list str) (ws : option worksheet) (rtql : option oracle) (l : list review)
         (recommendations : dict (list str)) (h : list str) (ev : list event)
  : result (dict (list str)) * list str * list event :=
  match l with
  | [] => (Ok recommendations, h, ev)
  | r :: l' =>
      if negb (match test_names with [] => true | _ => false end) && negb (str_in (rv_name r) test_names)
      then review_loop test_names ws rtql l' recommendations h ev
      else if starts_with ($"review_") (rv_name r) then
        if has_param PRtql (rv_params r) && match rtql with None => true | _ => false end
        then review_loop test_names ws rtql l' recommendations h (ev ++ [Skipped (rv_name r)])
        else if has_param PWorksheet (rv_params r) && match ws with None => true | _ => false end
        then review_loop test_names ws rtql l' recommendations h (ev ++ [Skipped (rv_name r)])
        else match rv_params r with
             | [] => review_loop test_names ws rtql l' recommendations h ev
             | _ =>
                 match rv_run r (if has_param PRtql (rv_params r) then rtql else None)
                                (if has_param PWorksheet (rv_params r) then ws else None) h with
                 | (Err e, h') => (Err e, h', ev ++ [Called (rv_name r)])
                 | (Ok issues, h') =>
                     review_loop test_names ws rtql l'
                       (match issues with [] => recommendations | _ => dset (rv_name r) issues recommendations end)
                       h' (ev ++ [Called (rv_name r)])
                 end
             end
      else review_loop test_names ws rtql l' recommendations h ev
  end.

(** dt/review/review.py:47-106 [review_model] over the names of the module *)
Definition review_with (module : list review) (test_names : list str) (ws : option worksheet) (rtql : option oracle)
  : result (dict (list str)) * list str * list event :=
  review_loop test_names ws rtql module [] [] [].

Section Reviewer.
Variable order : list str -> list str.
Variable rnd : Q -> Q.
Variable commas : setting -> str.
Variable float_str : Q -> str.
Variable fuel : nat.

(** a required argument that is not passed *)
Definition need {A B} (o : option A) (f : A -> act B) : act B := match o with Some a => f a | None => ret (Err TypeError) end.

(** The reviews of dt/review/review_tests.py, in the order of [dir]; its other names do not begin with
    [review_]. *)
Definition review_tests (d : database) (c : settings) : list review :=
  [ {| rv_name := $"review_circular_relationships"; rv_params := [PDatabase];
       rv_run := fun _ _ => ret (review_circular_relationships order fuel d) |};
    {| rv_name := $"review_long_chain_relationships"; rv_params := [PDatabase; PConfig];
       rv_run := fun _ _ => ret (review_long_chain_relationships order fuel d c) |};
    {| rv_name := $"review_pks"; rv_params := [PDatabase]; rv_run := fun _ _ => ret (Ok (review_pks d)) |};
    {| rv_name := $"review_relationships"; rv_params := [PDatabase]; rv_run := fun _ _ => ret (Ok (review_relationships d)) |};
    {| rv_name := $"review_sharding"; rv_params := [PDatabase; PRtql; PConfig];
       rv_run := fun q _ => need q (fun ask => review_sharding ask rnd commas float_str d c) |};
    {| rv_name := $"review_table_joins"; rv_params := [PDatabase; PRtql];
       rv_run := fun q _ => need q (fun ask => review_table_joins ask d) |};
    {| rv_name := $"review_worksheet_joins"; rv_params := [PDatabase; PRtql; PWorksheet];
       rv_run := fun q w => need q (fun ask => need w (fun ws => review_worksheet_joins ask d ws)) |} ].

(** dt/review/review.py:36-45 [DataModelReviewer.__init__]; [files] is the file system *)
Definition reviewer_settings (files : str -> option str) (config_file : option str) : settings :=
  match config_file with
  | None | Some [] => []
  | Some f => file_settings (fst (fst (load_from_file files [] f)))
  end.

(** dt/review/review.py:47-106 [review_model] *)
Definition review_model (c : settings) (d : database) (test_names : list str) (ws : option worksheet) (rtql : option oracle)
  : result (dict (list str)) * list str * list event :=
  review_with (review_tests d c) test_names ws rtql.
End Reviewer.

(** dt/review/review.py:124-134: the description in the documentation of a review *)
Fixpoint description (lines : list str) : list str :=
  match lines with
  | [] => []
  | l :: lines' =>
      let x := strip l in
      if str_eqb x [] then description lines'
      else if starts_with ($":") x then []
      else x :: description lines'
  end.
(** dt/review/review.py:108-138 [get_test_descriptions] over the names of a module, each with the names of
    its parameters and its documentation *)
Fixpoint describe (module : list (str * list str * option str)) (descriptions : dict (list str)) : result (dict (list str)) :=
  match module with
  | [] => Ok descriptions
  | (f, params, doc) :: module' =>
      if starts_with ($"review_") f then
        match doc with
        | None => Err AttributeError
        | Some text => describe module' (dset (f ++ $"(" ++ join ($", ") params ++ $")") (description (split_char newline text)) descriptions)
        end
      else describe module' descriptions
  end.
Definition get_test_descriptions (module : list (str * list str * option str)) : result (dict (list str)) := describe module [].
