(** * dt/review/review_tests.py: relationship graphs

    Python raises [RecursionError] when calls nest too deeply; here recursion is as deep as [fuel] allows
    and [Err OutOfFuel] stands for a run that is not over by then. *)
From Coq Require Export QArith.
From Verif Require Export Config.
Open Scope nat_scope.

(** [s.add(x)] on a set, kept as the list of its elements *)
Definition set_add (s : list str) (x : str) : list str := if str_in x s then s else s ++ [x].
(** [set(l)] *)
Definition set_of (l : list str) : list str := fold_left set_add l [].

(** A value of the configuration: texts come from the configuration file (dt/util.py:121), numbers from
    the defaults or from [config["..."] = n]. *)
Inductive setting := SText (s : str) | SNum (q : Q).
Definition settings := dict setting.
(** the configuration a file was loaded into *)
Definition file_settings (c : config) : settings := map (fun kv => (fst kv, SText (snd kv))) c.
(** dt/util.py:52-62 [ConfigFile.get] with a numeric default *)
Definition limit (c : settings) (name : str) (default : Q) : setting :=
  match dget name c with Some v => v | None => SNum default end.
(** [x > limit] and [x < limit] *)
Definition above (x : Q) (l : setting) : result bool :=
  match l with SNum q => Ok (negb (Qle_bool x q)) | SText _ => Err TypeError end.
Definition below (x : Q) (l : setting) : result bool :=
  match l with SNum q => Ok (negb (Qle_bool q x)) | SText _ => Err TypeError end.

(** dt/review/review_tests.py:76-101 [relates_to_previous] *)
Fixpoint relates_to_previous (fuel : nat) (m : dict (list str)) (from to : str) : result bool :=
  match fuel with
  | 0 => Err OutOfFuel
  | S fuel' =>
      match dget from m with
      | None => Err KeyError
      | Some related =>
          if str_in to related then Ok true
          else (fix children (l : list str) : result bool :=
                  match l with
                  | [] => Ok false
                  | x :: l' => found <- relates_to_previous fuel' m x to ;; if found then Ok true else children l'
                  end) related
      end
  end.

(** dt/review/review_tests.py:144-167 [get_related_paths]; [table_path] is never empty *)
Fixpoint get_related_paths (fuel : nat) (m : dict (list str)) (table_path : list str) : result (list (list str)) :=
  match fuel with
  | 0 => Err OutOfFuel
  | S fuel' =>
      match dget (last table_path []) m with
      | None => Err KeyError
      | Some related =>
          (fix next (l : list str) : result (list (list str)) :=
             match l with
             | [] => Ok []
             | x :: l' =>
                 if str_in x table_path then next l'
                 else
                   added <- get_related_paths fuel' m (table_path ++ [x]) ;;
                   rest <- next l' ;;
                   Ok ((table_path ++ [x]) :: added ++ rest)
             end) related
      end
  end.

Section Order.
(** The order in which a set is iterated *)
Variable order : list str -> list str.

(** dt/review/review_tests.py:41-60 [get_relationships] *)
Definition get_relationships (d : database) : dict (list str) :=
  fold_left
    (fun m t =>
       let related := fold_left set_add (map fk_to_table (dvals (t_fks t))) [] in
       let m := dset (t_name t) (order related) m in
       let related := fold_left set_add (map rel_to_table (dvals (t_rels t))) related in
       dset (t_name t) (order related) m)
    (dvals (db_tables d)) [].

(** dt/review/review_tests.py:118-120 *)
Definition direct_relationships (d : database) : dict (list str) :=
  fold_left (fun m t => dset (t_name t) (set_of (get_all_related_tables t)) m) (db_iter d) [].

(** dt/review/review_tests.py:131-133 *)
Fixpoint expand (m : dict (list str)) (new : list str) (l : list str) : result (list str) :=
  match l with
  | [] => Ok new
  | x :: l' => match dget x m with
               | None => Err KeyError
               | Some s => expand m (fold_left set_add (order s) new) l'
               end
  end.
(** dt/review/review_tests.py:128-139 the loop for one table: whether it is reported *)
Fixpoint circle (fuel : nat) (m : dict (list str)) (table_name : str) (relationships : list str) : result bool :=
  match fuel with
  | 0 => Err OutOfFuel
  | S fuel' =>
      new <- expand m relationships (order relationships) ;;
      if str_in table_name new then Ok true
      else if Nat.eqb (length new) (length relationships) then Ok false
      else circle fuel' m table_name new
  end.
Definition circular_issue (table_name : str) : str := table_name ++ $" has circular relationship back to itself.".
(** dt/review/review_tests.py:125-139 *)
Fixpoint circles (fuel : nat) (m : dict (list str)) (names : list str) : result (list str) :=
  match names with
  | [] => Ok []
  | n :: names' =>
      match dget n m with
      | None => Err KeyError
      | Some relationships =>
          c <- circle fuel m n relationships ;;
          rest <- circles fuel m names' ;;
          Ok (if c then circular_issue n :: rest else rest)
      end
  end.
(** dt/review/review_tests.py:104-141 [review_circular_relationships] *)
Definition review_circular_relationships (fuel : nat) (d : database) : result (list str) :=
  let m := direct_relationships d in circles fuel m (dkeys m).

(** dt/review/review_tests.py:187-191 *)
Fixpoint all_paths (fuel : nat) (m : dict (list str)) (names : list str) : result (list (list str)) :=
  match names with
  | [] => Ok []
  | n :: names' =>
      added <- get_related_paths fuel m [n] ;;
      rest <- all_paths fuel m names' ;;
      Ok (added ++ rest)
  end.
Definition long_path_issue (path : list str) : str :=
  $"Long path (" ++ n_to_str (N.of_nat (length path)) ++ $"):  " ++ list_repr path ++ $".".
(** dt/review/review_tests.py:194-196 *)
Fixpoint long_paths (max_reference_chain : setting) (paths : list (list str)) : result (list str) :=
  match paths with
  | [] => Ok []
  | p :: paths' =>
      long <- above (inject_Z (Z.of_nat (length p) - 1)) max_reference_chain ;;
      rest <- long_paths max_reference_chain paths' ;;
      Ok (if long then long_path_issue p :: rest else rest)
  end.
(** dt/review/review_tests.py:170 [MAX_REFERENCE_CHAIN] *)
Definition MAX_REFERENCE_CHAIN : Q := 3.
(** dt/review/review_tests.py:173-198 [review_long_chain_relationships] *)
Definition review_long_chain_relationships (fuel : nat) (d : database) (c : settings) : result (list str) :=
  let m := get_relationships d in
  paths <- all_paths fuel m (dkeys m) ;;
  long_paths (limit c ($"max_reference_chain") MAX_REFERENCE_CHAIN) paths.
End Order.

(** dt/review/review_tests.py:63-73 [review_relationships] *)
Definition review_relationships (d : database) : list str := [].

(** dt/review/review_tests.py:259-274 [review_pks] *)
Definition pk_issue (d : database) (t : table) : str :=
  $"No primary key on table " ++ db_name d ++ $"." ++ t_schema t ++ $"." ++ t_name t.
Definition review_pks (d : database) : list str :=
  flat_map (fun t => match t_pk t with [] => [pk_issue d t] | _ => [] end) (db_iter d).
