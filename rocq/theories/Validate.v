(** * dt/model.py: ValidationResult and DatabaseValidator *)
From Verif Require Export Model.

(** dt/model.py:489-491 issue levels *)
Inductive level := INFO | WARNING | ERROR.

(** dt/model.py:484-498 [ValidationResult] *)
Record validation_result := { is_valid : bool; issues : list (str * level) }.

(** dt/model.py:493-498 [ValidationResult.__init__] *)
Definition new_result : validation_result := {| is_valid := true; issues := [] |}.

(** dt/model.py:500-509 [ValidationResult.add_issue] *)
Definition add_issue (r : validation_result) (issue : str) (l : level) : validation_result :=
  {| is_valid := false; issues := issues r ++ [(issue, l)] |}.

(** dt/model.py:714-728 [DatabaseValidator._add_validation_issue] *)
Definition add_validation_issue (d : database) (t : table) (r : validation_result)
           (issue : str) (l : level) : validation_result :=
  add_issue r ($"database " ++ db_name d ++ $", table " ++ t_name t ++ $":  " ++ issue) l.

(** dt/model.py:730-742 [_validate_column_types] *)
Definition validate_column_types (d : database) (t : table) (r : validation_result) :=
  fold_left (fun r c =>
    if str_eqb (column_type c) ($"UNKNOWN")
    then add_validation_issue d t r
           ($"column " ++ column_name c ++ $" is of type UNKNOWN.") WARNING
    else r) (dvals (t_cols t)) r.

(** dt/model.py:744-757 [_validate_primary_key] *)
Definition validate_primary_key (d : database) (t : table) (r : validation_result) :=
  fold_left (fun r pk =>
    match get_column t pk with
    | None => add_validation_issue d t r
                ($"column " ++ pk ++ $" in primary key does not exist in the the table.") ERROR
    | Some _ => r
    end) (t_pk t) r.

(** dt/model.py:759-783 [_validate_shard_keys] *)
Definition validate_shard_keys (d : database) (t : table) (r : validation_result) :=
  match t_shard t with
  | None => r
  | Some sks =>
      fold_left (fun r sk =>
        let r := match get_column t sk with
                 | None => add_validation_issue d t r
                     ($"column " ++ sk ++ $" in shard key does not exist in the the table.") ERROR
                 | Some _ => r
                 end in
        if negb (strs_eqb (t_pk t) []) && negb (str_in sk (t_pk t))
        then add_validation_issue d t r
               ($"column " ++ sk ++ $" in shard key not in primary key " ++ list_repr (t_pk t)) ERROR
        else r) (sk_keys sks) r
  end.

Definition is_varchar (ty : str) : bool := starts_with ($"VARCHAR") ty.

(** dt/model.py:850-885 the type comparison of one column pair *)
Definition validate_pair_types (d : database) (t to_table : table) (fk : foreign_key)
           (to_name : str) (from_col to_col : column) (r : validation_result) :=
  let msg (shown : str) :=
    $"foreign key " ++ fk_name fk ++ $" column " ++ shown ++ $" type " ++ column_type from_col
    ++ $" doesn't match type " ++ column_type to_col ++ $" for " ++ t_name to_table
    ++ $" column " ++ column_name to_col in
  if negb (is_varchar (column_type from_col))
     && negb (str_eqb (column_type from_col) (column_type to_col))
  then add_validation_issue d t r (msg (column_name from_col)) ERROR
  else if (is_varchar (column_type from_col) && negb (is_varchar (column_type to_col)))
          || (is_varchar (column_type to_col) && negb (is_varchar (column_type from_col)))
  then add_validation_issue d t r (msg to_name) ERROR
  else r.

(** dt/model.py:819-885 one iteration of the loop over column positions; [nth_error] failing is
    Python's [IndexError] *)
Definition validate_fk_position (d : database) (t to_table : table) (fk : foreign_key)
           (r : validation_result) (i : nat) : result validation_result :=
  match nth_error (fk_from_keys fk) i, nth_error (fk_to_keys fk) i with
  | Some from_name, Some to_name =>
      let from_col := get_column t from_name in
      let to_col := get_column to_table to_name in
      let r := if negb (str_in to_name (t_pk to_table))
               then add_validation_issue d t r
                      ($"foreign key " ++ fk_name fk ++ $" column " ++ to_name
                       ++ $" isn't in primary key for " ++ t_name to_table) ERROR
               else r in
      let r := match from_col with
               | None => add_validation_issue d t r
                      ($"foreign key " ++ fk_name fk ++ $" missing from_column " ++ from_name
                       ++ $" from table " ++ t_name t) ERROR
               | Some _ => r
               end in
      let r := match to_col with
               | None => add_validation_issue d t r
                      ($"foreign key " ++ fk_name fk ++ $" missing to_column " ++ to_name
                       ++ $" from table " ++ t_name t) ERROR
               | Some _ => r
               end in
      match from_col, to_col with
      | Some fc, Some tc => Ok (validate_pair_types d t to_table fk to_name fc tc r)
      | _, _ => Ok r
      end
  | _, _ => Err IndexError
  end.

(** [for i in range(...)] with a body that may raise *)
Fixpoint fold_result {A S} (f : S -> A -> result S) (l : list A) (s : S) : result S :=
  match l with
  | [] => Ok s
  | x :: l' => s' <- f s x ;; fold_result f l' s'
  end.

(** dt/model.py:791-885 one iteration of the loop over foreign keys *)
Definition validate_fk (d : database) (t : table) (r : validation_result) (fk : foreign_key)
  : result validation_result :=
  match get_table d (fk_to_table fk) with
  | None => Ok (add_validation_issue d t r
                  ($"table " ++ fk_to_table fk ++ $" doesn't exist for foreign key " ++ fk_name fk) ERROR)
  | Some to_table =>
      let r := if negb (Nat.eqb (length (fk_from_keys fk)) (length (fk_to_keys fk)))
               then add_validation_issue d t r
                      ($"FK " ++ fk_name fk ++ $" doesn't have the matching column count from and to keys") ERROR
               else r in
      let r := if negb (Nat.eqb (length (fk_to_keys fk)) (length (t_pk to_table)))
               then add_validation_issue d t r
                      ($"FK " ++ fk_name fk ++ $" doesn't match number of columns in primary key "
                       ++ list_repr (t_pk to_table)) ERROR
               else r in
      fold_result (validate_fk_position d t to_table fk) (seq 0 (length (fk_from_keys fk))) r
  end.

(** dt/model.py:785-885 [_validate_foreign_keys] *)
Definition validate_foreign_keys (d : database) (t : table) (r : validation_result)
  : result validation_result :=
  fold_result (validate_fk d t) (foreign_keys_iter t) r.

(** dt/model.py:887-908 [_validate_relationships].  On line 907 the message formats [to_table],
    which is [None] there. *)
Definition validate_relationships (d : database) (t : table) (r : validation_result) :=
  fold_left (fun r rel =>
    let r := if negb (str_eqb (rel_from_table rel) (t_name t))
             then add_validation_issue d t r
                    ($"from table " ++ t_name t ++ $" doesn't exist in relationship "
                     ++ rel_name rel ++ $".") ERROR
             else r in
    match get_table d (rel_to_table rel) with
    | None => add_validation_issue d t r
                ($"to table None doesn't exist in relationship " ++ rel_name rel ++ $".") ERROR
    | Some _ => r
    end) (relationships_iter t) r.

(** dt/model.py:705-710 the checks of one table *)
Definition validate_table (d : database) (r : validation_result) (t : table)
  : result validation_result :=
  let r := validate_column_types d t r in
  let r := validate_primary_key d t r in
  let r := validate_shard_keys d t r in
  r <- validate_foreign_keys d t r ;;
  Ok (validate_relationships d t r).

(** dt/model.py:637-643 [Database.validate], 698-712 [DatabaseValidator.validate] *)
Definition validate (d : database) : result validation_result :=
  fold_result (validate_table d) (db_iter d) new_result.
