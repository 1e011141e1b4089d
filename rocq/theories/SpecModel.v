(** * Specification vocabulary for tables and databases: client programs as lists of calls *)
From Verif Require Export Model SpecHist.

(** ** Calls that change a table's columns *)
Inductive col_op := AddColumn (c : column) | AddColumns (cs : list column) | DropColumn (n : str).

Definition run_col_op (t : table) (o : col_op) : table :=
  match o with
  | AddColumn c => add_column t c
  | AddColumns cs => add_columns t cs
  | DropColumn n => fst (drop_column t n)
  end.
Definition run_col_ops (ops : list col_op) (t : table) : table := fold_left run_col_op ops t.

(** the events a call amounts to *)
Definition col_events (o : col_op) : list (kv_event column) :=
  match o with
  | AddColumn c => [Put (column_name c) c]
  | AddColumns cs => map (fun c => Put (column_name c) c) cs
  | DropColumn n => [Remove n]
  end.
Definition col_history (ops : list col_op) : list (kv_event column) := flat_map col_events ops.

(** ** Calls that add foreign keys and relationships.  A ready-made object is always the product of
    its constructor, so the call carries the constructor's arguments. *)
Inductive con_op :=
| AddFkObject (from_table : option str) (from_keys : option keys) (to_table : option str)
              (to_keys : option keys) (name : option str)
| AddFkParts (from_keys : option keys) (to_table : option str) (to_keys : option keys) (name : option str)
| AddRelObject (from_table to_table conditions name : option str)
| AddRelParts (to_table name conditions : option str).

(** the table afterwards, and the exception if the call raised *)
Definition run_con_op (t : table) (o : con_op) : table * option exn :=
  let fin (r : result table) := match r with Ok t' => (t', None) | Err e => (t, Some e) end in
  match o with
  | AddFkObject ft fk tb tk n => fin (fk' <- mk_foreign_key ft fk tb tk n ;; Ok (add_fk_obj t fk'))
  | AddFkParts fk tb tk n => fin (add_fk_parts t fk tb tk n)
  | AddRelObject ft tb c n => fin (r <- mk_relationship ft tb c n ;; Ok (add_rel_obj t r))
  | AddRelParts tb n c => fin (add_rel_parts t tb n c)
  end.
Definition run_con_ops (ops : list con_op) (t : table) : table :=
  fold_left (fun t o => fst (run_con_op t o)) ops t.

(** The constraint a call asks for, on a table called [me]; [None] when the arguments are refused:
    an argument is missing, or the numbers of columns differ. *)
Definition wanted_fk (me : str) (o : con_op) : option foreign_key :=
  let build ft fk tb tk n :=
    match ft, fk, tb, tk with
    | Some ft, Some fk, Some tb, Some tk =>
        if Nat.eqb (length (keys_list fk)) (length (keys_list tk)) then
          Some {| fk_name := match n with Some n => n | None => $"FK_" ++ ft ++ $"_to_" ++ tb end;
                  fk_from_table := ft; fk_from_keys := keys_list fk;
                  fk_to_table := tb; fk_to_keys := keys_list tk |}
        else None
    | _, _, _, _ => None
    end in
  match o with
  | AddFkObject ft fk tb tk n => build ft fk tb tk n
  | AddFkParts fk tb tk n => build (Some me) fk tb tk n
  | _ => None
  end.
Definition wanted_rel (me : str) (o : con_op) : option relationship :=
  let build ft tb c n :=
    match ft, tb, c with
    | Some ft, Some tb, Some c =>
        Some {| rel_name := match n with Some n => n | None => $"REL_" ++ ft ++ $"_to_" ++ tb end;
                rel_from_table := ft; rel_to_table := tb; rel_conditions := c |}
    | _, _, _ => None
    end in
  match o with
  | AddRelObject ft tb c n => build ft tb c n
  | AddRelParts tb n c => build (Some me) tb c n
  | _ => None
  end.
Definition fk_history (me : str) (ops : list con_op) : list (kv_event foreign_key) :=
  flat_map (fun o => match wanted_fk me o with Some fk => [Put (fk_name fk) fk] | None => [] end) ops.
Definition rel_history (me : str) (ops : list con_op) : list (kv_event relationship) :=
  flat_map (fun o => match wanted_rel me o with Some r => [Put (rel_name r) r] | None => [] end) ops.

(** ** Calls that change a database *)
Inductive db_op := AddTable (t : table) | DropTable (n : str).

Definition run_db_op (d : database) (o : db_op) : result database :=
  match o with
  | AddTable t => Ok (add_table d t)
  | DropTable n => ' (d', _) <- drop_table d n ;; Ok d'
  end.
Fixpoint run_db_ops (ops : list db_op) (d : database) : result database :=
  match ops with
  | [] => Ok d
  | o :: ops' => d' <- run_db_op d o ;; run_db_ops ops' d'
  end.
Definition db_event (o : db_op) : kv_event table :=
  match o with AddTable t => Put (t_name t) t | DropTable n => Remove n end.
Definition db_history (ops : list db_op) : list (kv_event table) := map db_event ops.

(** number of live tables in a schema *)
Definition tables_in_schema (d : database) (s : str) : nat :=
  length (filter (fun t => str_eqb (t_schema t) s) (db_iter d)).

(** no table is added under a name that is live at that moment *)
Definition no_overwrite (ops : list db_op) : Prop :=
  forall ops1 t ops2, ops = ops1 ++ AddTable t :: ops2 -> ~ Live (db_history ops1) (t_name t).

(** constraints leaving a table / reaching a name *)
Definition leaving (t : table) : nat := length (foreign_keys_iter t) + length (relationships_iter t).
Definition all_targets (d : database) : list str := flat_map get_all_related_tables (db_iter d).
Definition closed_db (d : database) : Prop := forall n, In n (all_targets d) -> In n (get_table_names d).

(** an answer, or 0 for an exception *)
Definition ok_or_zero (r : result nat) : nat := match r with Ok n => n | Err _ => 0 end.
