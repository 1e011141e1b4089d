(** * dt/io.py smart_open and TQLWriter, dt/diff.py TQLAlterWriter: effects on the output *)
From Verif Require Export Diff Validate.

Inductive handle := Stdout | File (name : str).
Inductive event := Open (name : str) | Write (h : handle) (text : str) | Close (h : handle).
Definition trace := list event.

(** The environment: whether [open] of a name fails, and whether a [write] fails after a given
    trace.  Theorems quantify over it, so every crash point is covered.  A failing write leaves no
    text (partial writes are not modelled). *)
Record env := { open_fails : str -> bool; write_fails : trace -> handle -> str -> bool }.

(** Effectful code: the trace so far to the extended trace and a result *)
Definition io (A : Type) := trace -> trace * result A.
Definition ret {A} (a : A) : io A := fun tr => (tr, Ok a).
Definition throw {A} (r : result A) : io A := fun tr => (tr, r).
Definition io_bind {A B} (m : io A) (f : A -> io B) : io B :=
  fun tr => match m tr with
            | (tr', Ok a) => f a tr'
            | (tr', Err e) => (tr', Err e)
            end.

Section Effects.
Variable E : env.

Definition do_open (n : str) : io handle := fun tr =>
  if open_fails E n then (tr, Err OSError) else (tr ++ [Open n], Ok (File n)).
Definition do_write (h : handle) (s : str) : io unit := fun tr =>
  if write_fails E tr h s then (tr, Err OSError) else (tr ++ [Write h s], Ok tt).
Definition do_close (h : handle) : io unit := fun tr => (tr ++ [Close h], Ok tt).

(** dt/io.py:35-50 [smart_open]: [body] is the block under [with]; lines 46-50 close the handle
    whatever the body does, unless it is stdout *)
Definition smart_open (filename : option str) (body : handle -> io unit) : io unit :=
  let choose : io handle :=
    match filename with
    | Some f => if negb (str_eqb f []) && negb (str_eqb f ($"-")) then do_open f else ret Stdout
    | None => ret Stdout
    end in
  io_bind choose (fun fh tr =>
    let '(tr', r) := body fh tr in
    match fh with
    | Stdout => (tr', r)
    | File _ => let '(tr'', _) := do_close fh tr' in (tr'', r)
    end).

(** [outfile.write(<text computed by generator>)]: the text is computed first *)
Definition write_text (h : handle) (r : result str) : io unit :=
  io_bind (throw r) (do_write h).

(** a sequence of such writes *)
Fixpoint write_all (h : handle) (l : list (result str)) : io unit :=
  match l with
  | [] => ret tt
  | r :: l' => io_bind (write_text h r) (fun _ => write_all h l')
  end.

(** dt/io.py:732-743 [write_create_table_statement], the four texts it writes *)
Definition table_texts (o : case_opts) (t : table) : list (result str) :=
  [ Ok [nl]; gen_drop_table o t; Ok [nl]; gen_create_table o t ].

(** dt/io.py:745-753 [write_foreign_keys] *)
Definition fk_texts (o : case_opts) (t : table) : list (result str) :=
  map (gen_foreign_key o t) (dvals (t_fks t)).

(** dt/io.py:755-763 [write_relationships] *)
Definition rel_texts (o : case_opts) (t : table) : list (result str) :=
  map (gen_relationships o t) (dvals (t_rels t)).

(** dt/io.py:707-730: the texts written by [write_tql], in order *)
Definition tql_texts (o : case_opts) (create_db : bool) (d : database) : list (result str) :=
  (if create_db then [gen_create_database o (db_name d)] else [])
  ++ [gen_use_database o (db_name d)]
  ++ (if create_db
      then map (gen_create_schema o)
             (filter (fun s => negb (str_eqb s DEFAULT_SCHEMA)) (get_schema_names d))
      else [])
  ++ flat_map (table_texts o) (db_iter d)
  ++ flat_map (fk_texts o) (db_iter d)
  ++ flat_map (rel_texts o) (db_iter d).

(** dt/io.py:698-730 [TQLWriter.write_tql] *)
Definition write_tql (o : case_opts) (create_db : bool) (d : database) (filename : option str) : io unit :=
  smart_open filename (fun h => write_all h (tql_texts o create_db d)).

(** dt/diff.py:890-902 [TQLAlterWriter.write_alters] *)
Definition write_alters (ds : list difference) (filename : option str) : io unit :=
  smart_open filename (fun h => write_all h (map get_alter ds)).
End Effects.

(** The text a handle has received *)
Definition text_of (h : handle) (tr : trace) : str :=
  flat_map (fun e => match e with
                     | Write h' s =>
                         match h, h' with
                         | Stdout, Stdout => s
                         | File a, File b => if str_eqb a b then s else []
                         | _, _ => []
                         end
                     | _ => []
                     end) tr.

(** The complete script as text, when no statement fails *)
Fixpoint concat_results (l : list (result str)) : result str :=
  match l with
  | [] => Ok []
  | r :: l' => s <- r ;; s' <- concat_results l' ;; Ok (s ++ s')
  end.
Definition tql_script (o : case_opts) (create_db : bool) (d : database) : result str :=
  concat_results (tql_texts o create_db d).
