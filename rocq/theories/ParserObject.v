(** * dt/io.py: [DDLParser] objects that are used more than once *)
From Verif Require Export Messages.

(** dt/io.py:68-82 a [DDLParser]: its attributes, the database by the number of the object *)
Record parser_object := { po_name : option str; po_schema : str; po_base : option nat }.
(** What there is at some moment: the [Database] objects made so far, in the order in which they were made, the
    parsers, and the number the next shard key object gets (every statement uses up one). *)
Record session := { ss_bases : list database; ss_parsers : list parser_object; ss_ids : nat }.
(** what is written to standard error *)
Inductive parser_says := NoFile (name : str) | AboutStatement (m : message).

Fixpoint put_at {A} (i : nat) (v : A) (l : list A) : list A :=
  match l, i with [], _ => [] | _ :: l', O => v :: l' | x :: l', S i' => x :: put_at i' v l' end.
Definition set_base (i : nat) (d : database) (s : session) : session :=
  {| ss_bases := put_at i d (ss_bases s); ss_parsers := ss_parsers s; ss_ids := ss_ids s |}.
Definition set_parser (p : nat) (po : parser_object) (s : session) : session :=
  {| ss_bases := ss_bases s; ss_parsers := put_at p po (ss_parsers s); ss_ids := ss_ids s |}.
Definition use_id (s : session) : session :=
  {| ss_bases := ss_bases s; ss_parsers := ss_parsers s; ss_ids := S (ss_ids s) |}.

(** dt/io.py:102-127 the loop over the statements.  Every statement changes the object [self.database] ([i]).  A
    statement that raises has not changed it: [add_table] (line 224) comes last.  [None] never occurs: the object was
    made before. *)
Fixpoint object_statements (schema : str) (i : nat) (stmts : list str) (s : session) : session * result unit * list message :=
  match stmts with
  | [] => (s, Ok tt, [])
  | x :: l =>
      match nth_error (ss_bases s) i with
      | None => (s, Err AttributeError, [])
      | Some d =>
          match heard_statement schema (ss_ids s) d x with
          | (Ok d', ms) => let '(s', r, ms') := object_statements schema i l (set_base i d' (use_id s)) in (s', r, ms ++ ms')
          | (Err e, ms) => (use_id s, Err e, ms)
          end
      end
  end.

(** dt/io.py:84-129 [parse_ddl] of the parser number [p].  [files] is the file system at that moment, of files that can
    be read to their end (see ReadStop.v for others).  A missing file is reported before anything else (lines 93-96); then
    a new database is made (line 99); without a file name line 139 raises [TypeError].  The result is the number of
    the object returned. *)
Definition object_parse (files : str -> option str) (p : nat) (filename : option str) (s : session)
  : session * result (option nat) * list parser_says :=
  match nth_error (ss_parsers s) p with
  | None => (s, Err AttributeError, [])
  | Some po =>
      let reset (then_ : nat -> session -> session * result (option nat) * list parser_says) :=
        match mk_database (po_name po) with
        | Err e => (s, Err e, [])
        | Ok d0 =>
            let i := length (ss_bases s) in
            then_ i (set_parser p {| po_name := po_name po; po_schema := po_schema po; po_base := Some i |}
                       {| ss_bases := ss_bases s ++ [d0]; ss_parsers := ss_parsers s; ss_ids := ss_ids s |})
        end in
      match filename with
      | Some ((_ :: _) as f) =>
          match files f with
          | None => (s, Ok None, [NoFile f])
          | Some text => reset (fun i s1 =>
              let '(s2, r, ms) := object_statements (po_schema po) i (get_statements text) s1 in
              (s2, match r with Ok _ => Ok (Some i) | Err e => Err e end, map AboutStatement ms))
          end
      | _ => reset (fun _ s1 => (s1, Err TypeError, []))
      end
  end.

(** What a program does with parsers: it makes one (lines 68-82), assigns to its attributes, parses, and does whatever it
    likes with a database. *)
Inductive session_call :=
| NewParser (name : option str) (schema : str)
| SetNames (p : nat) (name : option str) (schema : str)
| ParseFile (files : str -> option str) (p : nat) (filename : option str)
| UseBase (i : nat) (becomes : database).
Definition run_session_call (c : session_call) (s : session) : session :=
  match c with
  | NewParser name schema =>
      {| ss_bases := ss_bases s; ss_parsers := ss_parsers s ++ [{| po_name := name; po_schema := schema; po_base := None |}]; ss_ids := ss_ids s |}
  | SetNames p name schema =>
      match nth_error (ss_parsers s) p with
      | Some po => set_parser p {| po_name := name; po_schema := schema; po_base := po_base po |} s
      | None => s
      end
  | ParseFile files p filename => fst (fst (object_parse files p filename s))
  | UseBase i d => set_base i d s
  end.
