(** * dt/io.py: [DDLParser._get_statements] on a file that cannot be read to its end *)
From Verif Require Export Messages.

(** What the iteration [for line in ddl_file] meets: the end of the file, an exception (bytes that cannot
    be decoded, an I/O error) whose text is given, or one more line.  Lines come as text mode yields them
    (see [file_lines]). *)
Inductive source := Done | Raises (why : str) | Next (line : str) (rest : source).

(** dt/io.py:144-186 the loop, with what [eprint(ex)] writes (line 185): the handler leaves the statements
    found so far in place. *)
Fixpoint read_source (st : reading) (src : source) : reading * list str :=
  match src with
  | Done => (st, [])
  | Raises why => (st, [why])
  | Next line rest => read_source (read_line st line) rest
  end.

(** dt/io.py:131-190 [_get_statements] *)
Definition statements_from (src : source) : list str * list str :=
  let '(st, out) := read_source start_reading src in (map (sub_runs " ") (r_statements st), out).

(** dt/io.py:84-129 [parse_ddl] on an existing file: the database, what the reading wrote to standard
    error, then the messages about statements *)
Definition parse_source (name schema : str) (src : source) : result database * list str * list message :=
  let '(stmts, out) := statements_from src in
  let '(r, ms) := heard_statements schema 0 stmts (empty_database name) in (r, out, ms).
