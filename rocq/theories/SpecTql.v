(** * Specification: what TQL text means

    A small reader for the TQL statements, and a catalog on which they are executed.  Nothing here
    refers to the generator or to the model's classes; only strings are shared. *)
From Verif Require Export PyStr.

(** ** Statements *)
Definition column_def := (str * str)%type.                 (* name, type *)
Inductive stmt :=
| SCreateDatabase (n : str)
| SUse (n : str)
| SCreateSchema (n : str)
| SDropTable (s t : str)
| SCreateTable (s t : str) (cols : list column_def) (pk : list str) (shard : option (Z * list str))
| SAddFk (s t name : str) (from_cols : list str) (to_schema to_table : str) (to_cols : list str)
| SAddRel (s t name to_schema to_table cond : str)
(* the forms used in ALTER scripts; the referenced table carries no schema *)
| SAlterAddFk (s t name : str) (from_cols : list str) (to_table : str) (to_cols : list str)
| SAlterAddRel (s t name to_table cond : str)
| SDropPk (s t : str)
| SDropConstraint (s t name : str)
| SSetPartition (s t : str) (n : Z) (cols : list str)
| SSetDimension (s t : str)
| SAddColumn (s t name type default : str)
| SModifyColumn (s t name type : str)
| SDropColumn (s t name : str).

(** ** Splitting a script at the semicolons that stand outside double quotes *)
Definition quote_char : ascii := ascii_of_nat 34.
Definition newline_char : ascii := ascii_of_nat 10.

Definition cons_head (c : ascii) (l : list str) : list str :=
  match l with w :: ws => (c :: w) :: ws | [] => [[c]] end.
Fixpoint split_semi (in_quotes : bool) (s : str) : list str :=
  match s with
  | [] => [[]]
  | c :: r =>
      if Ascii.eqb c quote_char then cons_head c (split_semi (negb in_quotes) r)
      else if Ascii.eqb c ";" && negb in_quotes then [] :: split_semi false r
      else cons_head c (split_semi in_quotes r)
  end.

(** ** Reading one statement *)
Definition reader (A : Type) := str -> option (A * str).
Definition rbind {A B} (m : reader A) (f : A -> reader B) : reader B :=
  fun s => match m s with Some (a, r) => f a r | None => None end.
Definition rret {A} (a : A) : reader A := fun s => Some (a, s).
Definition ralt {A} (m m' : reader A) : reader A :=
  fun s => match m s with Some x => Some x | None => m' s end.
Notation "x <~ m ;; k" := (rbind m (fun x => k)) (at level 61, m at next level, right associativity).

(** the given literal text *)
Fixpoint lit (l : str) : reader unit :=
  match l with
  | [] => rret tt
  | c :: l' => fun s => match s with
                        | d :: s' => if Ascii.eqb c d then lit l' s' else None
                        | [] => None
                        end
  end.
(** text up to a character, which is consumed *)
Fixpoint upto (c : ascii) (s : str) : option (str * str) :=
  match s with
  | [] => None
  | d :: s' => if Ascii.eqb c d then Some ([], s')
               else match upto c s' with Some (a, r) => Some (d :: a, r) | None => None end
  end.
(** a double-quoted name *)
Definition rq : reader str := _ <~ lit [quote_char] ;; upto quote_char.
(** a comma separated list of quoted names, possibly empty *)
Fixpoint rmore (fuel : nat) : reader (list str) :=
  match fuel with
  | 0 => rret []
  | S f => ralt (_ <~ lit ($", ") ;; n <~ rq ;; l <~ rmore f ;; rret (n :: l)) (rret [])
  end.
Definition rlist : reader (list str) := fun s =>
  ralt (n <~ rq ;; l <~ rmore (length s) ;; rret (n :: l)) (rret []) s.
(** a decimal number *)
Fixpoint span_digits (s : str) : str * str :=
  match s with
  | c :: s' => if is_digit c then let '(a, r) := span_digits s' in (c :: a, r) else ([], s)
  | [] => ([], [])
  end.
Fixpoint decimal (acc : Z) (s : str) : Z :=
  match s with [] => acc | c :: s' => decimal (acc * 10 + Z.of_nat (ord c - 48))%Z s' end.
Definition rnum : reader Z := fun s =>
  let read s := match span_digits s with
                | ([], _) => None
                | (ds, r) => Some (decimal 0 ds, r)
                end in
  match s with
  | "-"%char :: s' => match read s' with Some (n, r) => Some (- n, r)%Z | None => None end
  | _ => read s
  end.
(** the rest of the text *)
Definition rrest : reader str := fun s => Some (s, []).
(** nothing is left *)
Definition rend : reader unit := fun s => match s with [] => Some (tt, []) | _ => None end.
(** text up to a blank *)
Fixpoint rword (s : str) : option (str * str) :=
  match s with
  | [] => Some ([], [])
  | c :: s' => if Ascii.eqb c " " then Some ([], s)
               else match rword s' with Some (a, r) => Some (c :: a, r) | None => None end
  end.

(** a column definition ends with its line *)
Definition rcol : reader column_def :=
  n <~ rq ;; _ <~ lit ($" ") ;; ty <~ upto newline_char ;; rret (n, ty).
(** the lines after the first: columns, then possibly the primary key *)
Fixpoint rcols (fuel : nat) : reader (list column_def * list str) :=
  match fuel with
  | 0 => rret ([], [])
  | S f =>
      ralt (_ <~ lit ($"   ,CONSTRAINT PRIMARY KEY (") ;; l <~ rlist ;; _ <~ lit ($")" ++ [newline_char]) ;;
            rret ([], l))
     (ralt (_ <~ lit ($"   ,") ;; c <~ rcol ;; x <~ rcols f ;; rret (c :: fst x, snd x))
           (rret ([], [])))
  end.
Definition rbody : reader (list column_def * list str) := fun s =>
  ralt (_ <~ lit ($"    ") ;; c <~ rcol ;; x <~ rcols (length s) ;; rret (c :: fst x, snd x))
       (rret ([], [])) s.
Definition rshard : reader (option (Z * list str)) :=
  ralt (_ <~ lit ($" PARTITION BY HASH(") ;; n <~ rnum ;; _ <~ lit ($") KEY(") ;; l <~ rlist ;;
        _ <~ lit ($")") ;; rret (Some (n, l)))
       (rret None).

Definition rcreate_table : reader stmt :=
  _ <~ lit ($"CREATE TABLE ") ;; s <~ rq ;; _ <~ lit ($".") ;; t <~ rq ;;
  _ <~ lit ($" (" ++ [newline_char]) ;; x <~ rbody ;; _ <~ lit ($")") ;; sh <~ rshard ;; _ <~ rend ;;
  rret (SCreateTable s t (fst x) (snd x) sh).

(** what may follow [ALTER TABLE "s"."t" ] *)
Definition ralter (s t : str) : reader stmt :=
  ralt (_ <~ lit ($"ADD CONSTRAINT FOREIGN KEY ") ;; n <~ rq ;; _ <~ lit ($" (") ;; fc <~ rlist ;;
        _ <~ lit ($") REFERENCES ") ;; tot <~ rq ;; _ <~ lit ($" (") ;; tc <~ rlist ;; _ <~ lit ($")") ;;
        _ <~ rend ;; rret (SAlterAddFk s t n fc tot tc))
 (ralt (_ <~ lit ($"ADD CONSTRAINT ") ;; n <~ rq ;; _ <~ lit ($" FOREIGN KEY (") ;; fc <~ rlist ;;
        _ <~ lit ($") REFERENCES ") ;; ts <~ rq ;; _ <~ lit ($".") ;; tot <~ rq ;; _ <~ lit ($" (") ;;
        tc <~ rlist ;; _ <~ lit ($")") ;; _ <~ rend ;; rret (SAddFk s t n fc ts tot tc))
 (ralt (_ <~ lit ($"ADD RELATIONSHIP ") ;; n <~ rq ;; _ <~ lit ($" WITH ") ;; a <~ rq ;;
        ralt (_ <~ lit ($".") ;; b <~ rq ;; _ <~ lit ($" AS ") ;; c <~ rrest ;; rret (SAddRel s t n a b c))
             (_ <~ lit ($" AS ") ;; c <~ rrest ;; rret (SAlterAddRel s t n a c)))
 (ralt (_ <~ lit ($"DROP CONSTRAINT PRIMARY KEY") ;; _ <~ rend ;; rret (SDropPk s t))
 (ralt (_ <~ lit ($"DROP CONSTRAINT ") ;; n <~ rq ;; _ <~ rend ;; rret (SDropConstraint s t n))
 (ralt (_ <~ lit ($"SET FACT PARTITION BY HASH (") ;; n <~ rnum ;; _ <~ lit ($") KEY (") ;; l <~ rlist ;;
        _ <~ lit ($")") ;; _ <~ rend ;; rret (SSetPartition s t n l))
 (ralt (_ <~ lit ($"SET DIMENSIONS") ;; _ <~ rend ;; rret (SSetDimension s t))
 (ralt (_ <~ lit ($"ADD COLUMN ") ;; n <~ rq ;; _ <~ lit ($" ") ;; ty <~ rword ;; _ <~ lit ($" DEFAULT ") ;;
        df <~ rrest ;; rret (SAddColumn s t n ty df))
 (ralt (_ <~ lit ($"MODIFY COLUMN ") ;; n <~ rq ;; _ <~ lit ($" ") ;; ty <~ rword ;; _ <~ rend ;;
        rret (SModifyColumn s t n ty))
       (_ <~ lit ($"DROP COLUMN ") ;; n <~ rq ;; _ <~ rend ;; rret (SDropColumn s t n)))))))))).

Definition rstmt : reader stmt :=
  ralt (_ <~ lit ($"CREATE DATABASE ") ;; n <~ rq ;; _ <~ rend ;; rret (SCreateDatabase n))
 (ralt (_ <~ lit ($"USE ") ;; n <~ rq ;; _ <~ rend ;; rret (SUse n))
 (ralt (_ <~ lit ($"CREATE SCHEMA ") ;; n <~ rq ;; _ <~ rend ;; rret (SCreateSchema n))
 (ralt (_ <~ lit ($"DROP TABLE ") ;; s <~ rq ;; _ <~ lit ($".") ;; t <~ rq ;; _ <~ rend ;; rret (SDropTable s t))
 (ralt rcreate_table
       (_ <~ lit ($"ALTER TABLE ") ;; s <~ rq ;; _ <~ lit ($".") ;; t <~ rq ;; _ <~ lit ($" ") ;; ralter s t))))).

(** one statement; blank characters before it are skipped *)
Definition read_stmt (s : str) : option stmt :=
  match rstmt (lstrip s) with Some (x, _) => Some x | None => None end.

Fixpoint read_pieces (l : list str) : option (list stmt) :=
  match l with
  | [] => None
  | [last] => match lstrip last with [] => Some [] | _ => None end
  | p :: l' => match read_stmt p, read_pieces l' with
               | Some x, Some xs => Some (x :: xs)
               | _, _ => None
               end
  end.
(** all statements of a script; [None] if some statement cannot be read or is not terminated *)
Definition read_script (s : str) : option (list stmt) := read_pieces (split_semi false s).

(** ** The catalog *)
Record cfk := { cf_name : str; cf_cols : list str; cf_schema : str; cf_table : str; cf_to_cols : list str }.
Record crel := { cr_name : str; cr_schema : str; cr_table : str; cr_cond : str }.
Record ctable := {
  ct_schema : str; ct_name : str; ct_cols : list column_def; ct_pk : list str;
  ct_shard : option (Z * list str); ct_fks : list cfk; ct_rels : list crel }.
(** one database; a catalog of databases, one of which may be in use *)
Record cdb := { cd_name : str; cd_schemas : list str; cd_tables : list ctable }.
Record catalog := { cat_dbs : list cdb; cat_use : option str }.

Definition empty_catalog : catalog := {| cat_dbs := []; cat_use := None |}.
Definition default_schema : str := $"falcon_default_schema".

Definition is_table (s t : str) (c : ctable) : bool := str_eqb (ct_schema c) s && str_eqb (ct_name c) t.
Definition find_table (s t : str) (c : cdb) : option ctable := List.find (is_table s t) (cd_tables c).
Definition has_cols (c : ctable) (l : list str) : bool := forallb (fun n => str_in n (map fst (ct_cols c))) l.
Fixpoint no_dups (l : list str) : bool :=
  match l with [] => true | x :: l' => negb (str_in x l') && no_dups l' end.
Definition guard {A} (b : bool) (x : A) : option A := if b then Some x else None.
Definition with_tables (c : cdb) (l : list ctable) : cdb :=
  {| cd_name := cd_name c; cd_schemas := cd_schemas c; cd_tables := l |}.
Definition update_table (s t : str) (f : ctable -> ctable) (c : cdb) : cdb :=
  with_tables c (map (fun x => if is_table s t x then f x else x) (cd_tables c)).
Definition add_cfk (f : cfk) (x : ctable) : ctable :=
  {| ct_schema := ct_schema x; ct_name := ct_name x; ct_cols := ct_cols x; ct_pk := ct_pk x;
     ct_shard := ct_shard x; ct_fks := ct_fks x ++ [f]; ct_rels := ct_rels x |}.
Definition add_crel (r : crel) (x : ctable) : ctable :=
  {| ct_schema := ct_schema x; ct_name := ct_name x; ct_cols := ct_cols x; ct_pk := ct_pk x;
     ct_shard := ct_shard x; ct_fks := ct_fks x; ct_rels := ct_rels x ++ [r] |}.

(** Execution of the statements of a creation script on the database in use; [None] is an error.
    Dropping an absent table does nothing. *)
Definition exec_db (c : cdb) (x : stmt) : option cdb :=
  match x with
  | SCreateSchema n =>
      guard (negb (str_in n (cd_schemas c)))
        {| cd_name := cd_name c; cd_schemas := cd_schemas c ++ [n]; cd_tables := cd_tables c |}
  | SDropTable s t => Some (with_tables c (filter (fun x => negb (is_table s t x)) (cd_tables c)))
  | SCreateTable s t cols pk sh =>
      let new := {| ct_schema := s; ct_name := t; ct_cols := cols; ct_pk := pk; ct_shard := sh;
                    ct_fks := []; ct_rels := [] |} in
      match find_table s t c with
      | Some _ => None
      | None => guard (str_in s (cd_schemas c) && no_dups (map fst cols) && has_cols new pk
                       && match sh with Some (_, l) => has_cols new l | None => true end)
          (with_tables c (cd_tables c ++ [new]))
      end
  | SAddFk s t n fc ts tn tc =>
      match find_table s t c, find_table ts tn c with
      | Some a, Some b =>
          guard (has_cols a fc && has_cols b tc && Nat.eqb (length fc) (length tc)
                 && negb (str_in n (map cf_name (ct_fks a))))
            (update_table s t (add_cfk {| cf_name := n; cf_cols := fc; cf_schema := ts; cf_table := tn;
                                          cf_to_cols := tc |}) c)
      | _, _ => None
      end
  | SAddRel s t n ts tn cond =>
      match find_table s t c, find_table ts tn c with
      | Some a, Some b =>
          guard (negb (str_in n (map cr_name (ct_rels a))))
            (update_table s t (add_crel {| cr_name := n; cr_schema := ts; cr_table := tn; cr_cond := cond |}) c)
      | _, _ => None
      end
  | _ => None
  end.

Definition is_db (n : str) (c : cdb) : bool := str_eqb (cd_name c) n.
Fixpoint replace_db (n : str) (new : cdb) (l : list cdb) : list cdb :=
  match l with [] => [] | c :: l' => if is_db n c then new :: l' else c :: replace_db n new l' end.

(** A new database has the default schema and no tables. *)
Definition exec (c : catalog) (x : stmt) : option catalog :=
  match x with
  | SCreateDatabase n =>
      guard (negb (existsb (is_db n) (cat_dbs c)))
        {| cat_dbs := cat_dbs c ++ [{| cd_name := n; cd_schemas := [default_schema]; cd_tables := [] |}];
           cat_use := cat_use c |}
  | SUse n => guard (existsb (is_db n) (cat_dbs c)) {| cat_dbs := cat_dbs c; cat_use := Some n |}
  | _ =>
      match cat_use c with
      | None => None
      | Some n =>
          match List.find (is_db n) (cat_dbs c) with
          | None => None
          | Some db =>
              match exec_db db x with
              | None => None
              | Some db' => Some {| cat_dbs := replace_db n db' (cat_dbs c); cat_use := cat_use c |}
              end
          end
      end
  end.
Fixpoint exec_all (c : catalog) (l : list stmt) : option catalog :=
  match l with
  | [] => Some c
  | x :: l' => match exec c x with Some c' => exec_all c' l' | None => None end
  end.
(** running a script *)
Definition run_script (c : catalog) (s : str) : option catalog :=
  match read_script s with Some l => exec_all c l | None => None end.
