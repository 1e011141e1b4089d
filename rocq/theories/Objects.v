(** * dt/model.py with object identity: lists, shard keys, foreign keys, tables and databases are objects
    that can be held in several places.  Columns and relationships are values: nothing in dt/ changes one. *)
From Verif Require Export Model.

(** An object is known by its number.  The flag of a list says whether the client made it; it is not in the
    program and only serves to tell lists apart. *)
Record shard_obj := { so_keys : nat; so_number : Z }.
Record fk_obj := { fo_name : str; fo_from : str; fo_from_keys : nat; fo_to : str; fo_to_keys : nat }.
Record table_obj := {
  ob_name : str; ob_schema : str; ob_pk : nat; ob_shard : option nat;
  ob_cols : dict column; ob_fks : dict nat; ob_rels : dict relationship }.
Record base_obj := { bo_name : str; bo_tables : dict nat; bo_schemas : dict Z }.
Inductive obj := Nothing | OList (mine : bool) (l : list str) | OShard (s : shard_obj) | OFk (f : fk_obj) | OTable (o : table_obj) | OBase (b : base_obj).
Record heap := { mem : nat -> obj; next : nat }.
Definition no_objects : heap := {| mem := fun _ => Nothing; next := 0 |}.

Definition alloc (o : obj) (h : heap) : nat * heap :=
  (next h, {| mem := fun r => if Nat.eqb r (next h) then o else mem h r; next := S (next h) |}).
Definition store (r : nat) (o : obj) (h : heap) : heap :=
  {| mem := fun x => if Nat.eqb x r then o else mem h x; next := next h |}.
Definition list_of (h : heap) (r : nat) : list str := match mem h r with OList _ l => l | _ => [] end.

(** a parameter that may be one column name or a list object *)
Inductive key_arg := OneName (k : str) | ListAt (r : nat).
Definition names_of (h : heap) (k : key_arg) : list str := match k with OneName s => [s] | ListAt r => list_of h r end.
(** dt/model.py:101-112, 197-201, 237-242, 330-334 [list()], then [extend] or [append] *)
Definition copied (k : key_arg) (h : heap) : nat * heap := alloc (OList false (names_of h k)) h.

(** dt/model.py:186-203 [ShardKey.__init__] *)
Definition new_shard (k : key_arg) (n : Z) (h : heap) : nat * heap :=
  let '(l, h) := copied k h in alloc (OShard {| so_keys := l; so_number := n |}) h.

(** dt/model.py:86-121 [ForeignKey.__init__] *)
Definition new_fk (from_table : option str) (from_keys : option key_arg) (to_table : option str) (to_keys : option key_arg) (name : option str)
                  (h : heap) : result nat * heap :=
  match from_table, from_keys, to_table, to_keys with
  | Some ft, Some fk, Some tot, Some tk =>
      let '(l1, h1) := copied fk h in
      let '(l2, h2) := copied tk h1 in
      if negb (Nat.eqb (length (list_of h2 l1)) (length (list_of h2 l2))) then (Err ValueError, h2)
      else let '(f, h3) := alloc (OFk {| fo_name := match name with None => default_fk_name ft tot | Some n => n end;
                                         fo_from := ft; fo_from_keys := l1; fo_to := tot; fo_to_keys := l2 |}) h2 in (Ok f, h3)
  | _, _, _, _ => (Err AssertionError, h)
  end.

(** dt/model.py:214-249 [Table.__init__] *)
Definition new_table (name schema : str) (pk : option key_arg) (shard : option nat) (h : heap) : nat * heap :=
  let '(l, h) := match pk with None => alloc (OList false []) h | Some k => copied k h end in
  alloc (OTable {| ob_name := name; ob_schema := schema; ob_pk := l; ob_shard := shard; ob_cols := []; ob_fks := []; ob_rels := [] |}) h.

(** calls on a table; a call that raises may leave objects behind that nobody holds *)
Inductive table_call :=
| AddColumn (c : column) | AddColumns (cs : list column) | DropColumn (n : str)
| SetPrimaryKey (k : option key_arg)
| SetShardKey (s : option nat)
| AddForeignKey (f : nat)
| AddForeignKeyParts (from_keys : option key_arg) (to_table : option str) (to_keys : option key_arg) (name : option str)
| AddRelationship (r : relationship)
| AddRelationshipParts (to_table name conditions : option str).

Definition set_cols (o : table_obj) (c : dict column) : table_obj :=
  {| ob_name := ob_name o; ob_schema := ob_schema o; ob_pk := ob_pk o; ob_shard := ob_shard o; ob_cols := c; ob_fks := ob_fks o; ob_rels := ob_rels o |}.
Definition set_pk (o : table_obj) (l : nat) : table_obj :=
  {| ob_name := ob_name o; ob_schema := ob_schema o; ob_pk := l; ob_shard := ob_shard o; ob_cols := ob_cols o; ob_fks := ob_fks o; ob_rels := ob_rels o |}.
Definition set_shard (o : table_obj) (s : option nat) : table_obj :=
  {| ob_name := ob_name o; ob_schema := ob_schema o; ob_pk := ob_pk o; ob_shard := s; ob_cols := ob_cols o; ob_fks := ob_fks o; ob_rels := ob_rels o |}.
Definition set_fks (o : table_obj) (f : dict nat) : table_obj :=
  {| ob_name := ob_name o; ob_schema := ob_schema o; ob_pk := ob_pk o; ob_shard := ob_shard o; ob_cols := ob_cols o; ob_fks := f; ob_rels := ob_rels o |}.
Definition set_rels (o : table_obj) (r : dict relationship) : table_obj :=
  {| ob_name := ob_name o; ob_schema := ob_schema o; ob_pk := ob_pk o; ob_shard := ob_shard o; ob_cols := ob_cols o; ob_fks := ob_fks o; ob_rels := r |}.

(** dt/model.py:257 *)
Definition put_column (o : table_obj) (c : column) : table_obj := set_cols o (dset (column_name c) c (ob_cols o)).
(** dt/model.py:251-276, 324-339, 341-376, 398-426 *)
Definition call_table (t : nat) (o : table_obj) (c : table_call) (h : heap) : heap :=
  match c with
  | AddColumn c => store t (OTable (put_column o c)) h
  | AddColumns cs => store t (OTable (fold_left put_column cs o)) h
  | DropColumn n => store t (OTable (set_cols o (ddel n (ob_cols o)))) h
  | SetPrimaryKey None => h
  | SetPrimaryKey (Some k) => let '(l, h) := copied k h in store t (OTable (set_pk o l)) h
  | SetShardKey s => store t (OTable (set_shard o s)) h
  | AddForeignKey f =>
      match mem h f with
      | OFk x => store t (OTable (set_fks o (dset (fo_name x) f (ob_fks o)))) h
      | _ => h
      end
  | AddForeignKeyParts fk tb tk n =>
      match new_fk (Some (ob_name o)) fk tb tk n h with
      | (Ok f, h) => match mem h f with OFk x => store t (OTable (set_fks o (dset (fo_name x) f (ob_fks o)))) h | _ => h end
      | (Err _, h) => h
      end
  | AddRelationship r => store t (OTable (set_rels o (dset (rel_name r) r (ob_rels o)))) h
  | AddRelationshipParts tb n c =>
      match mk_relationship (Some (ob_name o)) tb c n with
      | Ok r => store t (OTable (set_rels o (dset (rel_name r) r (ob_rels o)))) h
      | Err _ => h
      end
  end.

(** dt/model.py:564-575 [Database.add_table] *)
Definition add_to_base (b : base_obj) (t : nat) (o : table_obj) : base_obj :=
  let nbr := match dget (ob_schema o) (bo_schemas b) with Some n => n | None => 0%Z end in
  {| bo_name := bo_name b; bo_tables := dset (ob_name o) t (bo_tables b); bo_schemas := dset (ob_schema o) (nbr + 1)%Z (bo_schemas b) |}.
(** dt/model.py:609-627 [Database.drop_table]; a missing counter raises after the table is gone *)
Definition drop_from_base (b : base_obj) (n : str) (o : table_obj) : base_obj :=
  {| bo_name := bo_name b; bo_tables := ddel n (bo_tables b);
     bo_schemas := match dget (ob_schema o) (bo_schemas b) with
                   | None => bo_schemas b
                   | Some nbr => if (nbr - 1 =? 0)%Z then ddel (ob_schema o) (bo_schemas b) else dset (ob_schema o) (nbr - 1)%Z (bo_schemas b)
                   end |}.

(** what a client can do; [Append] is the method of Python's lists *)
Inductive call :=
| NewList (l : list str)
| Append (r : nat) (x : str)
| NewShardKey (k : key_arg) (n : Z)
| NewForeignKey (from_table : option str) (from_keys : option key_arg) (to_table : option str) (to_keys : option key_arg) (name : option str)
| NewTable (name schema : str) (pk : option key_arg) (shard : option nat)
| OnTable (t : nat) (c : table_call)
| NewDatabase (name : str)
| AddTable (d t : nat)
| DropTable (d : nat) (n : str).
Definition run_call (c : call) (h : heap) : heap :=
  match c with
  | NewList l => snd (alloc (OList true l) h)
  | Append r x => match mem h r with OList m l => store r (OList m (l ++ [x])) h | _ => h end
  | NewShardKey k n => snd (new_shard k n h)
  | NewForeignKey ft fk tb tk n => snd (new_fk ft fk tb tk n h)
  | NewTable n s pk sk => snd (new_table n s pk sk h)
  | OnTable t c => match mem h t with OTable o => call_table t o c h | _ => h end
  | NewDatabase n => snd (alloc (OBase {| bo_name := n; bo_tables := []; bo_schemas := [] |}) h)
  | AddTable d t => match mem h d, mem h t with OBase b, OTable o => store d (OBase (add_to_base b t o)) h | _, _ => h end
  | DropTable d n =>
      match mem h d with
      | OBase b => match dget n (bo_tables b) with
                   | Some t => match mem h t with OTable o => store d (OBase (drop_from_base b n o)) h | _ => h end
                   | None => h
                   end
      | _ => h
      end
  end.
(** dt/model.py:446-454 [Table.get_shard_key_columns]: the list object itself *)
Definition shard_columns_at (h : heap) (t : nat) : option nat :=
  match mem h t with
  | OTable o => match ob_shard o with
                | Some s => match mem h s with OShard s => Some (so_keys s) | _ => None end
                | None => None
                end
  | _ => None
  end.
