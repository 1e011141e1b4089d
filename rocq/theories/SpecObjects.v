(** * Specification for C110: objects and the values they stand for *)
From Verif Require Export Objects.
From Coq Require Import List. Import ListNotations.

(** ** Values: what an object shows, with everything it refers to *)
Definition shard_of (h : heap) (r : nat) : option shard_key :=
  match mem h r with OShard s => Some {| sk_id := r; sk_keys := list_of h (so_keys s); sk_shards := so_number s |} | _ => None end.
Definition fk_of (h : heap) (r : nat) : foreign_key :=
  match mem h r with
  | OFk f => {| fk_name := fo_name f; fk_from_table := fo_from f; fk_from_keys := list_of h (fo_from_keys f); fk_to_table := fo_to f; fk_to_keys := list_of h (fo_to_keys f) |}
  | _ => {| fk_name := []; fk_from_table := []; fk_from_keys := []; fk_to_table := []; fk_to_keys := [] |}
  end.
Definition shown (h : heap) (o : table_obj) : table :=
  {| t_name := ob_name o; t_schema := ob_schema o; t_pk := list_of h (ob_pk o);
     t_shard := match ob_shard o with Some s => shard_of h s | None => None end;
     t_cols := ob_cols o; t_fks := map (fun x => (fst x, fk_of h (snd x))) (ob_fks o); t_rels := ob_rels o |}.
Definition table_of (h : heap) (r : nat) : table :=
  match mem h r with
  | OTable o => shown h o
  | _ => mk_table [] [] None None
  end.
Definition base_of (h : heap) (r : nat) : database :=
  match mem h r with
  | OBase b => {| db_name := bo_name b; db_tables := map (fun x => (fst x, table_of h (snd x))) (bo_tables b); db_schemas := bo_schemas b |}
  | _ => empty_database []
  end.
Definition is_list (h : heap) (r : nat) : Prop := exists m l, mem h r = OList m l.
Definition is_shard (h : heap) (r : nat) : Prop := exists s, mem h r = OShard s.
Definition is_fk (h : heap) (r : nat) : Prop := exists f, mem h r = OFk f.
Definition is_tab (h : heap) (r : nat) : Prop := exists o, mem h r = OTable o.
Definition is_base (h : heap) (r : nat) : Prop := exists b, mem h r = OBase b.
(** the database [d] holds the table object [t] *)
Definition holds (h : heap) (d t : nat) : Prop := exists b n, mem h d = OBase b /\ In (n, t) (bo_tables b).

(** ** Programs *)
(** a call is given objects of the right kinds *)
Definition fit_keys (h : heap) (k : option key_arg) : Prop := match k with Some (ListAt r) => is_list h r | _ => True end.
Definition fit_table_call (h : heap) (c : table_call) : Prop :=
  match c with
  | SetPrimaryKey k => fit_keys h k
  | SetShardKey (Some s) => is_shard h s
  | AddForeignKey f => is_fk h f
  | AddForeignKeyParts fk _ tk _ => fit_keys h fk /\ fit_keys h tk
  | _ => True
  end.
Definition fits (h : heap) (c : call) : Prop :=
  match c with
  | NewList _ | NewDatabase _ => True
  | Append r _ => is_list h r
  | NewShardKey k _ => fit_keys h (Some k)
  | NewForeignKey _ fk _ tk _ => fit_keys h fk /\ fit_keys h tk
  | NewTable _ _ pk sk => fit_keys h pk /\ match sk with Some s => is_shard h s | None => True end
  | OnTable t c => is_tab h t /\ fit_table_call h c
  | AddTable d t => is_base h d /\ is_tab h t
  | DropTable d _ => is_base h d
  end.
(** the client changes only lists it made itself, not those inside model objects *)
Definition decent (h : heap) (c : call) : Prop := match c with Append r _ => exists l, mem h r = OList true l | _ => True end.
Inductive runs : heap -> list call -> heap -> Prop :=
| runs_nil h : runs h [] h
| runs_call h c cs h' : fits h c -> decent h c -> runs (run_call c h) cs h' -> runs h (c :: cs) h'.

(** ** What calls mean for values: the functions of [Model] *)
Definition keys_value (h : heap) (k : key_arg) : keys := match k with OneName s => OneKey s | ListAt r => KeyList (list_of h r) end.
Definition or_same (t : table) (r : result table) : table := match r with Ok t' => t' | Err _ => t end.
Definition table_after (h : heap) (c : table_call) (t : table) : table :=
  match c with
  | AddColumn c => add_column t c
  | AddColumns cs => add_columns t cs
  | DropColumn n => fst (drop_column t n)
  | SetPrimaryKey k => or_same t (set_primary_key t (option_map (keys_value h) k))
  | SetShardKey s => with_shard t (match s with Some s => shard_of h s | None => None end)
  | AddForeignKey f => add_fk_obj t (fk_of h f)
  | AddForeignKeyParts fk tb tk n => or_same t (add_fk_parts t (option_map (keys_value h) fk) tb (option_map (keys_value h) tk) n)
  | AddRelationship r => add_rel_obj t r
  | AddRelationshipParts tb n c => or_same t (add_rel_parts t tb n c)
  end.
(** the tables of a database, one of them changed *)
Definition changed (d : database) (n : str) (f : table -> table) : database :=
  {| db_name := db_name d; db_tables := map (fun x => (fst x, if str_eqb (fst x) n then f (snd x) else snd x)) (db_tables d); db_schemas := db_schemas d |}.

(** a database after a call: the call was made on it, or on a table it holds, or does not concern it *)
Definition without_table (d : database) (n : str) : database :=
  match drop_table d n with
  | Ok (d', _) => d'
  | Err _ => {| db_name := db_name d; db_tables := ddel n (db_tables d); db_schemas := db_schemas d |}
  end.
Inductive base_after (h : heap) (d : nat) : call -> database -> Prop :=
| after_add t : base_after h d (AddTable d t) (add_table (base_of h d) (table_of h t))
| after_drop n : base_after h d (DropTable d n) (without_table (base_of h d) n)
| after_change t c : holds h d t -> base_after h d (OnTable t c) (changed (base_of h d) (t_name (table_of h t)) (table_after h c))
| after_other c :
    match c with
    | AddTable d' _ | DropTable d' _ => d' <> d
    | OnTable t _ => ~ holds h d t
    | _ => True
    end -> base_after h d c (base_of h d).

(** ** Programs that keep away from a database, and programs that share no table *)
(** the call is on the database or on a table that it holds when the call is made *)
Definition regards (h : heap) (d : nat) (c : call) : Prop :=
  match c with
  | AddTable d' _ | DropTable d' _ => d' = d
  | OnTable t _ => holds h d t
  | _ => False
  end.
Inductive away (d : nat) : heap -> list call -> Prop :=
| away_nil h : away d h []
| away_call h c cs : ~ regards h d c -> away d (run_call c h) cs -> away d h (c :: cs).
(** a table is added to a database only while no other database holds it *)
Inductive unshared : heap -> list call -> Prop :=
| unshared_nil h : unshared h []
| unshared_call h c cs : (forall d t d', c = AddTable d t -> holds h d' t -> d' = d) -> unshared (run_call c h) cs -> unshared h (c :: cs).

(** ** Views: dt/model.py:586-592 returns [self.tables.keys()], an object that looks at the dictionary
    again each time it is used; [names_seen h d] is what such a view shows when the objects are [h] *)
Definition names_seen (h : heap) (d : nat) : list str := get_table_names (base_of h d).
