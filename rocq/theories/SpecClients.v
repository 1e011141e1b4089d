(** * Specification for C110: client programs of [SpecApi] carried out with objects *)
From Verif Require Export SpecApi SpecObjects.

(** a list argument is a new list of the client's *)
Definition key_param (k : option keys) (h : heap) : option key_arg * heap :=
  match k with
  | None => (None, h)
  | Some (OneKey s) => (Some (OneName s), h)
  | Some (KeyList l) => let '(r, h) := alloc (OList true l) h in (Some (ListAt r), h)
  end.
(** [ShardKey(columns, n)] *)
Definition shard_param (s : option shard_key) (h : heap) : option nat * heap :=
  match s with
  | None => (None, h)
  | Some s => let '(l, h) := alloc (OList true (sk_keys s)) h in
              let '(r, h) := new_shard (ListAt l) (sk_shards s) h in (Some r, h)
  end.
Definition on_table (t : nat) (c : table_call) (h : heap) : heap := run_call (OnTable t c) h.
Definition do_table_op (t : nat) (o : table_op) (h : heap) : heap :=
  match o with
  | OnColumns (SpecModel.AddColumn c) => on_table t (Objects.AddColumn c) h
  | OnColumns (SpecModel.AddColumns cs) => on_table t (Objects.AddColumns cs) h
  | OnColumns (SpecModel.DropColumn n) => on_table t (Objects.DropColumn n) h
  | OnConstraints (AddFkObject ft fk tb tk n) =>
      let '(fk, h) := key_param fk h in
      let '(tk, h) := key_param tk h in
      match new_fk ft fk tb tk n h with
      | (Ok f, h) => on_table t (AddForeignKey f) h
      | (Err _, h) => h
      end
  | OnConstraints (AddFkParts fk tb tk n) =>
      let '(fk, h) := key_param fk h in
      let '(tk, h) := key_param tk h in on_table t (AddForeignKeyParts fk tb tk n) h
  | OnConstraints (AddRelObject ft tb c n) =>
      match mk_relationship ft tb c n with Ok r => on_table t (AddRelationship r) h | Err _ => h end
  | OnConstraints (AddRelParts tb n c) => on_table t (AddRelationshipParts tb n c) h
  | SpecApi.SetPrimaryKey k => let '(k, h) := key_param k h in on_table t (Objects.SetPrimaryKey k) h
  | SpecApi.SetShardKey s => let '(s, h) := shard_param s h in on_table t (Objects.SetShardKey s) h
  end.
Definition do_api_op (d : nat) (o : api_op) (h : heap) : heap :=
  match o with
  | ApiAddTable n s pk sk ops =>
      let '(pk, h) := key_param pk h in
      let '(sk, h) := shard_param sk h in
      let '(t, h) := new_table n s pk sk h in
      run_call (AddTable d t) (fold_left (fun h o => do_table_op t o h) ops h)
  | ApiDropTable n => run_call (DropTable d n) h
  | ApiOnTable n o =>
      match mem h d with
      | OBase b => match dget n (bo_tables b) with Some t => do_table_op t o h | None => h end
      | _ => h
      end
  end.
(** several clients, each with a database of its own, taking turns in any way *)
Definition do_all (prog : list (nat * api_op)) (h : heap) : heap := fold_left (fun h x => do_api_op (fst x) (snd x) h) prog h.
(** the calls of the client of [d], in their order *)
Definition of_client (d : nat) (prog : list (nat * api_op)) : list api_op := map snd (filter (fun x => Nat.eqb (fst x) d) prog).

(** two databases are the same but for which objects their shard keys are *)
Definition plain_t (t : table) : table :=
  with_shard t (option_map (fun s => {| sk_id := 0; sk_keys := sk_keys s; sk_shards := sk_shards s |}) (t_shard t)).
Definition plain (d : database) : database :=
  {| db_name := db_name d; db_tables := map (fun x => (fst x, plain_t (snd x))) (db_tables d); db_schemas := db_schemas d |}.
