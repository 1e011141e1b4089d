(** * Specification vocabulary for the generator and writer properties (C12-C21) *)
From Verif Require Export SpecScript Writer.

(** a word: not empty and without underscore *)
Definition word (w : str) : Prop := w <> [] /\ ~ In "_"%char w.
Definition capitalised (w : str) : str := match w with [] => [] | c :: r => upper_char c :: r end.
Definition underscores (n : nat) : str := repeat "_"%char n.

(** a name that survives splitting at commas and stripping *)
Definition plain_item (n : str) : Prop := ~ In ","%char n /\ strip n = n.

(** the text of CREATE TABLE, line by line *)
Definition q (s : str) : str := [quote_char] ++ s ++ [quote_char].
Definition column_line (nt : str * str) : str := q (fst nt) ++ $" " ++ snd nt ++ [newline_char].
Definition create_table_text (s n : str) (cols : list (str * str)) (pk : list str) (shard : option (Z * list str)) : str :=
  $"CREATE TABLE " ++ q s ++ $"." ++ q n ++ $" (" ++ [newline_char]
  ++ match cols with [] => [] | _ => $"    " ++ join ($"   ,") (map column_line cols) end
  ++ match pk with
     | [] => []
     | _ => $"   ,CONSTRAINT PRIMARY KEY (" ++ join ($", ") (map q pk) ++ $")" ++ [newline_char]
     end
  ++ match shard with
     | None => $")"
     | Some (k, l) => $") PARTITION BY HASH(" ++ z_to_str k ++ $") KEY(" ++ join ($", ") (map q l) ++ $")"
     end
  ++ $";" ++ [newline_char].

(** *** What the statements of a script name *)
Definition created (l : list stmt) (s t : str) (cols : list str) : Prop :=
  exists defs pk sh, In (SCreateTable s t defs pk sh) l /\ cols = map fst defs.
(** every key, partition and foreign key clause names columns of the table it is about *)
Definition clauses_resolve (l : list stmt) : Prop :=
  (forall s t cols pk sh, In (SCreateTable s t cols pk sh) l ->
     incl pk (map fst cols) /\ match sh with Some (_, k) => incl k (map fst cols) | None => True end)
  /\ (forall s t n fc ts tt tc, In (SAddFk s t n fc ts tt tc) l ->
        (exists cols, created l s t cols /\ incl fc cols) /\ (exists cols, created l ts tt cols /\ incl tc cols)).
(** every table a constraint references is created *)
Definition targets_created (l : list stmt) : Prop :=
  (forall s t n fc ts tt tc, In (SAddFk s t n fc ts tt tc) l -> exists cols, created l ts tt cols)
  /\ (forall s t n ts tt c, In (SAddRel s t n ts tt c) l -> exists cols, created l ts tt cols).

(** the key columns a model names *)
Definition key_columns (d : database) : list str :=
  flat_map (fun t => t_pk t ++ match t_shard t with Some sk => sk_keys sk | None => [] end
                     ++ flat_map (fun fk => fk_from_keys fk ++ fk_to_keys fk) (foreign_keys_iter t)) (db_iter d).

(** *** Sequences of writes.  [ran E h tr texts written outcome]: starting after the trace [tr], the
    texts [written] went out to [h], and either all texts were written, or the first text not
    written could not be computed, or its write failed. *)
Definition ran (E : env) (h : handle) (tr : trace) (texts : list (result str)) (written : list str) (r : result unit) : Prop :=
  exists rest, texts = map Ok written ++ rest
    /\ match rest with
       | [] => r = Ok tt
       | Err e :: _ => r = Err e
       | Ok s :: _ => r = Err OSError /\ write_fails E (tr ++ map (Write h) written) h s = true
       end.
Definition to_stdout (filename : option str) : Prop :=
  filename = None \/ filename = Some [] \/ filename = Some ($"-").
(** the whole run of a writer of [texts] *)
Definition writes_texts (E : env) (filename : option str) (texts : list (result str)) (run : io unit) : Prop :=
  forall tr0,
    (to_stdout filename -> exists written r, run tr0 = (tr0 ++ map (Write Stdout) written, r)
                             /\ ran E Stdout tr0 texts written r)
    /\ (forall f, filename = Some f -> ~ to_stdout filename ->
          (open_fails E f = true -> run tr0 = (tr0, Err OSError))
          /\ (open_fails E f = false -> exists written r,
                run tr0 = (tr0 ++ [Open f] ++ map (Write (File f)) written ++ [Close (File f)], r)
                /\ ran E (File f) (tr0 ++ [Open f]) texts written r)).
